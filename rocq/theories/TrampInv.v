(** The invariant of the trampoline allocator and its operations. *)
From Coq Require Import ZifyBool ZifyNat Permutation.
From Verif Require Import Base TrampModel TrampDll TrampProofs.
Local Arguments Z.mul : simpl never.
Local Arguments Z.add : simpl never.
Local Arguments Z.sub : simpl never.
Local Arguments Z.pow : simpl never.
Local Arguments Z.eqb : simpl never.
Local Arguments Z.div : simpl never.
Local Arguments val_eqb : simpl never.

Definition cfg_ok (c : tcfg) : Prop := 16 <= tc_size c <= tc_map c.

Lemma ntramp_pos c : cfg_ok c -> 1 <= ntramp c.
Proof. intros [H1 H2]. unfold ntramp. apply Z.div_le_lower_bound; lia. Qed.

Lemma slot_in c i : cfg_ok c -> 0 <= i < ntramp c -> 0 <= i * tc_size c /\ i * tc_size c + tc_size c <= tc_map c.
Proof.
  intros [H1 H2] Hi. unfold ntramp in Hi. pose proof (Z.mul_div_le (tc_map c) (tc_size c) ltac:(lia)) as D.
  split; [nia|]. assert (i + 1 <= tc_map c / tc_size c) by lia. nia.
Qed.

(** ** What stays put: live trampolines *)
Definition word_at (m : Z -> Z) (a v : Z) : Prop := forall x, inside a 8 x = true -> m x = (v / 2 ^ (8 * (x - a))) mod 256.

Definition eok (c : tcfg) (s : st) (b : Z) (e : entry) : Prop :=
  s_alive s (e_arr e) = Some (ntramp c) /\ 0 <= e_i e < ntramp c /\
  s_val s (A (e_arr e) (e_i e) ACode) = Addr (b + e_i e * tc_size c) /\
  s_val s (A (e_arr e) (e_i e) AParm) = Addr (b + tc_map c + e_i e * tc_size c) /\
  mapped c s b /\
  match e_parm e with
  | Some (data, target) => word_at (s_mem s) (b + tc_map c + e_i e * tc_size c) data /\
                           word_at (s_mem s) (b + tc_map c + e_i e * tc_size c + 8) target
  | None => True
  end.

Definition stableb (c : tcfg) (bs : Z -> Z) (L : list entry) (s : st) : Prop := forall e, In e L -> eok c s (bs (e_arr e)) e.

Lemma eok_ext c s s' b e : cfg_ok c -> eok c s b e -> s_alive s' (e_arr e) = s_alive s (e_arr e) ->
  (forall i f, f = ACode \/ f = AParm -> s_val s' (A (e_arr e) i f) = s_val s (A (e_arr e) i f)) ->
  (forall x, b <= x < b + 2 * tc_map c -> s_perm s' x = s_perm s x /\ s_mem s' x = s_mem s x) -> eok c s' b e.
Proof.
  intros Hc (H1 & H2 & H3 & H4 & (M1 & M2 & M3 & M4) & H6) E1 E2 E3. unfold eok.
  rewrite E1, !E2 by auto. repeat (split; [assumption|]). pose proof (slot_in c _ Hc H2) as [S1 S2]. destruct Hc as [C1 C2].
  split.
  - split; [exact M1|]. split; [exact M2|]. split.
    + intros x Hx. destruct (E3 x ltac:(lia)) as [-> ->]. apply M3. exact Hx.
    + intros x Hx. destruct (E3 x ltac:(lia)) as [-> _]. apply M4. exact Hx.
  - destruct (e_parm e) as [[data target]|]; [|exact I]. destruct H6 as [W1 W2]. unfold inside in *. split; intros x Hx.
    + unfold inside in Hx. destruct (E3 x ltac:(lia)) as [_ ->]. apply W1. exact Hx.
    + unfold inside in Hx. destruct (E3 x ltac:(lia)) as [_ ->]. apply W2. exact Hx.
Qed.

Lemma stable_set c bs L s l v : cfg_ok c ->
  match l with A arr _ ACode | A arr _ AParm => forall e, In e L -> e_arr e <> arr | _ => True end ->
  stableb c bs L s -> stableb c bs L (set_val s l v).
Proof.
  intros Hc Hl St e He. apply (eok_ext c s); auto. intros i f Hf. apply set_other. intros E. subst l.
  destruct Hf as [-> | ->]; apply (Hl e He); reflexivity.
Qed.

Lemma stable_link c bs L s l v : cfg_ok c -> link l -> stableb c bs L s -> stableb c bs L (set_val s l v).
Proof. intros Hc Hl. apply stable_set; auto. destruct l as [[]|id []|arr i []]; cbn in *; auto; contradiction. Qed.

Lemma stable_tlink c bs L t s l v : cfg_ok c -> tlink t l -> stableb c bs L s -> stableb c bs L (set_val s l v).
Proof. intros Hc Hl. apply stable_set; auto. destruct l as [[]|id []|arr i []]; cbn in *; auto; contradiction. Qed.

(** ** The invariant *)
Definition apart_tabs (c : tcfg) (t t' : atab) : Prop :=
  at_base t + 2 * tc_map c <= at_base t' \/ at_base t' + 2 * tc_map c <= at_base t.

Definition in_tab (c : tcfg) (x : Z) (t : atab) : Prop := at_base t <= x < at_base t + 2 * tc_map c.

Record inv (c : tcfg) (s : st) (ts : list atab) (fl : list Z) : Prop := {
  i_size : s_val s (G GSize) = Num (tc_size c);
  i_map : s_val s (G GMap) = Num (tc_map c);
  i_ntramp : s_val s (G GNtramp) = Num (ntramp c);
  i_links : links s fl;
  i_nodup : NoDup fl;
  i_fl : forall id, In id fl <-> exists t, In t ts /\ at_id t = id /\ at_free t <> [];
  i_tabs : Forall (tabm c (ntramp c) s) ts;
  i_ids : NoDup (map at_id ts);
  i_arrs : NoDup (map at_arr ts);
  i_apart : ForallOrdPairs (apart_tabs c) ts;
  i_tlive : forall id, s_tlive s id = true -> In id (map at_id ts);
  i_alive : forall arr, s_alive s arr <> None -> In arr (map at_arr ts);
  i_perm : forall x, s_perm s x <> Unmapped -> Exists (in_tab c x) ts;
  i_whole : forall t t', In t ts -> In t' ts -> zlen (at_free t) = ntramp c -> zlen (at_free t') = ntramp c -> t = t'
}.

Lemma apart_sym c t t' : apart_tabs c t t' -> apart_tabs c t' t.
Proof. unfold apart_tabs. tauto. Qed.

Lemma fop_perm {X} (R : X -> X -> Prop) (Rs : forall x y, R x y -> R y x) l l' : Permutation l l' -> ForallOrdPairs R l -> ForallOrdPairs R l'.
Proof.
  intros P. induction P; intros H.
  - exact H.
  - inversion H; subst. constructor; [|auto]. eapply Permutation_Forall; eassumption.
  - inversion H; subst. inversion H3; subst. inversion H2; subst. constructor.
    + constructor; auto.
    + constructor; auto.
  - auto.
Qed.

Lemma inv_perm c s ts ts' fl : Permutation ts ts' -> inv c s ts fl -> inv c s ts' fl.
Proof.
  intros P [H1 H2 H3 H4 H5 H6 H7 H8 H9 H10 H11 H12 H13 H14].
  assert (In' : forall t, In t ts' <-> In t ts) by (intros t; split; apply Permutation_in; [symmetry|]; exact P).
  constructor; auto.
  - intros id. rewrite H6. split; intros (t & A & B); exists t; (split; [apply In'; exact A|exact B]).
  - eapply Permutation_Forall; eassumption.
  - eapply Permutation_NoDup; [apply Permutation_map; exact P|exact H8].
  - eapply Permutation_NoDup; [apply Permutation_map; exact P|exact H9].
  - eapply fop_perm; [apply apart_sym|exact P|exact H10].
  - intros id Hid. eapply Permutation_in; [apply Permutation_map; exact P|auto].
  - intros id Hid. eapply Permutation_in; [apply Permutation_map; exact P|auto].
  - intros x Hx. apply H13 in Hx. apply Exists_exists in Hx as (t & A & B). apply Exists_exists. exists t. split; [apply In'; exact A|exact B].
  - intros t t' A A'. apply In' in A, A'. apply H14; assumption.
Qed.

(** Trampolines in use. *)
Definition zseq (n : Z) : list Z := map Z.of_nat (seq 0 (Z.to_nat n)).
Definition used (c : tcfg) (t : atab) : list Z := filter (fun i => negb (existsb (Z.eqb i) (at_free t))) (zseq (ntramp c)).
Definition live_of (c : tcfg) (ts : list atab) : list (Z * Z) := flat_map (fun t => map (pair (at_arr t)) (used c t)) ts.
Definition key (e : entry) : Z * Z := (e_arr e, e_i e).

Lemma in_zseq n i : In i (zseq n) <-> 0 <= i < n.
Proof.
  unfold zseq. rewrite in_map_iff. split.
  - intros (k & <- & Hk). apply in_seq in Hk. lia.
  - intros H. exists (Z.to_nat i). split; [lia|]. apply in_seq. lia.
Qed.
Lemma nodup_zseq n : NoDup (zseq n).
Proof. apply FinFun.Injective_map_NoDup; [intros x y; lia|apply seq_NoDup]. Qed.
Lemma zseq_len n : 0 <= n -> zlen (zseq n) = n.
Proof. intros H. unfold zlen, zseq. rewrite map_length, seq_length. lia. Qed.

Lemma existsb_in i l : existsb (Z.eqb i) l = true <-> In i l.
Proof.
  rewrite existsb_exists. split.
  - intros (x & A & B). apply Z.eqb_eq in B. subst. exact A.
  - intros H. exists i. split; [exact H|apply Z.eqb_refl].
Qed.

Lemma in_used c t i : In i (used c t) <-> 0 <= i < ntramp c /\ ~ In i (at_free t).
Proof.
  unfold used. rewrite filter_In, in_zseq. rewrite <- (existsb_in i (at_free t)). destruct (existsb _ _); cbn; intuition congruence.
Qed.
Lemma nodup_used c t : NoDup (used c t).
Proof. apply NoDup_filter, nodup_zseq. Qed.

Lemma used_perm c t : NoDup (at_free t) -> (forall i, In i (at_free t) -> 0 <= i < ntramp c) ->
  Permutation (used c t ++ at_free t) (zseq (ntramp c)).
Proof.
  intros N B. apply NoDup_Permutation.
  -
    assert (D : forall i, In i (used c t) -> ~ In i (at_free t)) by (intros i Hi; apply in_used in Hi; tauto).
    pose proof (nodup_used c t) as Nu. revert Nu D. generalize (used c t) as l. induction l as [|x l IH]; intros Nu D; [exact N|].
    inversion Nu; subst. cbn. constructor.
    + intros H. apply in_app_or in H. destruct H as [H|H]; [contradiction|]. apply (D x); [left; reflexivity|exact H].
    + apply IH; auto. intros i Hi. apply D. right. exact Hi.
  - apply nodup_zseq.
  - intros i. rewrite in_app_iff, in_used, in_zseq. split; [intros [[H _]|H]; auto|].
    intros H. destruct (in_dec Z.eq_dec i (at_free t)); [right; assumption|left; split; assumption].
Qed.

Lemma used_len c t : cfg_ok c -> NoDup (at_free t) -> (forall i, In i (at_free t) -> 0 <= i < ntramp c) ->
  zlen (used c t) + zlen (at_free t) = ntramp c.
Proof.
  intros Hc N B. pose proof (Permutation_length (used_perm c t N B)) as P. rewrite app_length in P.
  pose proof (zseq_len (ntramp c)) as Z0. pose proof (ntramp_pos c Hc). unfold zlen in *. rewrite <- Z0 by lia. lia.
Qed.

Lemma bounded_len m l : 0 <= m -> NoDup l -> (forall i, In i l -> 0 <= i < m) -> zlen l <= m.
Proof.
  intros Hm N B. rewrite <- (zseq_len m) by lia. unfold zlen. apply inj_le. apply NoDup_incl_length; [exact N|].
  intros i Hi. apply in_zseq. auto.
Qed.

(** Taking an element from the free list, and putting it back. *)
Lemma used_push c t i : 0 <= i < ntramp c -> ~ In i (at_free t) -> Permutation (used c t) (i :: used c (with_free t (i :: at_free t))).
Proof.
  intros Hi Ni. apply NoDup_Permutation.
  - apply nodup_used.
  - constructor; [|apply nodup_used]. rewrite in_used. cbn. tauto.
  - intros j. rewrite in_used. cbn [In]. rewrite in_used. cbn. destruct (Z.eq_dec i j) as [->|]; [tauto|]. intuition congruence.
Qed.

Lemma in_live c ts a i : In (a, i) (live_of c ts) <-> exists t, In t ts /\ at_arr t = a /\ 0 <= i < ntramp c /\ ~ In i (at_free t).
Proof.
  unfold live_of. rewrite in_flat_map. split.
  - intros (t & A & B). apply in_map_iff in B as (j & E & B). injection E as <- <-. apply in_used in B. exists t. tauto.
  - intros (t & A & <- & B). exists t. split; [exact A|]. apply in_map_iff. exists i. split; [reflexivity|]. apply in_used. exact B.
Qed.

Lemma live_perm c ts ts' : Permutation ts ts' -> Permutation (live_of c ts) (live_of c ts').
Proof. intros P. apply Permutation_flat_map, P. Qed.

Lemma nodup_live c ts : NoDup (map at_arr ts) -> NoDup (live_of c ts).
Proof.
  induction ts as [|t ts IH]; intros N; [constructor|]. cbn in N. inversion N as [|? ? N1 N2]; subst. cbn [live_of flat_map].
  fold (live_of c ts). assert (D : forall a i, In (a, i) (live_of c ts) -> a <> at_arr t).
  { intros a i H. apply in_live in H as (t' & A & <- & _). intros E. apply N1. rewrite <- E. apply in_map, A. }
  pose proof (nodup_used c t) as Nu. induction (used c t) as [|j l IHl]; [apply IH; exact N2|]. cbn. inversion Nu; subst. constructor; auto.
  intros H. apply in_app_or in H as [H|H]; [|apply D in H; congruence].
  apply in_map_iff in H as (k & E & H). injection E as ->. contradiction.
Qed.

(** ** Operations *)
Definition gone (c : tcfg) (t : atab) (s s' : st) : Prop :=
  (forall x, s_tlive s' x = if x =? at_id t then false else s_tlive s x) /\
  (forall x, s_alive s' x = if x =? at_arr t then None else s_alive s x) /\
  (forall x, s_perm s' x = if inside (at_base t) (2 * tc_map c) x then Unmapped else s_perm s x) /\
  s_mem s' = s_mem s /\ (forall l, ~ link l -> ~ tlink t l -> s_val s' l = s_val s l).

Section Ops.
Context (c : tcfg) (Hc : cfg_ok c) (bs : Z -> Z) (L : list entry).
Notation I := (stableb c bs L).
Notation wp := (wp c I).
Ltac look := repeat (rewrite set_same || rewrite set_other by congruence).

Definition outside (t : atab) : Prop :=
  forall e, In e L -> e_arr e <> at_arr t /\
    (bs (e_arr e) + 2 * tc_map c <= at_base t \/ at_base t + 2 * tc_map c <= bs (e_arr e)).

Lemma stable_unmap t s n a : outside t -> at_base t <= a -> a + n <= at_base t + 2 * tc_map c -> I s ->
  I (St (s_val s) (s_tlive s) (s_alive s) (fun x => if inside a n x then Unmapped else s_perm s x) (s_mem s)).
Proof.
  intros O H1 H2 St e He. destruct (O e He) as [_ O2]. apply (eok_ext c s); auto. intros x Hx. cbn [s_perm s_mem].
  split; [|reflexivity]. unfold inside. destruct (_ && _) eqn:E; [lia|reflexivity].
Qed.

Lemma wp_unmap t s n a (Q : val -> st -> Prop) : outside t -> at_base t <= a -> a + n <= at_base t + 2 * tc_map c -> I s ->
  (forall x, a <= x < a + n -> s_perm s x <> Unmapped) ->
  Q Null (St (s_val s) (s_tlive s) (s_alive s) (fun x => if inside a n x then Unmapped else s_perm s x) (s_mem s)) ->
  wp (Do (Munmap (Addr a) (Num n)) Ret) Q s.
Proof.
  intros O H1 H2 Hi M HQ. cbn. split; [intros (x & X & Y); unfold inside in X; apply (M x); [lia|exact Y]|].
  split; [eexists _, _; constructor|]. intros v s' D. inversion D; subst. split; [eapply stable_unmap; eassumption|exact HQ].
Qed.

Lemma table_free_ok t s : I s -> outside t -> s_val s (G GMap) = Num (tc_map c) -> tabm c (ntramp c) s t ->
  wp (tramp_table_free (at_id t)) (fun _ s' => I s' /\ gone c t s s' /\ forall l, s_val s' l = s_val s l) s.
Proof.
  intros Hi O M Tb. destruct t as [id arr b fr]. pose proof Tb as (H1 & H2 & H3 & H4 & H5 & H6 & (M1 & M2 & M3 & M4) & H8).
  pose proof Hc as [C1 C2]. cbn [at_id]. set (t := AT id arr b fr) in *.
  unfold tramp_table_free. do 2 apply wp_seq. unfold tramp_table_unmap. apply wp_seq.
  apply wp_bind, wp_rd; [exact Hi|exact H1|]. apply wp_bind, wp_rd; [exact Hi|exact Logic.I|]. rewrite H3, M.
  apply (wp_unmap t); [exact O|cbn; lia|cbn; lia|exact Hi| |].
  { intros x Hx. destruct (M3 x Hx) as [-> _]. discriminate. }
  set (s1 := St _ _ _ _ _). assert (I1 : I s1) by (apply (stable_unmap t); [exact O|cbn; lia|cbn; lia|exact Hi]).
  apply wp_bind, wp_rd; [exact I1|exact H1|]. apply wp_bind, wp_rd; [exact I1|exact Logic.I|].
  change (s_val s1) with (s_val s). rewrite H4, M.
  apply (wp_unmap t); [exact O|cbn; lia|cbn; lia|exact I1| |].
  { intros x Hx. cbn [s_perm s1]. unfold inside. destruct (_ && _) eqn:E; [lia|]. rewrite M4 by lia. discriminate. }
  set (s2 := St _ _ _ _ _). assert (I2 : I s2) by (apply (stable_unmap t); [exact O|cbn; lia|cbn; lia|exact I1]).
  apply wp_bind, wp_rd; [exact I2|exact H1|]. change (s_val s2) with (s_val s). rewrite H5.
  split; [cbn; change (s_alive s2 arr) with (s_alive s arr); rewrite H2; discriminate|].
  split; [eexists _, _; constructor|]. intros v s3 D. inversion D; subst. clear D.
  match goal with |- I ?s3 /\ _ => set (s3' := s3) in *; assert (I3 : I s3') end.
  { intros e He. destruct (O e He) as [O1 _]. apply (eok_ext c s2); auto. unfold s3'. cbn [s_alive].
    destruct (Z.eqb_spec (e_arr e) arr); [cbn in O1; congruence|reflexivity]. }
  split; [exact I3|]. cbn [TrampDll.wp].
  split; [cbn; intros X; apply X; exact H1|]. split; [eexists _, _; constructor|]. intros v s4 D. inversion D; subst. clear D.
  match goal with |- I ?s3 /\ _ => set (s4' := s3) in *; assert (I4 : I s4') end.
  { intros e He. apply (eok_ext c s3'); auto. }
  split; [exact I4|]. split; [exact I4|]. split; [|reflexivity].
  unfold s4', s3', s2, s1, gone. cbn [s_tlive s_alive s_perm s_mem s_val at_id at_arr at_base t].
  split; [reflexivity|]. split; [reflexivity|]. split; [|split; reflexivity].
  intros x. unfold inside.
  destruct ((b + tc_map c <=? x) && (x <? b + tc_map c + tc_map c)) eqn:X1, ((b <=? x) && (x <? b + tc_map c)) eqn:X2,
    ((b <=? x) && (x <? b + 2 * tc_map c)) eqn:X3; try reflexivity; lia.
Qed.

Definition fl_after (t : atab) (fl : list Z) : list Z := match at_free t with [] => at_id t :: fl | _ => fl end.

Lemma agree_or_l (P R : loc -> Prop) s s' : agree P s s' -> agree (fun l => P l \/ R l) s s'.
Proof. apply agree_weaken. auto. Qed.
Lemma agree_or_r (P R : loc -> Prop) s s' : agree R s s' -> agree (fun l => P l \/ R l) s s'.
Proof. apply agree_weaken. auto. Qed.

Lemma links_agree t s s' fl : links s fl -> agree (tlink t) s s' -> links s' fl.
Proof.
  intros (L1 & L2 & L3) (_ & _ & _ & _ & A5). unfold links. rewrite !A5 by (cbn; auto). repeat (split; [assumption|]).
  eapply dll_ext; [|exact L3]. intros y _. cbn beta. rewrite !A5 by (cbn; auto). split; reflexivity.
Qed.

Lemma tramp_add_ok m s t i fl : I s -> tabm c m s t -> 0 <= i < m -> m <= ntramp c -> ~ In i (at_free t) ->
  links s fl -> NoDup fl -> (In (at_id t) fl <-> at_free t <> []) -> (forall y, In y fl -> s_tlive s y = true) ->
  s_val s (G GNtramp) = Num (ntramp c) -> s_val s (G GMap) = Num (tc_map c) ->
  (zlen (i :: at_free t) = ntramp c -> 1 < zlen (fl_after t fl) -> outside t) ->
  wp (tramp_add (at_arr t) i) (fun _ s' => I s' /\
    ((~ (zlen (i :: at_free t) = ntramp c /\ 1 < zlen (fl_after t fl)) /\
      tabm c m s' (with_free t (i :: at_free t)) /\ links s' (fl_after t fl) /\ agree (fun l => link l \/ tlink t l) s s') \/
     (zlen (i :: at_free t) = ntramp c /\ 1 < zlen (fl_after t fl) /\
      (exists x y, fl_after t fl = x ++ at_id t :: y /\ links s' (x ++ y)) /\ gone c t s s'))) s.
Proof.
  intros Hi Tb Hm Hn Ni Lk Nd Fl Lv Gn Gm O.
  assert (Lid : s_tlive s (at_id t) = true) by (destruct t; apply Tb).
  assert (Lf : forall y, In y (fl_after t fl) -> s_tlive s y = true).
  { intros y Hy. unfold fl_after in Hy. destruct (at_free t); [destruct Hy as [<-|Hy]; [exact Lid|]|]; auto. }
  assert (Nf : NoDup (fl_after t fl)).
  { unfold fl_after. destruct (at_free t) eqn:E; [|exact Nd]. constructor; [|exact Nd]. intros X. apply Fl in X. congruence. }
  assert (Ta : s_val s (A (at_arr t) i ATable) = PTab (at_id t)) by (destruct t; apply Tb; exact Hm).
  assert (Va : valid s (A (at_arr t) i ATable)) by (exists (ntramp c); split; [destruct t; apply Tb|lia]).
  change (tramp_add (at_arr t) i) with (rd (A (at_arr t) i ATable) >>= fun v => deref_t v (fun id =>
    push_prog id (at_arr t) i >>
    (rd (T id TNfree) >>= fun n => num n (fun n => if n =? 1 then tramp_table_add id else Ret Null)) >>
    (rd (T id TNfree) >>= fun n => num n (fun n => rd (G GNtramp) >>= fun m => num m (fun m =>
     if n =? m then
       rd (G GNfree) >>= fun k => num k (fun k => if 1 <? k then tramp_table_del id >> tramp_table_free id else Ret Null)
     else Ret Null))))).
  apply wp_bind, wp_rd; [exact Hi|exact Va|]. rewrite Ta. cbn [deref_t]. do 2 apply wp_seq.
  eapply wp_conseq; [apply (push_ok c I (fun t s l v => stable_tlink c bs L t s l v Hc) m s t i Hi Tb Hm Hn Ni)|].
  cbn beta. intros _ s1 (I1 & T1 & A1).
  set (t1 := with_free t (i :: at_free t)) in *.
  assert (L1 : links s1 fl) by (eapply links_agree; eassumption).
  assert (N1 : s_val s1 (T (at_id t) TNfree) = Num (zlen (i :: at_free t))) by (destruct t; apply T1).
  pose proof A1 as (B1 & B2 & B3 & B4 & B5).
  assert (Lid1 : s_tlive s1 (at_id t) = true) by (rewrite B1; exact Lid).
  apply wp_bind, wp_rd; [exact I1|exact Lid1|]. rewrite N1. cbn [num].
  assert (K : forall s2, I s2 -> tabm c m s2 t1 -> links s2 (fl_after t fl) -> agree (fun l => link l \/ tlink t l) s s2 ->
    wp (rd (T (at_id t) TNfree) >>= fun n => num n (fun n => rd (G GNtramp) >>= fun m => num m (fun m =>
     if n =? m then
       rd (G GNfree) >>= fun k => num k (fun k => if 1 <? k then tramp_table_del (at_id t) >> tramp_table_free (at_id t) else Ret Null)
     else Ret Null)))
    (fun _ s' => I s' /\
    ((~ (zlen (i :: at_free t) = ntramp c /\ 1 < zlen (fl_after t fl)) /\
      tabm c m s' (with_free t (i :: at_free t)) /\ links s' (fl_after t fl) /\ agree (fun l => link l \/ tlink t l) s s') \/
     (zlen (i :: at_free t) = ntramp c /\ 1 < zlen (fl_after t fl) /\
      (exists x y, fl_after t fl = x ++ at_id t :: y /\ links s' (x ++ y)) /\ gone c t s s'))) s2).
  { intros s2 I2 T2 L2 A2. pose proof A2 as (D1 & D2 & D3 & D4 & D5).
    apply wp_bind, wp_rd; [exact I2|cbn; rewrite D1; exact Lid|].
    replace (s_val s2 (T (at_id t) TNfree)) with (Num (zlen (i :: at_free t))) by (symmetry; destruct t; apply T2). cbn [num].
    apply wp_bind, wp_rd; [exact I2|exact Logic.I|]. rewrite D5 by (cbn; tauto). rewrite Gn. cbn [num].
    destruct (Z.eqb_spec (zlen (i :: at_free t)) (ntramp c)) as [E|E].
    2: { cbn [TrampDll.wp]. split; [exact I2|]. left. split; [tauto|]. split; [exact T2|]. split; [exact L2|exact A2]. }
    apply wp_bind, wp_rd; [exact I2|exact Logic.I|]. pose proof L2 as (_ & L2n & _). rewrite L2n. cbn [num].
    destruct (Z.ltb_spec 1 (zlen (fl_after t fl))) as [E1|E1].
    2: { cbn [TrampDll.wp]. split; [exact I2|]. left. split; [lia|]. split; [exact T2|]. split; [exact L2|exact A2]. }
    specialize (O E E1).
    assert (Iid : In (at_id t) (fl_after t fl)).
    { unfold fl_after. destruct (at_free t) eqn:Ef; [left; reflexivity|]. apply Fl. congruence. }
    apply in_split in Iid as (x & y & Exy). pose proof L2 as L2'. rewrite Exy in L2', Nf. apply wp_seq.
    eapply wp_conseq; [apply (table_del_ok c I (fun s l v => stable_link c bs L s l v Hc) (at_id t) x y s2 I2 L2' Nf)|].
    - intros z Hz. rewrite D1. apply Lf. rewrite Exy. exact Hz.
    - cbn beta. intros _ s3 (I3 & L3 & A3).
      assert (T3 : tabm c m s3 t1).
      { eapply tab_agree; [exact T2|exact A3|]. intros l Hl. destruct l as [[]|? []|]; cbn in *; auto; contradiction. }
      assert (Em : m = ntramp c \/ m < ntramp c) by lia. destruct Em as [->|Em].
      2: { exfalso. assert (B : zlen (i :: at_free t) <= m); [|lia].
           destruct t; destruct T1 as (_ & _ & _ & _ & _ & _ & _ & _ & _ & _ & Q1 & Q2). apply bounded_len; [lia|exact Q1|exact Q2]. }
      pose proof A3 as (E1' & E2' & E3' & E4' & E5').
      eapply wp_conseq; [apply (table_free_ok t1 s3)|].
      + exact I3.
      + exact O.
      + rewrite E5' by (cbn; tauto). rewrite D5 by (cbn; tauto). exact Gm.
      + exact T3.
      + cbn beta. intros _ s4 (I4 & (G1 & G2 & G3 & G4 & G5) & G6). split; [exact I4|]. right. split; [exact E|]. split; [exact E1|].
        split.
        * exists x, y. split; [exact Exy|]. destruct L3 as (P1 & P2 & P3). unfold links. rewrite !G6. repeat (split; [assumption|]).
          eapply dll_ext; [|exact P3]. intros z _. cbn beta. rewrite !G6. split; reflexivity.
        * split; [intros z; rewrite G1, E1', D1; reflexivity|]. split; [intros z; rewrite G2, E2', D2; reflexivity|].
          split; [intros z; rewrite G3, E3', D3; reflexivity|]. split; [rewrite G4, E4', D4; reflexivity|].
          intros l Nl Nt. rewrite G6, E5', D5 by tauto. reflexivity. }
  destruct (Z.eqb_spec (zlen (i :: at_free t)) 1) as [E|E].
  - assert (Ef : at_free t = []) by (destruct (at_free t); [reflexivity|unfold zlen in E; cbn [length] in E; lia]).
    assert (EF : fl_after t fl = at_id t :: fl) by (unfold fl_after; rewrite Ef; reflexivity).
    pose proof Nf as Nf'. rewrite EF in Nf'.
    eapply wp_conseq; [apply (table_add_ok c I (fun s l v => stable_link c bs L s l v Hc) (at_id t) fl s1 I1 L1 Nf')|].
    + intros y Hy. rewrite B1. apply Lf. rewrite EF. exact Hy.
    + cbn beta. intros _ s2 (I2 & L2 & A2). apply K; [exact I2| |rewrite EF; exact L2|].
      * eapply tab_agree; [exact T1|exact A2|]. intros l Hl. destruct l as [[]|? []|]; cbn in *; auto; contradiction.
      * eapply agree_trans; [apply agree_or_r; exact A1|apply agree_or_l; exact A2].
  - cbn [TrampDll.wp]. apply K; [exact I1|exact T1| |].
    + unfold fl_after. destruct (at_free t) eqn:Ef; [unfold zlen in E; cbn [length] in E; lia|exact L1].
    + apply agree_or_r. exact A1.
Qed.
End Ops.
