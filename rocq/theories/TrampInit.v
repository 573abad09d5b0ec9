(** Initialization of the allocator, and its operations seen from outside. *)
From Coq Require Import ZifyBool ZifyNat Permutation.
From Verif Require Import Base TrampModel TrampDll TrampProofs TrampInv TrampOps TrampAlloc.
Local Arguments Z.mul : simpl never.
Local Arguments Z.add : simpl never.
Local Arguments Z.sub : simpl never.
Local Arguments Z.pow : simpl never.
Local Arguments Z.eqb : simpl never.
Local Arguments Z.div : simpl never.
Local Arguments val_eqb : simpl never.

Section Init.
Context (c : tcfg) (Hc : cfg_ok c).
Notation N := (ntramp c).

Definition quiet (f : gfield) : Prop := match f with GFd | GOffset | GText | GStatus => True | _ => False end.

Lemma inv_setg s ts fl f v : quiet f -> inv c s ts fl -> inv c (set_val s (G f) v) ts fl.
Proof.
  intros Q [H1 H2 H3 H4 H5 H6 H7 H8 H9 H10 H11 H12 H13 H14]. constructor; auto.
  - rewrite set_other; [exact H1|]. intros E. injection E as <-. exact Q.
  - rewrite set_other; [exact H2|]. intros E. injection E as <-. exact Q.
  - rewrite set_other; [exact H3|]. intros E. injection E as <-. exact Q.
  - destruct H4 as (P1 & P2 & P3). unfold links. rewrite !set_other by (intros E; injection E as <-; exact Q). repeat (split; [assumption|]).
    eapply dll_ext; [|exact P3]. intros y _. cbn beta. rewrite !set_other by discriminate. split; reflexivity.
Qed.

(** Nothing is allocated or mapped. *)
Definition nothing (s : st) : Prop :=
  (forall id, s_tlive s id = false) /\ (forall arr, s_alive s arr = None) /\ (forall x, s_perm s x = Unmapped).

Lemma inv_nothing s fl : inv c s [] fl -> nothing s.
Proof.
  intros [H1 H2 H3 H4 H5 H6 H7 H8 H9 H10 H11 H12 H13 H14]. split; [|split].
  - intros id. destruct (s_tlive s id) eqn:E; [|reflexivity]. destruct (H11 id E).
  - intros arr. destruct (s_alive s arr) eqn:E; [|reflexivity]. destruct (H12 arr ltac:(congruence)).
  - intros x. destruct (s_perm s x) eqn:E; [reflexivity| |]; specialize (H13 x ltac:(congruence)); inversion H13.
Qed.

Lemma nothing_inv s : nothing s -> s_val s (G GSize) = Num (tc_size c) -> s_val s (G GMap) = Num (tc_map c) -> s_val s (G GNtramp) = Num N ->
  s_val s (G GFree) = Null -> s_val s (G GNfree) = Num 0 -> inv c s [] [].
Proof.
  intros (N1 & N2 & N3) G1 G2 G3 G4 G5. constructor; auto; try constructor; auto; try (split; [assumption|exact I]); cbn.
  - intros [].
  - intros (t & [] & _).
  - intros id. rewrite N1. discriminate.
  - intros arr. rewrite N2. congruence.
  - intros x. rewrite N3. congruence.
  - intros t t' [].
Qed.

(** The state when the mutex is free; [pk] bounds the number of tables. *)
Definition ready (bs : Z -> Z) (L : list entry) (pk : Z) (s : st) : Prop := exists ts fl,
  inv c s ts fl /\ cons c bs L ts /\ Permutation (map key L) (live_of c ts) /\ (zlen ts <= 1 \/ (zlen ts - 1) * N < pk).

Definition good (bs : Z -> Z) (L : list entry) (pk : Z) (s : st) : Prop :=
  stableb c bs L s /\
  (s_val s (G GStatus) = Num 1 /\ ready bs L pk s \/
   (s_val s (G GStatus) = Num 0 \/ s_val s (G GStatus) = Num 2) /\ L = [] /\ nothing s).

Lemma stable_nil bs s : stableb c bs [] s.
Proof. intros e []. Qed.

Section Empty.
Context (bs : Z -> Z).
Notation I := (stableb c bs []).

Definition made (v : val) (s : st) : Prop :=
  v = Num 1 /\ (exists ts fl, inv c s ts fl /\ live_of c ts = [] /\ zlen ts <= 1) \/ v = Num 0 /\ inv c s [] [].

Lemma alloc_made s : inv c s [] [] -> wp c I tramp_table_alloc made s.
Proof.
  intros Iv. eapply wp_conseq; [apply (table_alloc_ok c Hc bs [] s [] [] (stable_nil bs s) Iv)|].
  - intros e [].
  - cbn beta. intros v s' (_ & _ & [(-> & _ & Iv')|(-> & ts & fl & Iv' & _ & Lv & _ & Sh)]); [right; auto|]. left. split; [reflexivity|].
    exists ts, fl. split; [exact Iv'|]. split; [exact Lv|]. destruct Sh as [->|(_ & t & ->)]; unfold zlen; cbn; lia.
Qed.

Ltac env := cbn [TrampDll.wp]; split; [intros []|]; split; [exists (Num 0); eexists; constructor|];
  let D := fresh "D" in intros ? ? D; inversion D; subst; clear D; split; [apply stable_nil|].
Ltac wrg := apply wp_wr; [exact Logic.I|apply stable_nil|].
Ltac rdg := apply wp_bind, wp_rd; [apply stable_nil|exact Logic.I|].

Lemma get_libffi_ok s : inv c s [] [] -> wp c I get_libffi made s.
Proof.
  intros Iv. unfold get_libffi. env. destruct (val_eqb (Num z) (Num 0)); [right; auto|]. apply wp_seq. wrg.
  assert (I1 := inv_setg _ _ _ GOffset (Num z) Logic.I Iv). env. apply wp_seq. wrg.
  assert (I2 := inv_setg _ _ _ GFd (Num z0) Logic.I I1). destruct (val_eqb (Num z0) (Num (-1))); [right; auto|].
  apply wp_bind. eapply wp_conseq; [apply alloc_made, I2|]. intros w s9 [(-> & M)|(-> & M)]; cbn [num].
  - change (1 =? 0) with false. left. auto.
  - change (0 =? 0) with true. apply wp_seq. wrg. right. split; [reflexivity|]. apply inv_setg; [exact Logic.I|exact M].
Qed.

Lemma get_temp_file_ok s : inv c s [] [] -> wp c I get_temp_file made s.
Proof.
  intros Iv. unfold get_temp_file. apply wp_seq. wrg. assert (I1 := inv_setg _ _ _ GOffset (Num 0) Logic.I Iv).
  env. apply wp_seq. wrg. assert (I2 := inv_setg _ _ _ GFd (Num z) Logic.I I1). env. cbn [num]. rdg.
  rewrite (i_map _ _ _ _ I2). cbn [num]. apply wp_bind.
  set (s2 := set_val _ (G GFd) _) in *.
  assert (K : wp c I (if (0 <=? z0) && (z0 =? tc_map c) then tramp_table_alloc else Ret (Num 0)) made s2).
  { destruct ((0 <=? z0) && (z0 =? tc_map c)); [apply alloc_made, I2|]. right. auto. }
  eapply wp_conseq; [exact K|]. intros w s9 [(-> & M)|(-> & M)]; cbn [num].
  - change (1 =? 0) with false. left. auto.
  - change (0 =? 0) with true. apply wp_seq. wrg. right. split; [reflexivity|]. apply inv_setg; [exact Logic.I|exact M].
Qed.

Lemma init_os_ok s : inv c s [] [] -> wp c I init_os made s.
Proof.
  intros Iv. unfold init_os. apply wp_bind. eapply wp_conseq; [apply get_libffi_ok, Iv|]. intros w s9 [(-> & M)|(-> & M)]; cbn [num].
  - change (1 =? 0) with false. left. auto.
  - change (0 =? 0) with true. apply get_temp_file_ok, M.
Qed.

Lemma init_new s pk : nothing s -> s_val s (G GStatus) = Num 0 ->
  wp c I (tramp_init c) (fun v s' => good bs [] pk s' /\ (v = Num 0 \/ v = Num 1 /\ s_val s' (G GStatus) = Num 1)) s.
Proof.
  intros Nt St. unfold tramp_init. rdg. rewrite St. cbn [num]. change (0 =? 1) with false. change (0 =? 2) with false. cbn match.
  do 6 apply wp_seq. wrg. wrg. wrg. wrg. wrg. rdg. rewrite set_same. cbn [num]. rdg. rewrite set_other by congruence. rewrite set_same. cbn [num]. wrg.
  fold N. set (s1 := set_val _ (G GNtramp) _).
  assert (Iv : inv c s1 [] []).
  { apply nothing_inv; [exact Nt| | | | |]; unfold s1; repeat (rewrite set_same || rewrite set_other by congruence); reflexivity. }
  assert (St1 : s_val s1 (G GStatus) = Num 0) by (unfold s1; rewrite !set_other by congruence; exact St).
  clearbody s1. env. cbn [num]. rdg. rewrite (i_map _ _ _ _ Iv). cbn [num].
  destruct ((0 <=? z) && (tc_map c <? z)).
  { apply wp_ret. split; [|left; reflexivity]. split; [apply stable_nil|]. right. split; [left; exact St1|]. split; [reflexivity|].
    eapply inv_nothing, Iv. }
  apply wp_bind. eapply wp_conseq; [apply init_os_ok, Iv|]. intros w s9 [(-> & (ts & fl & I' & Lv & Zl))|(-> & M)]; cbn [num].
  - change (1 =? 0) with false. apply wp_seq. wrg. apply wp_ret. split; [|right; split; [reflexivity|apply set_same]].
    split; [apply stable_nil|]. left. split; [apply set_same|]. exists ts, fl. split; [apply inv_setg; [exact Logic.I|exact I']|].
    split; [intros e []|]. split; [rewrite Lv; constructor|]. left. exact Zl.
  - change (0 =? 0) with true. apply wp_seq. wrg. apply wp_ret. split; [|left; reflexivity]. split; [apply stable_nil|]. right.
    split; [right; apply set_same|]. split; [reflexivity|]. apply (inv_setg _ _ _ GStatus (Num 2) Logic.I) in M. eapply inv_nothing, M.
Qed.
End Empty.

Lemma init_ok bs L pk s : good bs L pk s ->
  wp c (stableb c bs L) (tramp_init c) (fun v s' => good bs L pk s' /\ (v = Num 0 \/ v = Num 1 /\ s_val s' (G GStatus) = Num 1)) s.
Proof.
  intros Gd. pose proof Gd as [Is [[St Rd]|[[St|St] [-> Nt]]]].
  - apply wp_bind, wp_rd; [exact Is|exact Logic.I|]. rewrite St. cbn [num]. change (1 =? 1) with true. apply wp_ret. auto.
  - apply init_new; assumption.
  - apply wp_bind, wp_rd; [exact Is|exact Logic.I|]. rewrite St. cbn [num]. change (2 =? 1) with false. change (2 =? 2) with true. apply wp_ret. auto.
Qed.

(** ** The calls inside the critical section *)
Definition upd_b (bs : Z -> Z) (arr b : Z) : Z -> Z := fun x => if x =? arr then b else bs x.

Lemma stable_upd bs L s arr b : (forall e, In e L -> e_arr e = arr -> bs arr = b) -> stableb c bs L s -> stableb c (upd_b bs arr b) L s.
Proof.
  intros H St e He. unfold upd_b. destruct (Z.eqb_spec (e_arr e) arr) as [E|E]; [|apply St, He].
  rewrite <- (H e He E), <- E. apply St, He.
Qed.

Lemma cons_upd bs L ts arr b : (forall e, In e L -> e_arr e = arr -> bs arr = b) -> cons c bs L ts -> cons c (upd_b bs arr b) L ts.
Proof.
  intros H C e He. destruct (C e He) as (t & It & Ea & Eb & R). exists t. split; [exact It|]. split; [exact Ea|]. split; [|exact R].
  unfold upd_b. destruct (Z.eqb_spec (e_arr e) arr) as [E|E]; [|exact Eb]. rewrite <- (H e He E), <- E. exact Eb.
Qed.

(** After the call: the entries [L] of others, and what the call hands back. *)
Definition after (cl : call) (bs : Z -> Z) (L : list entry) (pk : Z) (v : val) (s : st) : Prop :=
  exists bs', (forall e, In e L -> bs' (e_arr e) = bs (e_arr e)) /\
    good bs' (result cl v ++ L) (Z.max pk (zlen (result cl v ++ L))) s /\
    match cl with
    | CSet a _ _ _ => bs' a = bs a
    | CGet a i => v = Addr (bs a + i * tc_size c)
    | _ => True
    end.

Lemma good_mono bs L pk pk' s : pk <= pk' -> good bs L pk s -> good bs L pk' s.
Proof.
  intros H [H1 [[H2 (ts & fl & H3 & H4 & H5 & H6)]|H2]]; (split; [exact H1|]); [left|right; exact H2]. split; [exact H2|]. exists ts, fl.
  repeat (split; [assumption|]). lia.
Qed.

Lemma after_nil cl bs L pk v s : result cl v = [] -> match cl with CSet _ _ _ _ | CGet _ _ => False | _ => True end ->
  good bs L pk s -> after cl bs L pk v s.
Proof.
  intros E Hcl Gd. exists bs. split; [auto|]. rewrite E. cbn [app]. split; [|destruct cl; auto; contradiction].
  eapply good_mono; [|exact Gd]. lia.
Qed.

Notation safe := (safe c).

Lemma supported_ok bs L pk s : good bs L pk s ->
  safe (stableb c bs L) (tramp_init c >>= fun r => Do Unlock (fun _ => Ret r)) (after CSupported bs L pk) s.
Proof.
  intros Gd. apply safe_bind. eapply wp_conseq; [apply init_ok, Gd|]. intros v s' [Gd' _]. cbn [TrampDll.safe].
  apply after_nil; auto.
Qed.

Lemma all_full s ts : inv c s ts [] -> zlen (live_of c ts) = zlen ts * N.
Proof.
  intros [H1 H2 H3 H4 H5 H6 H7 H8 H9 H10 H11 H12 H13 H14]. rewrite Forall_forall in H7.
  assert (F : forall t, In t ts -> at_free t = []).
  { intros t It. destruct (at_free t) eqn:E; [reflexivity|]. exfalso. apply (H6 (at_id t)). exists t. split; [exact It|]. split; [reflexivity|congruence]. }
  clear - F Hc. induction ts as [|t ts IH]; [reflexivity|]. cbn [live_of flat_map]. fold (live_of c ts).
  assert (U : zlen (used c t) = N).
  { pose proof (used_len c t Hc) as U. rewrite (F t (or_introl eq_refl)) in U. specialize (U ltac:(constructor) ltac:(intros i [])).
    unfold zlen in *. cbn [length] in U. lia. }
  specialize (IH (fun x Hx => F x (or_intror Hx))). unfold zlen in *. rewrite app_length, map_length. cbn [length]. nia.
Qed.

Lemma alloc_ok bs L pk s flags : good bs L pk s ->
  safe (stableb c bs L) (tramp_init c >>= fun ok => num ok (fun ok =>
    if (ok =? 0) || negb (flags =? 0) then Do Unlock (fun _ => Ret Null) else
    tramp_table_alloc >>= fun ok => num ok (fun ok =>
    if ok =? 0 then Do Unlock (fun _ => Ret Null) else
    rd (G GFree) >>= fun t => deref_t t (fun t =>
    rd (T t TFree) >>= fun tr => deref_a tr (fun a i =>
    tramp_del a i >> Do Unlock (fun _ => Ret tr))))))
   (after (CAlloc flags) bs L pk) s.
Proof.
  intros Gd. apply safe_bind. eapply wp_conseq; [apply init_ok, Gd|]. clear s Gd. intros v s [Gd [->|[-> St]]]; cbn [num].
  { change (0 =? 0) with true. cbn [orb TrampDll.safe]. apply after_nil; auto. }
  change (1 =? 0) with false. cbn [orb]. destruct (negb (flags =? 0)); [cbn [TrampDll.safe]; apply after_nil; auto|].
  destruct Gd as [Is [[_ (ts & fl & Iv & Cn & Pm & Bd)]|[[X|X] _]]]; [|congruence|congruence].
  apply safe_bind. eapply wp_conseq; [apply (table_alloc_ok c Hc bs L s ts fl Is Iv Cn)|]. cbn beta.
  intros v s1 (I1 & G1 & [(-> & -> & Iv1)|(-> & ts1 & fl1 & Iv1 & Nf & Lv & Cn1 & Sh)]); cbn [num].
  { change (0 =? 0) with true. cbn [TrampDll.safe]. apply after_nil; auto. split; [exact I1|]. left.
    split; [rewrite G1 by (cbn; tauto); exact St|]. exists ts, []. auto. }
  change (1 =? 0) with false. destruct fl1 as [|id fl0]; [congruence|]. clear Nf.
  assert (Pm1 : Permutation (map key L) (live_of c ts1)) by (rewrite Lv; exact Pm).
  destruct (del_ok c Hc bs L s1 ts1 (id :: fl0) id fl0 I1 Iv1 Cn1 eq_refl) as (arr & i & b & ts2 & fl2 & Gf & Lid & Tf & Nk & Hb & W).
  apply safe_bind. apply wp_rd; [exact I1|exact Logic.I|]. rewrite Gf. cbn [deref_t].
  apply safe_bind. apply wp_rd; [exact I1|exact Lid|]. rewrite Tf. cbn [deref_a].
  apply safe_bind. eapply wp_conseq; [exact W|]. cbn beta. intros _ s2 (I2 & St2 & Iv2 & Cn2 & Eo & (t2 & It2 & Ea2 & Eb2 & Hi & Hf) & Pm2 & Zl).
  cbn [TrampDll.safe]. exists (upd_b bs arr b). cbn [result app]. split.
  { intros e He. unfold upd_b. destruct (Z.eqb_spec (e_arr e) arr) as [E|E]; [|reflexivity]. rewrite E. symmetry. exact (Hb e He E). }
  split; [|exact Logic.I]. split.
  { intros e [<-|He]; [unfold upd_b; cbn [e_arr]; rewrite Z.eqb_refl; exact Eo|]. exact (stable_upd bs L s2 arr b Hb I2 e He). }
  left. split; [rewrite St2; rewrite G1 by (cbn; tauto); exact St|]. exists ts2, fl2. split; [exact Iv2|]. split; [|split].
  - intros e [<-|He]; [|exact (cons_upd bs L ts2 arr b Hb Cn2 e He)]. exists t2. cbn [e_arr e_i]. unfold upd_b. rewrite Z.eqb_refl. auto.
  - cbn [map]. rewrite Pm2. change (key (Entry arr i None)) with (arr, i). constructor. exact Pm1.
  - rewrite Zl. assert (Lc : zlen L = zlen (live_of c ts)). { pose proof (Permutation_length Pm) as E. rewrite map_length in E. unfold zlen. lia. }
    destruct Sh as [->|(-> & t & ->)].
    + lia.
    + right. pose proof (all_full s ts Iv). unfold zlen in *. cbn [length]. nia.
Qed.

Lemma set_word_in m a v x : inside a 8 x = true -> set_word m a v x = (v / 2 ^ (8 * (x - a))) mod 256.
Proof. intros H. unfold set_word. rewrite H. reflexivity. Qed.
Lemma set_word_out m a v x : inside a 8 x = false -> set_word m a v x = m x.
Proof. intros H. unfold set_word. rewrite H. reflexivity. Qed.

(** A write into the parameter block of a trampoline that no entry of [L] is. *)
Lemma stable_wrw bs L s ts fl a i b o v : 0 <= o <= 8 -> inv c s ts fl -> cons c bs L ts -> (exists t, In t ts /\ at_arr t = a /\ at_base t = b) -> 0 <= i < N ->
  ~ In (a, i) (map key L) -> stableb c bs L s ->
  stableb c bs L (St (s_val s) (s_tlive s) (s_alive s) (s_perm s) (set_word (s_mem s) (b + tc_map c + i * tc_size c + o) v)).
Proof.
  intros Ho Iv Cn (t & It & Ea & Eb) Hi Nk St e He. destruct (St e He) as (Q1 & Q2 & Q3 & Q4 & (M1 & M2 & M3 & M4) & Q6).
  destruct (Cn e He) as (t' & It' & Ea' & Eb' & Hi' & _). pose proof (slot_in c _ Hc Hi) as [S1 S2]. pose proof (slot_in c _ Hc Hi') as [S1' S2']. pose proof Hc as [C1 C2].
  assert (D : forall x, bs (e_arr e) <= x < bs (e_arr e) + tc_map c \/
      bs (e_arr e) + tc_map c + e_i e * tc_size c <= x < bs (e_arr e) + tc_map c + e_i e * tc_size c + 16 ->
      inside (b + tc_map c + i * tc_size c + o) 8 x = false).
  { intros x Hx. unfold inside. assert (E : (at_arr t = at_arr t' /\ b = bs (e_arr e)) \/ apart_tabs c t t').
    { destruct (Z.eq_dec (at_arr t) (at_arr t')) as [E|E].
      - left. split; [exact E|]. rewrite <- Eb, <- Eb'. pose proof (i_arrs _ _ _ _ Iv) as Na.
        clear - Na It It' E. induction ts as [|u ts IH]; [destruct It|]. cbn in Na. inversion Na; subst.
        destruct It as [<-|It], It' as [<-|It']; auto.
        + exfalso. apply H1. rewrite E. apply in_map, It'.
        + exfalso. apply H1. rewrite <- E. apply in_map, It.
      - right. pose proof (i_apart _ _ _ _ Iv) as Ap. clear - Ap It It' E. induction Ap as [|u ts Hu Ap IH]; [destruct It|].
        rewrite Forall_forall in Hu. destruct It as [<-|It], It' as [<-|It']; auto; [congruence|apply apart_sym; auto]. }
    destruct E as [[E1 E2]|E]; [|unfold apart_tabs in E; rewrite Eb, Eb' in E; lia].
    assert (Ne : i <> e_i e). { intros Ei. apply Nk. apply in_map_iff. exists e. split; [unfold key; congruence|exact He]. }
    destruct Hx as [Hx|Hx]; [lia|]. destruct (Z.lt_ge_cases i (e_i e)).
    - assert (i * tc_size c + tc_size c <= e_i e * tc_size c) by nia. lia.
    - assert (e_i e * tc_size c + tc_size c <= i * tc_size c) by nia. lia. }
  split; [exact Q1|]. split; [exact Q2|]. split; [exact Q3|]. split; [exact Q4|]. split.
  - split; [exact M1|]. split; [exact M2|]. split; [|exact M4]. intros x Hx. cbn [s_mem s_perm]. rewrite set_word_out by (apply D; lia). apply M3, Hx.
  - destruct (e_parm e) as [[data target]|]; [|exact Logic.I]. destruct Q6 as [W1 W2]. split; intros x Hx; cbn [s_mem]; (rewrite set_word_out; [auto|]);
      apply D; right; unfold inside in Hx; lia.
Qed.

Lemma set_ok bs L pk s a i target data p : good bs (Entry a i p :: L) pk s ->
  safe (stableb c bs (Entry a i None :: L))
    ((rd (A a i AParm) >>= fun p => addr p (fun p => Do (WrW (Addr (p + 8)) target) Ret)) >>
     (rd (A a i AParm) >>= fun p => Do (WrW p data) Ret) >>
     Do Unlock (fun _ => Ret Null)) (after (CSet a i target data) bs L pk) s.
Proof.
  intros [Is Gd]. destruct Gd as [[Hst (ts & fl & Iv & Cn & Pm & Bd)]|[_ [X _]]]; [|discriminate].
  assert (I0 : stableb c bs L s) by (intros e He; apply Is; right; exact He).
  assert (C0 : cons c bs L ts) by (intros e He; apply Cn; right; exact He).
  destruct (Is _ (or_introl eq_refl)) as (Q1 & Q2 & Q3 & Q4 & (M1 & M2 & M3 & M4) & _). cbn [e_arr e_i] in *.
  destruct (Cn _ (or_introl eq_refl)) as (t & It & Ea & Eb & Hi & Hf). cbn [e_arr e_i] in *.
  assert (Nk : ~ In (a, i) (map key L)).
  { pose proof (nodup_live c ts (i_arrs _ _ _ _ Iv)) as Nd. eapply Permutation_NoDup in Nd; [|symmetry; exact Pm]. cbn in Nd. inversion Nd; assumption. }
  pose proof (slot_in c _ Hc Hi) as [S1 S2]. pose proof Hc as [C1 C2].
  set (pb := bs a + tc_map c + i * tc_size c) in *.
  assert (Va : forall f, valid s (A a i f)) by (intros f; exists N; split; [exact Q1|exact Hi]).
  assert (W1 : forall o v s', 0 <= o <= 8 -> inv c s' ts fl -> stableb c bs L s' -> stableb c bs L (St (s_val s') (s_tlive s') (s_alive s') (s_perm s') (set_word (s_mem s') (pb + o) v))).
  { intros o v s' Ho Iv' Is'. eapply stable_wrw; eauto. }
  assert (IvW : forall o v s', 0 <= o <= 8 -> inv c s' ts fl -> inv c (St (s_val s') (s_tlive s') (s_alive s') (s_perm s') (set_word (s_mem s') (pb + o) v)) ts fl).
  { intros o v s' Ho [J1 J2 J3 J4 J5 J6 J7 J8 J9 J10 J11 J12 J13 J14]. constructor; auto. rewrite Forall_forall in *. intros t' It'. specialize (J7 t' It').
    destruct t' as [id' arr' b' fr']. destruct J7 as (T1 & T2 & T3 & T4 & T5 & T6 & (R1 & R2 & R3 & R4) & T8).
    repeat (split; [assumption|]). split; [|exact T8]. split; [exact R1|]. split; [exact R2|]. split; [|exact R4].
    intros x Hx. cbn [s_perm s_mem]. rewrite set_word_out; [apply R3, Hx|].
    assert (E : b' = bs a \/ apart_tabs c t (AT id' arr' b' fr')).
    { destruct (Z.eq_dec (at_arr t) arr') as [E|E].
      - left. rewrite <- Eb. clear - J9 It It' E. induction ts as [|u ts IH]; [destruct It|]. cbn in J9. inversion J9; subst.
        destruct It as [->|It], It' as [E'|It']; [rewrite E'; reflexivity| | |auto].
        + exfalso. apply H1. apply (in_map at_arr) in It'. exact It'.
        + exfalso. apply H1. subst u. cbn. apply in_map, It.
      - right. clear - J10 It It' E. induction J10 as [|u ts Hu Ap IH]; [destruct It|].
        rewrite Forall_forall in Hu. destruct It as [->|It], It' as [E'|It']; [subst; cbn in E; congruence|auto| |auto].
        subst u. apply apart_sym. auto. }
    unfold inside. unfold pb. destruct E as [->|E]; [lia|]. unfold apart_tabs in E. rewrite Eb in E. cbn [at_base] in E. lia. }
  assert (Hd : forall s', inv c s' ts fl -> stableb c bs L s' -> stableb c bs (Entry a i None :: L) s').
  { intros s' Iv' Is' e [<-|He]; [|apply Is', He]. pose proof (i_tabs _ _ _ _ Iv') as J. rewrite Forall_forall in J.
    destruct (tab_free c s' t (J t It)) as (_ & _ & _ & _ & _ & Al & Mp & Ar). rewrite Ea in *. rewrite Eb in *.
    destruct (Ar i Hi) as (_ & Ar1 & Ar2). unfold eok. cbn [e_arr e_i e_parm]. repeat (split; [assumption|]). exact Logic.I. }
  assert (Wr : forall o v s' (Q : val -> st -> Prop), 0 <= o <= 8 -> s_perm s' = s_perm s -> stableb c bs (Entry a i None :: L) (St (s_val s') (s_tlive s') (s_alive s') (s_perm s') (set_word (s_mem s') (pb + o) v)) ->
    Q Null (St (s_val s') (s_tlive s') (s_alive s') (s_perm s') (set_word (s_mem s') (pb + o) v)) ->
    wp c (stableb c bs (Entry a i None :: L)) (Do (WrW (Addr (pb + o)) v) Ret) Q s').
  { intros o v s' Q Ho Ep Is' HQ. cbn [TrampDll.wp]. split; [|split; [eexists _, _; constructor|intros v' s2 D; inversion D; subst; split; assumption]].
    intros (x & Hx & Hy). apply Hy. rewrite Ep. apply M4. unfold inside in Hx. lia. }
  apply safe_bind. apply wp_seq. apply wp_bind, wp_rd; [apply Hd; assumption|exact (Va AParm)|]. rewrite Q4. cbn [addr].
  apply Wr; [lia|reflexivity|apply Hd; [apply IvW; auto; lia|apply W1; auto; lia]|].
  pose proof (W1 8 target s ltac:(lia) Iv I0) as I1. pose proof (IvW 8 target s ltac:(lia) Iv) as Iv1. set (s1 := St _ _ _ _ _) in *.
  apply wp_bind, wp_rd; [apply Hd; assumption|exact (Va AParm)|]. change (s_val s1) with (s_val s). rewrite Q4. replace (Addr pb) with (Addr (pb + 0)) by (f_equal; lia).
  apply Wr; [lia|reflexivity|apply Hd; [apply IvW; auto; lia|apply W1; auto; lia]|].
  pose proof (W1 0 data s1 ltac:(lia) Iv1 I1) as I2. pose proof (IvW 0 data s1 ltac:(lia) Iv1) as Iv2. set (s2 := St (s_val s1) (s_tlive s1) (s_alive s1) (s_perm s1) (set_word (s_mem s1) (pb + 0) data)) in *.
  cbn [TrampDll.safe]. exists bs. split; [auto|]. cbn [result app]. split; [|reflexivity]. split.
  - intros e [<-|He]; [|apply I2, He]. split; [exact Q1|]. split; [exact Hi|]. cbn [e_arr e_i e_parm]. fold pb. split; [exact Q3|]. split; [exact Q4|].
    split.
    + destruct (tab_free c s2 t) as (_ & _ & _ & _ & _ & _ & Mp & _); [|rewrite Eb in Mp; exact Mp].
      pose proof (i_tabs _ _ _ _ Iv2) as J. rewrite Forall_forall in J. apply J, It.
    + split; intros x Hx; cbn [s2 s1 s_mem].
      * rewrite set_word_in by (unfold inside in *; lia). replace (x - (pb + 0)) with (x - pb) by lia. reflexivity.
      * rewrite set_word_out by (unfold inside in *; lia). rewrite set_word_in by exact Hx. reflexivity.
  - left. split; [exact Hst|]. exists ts, fl. split; [exact Iv2|]. split; [|split; [exact Pm|]].
    + intros e [<-|He]; [|apply C0, He]. exists t. auto.
    + unfold zlen in *. cbn [length] in *. lia.
Qed.

Lemma get_ok bs L pk s a i p : In (Entry a i p) L -> good bs L pk s ->
  safe (stableb c bs L) (rd (A a i ACode) >>= fun c => Do Unlock (fun _ => Ret c)) (after (CGet a i) bs L pk) s.
Proof.
  intros He Gd. pose proof Gd as [Is _]. destruct (Is _ He) as (Q1 & Q2 & Q3 & _). cbn [e_arr e_i] in *.
  apply safe_bind. apply wp_rd; [exact Is|exists N; split; assumption|]. cbn [TrampDll.safe]. exists bs. split; [auto|]. cbn [result app].
  split; [eapply good_mono; [|exact Gd]; lia|exact Q3].
Qed.

Lemma free_call_ok bs L pk s a i p : good bs (Entry a i p :: L) pk s ->
  safe (stableb c bs L) (tramp_add a i >> Do Unlock (fun _ => Ret Null)) (after (CFree a i) bs L pk) s.
Proof.
  intros [Is Gd]. destruct Gd as [[St (ts & fl & Iv & Cn & Pm & Bd)]|[_ [X _]]]; [|discriminate].
  assert (I0 : stableb c bs L s) by (intros e He; apply Is; right; exact He).
  assert (C0 : cons c bs L ts) by (intros e He; apply Cn; right; exact He).
  assert (Nk : ~ In (a, i) (map key L)).
  { pose proof (nodup_live c ts (i_arrs _ _ _ _ Iv)) as Nd. eapply Permutation_NoDup in Nd; [|symmetry; exact Pm]. cbn in Nd. inversion Nd; assumption. }
  assert (Lv : In (a, i) (live_of c ts)) by (eapply Permutation_in; [exact Pm|left; reflexivity]).
  apply safe_bind. eapply wp_conseq; [apply (free_ok c Hc bs L s ts fl a i I0 Iv C0 Lv Nk)|]. cbn beta.
  intros _ s' (I1 & St1 & ts' & fl' & Iv' & Cn' & Pm' & Zl & _). cbn [TrampDll.safe]. exists bs. split; [auto|]. cbn [result app]. split; [|exact Logic.I].
  split; [exact I1|]. left. split; [congruence|]. exists ts', fl'. split; [exact Iv'|]. split; [exact Cn'|]. split.
  - eapply Permutation_cons_inv. rewrite <- Pm'. exact Pm.
  - pose proof (ntramp_pos c Hc). destruct Bd as [Bd|Bd]; [left; lia|right; nia].
Qed.
End Init.
