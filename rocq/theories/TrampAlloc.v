(** Setting up a trampoline table, and initialization of the allocator. *)
From Coq Require Import ZifyBool ZifyNat Permutation.
From Verif Require Import Base TrampModel TrampDll TrampProofs TrampInv TrampOps.
Local Arguments Z.mul : simpl never.
Local Arguments Z.add : simpl never.
Local Arguments Z.sub : simpl never.
Local Arguments Z.pow : simpl never.
Local Arguments Z.eqb : simpl never.
Local Arguments Z.div : simpl never.
Local Arguments val_eqb : simpl never.

Section Alloc.
Context (c : tcfg) (Hc : cfg_ok c).
Notation N := (ntramp c).

(** What was there in [s0] is the same in [s]. *)
Definition frame (s0 s : st) : Prop :=
  (forall id, s_tlive s0 id = true -> s_tlive s id = true /\ forall f, ~ link (T id f) -> s_val s (T id f) = s_val s0 (T id f)) /\
  (forall arr, s_alive s0 arr <> None -> s_alive s arr = s_alive s0 arr /\ forall i f, s_val s (A arr i f) = s_val s0 (A arr i f)) /\
  (forall x, s_perm s0 x <> Unmapped -> s_perm s x = s_perm s0 x /\ s_mem s x = s_mem s0 x) /\
  (forall f, ~ link (G f) -> s_val s (G f) = s_val s0 (G f)).

Lemma frame_refl s : frame s s.
Proof. split; [|split; [|split]]; auto. Qed.

Lemma tab_frame s0 s t : tabm c N s0 t -> frame s0 s -> tabm c N s t.
Proof.
  destruct t as [id arr b fr]. intros (H1 & H2 & H3 & H4 & H5 & H6 & (M1 & M2 & M3 & M4) & F1 & F2 & F3 & F4 & F5) (E1 & E2 & E3 & E4).
  destruct (E1 id H1) as [E1a E1b]. destruct (E2 arr ltac:(congruence)) as [E2a E2b].
  unfold tabm. rewrite !E1b by (cbn; tauto). rewrite E2a. repeat (split; [assumption|]).
  split; [intros i Hi; rewrite !E2b; apply H6; exact Hi|]. split.
  - split; [exact M1|]. split; [exact M2|]. split.
    + intros x Hx. destruct (M3 x Hx) as [Q1 Q2]. destruct (E3 x ltac:(congruence)) as [-> ->]. split; assumption.
    + intros x Hx. specialize (M4 x Hx). destruct (E3 x ltac:(congruence)) as [-> _]. exact M4.
  - unfold flist. rewrite !E1b by (cbn; tauto). repeat (split; [assumption|]). split; [|split; assumption].
    eapply dll_ext; [|exact F3]. intros i _. cbn beta. rewrite !E2b. split; reflexivity.
Qed.

Lemma stable_frame bs L s0 s : stableb c bs L s0 -> frame s0 s -> stableb c bs L s.
Proof.
  intros St (E1 & E2 & E3 & E4) e He. pose proof (St e He) as (Q1 & Q2 & Q3 & Q4 & (M1 & M2 & M3 & M4) & Q6).
  destruct (E2 (e_arr e) ltac:(congruence)) as [E2a E2b]. apply (eok_ext c s0); auto. intros x Hx.
  apply E3. destruct (Z.lt_ge_cases x (bs (e_arr e) + tc_map c)) as [H|H].
  - destruct (M3 x ltac:(lia)) as [-> _]. discriminate.
  - rewrite M4 by lia. discriminate.
Qed.

(** A state reached from [s0] by making a table record, an array and a mapping. *)
Definition isS (o : option Z) (x : Z) : bool := match o with Some y => x =? y | None => false end.
Definition new (s0 : st) (ot oa : option Z) (b n : Z) (s : st) : Prop :=
  frame s0 s /\
  (forall x, isS ot x = true -> s_tlive s0 x = false) /\ (forall x, isS oa x = true -> s_alive s0 x = None) /\
  (forall x, inside b n x = true -> s_perm s0 x = Unmapped) /\
  (forall x, s_tlive s x = isS ot x || s_tlive s0 x) /\
  (forall x, s_alive s x = if isS oa x then Some N else s_alive s0 x) /\
  (forall x, s_perm s x <> Unmapped -> s_perm s0 x <> Unmapped \/ inside b n x = true).

Lemma new_refl s : new s None None 0 0 s.
Proof. split; [apply frame_refl|]. cbn. split; [discriminate|]. split; [discriminate|]. split; [intros x Hx; unfold inside in Hx; lia|]. split; [reflexivity|]. split; [reflexivity|]. auto. Qed.

Lemma new_set s0 ot oa b n s l v : new s0 ot oa b n s ->
  match l with G f => link (G f) | T id f => link (T id f) \/ isS ot id = true | A arr _ _ => isS oa arr = true end -> new s0 ot oa b n (set_val s l v).
Proof.
  intros ((E1 & E2 & E3 & E4) & H1 & H2 & H3 & H4 & H5 & H6) Hl.
  split; [|repeat (split; [assumption|]); assumption].
  split; [|split; [|split; [exact E3|]]].
  - intros id Hid. destruct (E1 id Hid) as [Q1 Q2]. split; [exact Q1|]. intros f Hf. rewrite set_other; [auto|]. intros <-.
    destruct Hl as [Hl|Hl]; [contradiction|]. apply H1 in Hl. congruence.
  - intros arr Ha. destruct (E2 arr Ha) as [Q1 Q2]. split; [exact Q1|]. intros i f. rewrite set_other; [auto|]. intros <-. apply H2 in Hl. contradiction.
  - intros f Hf. rewrite set_other; [auto|]. intros <-. contradiction.
Qed.

Lemma new_agree s0 ot oa b n s s' P : new s0 ot oa b n s -> agree P s s' ->
  (forall l, P l -> match l with G f => link (G f) | T id f => link (T id f) \/ isS ot id = true | A arr _ _ => isS oa arr = true end) -> new s0 ot oa b n s'.
Proof.
  intros ((E1 & E2 & E3 & E4) & H1 & H2 & H3 & H4 & H5 & H6) (A1 & A2 & A3 & A4 & A5) HP.
  unfold new, frame. rewrite A1, A2, A3, A4. split; [|repeat (split; [assumption|]); assumption].
  split; [|split; [|split; [exact E3|]]].
  - intros id Hid. destruct (E1 id Hid) as [Q1 Q2]. split; [exact Q1|]. intros f Hf. rewrite A5; [auto|]. intros Hp. apply HP in Hp.
    destruct Hp as [Hl|Hl]; [contradiction|]. apply H1 in Hl. congruence.
  - intros arr Ha. destruct (E2 arr Ha) as [Q1 Q2]. split; [exact Q1|]. intros i f. rewrite A5; [auto|]. intros Hp. apply HP in Hp. apply H2 in Hp. contradiction.
  - intros f Hf. rewrite A5; [auto|]. intros Hp. apply HP in Hp. contradiction.
Qed.

Lemma inv_same s0 s ts b : inv c s0 ts [] -> new s0 None None b 0 s -> links s [] -> inv c s ts [].
Proof.
  intros [H1 H2 H3 H4 H5 H6 H7 H8 H9 H10 H11 H12 H13 H14] (F & _ & _ & N3 & N4 & N5 & N6) Lk. pose proof F as (E1 & E2 & E3 & E4).
  constructor; auto.
  - rewrite E4 by (cbn; tauto). exact H1.
  - rewrite E4 by (cbn; tauto). exact H2.
  - rewrite E4 by (cbn; tauto). exact H3.
  - eapply Forall_impl; [|exact H7]. intros t Ht. eapply tab_frame; eassumption.
  - intros id Hid. rewrite N4 in Hid. auto.
  - intros arr Ha. rewrite N5 in Ha. auto.
  - intros x Hx. apply N6 in Hx as [Hx|Hx]; [auto|unfold inside in Hx; lia].
Qed.

Lemma inv_grow s0 s ts t : inv c s0 ts [] -> new s0 (Some (at_id t)) (Some (at_arr t)) (at_base t) (2 * tc_map c) s ->
  links s [at_id t] -> tabm c N s t -> at_free t <> [] -> inv c s (t :: ts) [at_id t].
Proof.
  intros [H1 H2 H3 H4 H5 H6 H7 H8 H9 H10 H11 H12 H13 H14] (F & N1 & N2 & N3 & N4 & N5 & N6) Lk Tt Fr. pose proof F as (E1 & E2 & E3 & E4).
  pose proof (N1 (at_id t) ltac:(cbn; apply Z.eqb_refl)) as N1'. pose proof (N2 (at_arr t) ltac:(cbn; apply Z.eqb_refl)) as N2'.
  rewrite Forall_forall in H7. pose proof (ntramp_pos c Hc) as Np. pose proof Hc as [C1 C2].
  assert (Full : forall t', In t' ts -> at_free t' = []).
  { intros t' I'. destruct (at_free t') eqn:E; [reflexivity|]. exfalso. apply (H6 (at_id t')). exists t'. split; [exact I'|]. split; [reflexivity|congruence]. }
  constructor.
  - rewrite E4 by (cbn; tauto). exact H1.
  - rewrite E4 by (cbn; tauto). exact H2.
  - rewrite E4 by (cbn; tauto). exact H3.
  - exact Lk.
  - repeat constructor. intros [].
  - intros id. split.
    + intros [<-|[]]. exists t. split; [left; reflexivity|split; [reflexivity|exact Fr]].
    + intros (t' & [<-|I'] & <- & Fr'); [left; reflexivity|]. apply Full in I'. contradiction.
  - constructor; [exact Tt|]. rewrite Forall_forall. intros t' I'. eapply tab_frame; [apply H7; exact I'|exact F].
  - cbn. constructor; [|exact H8]. intros X. apply in_map_iff in X as (t' & E & I'). destruct (tab_free c s0 t' (H7 _ I')) as (_ & _ & _ & _ & X & _). congruence.
  - cbn. constructor; [|exact H9]. intros X. apply in_map_iff in X as (t' & E & I'). destruct (tab_free c s0 t' (H7 _ I')) as (_ & _ & _ & _ & _ & X & _). congruence.
  - constructor; [|exact H10]. rewrite Forall_forall. intros t' I'. destruct (tab_free c s0 t' (H7 _ I')) as (_ & _ & _ & _ & _ & _ & (M1 & M2 & M3 & M4) & _).
    unfold apart_tabs. assert (D : forall x, at_base t' <= x < at_base t' + 2 * tc_map c -> ~ (at_base t <= x < at_base t + 2 * tc_map c)).
    { intros x Hx Hx'. specialize (N3 x ltac:(unfold inside; lia)). destruct (Z.lt_ge_cases x (at_base t' + tc_map c)) as [Q|Q].
      - destruct (M3 x ltac:(lia)). congruence.
      - rewrite M4 in N3 by lia. discriminate. }
    destruct (Z.le_gt_cases (at_base t + 2 * tc_map c) (at_base t')) as [|Q]; [left; assumption|right].
    destruct (Z.le_gt_cases (at_base t' + 2 * tc_map c) (at_base t)) as [|Q']; [assumption|]. exfalso.
    destruct (Z.le_ge_cases (at_base t) (at_base t')); [apply (D (at_base t')); lia|apply (D (at_base t)); lia].
  - intros id Hid. rewrite N4 in Hid. cbn in *. apply Bool.orb_true_iff in Hid as [Hid|Hid]; [left; lia|right; auto].
  - intros arr Ha. rewrite N5 in Ha. cbn in *. destruct (Z.eqb_spec arr (at_arr t)); [left; congruence|right; auto].
  - intros x Hx. apply N6 in Hx as [Hx|Hx]; [right; auto|left; unfold inside in Hx; unfold in_tab; lia].
  - intros t1 t2 [<-|I1] [<-|I2] Z1 Z2; [reflexivity| | |].
    + rewrite (Full _ I2) in Z2. unfold zlen in Z2. cbn in Z2. lia.
    + rewrite (Full _ I1) in Z1. unfold zlen in Z1. cbn in Z1. lia.
    + auto.
Qed.

Lemma tab_grow m s id arr b fr : 0 <= m -> tabm c m s (AT id arr b fr) ->
  tabm c (m + 1) (set_val (set_val (set_val s (A arr m ATable) (PTab id)) (A arr m ACode) (Addr (b + m * tc_size c)))
    (A arr m AParm) (Addr (b + tc_map c + m * tc_size c))) (AT id arr b fr).
Proof.
  intros Hm (H1 & H2 & H3 & H4 & H5 & H6 & M & F1 & F2 & F3 & F4 & F5).
  set (s' := set_val _ _ _).
  assert (ET : forall f, s_val s' (T id f) = s_val s (T id f)) by (intros f; unfold s'; rewrite !set_other by congruence; reflexivity).
  unfold tabm. rewrite !ET. repeat (split; [assumption|]). split; [|split; [exact M|]].
  - intros i Hi. destruct (Z.eq_dec i m) as [->|Ne].
    + unfold s'. rewrite set_same. rewrite set_other by congruence. rewrite set_other by congruence. rewrite set_same.
      rewrite set_other by congruence. rewrite set_same. auto.
    + unfold s'. rewrite !set_other by congruence. apply H6. lia.
  - unfold flist. rewrite !ET. repeat (split; [assumption|]). split; [|split; [assumption|]].
    + eapply dll_ext; [|exact F3]. intros i _. cbn beta. unfold s'. rewrite !set_other by congruence. split; reflexivity.
    + intros i Hi. apply F5 in Hi. lia.
Qed.

Section WithL.
Context (bs : Z -> Z) (L : list entry).
Notation I := (stableb c bs L).

Lemma new_stable s0 ot oa b n s : I s0 -> new s0 ot oa b n s -> I s.
Proof. intros H (F & _). eapply stable_frame; eassumption. Qed.

Lemma populate_ok s0 id arr b : I s0 -> s_val s0 (G GMap) = Num (tc_map c) -> s_val s0 (G GNtramp) = Num N ->
  forall k m s fr, 0 <= m -> m + Z.of_nat k = N -> tabm c m s (AT id arr b fr) -> zlen fr = m ->
  links s (match fr with [] => [] | _ => [id] end) -> new s0 (Some id) (Some arr) b (2 * tc_map c) s ->
  wp c I (populate k id arr m (tc_size c) (b + m * tc_size c) (b + tc_map c + m * tc_size c))
    (fun _ s' => exists fr', tabm c N s' (AT id arr b fr') /\ zlen fr' = N /\ links s' (match fr' with [] => [] | _ => [id] end) /\
       new s0 (Some id) (Some arr) b (2 * tc_map c) s') s.
Proof.
  intros I0 Gm Gn. induction k as [|k IH]; intros m s fr Hm Hk Tb Zf Lk Nw.
  - assert (m = N) as -> by lia. cbn [populate]. apply wp_ret. exists fr. auto.
  - cbn [populate]. pose proof Nw as (_ & _ & _ & _ & Nt & Na & _).
    assert (V : forall f, valid s (A arr m f)) by (intros f; exists N; rewrite Na; cbn; rewrite Z.eqb_refl; split; [reflexivity|lia]).
    assert (Nx : forall l v s1, (exists f, l = A arr m f) -> new s0 (Some id) (Some arr) b (2 * tc_map c) s1 -> new s0 (Some id) (Some arr) b (2 * tc_map c) (set_val s1 l v)).
    { intros l v s1 (f & ->) Q. apply new_set; [exact Q|]. cbn. apply Z.eqb_refl. }
    pose proof (Nx (A arr m ATable) (PTab id) s ltac:(eauto) Nw) as N1.
    pose proof (Nx (A arr m ACode) (Addr (b + m * tc_size c)) _ ltac:(eauto) N1) as N2.
    pose proof (Nx (A arr m AParm) (Addr (b + tc_map c + m * tc_size c)) _ ltac:(eauto) N2) as N3.
    apply wp_seq. apply wp_seq. apply wp_seq. apply wp_seq.
    apply wp_wr; [exact (V ATable)|eapply (new_stable _ _ _ _ _ _ I0); eassumption|]. apply wp_wr; [exact (V ATable)|eapply (new_stable _ _ _ _ _ _ I0); eassumption|].
    apply wp_wr; [exact (V ATable)|eapply (new_stable _ _ _ _ _ _ I0); eassumption|].
    pose proof (tab_grow m s id arr b fr Hm Tb) as T1. set (s1 := set_val _ (A arr m AParm) _) in *.
    assert (L1 : links s1 (match fr with [] => [] | _ => [id] end)).
    { destruct Lk as (P1 & P2 & P3). unfold links, s1. rewrite !set_other by congruence. repeat (split; [assumption|]).
      eapply dll_ext; [|exact P3]. intros z _. cbn beta. rewrite !set_other by congruence. split; reflexivity. }
    assert (NI : ~ In m fr). { destruct Tb as (_ & _ & _ & _ & _ & _ & _ & _ & _ & _ & _ & F5). intros X. apply F5 in X. lia. }
    assert (FA : fl_after (AT id arr b fr) (match fr with [] => [] | _ => [id] end) = [id]) by (unfold fl_after; destruct fr; reflexivity).
    pose proof N3 as ((_ & _ & _ & E4) & _).
    pose proof (tramp_add_ok c Hc bs L (m + 1) s1 (AT id arr b fr) m (match fr with [] => [] | _ => [id] end)) as K.
    cbn [at_arr at_id at_free] in K. eapply wp_conseq; [apply K; clear K|clear K].
    + eapply (new_stable _ _ _ _ _ _ I0); eassumption.
    + exact T1.
    + lia.
    + lia.
    + exact NI.
    + exact L1.
    + destruct fr; repeat constructor. intros [].
    + destruct fr; cbn; intuition congruence.
    + intros y Hy. destruct N3 as (_ & _ & _ & _ & X & _). rewrite X. destruct fr; [destruct Hy|]; destruct Hy as [<-|[]]. cbn. rewrite Z.eqb_refl. reflexivity.
    + rewrite E4 by (cbn; tauto). exact Gn.
    + rewrite E4 by (cbn; tauto). exact Gm.
    + intros _ X. rewrite FA in X. unfold zlen in X. cbn in X. lia.
    + cbn beta. intros _ s2 (I2 & [(_ & T2 & L2 & A2)|(_ & X & _)]); [|rewrite FA in X; unfold zlen in X; cbn in X; lia].
      rewrite FA in L2. cbn [with_free] in T2.
      replace (b + m * tc_size c + tc_size c) with (b + (m + 1) * tc_size c) by ring.
      replace (b + tc_map c + m * tc_size c + tc_size c) with (b + tc_map c + (m + 1) * tc_size c) by ring.
      apply (IH (m + 1) s2 (m :: fr)); auto; try lia.
      * unfold zlen in *. cbn [length]. lia.
      * eapply new_agree; [exact N3|exact A2|]. clear. intros l [Hl|Hl]; destruct l as [[]|? []|? ? []]; cbn in *; try contradiction; auto; subst; rewrite Z.eqb_refl; auto.
Qed.

Ltac step_do := cbn [TrampDll.wp]; split; [|split; [eexists _, _; constructor|let D := fresh "D" in intros ? ? D; inversion D; subst; clear D]].

Lemma map_ok s0 id arr s : cfg_ok c -> I s0 -> s_val s0 (G GMap) = Num (tc_map c) -> new s0 (Some id) (Some arr) 0 0 s ->
  s_val s (G GFree) = Null -> s_val s (G GNfree) = Num 0 ->
  wp c I (tramp_table_map id) (fun v s' => s_val s' (G GFree) = Null /\ s_val s' (G GNfree) = Num 0 /\
    (v = Num 0 /\ new s0 (Some id) (Some arr) 0 0 s' \/
     v = Num 1 /\ exists b, new s0 (Some id) (Some arr) b (2 * tc_map c) s' /\ mapped c s' b /\
       s_val s' (T id TCode) = Addr b /\ s_val s' (T id TParm) = Addr (b + tc_map c))) s.
Proof.
  intros [C1 C2] I0 Gm Nw G1 G2. pose proof Nw as ((E1 & E2 & E3 & E4) & N1 & N2 & N3 & N4 & N5 & N6).
  pose proof (new_stable _ _ _ _ _ _ I0 Nw) as Is.
  unfold tramp_table_map. apply wp_bind, wp_rd; [exact Is|exact Logic.I|]. rewrite E4 by (cbn; tauto). rewrite Gm. cbn [num].
  assert (Lid : forall s', new s0 (Some id) (Some arr) 0 0 s' -> valid s' (T id TCode)).
  { intros s' (_ & _ & _ & _ & X & _). cbn. rewrite X. cbn. rewrite Z.eqb_refl. reflexivity. }
  assert (Unm : forall x, s_perm s x = Unmapped -> s_perm s0 x = Unmapped).
  { intros x Hx. destruct (s_perm s0 x) eqn:E; [reflexivity| |]; destruct (E3 x ltac:(congruence)); congruence. }
  cbn [TrampDll.wp]. split; [intros []|]. split; [eexists _, _; apply d_anon_fail|]. intros v s1 D. inversion D; subst; clear D.
  { split; [exact Is|]. cbn. auto. }
  rename a into b. match goal with H : forall x, inside b _ x = true -> s_perm s x = Unmapped |- _ => rename H into Hu end.
  set (s1 := St _ _ _ _ _).
  assert (Nb : new s0 (Some id) (Some arr) b (2 * tc_map c) s1).
  { split; [|split; [exact N1|split; [exact N2|]]].
    - split; [exact E1|split; [exact E2|split; [|exact E4]]]. intros x Hx. cbn [s1 s_perm s_mem].
      destruct (inside b (tc_map c * 2) x) eqn:Ex; [apply Hu, Unm in Ex; contradiction|auto].
    - split; [intros x Hx; apply Unm, Hu; unfold inside in *; lia|]. split; [exact N4|]. split; [exact N5|].
      cbn [s1 s_perm]. intros x Hx. destruct (inside b (tc_map c * 2) x) eqn:Ex; [right; unfold inside in *; lia|].
      apply N6 in Hx as [Hx|Hx]; [left; exact Hx|unfold inside in Hx; lia]. }
  split; [eapply (new_stable _ _ _ _ _ _ I0); eassumption|]. cbn [TrampDll.wp].
  split.
  { intros (x & Hx & Hy). cbn [s1 s_perm] in Hy. assert (Ex : inside b (tc_map c * 2) x = true) by (unfold inside in *; lia). rewrite Ex in Hy. discriminate. }
  split; [eexists _, _; apply d_code_fail|]. intros v s2 D. inversion D; subst; clear D.
  - split; [eapply (new_stable _ _ _ _ _ _ I0); eassumption|]. cbn [bind wr TrampDll.wp].
    split; [intros X; apply X; cbn; rewrite N4; cbn; rewrite Z.eqb_refl; reflexivity|]. split; [eexists _, _; constructor|]. intros v s3 D. inversion D; subst; clear D.
    assert (Nb' : new s0 (Some id) (Some arr) b (2 * tc_map c) (set_val s1 (T id TCode) (Num (-1)))) by (apply new_set; [exact Nb|right; cbn; apply Z.eqb_refl]).
    split; [eapply (new_stable _ _ _ _ _ _ I0); eassumption|]. cbn [TrampDll.wp].
    split.
    { intros (x & Hx & Hy). cbn [s1 s_perm set_val] in Hy. rewrite Hx in Hy. discriminate. }
    split; [eexists _, _; constructor|]. intros v s4 D. inversion D; subst; clear D.
    match goal with |- I ?s4 /\ _ => set (s4' := s4) end.
    assert (N4' : new s0 (Some id) (Some arr) 0 0 s4').
    { pose proof Nb' as ((P1 & P2 & P3 & P4) & Q1 & Q2 & Q3 & Q4 & Q5 & Q6). split; [|split; [exact N1|split; [exact N2|]]].
      - split; [exact P1|split; [exact P2|split; [|exact P4]]]. intros x Hx. destruct (P3 x Hx) as [P3a P3b]. cbn [s4' s_perm s_mem].
        destruct (inside b (tc_map c * 2) x) eqn:Ex; [apply Hu, Unm in Ex; contradiction|auto].
      - split; [intros x Hx; unfold inside in Hx; lia|]. split; [exact Q4|]. split; [exact Q5|].
        intros x Hx. cbn [s4' s_perm] in Hx. destruct (inside b (tc_map c * 2) x) eqn:Ex; [congruence|].
        apply Q6 in Hx as [Hx|Hx]; [left; exact Hx|unfold inside in *; lia]. }
    split; [eapply (new_stable _ _ _ _ _ _ I0); eassumption|]. cbn [TrampDll.wp].
    split; [|split; [|left; split; [reflexivity|exact N4']]]; unfold s4', s1; cbn [s_val]; rewrite set_other by congruence; assumption.
  - set (s2 := St _ _ _ _ _).
    assert (N2' : new s0 (Some id) (Some arr) b (2 * tc_map c) s2).
    { pose proof Nb as ((P1 & P2 & P3 & P4) & Q1 & Q2 & Q3 & Q4 & Q5 & Q6). split; [|split; [exact N1|split; [exact N2|]]].
      - split; [exact P1|split; [exact P2|split; [|exact P4]]]. intros x Hx. destruct (P3 x Hx) as [P3a P3b]. cbn [s2 s_perm s_mem].
        destruct (inside b (tc_map c) x) eqn:Ex; [|auto]. specialize (Q3 x ltac:(unfold inside in *; lia)). contradiction.
      - split; [exact Q3|]. split; [exact Q4|]. split; [exact Q5|].
        intros x Hx. cbn [s2 s_perm] in Hx. destruct (inside b (tc_map c) x) eqn:Ex; [right; unfold inside in *; lia|]. apply Q6. exact Hx. }
    split; [eapply (new_stable _ _ _ _ _ _ I0); eassumption|]. cbn [bind wr TrampDll.wp].
    split; [intros X; apply X; cbn; rewrite N4; cbn; rewrite Z.eqb_refl; reflexivity|]. split; [eexists _, _; constructor|]. intros v s3 D. inversion D; subst; clear D.
    assert (N3' : new s0 (Some id) (Some arr) b (2 * tc_map c) (set_val s2 (T id TCode) (Addr b))) by (apply new_set; [exact N2'|right; cbn; apply Z.eqb_refl]).
    split; [eapply (new_stable _ _ _ _ _ _ I0); eassumption|]. cbn [bind rd TrampDll.wp].
    split; [intros X; apply X; cbn; rewrite N4; cbn; rewrite Z.eqb_refl; reflexivity|]. split; [eexists _, _; constructor|]. intros v s4 D. inversion D; subst; clear D.
    split; [eapply (new_stable _ _ _ _ _ _ I0); eassumption|]. rewrite set_same. cbn [addr bind wr TrampDll.wp].
    split; [intros X; apply X; cbn; rewrite N4; cbn; rewrite Z.eqb_refl; reflexivity|]. split; [eexists _, _; constructor|]. intros v s4 D. inversion D; subst; clear D.
    assert (N5' : new s0 (Some id) (Some arr) b (2 * tc_map c) (set_val (set_val s2 (T id TCode) (Addr b)) (T id TParm) (Addr (b + tc_map c)))) by (apply new_set; [exact N3'|right; cbn; apply Z.eqb_refl]).
    split; [eapply (new_stable _ _ _ _ _ _ I0); eassumption|]. cbn [TrampDll.wp].
    split; [rewrite !set_other by congruence; exact G1|]. split; [rewrite !set_other by congruence; exact G2|]. right. split; [reflexivity|].
    exists b. split; [exact N5'|]. split; [|split; [rewrite set_other by congruence; apply set_same|apply set_same]].
    split; [assumption|]. split; [lia|]. cbn [set_val s_perm s_mem s2 s1].
    split; intros x Hx; unfold inside.
    + destruct ((b <=? x) && (x <? b + tc_map c)) eqn:Ex; [auto|lia].
    + destruct ((b <=? x) && (x <? b + tc_map c)) eqn:Ex; [lia|]. destruct ((b <=? x) && (x <? b + tc_map c * 2)) eqn:Ey; [auto|lia].
Qed.

Lemma full_used t : NoDup (at_free t) -> (forall j, In j (at_free t) -> 0 <= j < N) -> zlen (at_free t) = N -> used c t = [].
Proof.
  intros H1 H2 H3. pose proof (used_len c t Hc H1 H2). destruct (used c t); [reflexivity|]. unfold zlen in *. cbn [length] in *. lia.
Qed.

Lemma table_alloc_ok s ts fl : I s -> inv c s ts fl -> cons c bs L ts ->
  wp c I tramp_table_alloc (fun v s' => I s' /\ (forall f, ~ link (G f) -> s_val s' (G f) = s_val s (G f)) /\
    (v = Num 0 /\ fl = [] /\ inv c s' ts [] \/
     v = Num 1 /\ exists ts' fl', inv c s' ts' fl' /\ fl' <> [] /\ live_of c ts' = live_of c ts /\ cons c bs L ts' /\
       (ts' = ts \/ fl = [] /\ exists t, ts' = t :: ts))) s.
Proof.
  intros I0 Iv Cn. pose proof Iv as [H1 H2 H3 H4 H5 H6 H7 H8 H9 H10 H11 H12 H13 H14]. pose proof H4 as (L1 & L2 & L3).
  pose proof (ntramp_pos c Hc) as Np. unfold tramp_table_alloc. apply wp_bind, wp_rd; [exact I0|exact Logic.I|]. rewrite L2. cbn [num].
  destruct (Z.ltb_spec 0 (zlen fl)) as [Z0|Z0].
  { apply wp_ret. split; [exact I0|]. split; [auto|]. right. split; [reflexivity|]. exists ts, fl. split; [exact Iv|].
    split; [intros ->; unfold zlen in Z0; cbn in Z0; lia|]. split; [reflexivity|]. split; [exact Cn|left; reflexivity]. }
  assert (fl = []) as -> by (destruct fl; [reflexivity|unfold zlen in Z0; cbn [length] in Z0; lia]). clear Z0.
  assert (Fail : forall s' b, new s None None b 0 s' -> s_val s' (G GFree) = Null -> s_val s' (G GNfree) = Num 0 ->
    I s' /\ (forall f, ~ link (G f) -> s_val s' (G f) = s_val s (G f)) /\
    (Num 0 = Num 0 /\ @nil Z = [] /\ inv c s' ts [] \/
     Num 0 = Num 1 /\ exists ts' fl', inv c s' ts' fl' /\ fl' <> [] /\ live_of c ts' = live_of c ts /\ cons c bs L ts' /\
       (ts' = ts \/ @nil Z = [] /\ exists t, ts' = t :: ts))).
  { intros s' b Nw G1 G2. split; [eapply (new_stable _ _ _ _ _ _ I0); eassumption|]. split; [apply Nw|]. left. split; [reflexivity|]. split; [reflexivity|].
    eapply inv_same; [exact Iv|exact Nw|]. split; [exact G1|]. split; [exact G2|]. exact Logic.I. }
  cbn [TrampDll.wp]. split; [intros []|]. split; [eexists _, _; apply d_mtab_fail|]. intros v s1 D. inversion D; subst; clear D.
  { split; [exact I0|]. apply wp_ret. apply (Fail _ 0); [apply new_refl|exact L1|exact L2]. }
  set (s1 := St vs _ _ _ _).
  match goal with H : s_tlive s id = false |- _ => rename H into Fid end.
  match goal with H : forall l, (forall f, l <> T id f) -> _ |- _ => rename H into Vs end.
  assert (Nw1 : new s (Some id) None 0 0 s1).
  { split.
    - split; [|split; [|split; [auto|]]].
      + intros x Hx. cbn [s1 s_tlive s_val]. destruct (Z.eqb_spec x id) as [->|Ne]; [congruence|]. split; [exact Hx|].
        intros f _. apply Vs. intros f' E. congruence.
      + intros arr Ha. split; [reflexivity|]. intros i f. cbn [s1 s_val]. apply Vs. intros f'. discriminate.
      + intros f _. cbn [s1 s_val]. apply Vs. intros f'. discriminate.
    - cbn [isS]. split; [intros x Hx; apply Z.eqb_eq in Hx; subst; exact Fid|]. split; [discriminate|]. split; [intros x Hx; unfold inside in Hx; lia|].
      split; [intros x; cbn [s1 s_tlive]; destruct (x =? id); reflexivity|]. split; [reflexivity|]. auto. }
  assert (I1 : I s1) by (eapply (new_stable _ _ _ _ _ _ I0); eassumption).
  assert (G1 : forall f, s_val s1 (G f) = s_val s (G f)) by (intros f; apply Vs; discriminate).
  split; [exact I1|]. change (val_eqb (PTab id) Null) with false. cbn match. cbn [deref_t].
  apply wp_bind, wp_rd; [exact I1|exact Logic.I|]. rewrite G1, H3.
  assert (FreeT : forall s2, new s (Some id) None 0 0 s2 ->
    new s None None 0 0 (St (s_val s2) (fun x => if x =? id then false else s_tlive s2 x) (s_alive s2) (s_perm s2) (s_mem s2))).
  { intros s2 ((P1 & P2 & P3 & P4) & Q1 & Q2 & Q3 & Q4 & Q5 & Q6). split.
    - split; [|split; [exact P2|split; [exact P3|exact P4]]]. intros x Hx. destruct (P1 x Hx) as [P1a P1b]. split; [|exact P1b]. cbn [s_tlive].
      destruct (Z.eqb_spec x id) as [->|]; [congruence|exact P1a].
    - split; [discriminate|]. split; [discriminate|]. split; [exact Q3|]. split; [|split; [exact Q5|exact Q6]].
      intros x. cbn [s_tlive isS]. rewrite Q4. cbn [isS]. destruct (Z.eqb_spec x id) as [->|]; [symmetry; exact Fid|reflexivity]. }
  cbn [TrampDll.wp]. split; [intros []|]. split; [eexists _, _; apply d_marr_fail|]. intros v s2 D. inversion D; subst; clear D.
  { split; [exact I1|]. change (val_eqb Null Null) with true. cbn match. cbn [TrampDll.wp].
    split; [intros X; apply X; destruct Nw1 as (_ & _ & _ & _ & X1 & _); rewrite X1; cbn; rewrite Z.eqb_refl; reflexivity|].
    split; [eexists _, _; constructor|]. intros v s3 D. inversion D; subst; clear D. pose proof (FreeT s1 Nw1) as Nf.
    split; [eapply (new_stable _ _ _ _ _ _ I0); eassumption|]. apply (Fail _ 0 Nf).
    - cbn [s_val]. rewrite G1. exact L1.
    - cbn [s_val]. rewrite G1. exact L2. }
  set (s2 := St vs0 _ _ _ _).
  match goal with H : s_alive s1 arr = None |- _ => rename H into Farr end.
  match goal with H : forall l, (forall i f, l <> A arr i f) -> _ |- _ => rename H into Vs2 end.
  assert (Nw2 : new s (Some id) (Some arr) 0 0 s2).
  { pose proof Nw1 as ((P1 & P2 & P3 & P4) & Q1 & Q2 & Q3 & Q4 & Q5 & Q6). split.
    - split; [|split; [|split; [exact P3|]]].
      + intros x Hx. destruct (P1 x Hx) as [P1a P1b]. split; [exact P1a|]. intros f Hf. cbn [s2 s_val]. rewrite Vs2 by discriminate. apply P1b, Hf.
      + intros x Hx. destruct (P2 x Hx) as [P2a P2b]. assert (x <> arr) by (intros ->; apply Hx; exact Farr). split.
        * cbn [s2 s_alive]. destruct (Z.eqb_spec x arr); [congruence|exact P2a].
        * intros i f. cbn [s2 s_val]. rewrite Vs2 by congruence. apply P2b.
      + intros f Hf. cbn [s2 s_val]. rewrite Vs2 by discriminate. apply P4, Hf.
    - split; [exact Q1|]. split; [intros x Hx; cbn in Hx; apply Z.eqb_eq in Hx; subst; exact Farr|]. split; [exact Q3|]. split; [exact Q4|].
      split; [|exact Q6]. intros x. reflexivity. }
  assert (I2 : I s2) by (eapply (new_stable _ _ _ _ _ _ I0); eassumption).
  assert (G2 : forall f, s_val s2 (G f) = s_val s (G f)) by (intros f; cbn [s2 s_val]; rewrite Vs2 by discriminate; apply G1).
  split; [exact I2|]. change (val_eqb (PTr arr 0) Null) with false. cbn match. cbn [deref_a]. apply wp_bind.
  eapply wp_conseq; [apply (map_ok s id arr s2 Hc I0 H2 Nw2); [rewrite G2; exact L1|rewrite G2; exact L2]|].
  cbn beta. intros v s3 (K1 & K2 & [[-> Nw3]|[-> (b & Nw3 & Mp & Tc & Tp)]]); cbn [num].
  { change (0 =? 0) with true. cbn match. cbn [TrampDll.wp].
    pose proof Nw3 as ((P1 & P2 & P3 & P4) & Q1 & Q2 & Q3 & Q4 & Q5 & Q6).
    split; [cbn; rewrite Q5; cbn; rewrite Z.eqb_refl; discriminate|].
    split; [eexists _, _; constructor|]. intros v s4 D. inversion D; subst; clear D.
    set (s4 := St _ _ _ _ _).
    assert (Nw4 : new s (Some id) None 0 0 s4).
    { split.
      - split; [exact P1|split; [|split; [exact P3|exact P4]]]. intros x Hx. destruct (P2 x Hx) as [P2a P2b]. split; [|exact P2b].
        cbn [s4 s_alive]. destruct (Z.eqb_spec x arr) as [->|]; [|exact P2a]. exfalso. apply Hx. exact Farr.
      - split; [exact Q1|]. split; [discriminate|]. split; [exact Q3|]. split; [exact Q4|]. split; [|exact Q6].
        intros x. cbn [s4 s_alive isS]. rewrite Q5. cbn [isS]. destruct (Z.eqb_spec x arr) as [->|]; [symmetry; exact Farr|reflexivity]. }
    split; [eapply (new_stable _ _ _ _ _ _ I0); eassumption|]. cbn [TrampDll.wp].
    split; [intros X; apply X; change (s_tlive s4 id) with (s_tlive s3 id); rewrite Q4; cbn; rewrite Z.eqb_refl; reflexivity|].
    split; [eexists _, _; constructor|]. intros v s5 D. inversion D; subst; clear D. pose proof (FreeT s4 Nw4) as Nf.
    split; [eapply (new_stable _ _ _ _ _ _ I0); eassumption|]. apply (Fail _ 0 Nf); assumption. }
  change (1 =? 0) with false. cbn match.
  assert (Tl : forall s', new s (Some id) (Some arr) b (2 * tc_map c) s' -> s_tlive s' id = true).
  { intros s' (_ & _ & _ & _ & X & _). rewrite X. cbn. rewrite Z.eqb_refl. reflexivity. }
  assert (Set_ : forall s' f v, new s (Some id) (Some arr) b (2 * tc_map c) s' -> new s (Some id) (Some arr) b (2 * tc_map c) (set_val s' (T id f) v)).
  { intros s' f v X. apply new_set; [exact X|]. right. cbn. apply Z.eqb_refl. }
  pose proof (Set_ s3 TArray (PTr arr 0) Nw3) as Nw4. pose proof (Set_ _ TFree Null Nw4) as Nw5. pose proof (Set_ _ TNfree (Num 0) Nw5) as Nw6.
  do 4 apply wp_seq.
  apply wp_wr; [apply Tl; exact Nw3|eapply (new_stable _ _ _ _ _ _ I0); eassumption|].
  apply wp_wr; [apply Tl; exact Nw4|eapply (new_stable _ _ _ _ _ _ I0); eassumption|].
  apply wp_wr; [apply Tl; exact Nw5|eapply (new_stable _ _ _ _ _ _ I0); eassumption|].
  set (s6 := set_val _ (T id TNfree) _) in *.
  assert (I6 : I s6) by (eapply (new_stable _ _ _ _ _ _ I0); eassumption).
  assert (G6 : forall f, ~ link (G f) -> s_val s6 (G f) = s_val s (G f)) by (apply Nw6).
  apply wp_bind, wp_rd; [exact I6|exact Logic.I|]. rewrite G6 by (cbn; tauto). rewrite H1. cbn [num].
  apply wp_bind, wp_rd; [exact I6|apply Tl; exact Nw6|].
  replace (s_val s6 (T id TCode)) with (Addr b) by (unfold s6; rewrite !set_other by congruence; symmetry; exact Tc). cbn [addr].
  apply wp_bind, wp_rd; [exact I6|apply Tl; exact Nw6|].
  replace (s_val s6 (T id TParm)) with (Addr (b + tc_map c)) by (unfold s6; rewrite !set_other by congruence; symmetry; exact Tp). cbn [addr num].
  pose proof (populate_ok s id arr b I0 H2 H3 (Z.to_nat N) 0 s6 []) as K.
  replace (b + 0 * tc_size c) with b in K by ring. replace (b + tc_map c + 0 * tc_size c) with (b + tc_map c) in K by ring.
  eapply wp_conseq; [apply K; clear K|clear K].
  - lia.
  - lia.
  - split; [apply Tl; exact Nw6|]. split; [destruct Nw6 as (_ & _ & _ & _ & _ & X & _); rewrite X; cbn; rewrite Z.eqb_refl; reflexivity|].
    split; [unfold s6; rewrite !set_other by congruence; exact Tc|]. split; [unfold s6; rewrite !set_other by congruence; exact Tp|].
    split; [unfold s6; rewrite set_other by congruence; rewrite set_other by congruence; apply set_same|].
    split; [lia|]. split; [exact Mp|]. split; [unfold s6; rewrite set_other by congruence; apply set_same|].
    split; [unfold s6; apply set_same|]. split; [exact Logic.I|]. split; [constructor|]. intros i [].
  - reflexivity.
  - split; [unfold s6; rewrite !set_other by congruence; exact K1|]. split; [unfold s6; rewrite !set_other by congruence; exact K2|exact Logic.I].
  - exact Nw6.
  - cbn beta. intros _ s7 (fr & T7 & Z7 & L7 & N7). apply wp_ret.
    split; [eapply (new_stable _ _ _ _ _ _ I0); eassumption|]. split; [apply N7|]. right. split; [reflexivity|].
    assert (Hfr : fr <> []) by (intros ->; unfold zlen in Z7; cbn in Z7; lia).
    assert (L7' : links s7 [id]) by (destruct fr; [congruence|exact L7]).
    exists (AT id arr b fr :: ts), [id]. split; [apply (inv_grow s s7 ts (AT id arr b fr) Iv N7 L7' T7 Hfr)|]. split; [discriminate|].
    split; [|split].
    + cbn [live_of flat_map]. rewrite full_used; [reflexivity| | |]; cbn [at_free]; [apply T7|apply T7|exact Z7].
    + intros e He. destruct (Cn e He) as (t & It & X). exists t. split; [right; exact It|exact X].
    + right. split; [reflexivity|]. eexists. reflexivity.
Qed.
End WithL.
End Alloc.
