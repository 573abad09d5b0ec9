(** Retrying a rejected preparation. *)
From Coq Require Import ZifyBool ZifyNat.
From Verif Require Import Base BaseFacts Types TypeHeapModel LayoutSpec TypeHeapSpec TypeHeapProofs TypeHeapProofs2 TypeHeapProofs3.

Section Rank4.
Context (rank : tptr -> nat).

(** Equal up to the (meaningless) alignment of objects without size. *)
Definition eqv0 (h h' : theap) : Prop :=
  forall q, h' q = h q \/ exists o a, h q = Some o /\ o_size o = 0 /\ h' q = Some (set_layout o 0 a).

Lemma eqv0_sym h h' : eqv0 h h' -> eqv0 h' h.
Proof.
  intros E q. destruct (E q) as [->|(o & a & G & Z0 & G')]; auto. right.
  exists (set_layout o 0 a), (o_align o). repeat split; auto. rewrite G. destruct o; cbn in *; subst; auto.
Qed.

Lemma eqv0_trans h1 h2 h3 : eqv0 h1 h2 -> eqv0 h2 h3 -> eqv0 h1 h3.
Proof.
  intros E1 E2 q. destruct (E2 q) as [->|(o & a & G & Z0 & G')]; auto. right.
  destruct (E1 q) as [E|(o1 & a1 & G1 & Z1 & G1')].
  - rewrite E in G. exists o, a. auto.
  - rewrite G1' in G. injection G as <-. exists o1, a. auto.
Qed.

Lemma eqv0_obj h h' q o : eqv0 h h' -> h q = Some o ->
  exists o', h' q = Some o' /\ o_size o' = o_size o /\ o_code o' = o_code o /\ o_elems o' = o_elems o /\
    (o_size o <> 0 -> o' = o).
Proof.
  intros E G. destruct (E q) as [Eq|(o1 & a & G1 & Z1 & G1')].
  - exists o. rewrite Eq. repeat split; auto.
  - rewrite G in G1. injection G1 as <-. exists (set_layout o 0 a). repeat split; auto. congruence.
Qed.

Lemma eqv0_wf h h' : eqv0 h h' -> wf_theap rank h -> wf_theap rank h'.
Proof.
  intros E W q o' G'. destruct (eqv0_obj _ _ _ _ (eqv0_sym _ _ E) G') as (o & G & Zs & _ & El & Same).
  destruct (W q o G) as (A & B & C). split; [lia|]. split.
  - intros N. rewrite <- (Same N). apply B. congruence.
  - intros es e L I. destruct (C es e) as [N R]; auto; [congruence|]. split; auto.
    destruct (h e) as [oe|] eqn:Ge; [|congruence]. destruct (eqv0_obj _ _ _ _ E Ge) as (? & -> & _). congruence.
Qed.

Lemma eqv0_eff h h' : eqv0 h h' -> wf_theap rank h -> forall q s a, eff h q s a -> eff h' q s a.
Proof.
  intros E W. induction q as [q IH] using (rank_ind rank). intros s a Ef.
  inversion Ef as [p1 o1 G1 Z1|p1 o1 es1 ms1 offs1 ss1 aa1 G1 Z1 L1 N1 F1 S1]; subst.
  - destruct (eqv0_obj _ _ _ _ E G1) as (o' & G' & _ & _ & _ & Same). rewrite (Same Z1) in G'. constructor; auto.
  - destruct (eqv0_obj _ _ _ _ E G1) as (o' & G' & Zs & _ & El & _).
    econstructor; eauto; try congruence.
    eapply Forall2_impl_in; [|exact F1]. cbn. intros e m He Em. apply IH; auto.
    destruct (W _ _ G1) as (_ & _ & Wm). eapply Wm; eauto.
Qed.

Lemma eqv0_fits w h h' : eqv0 h h' -> wf_theap rank h -> fits w h -> fits w h'.
Proof.
  intros E W F p s a Ef. eapply F. eapply eqv0_eff; [apply eqv0_sym; eauto| |eauto]. eapply eqv0_wf; eauto.
Qed.

Lemma eqv0_left h h' p : eqv0 h h' -> left_undescribed h p -> left_undescribed h' p.
Proof.
  intros E. induction 1 as [p o G Z L|p o G Z L|p o e es G Z L H IH];
    destruct (eqv0_obj _ _ _ _ E G) as (o' & G' & Zs & _ & El & _).
  - apply left_null with o'; congruence.
  - apply left_empty with o'; congruence.
  - apply left_member with o' e es; [congruence..|exact IH].
Qed.

Lemma refines_left h h' p : wf_theap rank h -> refines h h' -> left_undescribed h p -> left_undescribed h' p.
Proof.
  intros W R L.
  assert (K : forall p, left_undescribed h p -> h' p = h p).
  { intros q Lq. destruct (R q) as [|(o & s & a & G & Z0 & E & G')]; auto. exfalso.
    eapply (eff_not_undescribed rank h W); eauto. apply left_undescribed_undescribed; auto. }
  induction L as [p o G Z L|p o G Z L|p o e es G Z L H IH].
  - eapply left_null; eauto. rewrite K; auto. eapply left_null; eauto.
  - eapply left_empty; eauto. rewrite K; auto. eapply left_empty; eauto.
  - eapply left_member with (o := o); eauto. rewrite K; auto. eapply left_member; eauto.
Qed.

Lemma init_agg_left0 w : 0 <= w -> forall fuel h p, acyclic rank h -> (rank p < fuel)%nat -> left_undescribed h p ->
  exists h' offs, init_agg w fuel h p = Ok (FFI_BAD_TYPEDEF, h', offs) /\ eqv0 h h'.
Proof.
  intros Hw. induction fuel as [|fuel IH]; intros h p Ac Lt L; [lia|].
  cbn [init_agg]. inversion L as [p1 o G Z E|p1 o G Z E|p1 o e es G Z E L']; subst; rewrite G; cbn [of_option bind]; rewrite E.
  - exists h, []. split; auto. intros q; auto.
  - cbn [init_loop bind]. rewrite hset_same. cbn [of_option bind set_layout o_size o_align].
    rewrite ffi_align_00 by auto. cbn [Z.eqb]. eexists _, _. split; [reflexivity|].
    intros q. unfold hset. destruct (Nat.eqb_spec q p) as [->|]; auto. right. exists o, 0. auto.
  - destruct (Ac _ _ _ e G E (or_introl eq_refl)) as [Ne Le].
    set (h0 := hset h p (set_layout o 0 0)).
    assert (E0 : eqv0 h h0).
    { intros q. unfold h0, hset. destruct (Nat.eqb_spec q p) as [->|]; auto. right. exists o, 0. auto. }
    assert (Ac0 : acyclic rank h0).
    { intros p2 o2 es2 e2 G2 L2 I2.
      destruct (eqv0_obj _ _ _ _ (eqv0_sym _ _ E0) G2) as (o3 & G3 & _ & _ & El & _).
      destruct (Ac p2 o3 es2 e2 G3) as [N R]; auto; [congruence|]. split; auto.
      destruct (h e2) as [oe|] eqn:Ge; [|congruence]. destruct (eqv0_obj _ _ _ _ E0 Ge) as (? & -> & _). congruence. }
    pose proof (eqv0_left _ _ _ E0 L') as L0.
    destruct (IH h0 e Ac0 ltac:(lia) L0) as (h1 & offs & R & E1).
    assert (exists oe, h0 e = Some oe /\ o_size oe = 0) as (oe & Ge & Ze) by (inversion L0; subst; eauto).
    cbn [init_loop]. rewrite Ge. cbn [of_option bind]. rewrite Ze. cbn [Z.eqb]. rewrite R. cbn [bind].
    exists h1, []. split; [reflexivity|]. eapply eqv0_trans; eauto.
Qed.

Lemma init_if_needed_left w fuel h p : 0 <= w -> acyclic rank h -> (rank p < fuel)%nat -> left_undescribed h p ->
  exists h', init_if_needed w fuel h p = Ok (FFI_BAD_TYPEDEF, h') /\ eqv0 h h'.
Proof.
  intros Hw Ac Lt L. unfold init_if_needed.
  assert (exists o, h p = Some o /\ o_size o = 0) as (o & G & Z0) by (inversion L; subst; eauto).
  rewrite G. cbn [of_option bind]. rewrite Z0. cbn [Z.eqb].
  destruct (init_agg_left0 w Hw fuel h p Ac Lt L) as (h' & offs & R & E). rewrite R. cbn [bind]. eauto.
Qed.

Definition described_all (h : theap) (l : list tptr) : Prop := forall p, In p l -> exists s a, eff h p s a.

Definition left_sig (h : theap) (l : list tptr) : Prop :=
  exists l1 p l2, l = l1 ++ p :: l2 /\ described_all h l1 /\ left_undescribed h p.

Lemma refines_left_sig h h' l : wf_theap rank h -> refines h h' -> left_sig h l -> left_sig h' l.
Proof.
  intros W R (l1 & p & l2 & -> & D & L). exists l1, p, l2. split; auto. split.
  - intros q Hq. destruct (D q Hq) as (s & a & E). exists s, a. apply (refines_eff' rank _ _ W R); auto.
  - eapply refines_left; eauto.
Qed.

Lemma eqv0_left_sig h h' l : wf_theap rank h -> eqv0 h h' -> left_sig h l -> left_sig h' l.
Proof.
  intros W R (l1 & p & l2 & -> & D & L). exists l1, p, l2. split; auto. split.
  - intros q Hq. destruct (D q Hq) as (s & a & E). exists s, a. eapply eqv0_eff; eauto.
  - eapply eqv0_left; eauto.
Qed.

(** What survives a rejected preparation. *)
Definition kept (w : Z) (h h' : theap) : Prop :=
  exists h1, refines h h1 /\ eqv0 h1 h'.

Lemma prep_args_left tg fuel : 16 <= tg_width tg -> forall ptrs h bytes,
  wf_theap rank h -> fits (tg_width tg) h ->
  (forall p, In p ptrs -> h p <> None /\ (rank p < fuel)%nat /\ complex_ok tg h p) ->
  left_sig h ptrs ->
  exists h' b, prep_args tg fuel ptrs h bytes = Ok (FFI_BAD_TYPEDEF, h', b) /\ kept (tg_width tg) h h'.
Proof.
  intros Hw. induction ptrs as [|p ptrs IH]; intros h bytes W Fit Hin (l1 & p' & l2 & El & D & L).
  - destruct l1; discriminate.
  - destruct (Hin p (or_introl eq_refl)) as (Np & Lp & Cp). cbn [prep_args].
    destruct l1 as [|q l1]; cbn in El; injection El as <- ->.
    + destruct (init_if_needed_left (tg_width tg) fuel h p) as (h1 & R & E); auto; try lia.
      { apply wf_shape; auto. }
      rewrite R. cbn [bind]. exists h1, bytes. split; auto. exists h. split; auto. intros q; auto.
    + destruct (D p (or_introl eq_refl)) as (s & a & E).
      destruct (init_if_needed_ok rank (tg_width tg) fuel h p s a) as (h1 & o & R & Ref & G & G1); auto.
      rewrite R. cbn [bind]. rewrite G1. cbn [of_option bind].
      pose proof (complex_test_false tg h p o Cp G) as CT. cbn [set_layout o_code]. rewrite CT.
      pose proof (refines_wf' rank _ _ W Ref) as W1.
      edestruct (IH h1) as (h' & b & R' & K).
      * auto.
      * exact (refines_fits rank _ _ _ W Ref Fit).
      * intros q Hq. destruct (Hin q (or_intror Hq)) as (A & B & C). repeat split; auto.
        -- destruct (h q) as [oq|] eqn:Gq; [|congruence].
           destruct (refines_code _ _ _ _ Ref Gq) as (o' & -> & _). congruence.
        -- eapply complex_ok_refines; eauto.
      * apply (refines_left_sig h); auto. exists l1, p', l2. split; auto. split; auto.
        intros q Hq. apply D. right; auto.
      * rewrite R'. exists h', b. split; auto. destruct K as (h2 & R2 & E2). exists h2. split; auto.
        eapply (refines_trans' rank); eauto.
Qed.

Lemma prep_core_left tg fuel abi rt ats h :
  16 <= tg_width tg -> wf_theap rank h -> fits (tg_width tg) h -> abi_in_range tg abi ->
  (forall p, In p (rt :: ats) -> h p <> None /\ (rank p < fuel)%nat /\ complex_ok tg h p) ->
  left_sig h (rt :: ats) ->
  exists h', prep_core tg fuel abi rt ats h = Ok (FFI_BAD_TYPEDEF, h', None) /\ kept (tg_width tg) h h'.
Proof.
  intros Hw W Fit Habi Hin (l1 & p' & l2 & El & D & L). unfold prep_core, abi_in_range in *.
  replace (negb _) with false by lia.
  destruct (Hin rt (or_introl eq_refl)) as (Np & Lp & Cp).
  destruct l1 as [|q l1]; cbn in El; injection El as <- ->.
  - destruct (init_if_needed_left (tg_width tg) fuel h rt) as (h1 & R & E); auto; try lia.
    { apply wf_shape; auto. }
    rewrite R. cbn [bind]. exists h1. split; auto. exists h. split; auto. intros q; auto.
  - destruct (D rt (or_introl eq_refl)) as (s & a & E).
    destruct (init_if_needed_ok rank (tg_width tg) fuel h rt s a) as (h1 & o & R & Ref & G & G1); auto.
    rewrite R. cbn [bind]. rewrite G1. cbn [of_option bind].
    pose proof (complex_test_false tg h rt o Cp G) as CT. cbn [set_layout o_code]. rewrite CT.
    pose proof (refines_wf' rank _ _ W Ref) as W1.
    edestruct (prep_args_left tg fuel Hw (l1 ++ p' :: l2) h1) as (h' & b & R' & K).
    + auto.
    + exact (refines_fits rank _ _ _ W Ref Fit).
    + intros q Hq. destruct (Hin q (or_intror Hq)) as (A & B & C). repeat split; auto.
      * destruct (h q) as [oq|] eqn:Gq; [|congruence].
        destruct (refines_code _ _ _ _ Ref Gq) as (o' & -> & _). congruence.
      * eapply complex_ok_refines; eauto.
    + apply (refines_left_sig h); auto. exists l1, p', l2. split; auto. split; auto.
      intros q Hq. apply D. right; auto.
    + rewrite R'. cbn [bind]. exists h'. split; auto. destruct K as (h2 & R2 & E2). exists h2. split; auto.
      eapply (refines_trans' rank); eauto.
Qed.

Lemma prep_retry_left tg fuel r n : 16 <= tg_width tg -> forall h,
  wf_theap rank h -> fits (tg_width tg) h -> abi_in_range tg (fst (fst r)) ->
  well_typed rank tg fuel h r -> left_sig h (sig_types r) ->
  prep_retry tg fuel r n h = repeat (Some FFI_BAD_TYPEDEF) n.
Proof.
  intros Hw. destruct r as [[abi rt] ats]. induction n as [|n IH]; intros h W Fit Habi WT L; [reflexivity|].
  cbn [prep_retry prep_request]. cbn [fst sig_types] in *.
  destruct (prep_core_left tg fuel abi rt ats h Hw W Fit Habi WT L) as (h' & R & h1 & Ref & E).
  rewrite R. cbn [repeat]. f_equal.
  pose proof (refines_wf' rank _ _ W Ref) as W1. pose proof (eqv0_wf _ _ E W1) as W2.
  apply IH; auto.
  - eapply eqv0_fits; eauto. exact (refines_fits rank _ _ _ W Ref Fit).
  - pose proof (well_typed_refines rank tg fuel h h1 (abi, rt, ats) Ref WT) as WT1.
    intros p Hp. destruct (WT1 p Hp) as (A & B & C).
    destruct (h1 p) as [o|] eqn:G; [|congruence].
    destruct (eqv0_obj _ _ _ _ E G) as (o' & G' & _ & Co & _). repeat split; auto; [congruence|].
    destruct C as [C|C]; [left; auto|right]. intros o2 G2. rewrite G' in G2. injection G2 as <-. rewrite Co. auto.
  - apply (eqv0_left_sig h1); auto. apply (refines_left_sig h); auto.
Qed.
End Rank4.
