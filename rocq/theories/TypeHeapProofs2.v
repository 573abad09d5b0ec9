(** Termination, failure, and whole preparations. *)
From Coq Require Import ZifyBool ZifyNat.
From Verif Require Import Base BaseFacts Types TypeHeapModel LayoutSpec TypeHeapSpec TypeHeapProofs.

Lemma reaches_trans h p q r : reaches h p q -> reaches h q r -> reaches h p r.
Proof. induction 1; eauto using reaches. Qed.

Section Rank2.
Context (rank : tptr -> nat).

Notation shape_ok := (acyclic rank).

(** Only layout fields of [arg] itself or of objects below it without recorded size
    differ. *)
Definition touches (arg : tptr) (h h' : theap) : Prop :=
  forall q, h' q = h q \/
    (exists o s a, h q = Some o /\ h' q = Some (set_layout o s a) /\ reaches h arg q /\
       (q = arg \/ o_size o = 0)).

Lemma touches_elems arg h h' p o : touches arg h h' -> h' p = Some o ->
  exists o0, h p = Some o0 /\ o_elems o0 = o_elems o /\ o_code o0 = o_code o.
Proof.
  intros T G. destruct (T p) as [E|(o' & s & a & G1 & G2 & _)].
  - exists o. rewrite <- E. auto.
  - rewrite G2 in G. injection G as <-. exists o'. auto.
Qed.

Lemma touches_reaches arg h h' p q : touches arg h h' -> reaches h' p q -> reaches h p q.
Proof.
  intros T. induction 1 as [|p o es e q G L I R IH]; [constructor|].
  destruct (touches_elems _ _ _ _ _ T G) as (o0 & G0 & E0 & _).
  eapply reaches_step; eauto. congruence.
Qed.

Lemma touches_shape arg h h' : shape_ok h -> touches arg h h' -> shape_ok h'.
Proof.
  intros Sh T p o es e G L I.
  assert (Hdom : forall e, h e <> None -> h' e <> None).
  { intros e' He. destruct (T e') as [->|(o' & s & a & _ & -> & _)]; congruence. }
  destruct (touches_elems _ _ _ _ _ T G) as (o0 & G0 & E0 & _).
  destruct (Sh p o0 es e G0); auto. congruence.
Qed.

Lemma touches_hset arg h h' o s a : touches arg h h' -> h' arg = Some o ->
  touches arg h (hset h' arg (set_layout o s a)).
Proof.
  intros T G q. unfold hset. destruct (Nat.eqb_spec q arg) as [->|N]; [|apply T].
  right. destruct (T arg) as [E|(o1 & s1 & a1 & G1 & G2 & _)].
  - rewrite E in G. exists o, s, a. repeat split; auto. constructor.
  - rewrite G2 in G. injection G as <-. exists o1, s, a. repeat split; auto. constructor.
Qed.

Lemma touches_step arg h h1 e h2 : touches arg h h1 -> touches e h1 h2 ->
  reaches h arg e -> (exists o, h1 e = Some o /\ o_size o = 0) -> touches arg h h2.
Proof.
  intros T1 T2 Re (oe & He & Ze) q. destruct (T2 q) as [->|(o2 & s2 & a2 & G2 & G2' & R2 & C2)]; [apply T1|].
  assert (Rq : reaches h arg q).
  { apply reaches_trans with e; auto. eapply touches_reaches; eauto. }
  right. destruct (T1 q) as [E|(o1 & s1 & a1 & G1 & G1' & R1 & C1)].
  - rewrite E in G2. exists o2, s2, a2. repeat split; auto. right.
    destruct C2 as [->|C2]; auto. congruence.
  - rewrite G1' in G2. injection G2 as <-. exists o1, s2, a2. repeat split; auto.
Qed.

Definition rec_total (r : nat) (rec : theap -> tptr -> res (status * theap)) : Prop :=
  forall h p o, shape_ok h -> (rank p < r)%nat -> h p = Some o ->
    exists st h', rec h p = Ok (st, h') /\ touches p h h'.

Lemma init_loop_total w rec arg : rec_total (rank arg) rec ->
  forall ptrs h hb, shape_ok hb -> touches arg hb h -> h arg <> None ->
  (forall e, In e ptrs -> h e <> None /\ (rank e < rank arg)%nat /\ reaches hb arg e) ->
  exists st h' offs, init_loop w rec arg ptrs h = Ok (st, h', offs) /\ touches arg hb h' /\
    h' arg <> None /\ (st = FFI_OK -> length offs = length ptrs).
Proof.
  intros RT. induction ptrs as [|e ptrs IH]; intros h hb Shb T Harg Hin.
  - exists FFI_OK, h, []. auto.
  - cbn [init_loop]. destruct (Hin e (or_introl eq_refl)) as (Ne & Le & Re).
    destruct (h e) as [oe|] eqn:He; [|congruence]. cbn [of_option bind].
    assert (Sh : shape_ok h) by (eapply touches_shape; eauto).
    assert (exists st h1, (if o_size oe =? 0 then rec h e else Ok (FFI_OK, h)) = Ok (st, h1) /\
              touches arg hb h1 /\ h1 arg <> None /\ (forall q, h q <> None -> h1 q <> None)) as
      (st & h1 & R & T1 & Harg1 & Dom).
    { destruct (Z.eqb_spec (o_size oe) 0) as [Z0|Z0].
      - destruct (RT h e oe Sh Le He) as (st & h1 & R & T1). exists st, h1. repeat split; auto.
        + eapply touches_step; eauto.
        + destruct (T1 arg) as [->|(o' & s & a & _ & -> & _)]; congruence.
        + intros q Hq. destruct (T1 q) as [->|(o' & s & a & _ & -> & _)]; congruence.
      - exists FFI_OK, h. auto. }
    rewrite R. cbn [bind]. destruct st.
    2,3,4: exists FFI_BAD_TYPEDEF, h1, []; repeat split; auto; discriminate.
    destruct (h1 e) as [o1|] eqn:He1; [|exfalso; apply (Dom e); congruence].
    destruct (h1 arg) as [oa|] eqn:Ha1; [|congruence]. cbn [of_option bind].
    edestruct (IH (hset h1 arg (set_layout oa (wrap w (ffi_align_w w (o_size oa) (o_align o1) + o_size o1))
                (if o_align oa >? o_align o1 then o_align oa else o_align o1))) hb)
      as (st & h' & offs & R' & T' & Ha' & Hl); auto.
    + apply touches_hset; auto.
    + rewrite hset_same. congruence.
    + intros e' He'. destruct (Hin e' (or_intror He')) as (N' & L' & R'). repeat split; auto.
      rewrite hset_other; [auto|]. intros ->. lia.
    + rewrite R'. cbn [bind]. exists st, h', (ffi_align_w w (o_size oa) (o_align o1) :: offs).
      repeat split; auto. intros ->. cbn. auto.
Qed.

Lemma init_agg_total w : forall fuel h p o, shape_ok h -> (rank p < fuel)%nat -> h p = Some o ->
  exists st h' offs, init_agg w fuel h p = Ok (st, h', offs) /\ touches p h h' /\
    (st = FFI_OK \/ st = FFI_BAD_TYPEDEF) /\
    (st = FFI_OK -> exists es, o_elems o = Some es /\ length offs = length es).
Proof.
  induction fuel as [|fuel IH]; intros h p o Sh Lt G; [lia|].
  cbn [init_agg]. rewrite G. cbn [of_option bind].
  destruct (o_elems o) as [es|] eqn:L.
  2: { exists FFI_BAD_TYPEDEF, h, []. repeat split; auto; try discriminate. intros q; auto. }
  set (rec := fun h p => _).
  assert (RT : rec_total (rank p) rec).
  { intros h0 q oq Sh0 Lq Gq. destruct (IH h0 q oq Sh0 ltac:(lia) Gq) as (st & h' & offs & R & T & _).
    exists st, h'. unfold rec. rewrite R. auto. }
  assert (T0 : touches p h (hset h p (set_layout o 0 0))).
  { apply touches_hset; auto. intros q; auto. }
  destruct (init_loop_total w rec p RT es (hset h p (set_layout o 0 0)) h) as (st & h' & offs & R & T & Hp & Hl); auto.
  - rewrite hset_same. congruence.
  - intros e He. destruct (Sh _ _ _ _ G L He) as [N Le]. repeat split; auto.
    + rewrite hset_other; auto. intros ->; lia.
    + eapply reaches_step; eauto. constructor.
  - rewrite R. cbn [bind]. destruct st.
    2,3,4: exists FFI_BAD_TYPEDEF, h', offs; repeat split; auto; discriminate.
    destruct (h' p) as [oa|] eqn:Ha; [|congruence]. cbn [of_option bind].
    eexists _, _, _. split; [reflexivity|]. split; [apply touches_hset; auto|]. split.
    + destruct (_ =? 0); auto.
    + intros _. exists es. auto.
Qed.

(** ** Rejection *)

Lemma wf_shape h : wf_theap rank h -> shape_ok h.
Proof. intros W p o es e G L I. destruct (W _ _ G) as (_ & _ & C). eapply C; eauto. Qed.

Definition rec_bad (w : Z) (r : nat) (rec : theap -> tptr -> res (status * theap)) : Prop :=
  forall h p, wf_theap rank h -> fits_below rank w r h -> (rank p < r)%nat ->
    undescribed h p -> exists st h', rec h p = Ok (st, h') /\ st <> FFI_OK.

Lemma undescribed_inv h p : undescribed h p -> exists o, h p = Some o /\ o_size o = 0.
Proof. destruct 1; eauto. Qed.

Lemma init_loop_bad w rec arg : 16 <= w -> rec_ok rank w (rank arg) rec -> rec_bad w (rank arg) rec ->
  forall ptrs h o S A,
  wf_theap rank h -> fits_below rank w (rank arg) h ->
  h arg = Some (set_layout o S A) -> 0 <= S -> 0 <= A -> (A <> 0 -> is_pow2 A) ->
  (forall e, In e ptrs -> h e <> None /\ (rank e < rank arg)%nat) ->
  (exists e, In e ptrs /\ undescribed h e) ->
  exists h' offs, init_loop w rec arg ptrs h = Ok (FFI_BAD_TYPEDEF, h', offs).
Proof.
  intros Hw RO RB. induction ptrs as [|e ptrs IH]; intros h o S A W Fit Harg HS HA HA2 Hin (e' & He' & U).
  - contradiction.
  - destruct (Hin e (or_introl eq_refl)) as [Ne Le].
    destruct (eff_or_undescribed rank h W e Ne) as [(s & a & E)|Ue].
    + assert (He'' : In e' ptrs).
      { destruct He' as [->|]; auto. exfalso. eapply (eff_not_undescribed rank h W); eauto. }
      destruct (eff_pow2 rank h W _ _ _ E) as [P1 P2]. pose proof (is_pow2_pos _ P1) as P3.
      set (S' := wrap w (ffi_align_w w S a + s)).
      assert (0 <= S') by (unfold S', wrap; apply Z.mod_pos_bound; apply Z.pow_pos_nonneg; lia).
      assert (PA : is_pow2 (Z.max A a)).
      { destruct (Z.eq_dec A 0) as [->|NA].
        - rewrite Z.max_r by lia. auto.
        - apply is_pow2_max; auto. }
      destruct (elem_step rank w rec arg e h o s a S A S' (Z.max A a)) as
        (oe & h1 & He & R1 & H1 & Harg1 & W2 & Fit2 & EQ & EL); auto.
      cbn zeta in *.
      destruct (IH (hset h1 arg (set_layout o S' (Z.max A a))) o S' (Z.max A a)) as (h' & offs & R); auto.
      * apply hset_same.
      * lia.
      * intros x Hx. destruct (Hin x (or_intror Hx)) as [Nx Lx]. split; auto.
        assert (x <> arg) by (intros ->; lia). rewrite hset_other by auto.
        destruct (EL x) as [Ex|(_ & ? & ? & ? & _ & _ & _ & Ex)]; auto;
          rewrite hset_other in Ex by auto; congruence.
      * exists e'. split; auto. destruct (Hin e' He') as [Ne' Le'].
        assert (hset h1 arg (set_layout o S' (Z.max A a)) e' <> None) as N2.
        { assert (e' <> arg) by (intros ->; lia).
          destruct (EL e') as [Ex|(_ & ? & ? & ? & _ & _ & _ & Ex)]; auto; congruence. }
        destruct (eff_or_undescribed rank _ W2 e' N2) as [(s' & a' & E')|]; auto.
        apply EQ in E'; auto. exfalso. eapply (eff_not_undescribed rank h W); eauto.
      * cbn [init_loop]. rewrite He. cbn [of_option bind]. rewrite R1. cbn [bind].
        rewrite H1, Harg1. cbn [of_option bind o_size o_align set_layout].
        change (set_layout (set_layout o S A)) with (set_layout o).
        replace (if A >? a then A else a) with (Z.max A a) by (destruct (Z.gtb_spec A a); lia).
        fold S'. rewrite R. cbn [bind]. eauto.
    + destruct (undescribed_inv _ _ Ue) as (oe & Ge & Ze).
      destruct (RB h e W Fit Le Ue) as (st & h' & R & Nst).
      cbn [init_loop]. rewrite Ge. cbn [of_option bind]. rewrite Ze. cbn [Z.eqb]. rewrite R. cbn [bind].
      destruct st; [congruence| | |]; eauto.
Qed.

Lemma init_agg_rec_ok w : 16 <= w -> forall fuel r, (r <= fuel)%nat ->
  rec_ok rank w r (fun h p => let* r0 := init_agg w fuel h p in let '(st, h', _) := r0 in Ok (st, h')).
Proof.
  intros Hw fuel r Hr h0 q sq aq oq W0 Fit0 Lq Gq Zq Eq.
  inversion Eq as [p1 o1 G1 Z1|p1 o1 es1 ms1 offs1 ss1 aa1 G1 Z1 L1 N1 F1 S1]; subst;
    rewrite Gq in G1; injection G1 as <-; [congruence|].
  destruct (init_agg_ok rank w Hw fuel h0 q sq aq oq es1) with (ms := ms1) (offs := offs1)
    as (h' & R & Hq & EL); auto; try lia.
  - intros p' s' a' Lp' E'. eapply Fit0; [|exact E']. lia.
  - eapply Fit0; eauto.
  - exists h'. rewrite R. cbn [bind]. split; [reflexivity|]. split; [|exact Hq].
    intros q'. destruct (Nat.eq_dec q' q) as [->|Nq].
    + right. split; [lia|]. exists oq, sq, aq. auto.
    + destruct (EL q' Nq) as [|(A & B)]; [auto|right; split; [lia|auto]].
Qed.

Lemma init_agg_bad w : 16 <= w -> forall fuel h p,
  wf_theap rank h -> fits_below rank w (rank p) h -> (rank p < fuel)%nat ->
  undescribed h p -> exists h' offs, init_agg w fuel h p = Ok (FFI_BAD_TYPEDEF, h', offs).
Proof.
  intros Hw. induction fuel as [|fuel IH]; intros h p W Fit Lt U; [lia|].
  destruct (undescribed_inv _ _ U) as (o & G & Z0).
  cbn [init_agg]. rewrite G. cbn [of_option bind].
  destruct (o_elems o) as [es|] eqn:L; [|eauto].
  pose proof (init_agg_rec_ok w Hw fuel (rank p) ltac:(lia)) as RO.
  set (rec := fun h p => _) in *.
  assert (RB : rec_bad w (rank p) rec).
  { intros h0 q W0 Fit0 Lq Uq. destruct (IH h0 q W0) as (h' & offs & R); auto; [|lia|].
    - intros p' s' a' Lp' E'. eapply Fit0; [|exact E']. lia.
    - exists FFI_BAD_TYPEDEF, h'. unfold rec. rewrite R. split; [reflexivity|discriminate]. }
  assert (W0 : wf_theap rank (hset h p (set_layout o 0 0))) by (apply wf_set_layout; auto; lia).
  assert (Fr : forall q sq aq, (rank q < rank p)%nat ->
             (eff h q sq aq <-> eff (hset h p (set_layout o 0 0)) q sq aq)).
  { intros q sq aq Lq. split; intros Gq.
    - eapply (eff_frame rank h) with (p := p); eauto. intros q' L'. apply hset_other. intros ->; lia.
    - eapply (eff_frame rank (hset h p (set_layout o 0 0)) h) with (p := p); eauto.
      intros q' L'. symmetry. apply hset_other. intros ->; lia. }
  destruct es as [|e0 es].
  { cbn [init_loop bind]. rewrite hset_same. cbn [of_option bind set_layout o_size o_align].
    assert (ffi_align_w w 0 0 = 0) as ->.
    { unfold ffi_align_w, wrap. rewrite Z.lor_diag.
      assert (0 < 2 ^ w) by (apply Z.pow_pos_nonneg; lia).
      replace ((0 - 1) mod 2 ^ w) with (2 ^ w - 1) by (apply Z.mod_unique with (q := -1); lia).
      replace (2 ^ w - 1 + 1) with (2 ^ w) by lia. apply Z.mod_same; lia. }
    cbn [Z.eqb]. eauto. }
  assert (Hin : forall e, In e (e0 :: es) -> h e <> None /\ (rank e < rank p)%nat).
  { intros e He. destruct (W _ _ G) as (_ & _ & Wm). eapply Wm; eauto. }
  inversion U as [p2 o2 G2 Z2 L2|p2 o2 G2 Z2 L2|p2 o2 es2 e2 G2 Z2 L2 I2 U2]; subst;
    rewrite G in G2; injection G2 as <-; try congruence.
  rewrite L in L2; injection L2 as <-.
  destruct (init_loop_bad w rec p Hw RO RB (e0 :: es) (hset h p (set_layout o 0 0)) o 0 0)
    as (h' & offs & R); auto; try lia.
  - intros q sq aq Lq Gq. apply Fr in Gq; eauto.
  - apply hset_same.
  - intros e He. destruct (Hin e He). split; auto. rewrite hset_other; auto. intros ->; lia.
  - exists e2. split; auto. destruct (Hin e2 I2) as [N2 L2].
    destruct (eff_or_undescribed rank _ W0 e2) as [(s & a & E)|]; auto.
    + rewrite hset_other; auto. intros ->; lia.
    + apply Fr in E; auto. exfalso. eapply (eff_not_undescribed rank h W); eauto.
  - rewrite R. cbn [bind]. eauto.
Qed.

(** ** Whole preparations *)

Definition fits (w : Z) (h : theap) : Prop := forall p s a, eff h p s a -> s < 2 ^ w.
Definition refines (h h' : theap) : Prop :=
  forall q, h' q = h q \/
    (exists o s a, h q = Some o /\ o_size o = 0 /\ eff h q s a /\ h' q = Some (set_layout o s a)).

Lemma refines_refl h : refines h h.
Proof. intros q; auto. Qed.

Lemma refines_wf' h h' : wf_theap rank h -> refines h h' -> wf_theap rank h'.
Proof.
  intros W R q o Hq.
  assert (Hdom : forall e, h e <> None -> h' e <> None).
  { intros e He. destruct (R e) as [->|(o' & s & a & _ & _ & _ & ->)]; congruence. }
  destruct (R q) as [E|(o' & s & a & G & Z0 & E & G')].
  - rewrite E in Hq. destruct (W _ _ Hq) as (A & B & C). repeat split; auto.
    + apply Hdom. eapply C; eauto.
    + eapply C; eauto.
  - rewrite G' in Hq. injection Hq as <-. cbn.
    destruct (eff_pow2 rank h W _ _ _ E). destruct (W _ _ G) as (A & B & C).
    repeat split; auto; try lia.
    + apply Hdom. eapply C; eauto.
    + eapply C; eauto.
Qed.

Lemma refines_eff' h h' : wf_theap rank h -> refines h h' ->
  forall q s a, eff h q s a <-> eff h' q s a.
Proof.
  intros W R. pose proof (refines_wf' _ _ W R) as W'.
  induction q as [q IH] using (rank_ind rank). intros s a.
  destruct (R q) as [E|(o & s1 & a1 & G & Z0 & E & G')].
  - split; intros Ef; inversion Ef as [p1 o1 G1 Z1|p1 o1 es1 ms1 offs1 ss1 aa1 G1 Z1 L1 N1 F1 S1]; subst.
    + constructor; congruence.
    + econstructor; eauto; [congruence|].
      eapply Forall2_impl_in; [|exact F1]. cbn. intros e m He Em. apply IH; auto.
      destruct (W _ _ G1) as (_ & _ & Wm). eapply Wm; eauto.
    + constructor; congruence.
    + econstructor; eauto; [congruence|].
      eapply Forall2_impl_in; [|exact F1]. cbn. intros e m He Em. apply IH; auto.
      destruct (W' _ _ G1) as (_ & _ & Wm). eapply Wm; eauto.
  - destruct (eff_pow2 rank h W _ _ _ E) as [_ Pos]. split; intros Ef.
    + destruct (eff_det rank h W _ _ _ _ _ E Ef) as [-> ->].
      pose proof (eff_known h' q (set_layout o s a) G') as K; cbn in K. apply K; lia.
    + inversion Ef as [p1 o1 G1 Z1|p1 o1 es1 ms1 offs1 ss1 aa1 G1 Z1 L1 N1 F1 S1]; subst;
        rewrite G' in G1; injection G1 as <-; cbn in *; [exact E|lia].
Qed.

Lemma refines_trans' h1 h2 h3 : wf_theap rank h1 -> refines h1 h2 -> refines h2 h3 -> refines h1 h3.
Proof.
  intros W R1 R2 q. destruct (R2 q) as [->|(o & s & a & G & Z0 & E & G')].
  - apply R1.
  - right. exists o, s, a. destruct (R1 q) as [Eq|(o1 & s1 & a1 & G1 & Z1 & E1 & G1')].
    + rewrite Eq in G. repeat split; auto. eapply refines_eff'; eauto.
    + rewrite G1' in G. injection G as <-. cbn in Z0. destruct (eff_pow2 rank _ W _ _ _ E1). lia.
Qed.

Lemma refines_fits w h h' : wf_theap rank h -> refines h h' -> fits w h -> fits w h'.
Proof. intros W R F p s a E. eapply F. eapply refines_eff'; eauto. Qed.

Lemma refines_code h h' p o : refines h h' -> h p = Some o ->
  exists o', h' p = Some o' /\ o_code o' = o_code o /\ o_elems o' = o_elems o.
Proof.
  intros R G. destruct (R p) as [E|(o1 & s & a & G1 & _ & _ & G')].
  - exists o. rewrite E. auto.
  - rewrite G in G1. injection G1 as <-. eexists. split; eauto.
Qed.

Lemma init_if_needed_ok w fuel h p s a : 16 <= w -> wf_theap rank h -> fits w h ->
  (rank p < fuel)%nat -> eff h p s a ->
  exists h' o, init_if_needed w fuel h p = Ok (FFI_OK, h') /\ refines h h' /\
    h p = Some o /\ h' p = Some (set_layout o s a).
Proof.
  intros Hw W Fit Lt E. unfold init_if_needed.
  assert (exists o, h p = Some o) as (o & G) by (inversion E; subst; eauto).
  rewrite G. cbn [of_option bind].
  destruct (Z.eqb_spec (o_size o) 0) as [Z0|Z0].
  - assert (FB : fits_below rank w (S (rank p)) h) by (intros q sq aq _ Eq; eapply Fit; eauto).
    destruct (init_agg_rec_ok w Hw fuel (S (rank p)) ltac:(lia) h p s a o) as (h' & R & Ref & Hp); auto.
    destruct (init_agg w fuel h p) as [[[st h1] offs]| |]; cbn [bind] in R; try discriminate.
    injection R as -> ->. cbn [bind]. exists h', o. repeat split; auto.
    intros q. destruct (Ref q) as [|(_ & B)]; auto.
  - exists h, o. repeat split; auto using refines_refl.
    inversion E as [p1 o1 G1 Z1|p1 o1 es1 ms1 offs1 ss1 aa1 G1 Z1 L1 N1 F1 S1]; subst;
      rewrite G in G1; injection G1 as <-; [|congruence]. destruct o; auto.
Qed.

Lemma init_if_needed_bad w fuel h p : 16 <= w -> wf_theap rank h -> fits w h ->
  (rank p < fuel)%nat -> undescribed h p ->
  exists h', init_if_needed w fuel h p = Ok (FFI_BAD_TYPEDEF, h').
Proof.
  intros Hw W Fit Lt U. destruct (undescribed_inv _ _ U) as (o & G & Z0).
  unfold init_if_needed. rewrite G. cbn [of_option bind]. rewrite Z0. cbn [Z.eqb].
  destruct (init_agg_bad w Hw fuel h p W) as (h' & offs & R); auto.
  - intros q sq aq _ Eq; eapply Fit; eauto.
  - rewrite R. cbn [bind]. eauto.
Qed.

(** The stack size accumulated by the generic code, as a function of the layouts. *)
Fixpoint bytes_of (tg : target) (ms : list (Z * Z)) (bytes : Z) : Z :=
  match ms with
  | [] => bytes
  | (s, a) :: rest =>
    bytes_of tg rest
      (if tg_own_stack tg then bytes
       else wrap32 ((if Z.land (wrap32 (a - 1)) bytes =? 0 then bytes
                     else wrap32 (ffi_align_w (tg_width tg) bytes a))
                    + ffi_align_w (tg_width tg) s (tg_sizeof_arg tg)))
  end.

Lemma tcode_eqb_spec a b : tcode_eqb a b = true <-> a = b.
Proof. destruct a, b; cbn; split; intros; congruence. Qed.

Lemma complex_test_false tg h p o : complex_ok tg h p -> h p = Some o ->
  tcode_eqb (o_code o) T_COMPLEX && negb (tg_complex tg) = false.
Proof.
  intros [->|H] G; [apply andb_false_r|].
  destruct (tcode_eqb (o_code o) T_COMPLEX) eqn:E; [|reflexivity].
  apply tcode_eqb_spec in E. exfalso. eapply H; eauto.
Qed.

Lemma complex_ok_refines tg h h' p : refines h h' -> complex_ok tg h p -> complex_ok tg h' p.
Proof.
  intros R [C|C]; [left; auto|]. right. intros o' G'.
  destruct (R p) as [E|(o1 & s & a & G1 & _ & _ & G1')].
  - apply C. congruence.
  - rewrite G1' in G'. injection G' as <-. cbn. auto.
Qed.

Lemma prep_args_ok tg fuel : 16 <= tg_width tg -> forall ptrs ms h bytes,
  wf_theap rank h -> fits (tg_width tg) h ->
  (forall p, In p ptrs -> (rank p < fuel)%nat /\ complex_ok tg h p) ->
  Forall2 (fun p m => eff h p (fst m) (snd m)) ptrs ms ->
  exists h', prep_args tg fuel ptrs h bytes = Ok (FFI_OK, h', bytes_of tg ms bytes) /\ refines h h' /\
    forall p, In p ptrs -> exists o s a, h p = Some o /\ eff h p s a /\ h' p = Some (set_layout o s a).
Proof.
  intros Hw. induction ptrs as [|p ptrs IH]; intros ms h bytes W Fit Hin F.
  - inversion F; subst. exists h. repeat split; auto using refines_refl. intros p [].
  - inversion F as [|? [s a] ? ms' E F']; subst. cbn in E.
    destruct (Hin p (or_introl eq_refl)) as [Lp Cp].
    destruct (init_if_needed_ok (tg_width tg) fuel h p s a) as (h1 & o & R & Ref & G & G1); auto.
    cbn [prep_args]. rewrite R. cbn [bind]. rewrite G1. cbn [of_option bind].
    pose proof (complex_test_false tg h p o Cp G) as CT. cbn [set_layout o_code o_size o_align]. rewrite CT.
    pose proof (refines_wf' _ _ W Ref) as W1.
    destruct (IH ms' h1 (if tg_own_stack tg then bytes
       else wrap32 ((if Z.land (wrap32 (a - 1)) bytes =? 0 then bytes
                     else wrap32 (ffi_align_w (tg_width tg) bytes a))
                    + ffi_align_w (tg_width tg) s (tg_sizeof_arg tg))))
      as (h' & R' & Ref' & All); auto.
    + exact (refines_fits _ _ _ W Ref Fit).
    + intros q Hq. destruct (Hin q (or_intror Hq)). split; auto. eapply complex_ok_refines; eauto.
    + eapply Forall2_impl_in; [|exact F']. cbn. intros q m Hq Em. apply (refines_eff' _ _ W Ref); exact Em.
    + exists h'. split; [|split].
      * cbn [set_layout o_code o_size o_align]. rewrite R'. cbn [bytes_of]. reflexivity.
      * eapply refines_trans'; eauto.
      * intros q [->|Hq].
        -- exists o, s, a. repeat split; auto.
           destruct (Ref' q) as [->|(o2 & s2 & a2 & G2 & Z2 & _ & _)]; auto.
           rewrite G1 in G2. injection G2 as <-. cbn in Z2.
           destruct (eff_pow2 rank h W _ _ _ E). lia.
        -- destruct (All q Hq) as (o2 & s2 & a2 & G2 & E2 & G2').
           apply (refines_eff' _ _ W Ref) in E2.
           destruct (Ref q) as [Eq|(o3 & s3 & a3 & G3 & Z3 & E3 & G3')].
           ++ exists o2, s2, a2. repeat split; congruence.
           ++ exists o3, s3, a3. repeat split; auto. rewrite G3' in G2. injection G2 as <-.
              destruct (eff_det rank h W _ _ _ _ _ E2 E3) as [-> ->]. rewrite G2'. reflexivity.
Qed.

Lemma prep_args_bad tg fuel : 16 <= tg_width tg -> forall ptrs h bytes,
  wf_theap rank h -> fits (tg_width tg) h ->
  (forall p, In p ptrs -> h p <> None /\ (rank p < fuel)%nat /\ complex_ok tg h p) ->
  (exists p, In p ptrs /\ undescribed h p) ->
  exists h' b, prep_args tg fuel ptrs h bytes = Ok (FFI_BAD_TYPEDEF, h', b).
Proof.
  intros Hw. induction ptrs as [|p ptrs IH]; intros h bytes W Fit Hin (p' & Hp' & U); [contradiction|].
  destruct (Hin p (or_introl eq_refl)) as (Np & Lp & Cp). cbn [prep_args].
  destruct (eff_or_undescribed rank h W p Np) as [(s & a & E)|Up].
  - assert (Hp'' : In p' ptrs).
    { destruct Hp' as [->|]; auto. exfalso. eapply (eff_not_undescribed rank h W); eauto. }
    destruct (init_if_needed_ok (tg_width tg) fuel h p s a) as (h1 & o & R & Ref & G & G1); auto.
    rewrite R. cbn [bind]. rewrite G1. cbn [of_option bind].
    pose proof (complex_test_false tg h p o Cp G) as CT. cbn [set_layout o_code]. rewrite CT.
    pose proof (refines_wf' _ _ W Ref) as W1.
    apply IH; auto.
    + exact (refines_fits _ _ _ W Ref Fit).
    + intros q Hq. destruct (Hin q (or_intror Hq)) as (A & B & C). split; [|split; auto].
      * destruct (h q) as [oq|] eqn:Gq; [|congruence].
        destruct (refines_code _ _ _ _ Ref Gq) as (o' & -> & _). congruence.
      * eapply complex_ok_refines; eauto.
    + exists p'. split; auto.
      assert (h1 p' <> None).
      { destruct (Hin p' Hp') as (A & _). destruct (h p') as [oq|] eqn:Gq; [|congruence].
        destruct (refines_code _ _ _ _ Ref Gq) as (o' & -> & _). congruence. }
      destruct (eff_or_undescribed rank h1 W1 p' H) as [(s' & a' & E')|]; auto.
      apply (refines_eff' _ _ W Ref) in E'. exfalso. eapply (eff_not_undescribed rank h W); eauto.
  - destruct (init_if_needed_bad (tg_width tg) fuel h p) as (h1 & R); auto.
    rewrite R. cbn [bind]. eauto.
Qed.

Lemma prep_core_bad_abi tg fuel abi rt ats h : ~ abi_in_range tg abi ->
  prep_core tg fuel abi rt ats h = Ok (FFI_BAD_ABI, h, None).
Proof.
  intros H. unfold prep_core, abi_in_range in *.
  replace (negb _) with true; [reflexivity|]. lia.
Qed.

Lemma prep_core_ok tg fuel abi rt ats h sr ar ms :
  16 <= tg_width tg -> wf_theap rank h -> fits (tg_width tg) h ->
  abi_in_range tg abi ->
  (forall p, In p (rt :: ats) -> (rank p < fuel)%nat /\ complex_ok tg h p) ->
  eff h rt sr ar -> Forall2 (fun p m => eff h p (fst m) (snd m)) ats ms ->
  exists h' ort, h rt = Some ort /\
    prep_core tg fuel abi rt ats h =
      Ok (FFI_OK, h', Some (Cif abi ats rt (bytes_of tg ms
          (if negb (tg_own_stack tg) && tcode_eqb (o_code ort) T_STRUCT
           then ffi_align_w (tg_width tg) (tg_ptr_size tg) (tg_sizeof_arg tg) else 0)) 0)) /\
    refines h h' /\
    forall p, In p (rt :: ats) -> exists o s a, h p = Some o /\ eff h p s a /\ h' p = Some (set_layout o s a).
Proof.
  intros Hw W Fit Habi Hin Er F. unfold prep_core, abi_in_range in *.
  replace (negb _) with false by lia.
  destruct (Hin rt (or_introl eq_refl)) as [Lr Cr].
  destruct (init_if_needed_ok (tg_width tg) fuel h rt sr ar) as (h1 & o & R & Ref & G & G1); auto.
  rewrite R. cbn [bind]. rewrite G1. cbn [of_option bind set_layout o_code].
  rewrite (complex_test_false tg h rt o Cr G).
  pose proof (refines_wf' _ _ W Ref) as W1.
  destruct (prep_args_ok tg fuel Hw ats ms h1
    (if negb (tg_own_stack tg) && tcode_eqb (o_code o) T_STRUCT
           then ffi_align_w (tg_width tg) (tg_ptr_size tg) (tg_sizeof_arg tg) else 0)) as (h' & R' & Ref' & All); auto.
  - exact (refines_fits _ _ _ W Ref Fit).
  - intros q Hq. destruct (Hin q (or_intror Hq)). split; auto. eapply complex_ok_refines; eauto.
  - eapply Forall2_impl_in; [|exact F]. cbn. intros q m Hq Em. apply (refines_eff' _ _ W Ref); exact Em.
  - exists h', o. rewrite R'. cbn [bind]. split; [auto|]. split; [reflexivity|].
    split; [eapply refines_trans'; eauto|].
    intros q [->|Hq].
    + exists o, sr, ar. repeat split; auto.
      destruct (Ref' q) as [->|(o2 & s2 & a2 & G2 & Z2 & _ & _)]; auto.
      rewrite G1 in G2. injection G2 as <-. cbn in Z2.
      destruct (eff_pow2 rank h W _ _ _ Er). lia.
    + destruct (All q Hq) as (o2 & s2 & a2 & G2 & E2 & G2').
      apply (refines_eff' _ _ W Ref) in E2.
      destruct (Ref q) as [Eq|(o3 & s3 & a3 & G3 & Z3 & E3 & G3')].
      * exists o2, s2, a2. repeat split; congruence.
      * exists o3, s3, a3. repeat split; auto. rewrite G3' in G2. injection G2 as <-.
        destruct (eff_det rank h W _ _ _ _ _ E2 E3) as [-> ->]. rewrite G2'. reflexivity.
Qed.

Lemma prep_core_bad_typedef tg fuel abi rt ats h :
  16 <= tg_width tg -> wf_theap rank h -> fits (tg_width tg) h ->
  abi_in_range tg abi ->
  (forall p, In p (rt :: ats) -> h p <> None /\ (rank p < fuel)%nat /\ complex_ok tg h p) ->
  (exists p, In p (rt :: ats) /\ undescribed h p) ->
  exists h', prep_core tg fuel abi rt ats h = Ok (FFI_BAD_TYPEDEF, h', None).
Proof.
  intros Hw W Fit Habi Hin (p & Hp & U). unfold prep_core, abi_in_range in *.
  replace (negb _) with false by lia.
  destruct (Hin rt (or_introl eq_refl)) as (Nr & Lr & Cr).
  destruct (eff_or_undescribed rank h W rt Nr) as [(s & a & E)|Ur].
  - destruct (init_if_needed_ok (tg_width tg) fuel h rt s a) as (h1 & o & R & Ref & G & G1); auto.
    rewrite R. cbn [bind]. rewrite G1. cbn [of_option bind set_layout o_code].
    rewrite (complex_test_false tg h rt o Cr G).
    pose proof (refines_wf' _ _ W Ref) as W1.
    assert (Hp' : In p ats).
    { destruct Hp as [->|]; auto. exfalso. eapply (eff_not_undescribed rank h W); eauto. }
    assert (Dom : forall q, h q <> None -> h1 q <> None).
    { intros q A. destruct (h q) as [oq|] eqn:Gq; [|congruence].
        destruct (refines_code _ _ _ _ Ref Gq) as (o' & -> & _). congruence. }
    edestruct (prep_args_bad tg fuel Hw ats h1) as (h' & b & R'); auto.
    + exact (refines_fits _ _ _ W Ref Fit).
    + intros q Hq. destruct (Hin q (or_intror Hq)) as (A & B & C). repeat split; auto.
      eapply complex_ok_refines; eauto.
    + exists p. split; auto. destruct (Hin p Hp) as (A & _).
      destruct (eff_or_undescribed rank h1 W1 p (Dom _ A)) as [(s' & a' & E')|]; auto.
      apply (refines_eff' _ _ W Ref) in E'. exfalso. eapply (eff_not_undescribed rank h W); eauto.
    + rewrite R'. cbn [bind]. eauto.
  - destruct (init_if_needed_bad (tg_width tg) fuel h rt) as (h1 & R); auto.
    rewrite R. cbn [bind]. eauto.
Qed.
End Rank2.
