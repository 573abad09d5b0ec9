(** Statements of TypeHeapProofs(2) in terms of TypeHeapSpec, and histories. *)
From Coq Require Import ZifyBool ZifyNat.
From Verif Require Import Base BaseFacts Types TypeHeapModel LayoutSpec TypeHeapSpec TypeHeapProofs TypeHeapProofs2.

Section Rank3.
Context (rank : tptr -> nat).

Lemma fits_of_sizes_fit w h : wf_theap rank h -> sizes_fit w h -> fits w h.
Proof. intros W F p s a E. eapply F. apply (eff_eff_layout rank); eauto. Qed.

Lemma refines_only h h' : wf_theap rank h -> refines h h' -> only_laid_out h h'.
Proof.
  intros W R q. destruct (R q) as [|(o & s & a & G & Z0 & E & G')]; auto.
  right. exists o, s, a. repeat split; auto. apply (eff_eff_layout rank); auto.
Qed.

Lemma only_refines h h' : wf_theap rank h -> only_laid_out h h' -> refines h h'.
Proof.
  intros W R q. destruct (R q) as [|(o & s & a & G & Z0 & E & G')]; auto.
  right. exists o, s, a. repeat split; auto. apply (eff_eff_layout rank); auto.
Qed.

Lemma only_layout h h' : wf_theap rank h -> only_laid_out h h' ->
  forall q s a, eff_layout h q s a <-> eff_layout h' q s a.
Proof.
  intros W O q s a. apply only_refines in O; auto.
  pose proof (refines_wf' rank _ _ W O) as W'.
  rewrite <- (eff_eff_layout rank h W), <- (eff_eff_layout rank h' W').
  apply (refines_eff' rank); auto.
Qed.

Lemma layout_or_undescribed h p : wf_theap rank h -> h p <> None ->
  (exists s a, eff_layout h p s a) \/ undescribed h p.
Proof.
  intros W N. destruct (eff_or_undescribed rank h W p N) as [(s & a & E)|]; auto.
  left. exists s, a. apply (eff_eff_layout rank); auto.
Qed.

Lemma layout_not_undescribed h p s a : wf_theap rank h -> eff_layout h p s a -> ~ undescribed h p.
Proof.
  intros W E U. apply (eff_eff_layout rank) in E; auto. eapply (eff_not_undescribed rank); eauto.
Qed.

Lemma layout_list h ps : wf_theap rank h -> (forall p, In p ps -> exists s a, eff_layout h p s a) ->
  exists ms, Forall2 (fun p m => eff h p (fst m) (snd m)) ps ms.
Proof.
  intros W. induction ps as [|p ps IH]; intros H; [exists []; constructor|].
  destruct IH as (ms & F); [intros; apply H; right; auto|].
  destruct (H p (or_introl eq_refl)) as (s & a & E). apply (eff_eff_layout rank) in E; auto.
  exists ((s, a) :: ms). constructor; auto.
Qed.

(** ** Statuses of the generic preparation *)

Lemma well_typed_refines tg fuel h h' r : refines h h' -> well_typed rank tg fuel h r -> well_typed rank tg fuel h' r.
Proof.
  intros R H p Hp. destruct (H p Hp) as (A & B & C). split; [|split; auto].
  - destruct (h p) as [o|] eqn:G; [|congruence]. destruct (refines_code _ _ _ _ R G) as (o' & -> & _). congruence.
  - eapply complex_ok_refines; eauto.
Qed.

Lemma prep_request_status tg fuel r h :
  16 <= tg_width tg -> wf_theap rank h -> sizes_fit (tg_width tg) h -> well_typed rank tg fuel h r ->
  (~ abi_in_range tg (fst (fst r)) /\ prep_request tg fuel r h = Ok (FFI_BAD_ABI, h, None)) \/
  (abi_in_range tg (fst (fst r)) /\ (exists p, In p (sig_types r) /\ undescribed h p) /\
     exists h', prep_request tg fuel r h = Ok (FFI_BAD_TYPEDEF, h', None)) \/
  (abi_in_range tg (fst (fst r)) /\ (forall p, In p (sig_types r) -> exists s a, eff_layout h p s a) /\
     exists h' c, prep_request tg fuel r h = Ok (FFI_OK, h', Some c) /\ only_laid_out h h' /\
       cif_abi c = fst (fst r) /\ cif_rtype c :: cif_args c = sig_types r /\
       forall p s a, In p (sig_types r) -> eff_layout h p s a ->
         exists o, h p = Some o /\ h' p = Some (TObj s a (o_code o) (o_elems o))).
Proof.
  destruct r as [[abi rt] ats]. cbn [fst sig_types prep_request]. intros Hw W SF WT.
  pose proof (fits_of_sizes_fit _ _ W SF) as Fit.
  destruct (Z_lt_dec (tg_first_abi tg) abi) as [A1|A1]; [destruct (Z_lt_dec abi (tg_last_abi tg)) as [A2|A2]|].
  2,3: left; assert (NA : ~ abi_in_range tg abi) by (unfold abi_in_range; intros [? ?]; auto);
    split; [exact NA|eapply prep_core_bad_abi; eassumption].
  assert (Habi : abi_in_range tg abi) by (unfold abi_in_range; lia). right.
  assert (D : (forall p, In p (rt :: ats) -> exists s a, eff_layout h p s a) \/
              (exists p, In p (rt :: ats) /\ undescribed h p)).
  { assert (N : forall p, In p (rt :: ats) -> h p <> None) by (intros p Hp; apply (WT p Hp)).
    clear WT. induction (rt :: ats) as [|p l IH]; [left; intros p []|].
    destruct (layout_or_undescribed h p W (N p (or_introl eq_refl))) as [E|U].
    2: { right; exists p; split; [left; auto|auto]. }
    destruct IH as [IH|(q & Hq & U)].
    - intros q Hq. apply N. right; auto.
    - left. intros q [<-|Hq]; auto.
    - right. exists q. split; [right; auto|auto]. }
  destruct D as [All|U].
  - right. split; [auto|]. split; [auto|].
    destruct (All rt (or_introl eq_refl)) as (sr & ar & Er). apply (eff_eff_layout rank) in Er; auto.
    destruct (layout_list h ats W) as (ms & F); [intros; apply All; right; auto|].
    destruct (prep_core_ok rank tg fuel abi rt ats h sr ar ms) as (h' & ort & _ & R & Ref & Rec); auto.
    { intros p Hp. destruct (WT p Hp) as (A & B & C). auto. }
    eexists h', _. split; [exact R|]. split; [apply refines_only; auto|]. cbn. repeat split; auto.
    intros p s a Hp E. apply (eff_eff_layout rank) in E; auto.
    destruct (Rec p Hp) as (o & s1 & a1 & G & E1 & G'). exists o. split; auto.
    destruct (eff_det rank h W _ _ _ _ _ E E1) as [-> ->]. exact G'.
  - left. split; [auto|]. split; [auto|].
    apply (prep_core_bad_typedef rank); auto.
Qed.

(** ** Histories of successful preparations *)

Lemma only_trans h1 h2 h3 : wf_theap rank h1 -> only_laid_out h1 h2 -> only_laid_out h2 h3 -> only_laid_out h1 h3.
Proof.
  intros W A B. apply refines_only; auto. pose proof (only_refines _ _ W A) as A'.
  eapply (refines_trans' rank); eauto. apply only_refines; auto. eapply refines_wf'; eauto.
Qed.

Lemma only_wf h h' : wf_theap rank h -> only_laid_out h h' -> wf_theap rank h'.
Proof. intros W A. apply (refines_wf' rank h); auto. apply only_refines; auto. Qed.

Lemma only_fit w h h' : wf_theap rank h -> only_laid_out h h' -> sizes_fit w h -> sizes_fit w h'.
Proof. intros W A F p s a E. eapply F. eapply only_layout; eauto. Qed.

Lemma prep_history_only tg fuel rs : 16 <= tg_width tg -> forall h h', wf_theap rank h ->
  sizes_fit (tg_width tg) h -> (forall r, In r rs -> well_typed rank tg fuel h r) ->
  prep_history tg fuel rs h = Some h' -> only_laid_out h h'.
Proof.
  intros Hw. induction rs as [|r rs IH]; intros h h' W SF WT H; cbn in H.
  - injection H as <-. intros q; auto.
  - destruct (prep_request_status tg fuel r h Hw W SF (WT r (or_introl eq_refl)))
      as [(_ & R)|[(_ & _ & h1 & R)|(_ & _ & h1 & c & R & O & _)]]; rewrite R in H; try discriminate.
    pose proof (only_refines _ _ W O) as Ref.
    eapply only_trans; eauto. eapply IH; eauto.
    + eapply only_wf; eauto.
    + eapply only_fit; eauto.
    + intros r' Hr'. eapply well_typed_refines; eauto. apply WT. right; auto.
Qed.

(** The cif computed does not depend on preparations made before. *)
Lemma prep_request_same tg fuel r h h' h1 c :
  16 <= tg_width tg -> wf_theap rank h -> sizes_fit (tg_width tg) h -> well_typed rank tg fuel h r ->
  only_laid_out h h' -> prep_request tg fuel r h = Ok (FFI_OK, h1, Some c) ->
  exists h2, prep_request tg fuel r h' = Ok (FFI_OK, h2, Some c).
Proof.
  intros Hw W SF WT O R.
  destruct (prep_request_status tg fuel r h Hw W SF WT)
      as [(_ & R')|[(_ & _ & h1' & R')|(Habi & All & h1' & c' & R' & _)]]; rewrite R in R'; try discriminate.
  clear R' c' h1'. destruct r as [[abi rt] ats]. cbn [fst sig_types prep_request] in *.
  pose proof (only_refines _ _ W O) as Ref. pose proof (only_wf _ _ W O) as W'.
  pose proof (fits_of_sizes_fit _ _ W SF) as Fit.
  pose proof (fits_of_sizes_fit _ _ W' (only_fit _ _ _ W O SF)) as Fit'.
  destruct (All rt (or_introl eq_refl)) as (sr & ar & Er). apply (eff_eff_layout rank) in Er; auto.
  destruct (layout_list h ats W) as (ms & F); [intros; apply All; right; auto|].
  destruct (prep_core_ok rank tg fuel abi rt ats h sr ar ms) as (hx & ort & Go & Rx & _ & _); auto.
  { intros p Hp. destruct (WT p Hp) as (A & B & C). auto. }
  rewrite R in Rx. injection Rx as -> ->.
  pose proof (well_typed_refines tg fuel _ _ (abi, rt, ats) Ref WT) as WT'.
  destruct (prep_core_ok rank tg fuel abi rt ats h' sr ar ms) as (hy & ort' & Go' & Ry & _ & _); auto.
  { intros p Hp. destruct (WT' p Hp) as (A & B & C). auto. }
  { apply (refines_eff' rank _ _ W Ref). auto. }
  { eapply Forall2_impl_in; [|exact F]. cbn. intros q m Hq Em. apply (refines_eff' rank _ _ W Ref); exact Em. }
  exists hy. rewrite Ry. destruct (refines_code _ _ _ _ Ref Go) as (o' & G' & E & _).
  rewrite G' in Go'. injection Go' as <-. rewrite E. reflexivity.
Qed.

(** ** Retrying after a rejection *)

Lemma left_undescribed_undescribed h p : left_undescribed h p -> undescribed h p.
Proof.
  induction 1 as [p o G Z L|p o G Z L|p o e es G Z L H IH].
  - eapply undescribed_null; eauto.
  - eapply undescribed_empty; eauto.
  - eapply undescribed_member; eauto. left; auto.
Qed.

Lemma ffi_align_00 w : 0 <= w -> ffi_align_w w 0 0 = 0.
Proof.
  intros Hw. unfold ffi_align_w, wrap. rewrite Z.lor_diag.
  assert (0 < 2 ^ w) by (apply Z.pow_pos_nonneg; lia).
  replace ((0 - 1) mod 2 ^ w) with (2 ^ w - 1) by (apply Z.mod_unique with (q := -1); lia).
  replace (2 ^ w - 1 + 1) with (2 ^ w) by lia. apply Z.mod_same; lia.
Qed.

Lemma left_frame h h' p : left_undescribed h p -> acyclic rank h ->
  (forall q, (rank q <= rank p)%nat -> h' q = h q) -> left_undescribed h' p.
Proof.
  intros L Ac. induction L as [p o G Z L|p o G Z L|p o e es G Z L H IH]; intros Eq.
  - eapply left_null; eauto. rewrite Eq; auto.
  - eapply left_empty; eauto. rewrite Eq; auto.
  - eapply left_member; eauto; [rewrite Eq; auto|]. apply IH.
    intros q Hq. apply Eq. destruct (Ac _ _ _ e G L (or_introl eq_refl)). lia.
Qed.

Lemma init_agg_left w : 0 <= w -> forall fuel h p, acyclic rank h -> (rank p < fuel)%nat -> left_undescribed h p ->
  exists h' offs, init_agg w fuel h p = Ok (FFI_BAD_TYPEDEF, h', offs) /\ left_undescribed h' p /\
    forall q, (rank p < rank q)%nat -> h' q = h q.
Proof.
  intros Hw. induction fuel as [|fuel IH]; intros h p Ac Lt L; [lia|].
  cbn [init_agg]. inversion L as [p1 o G Z E|p1 o G Z E|p1 o e es G Z E L']; subst; rewrite G; cbn [of_option bind]; rewrite E.
  - exists h, []. repeat split; auto.
  - cbn [init_loop bind]. rewrite hset_same. cbn [of_option bind set_layout o_size o_align].
    rewrite ffi_align_00 by auto. cbn [Z.eqb]. eexists _, _. split; [reflexivity|]. split.
    + eapply left_empty; [apply hset_same| |]; cbn; auto.
    + intros q Hq. rewrite !hset_other; auto; intros ->; lia.
  - destruct (Ac _ _ _ e G E (or_introl eq_refl)) as [Ne Le].
    set (h0 := hset h p (set_layout o 0 0)).
    assert (Ac0 : acyclic rank h0).
    { intros p2 o2 es2 e2 G2 L2 I2.
      assert (Hdom : forall x, h x <> None -> h0 x <> None).
      { intros x. unfold h0, hset. destruct (Nat.eqb x p); congruence. }
      unfold h0, hset in G2. destruct (Nat.eqb_spec p2 p) as [->|N2].
      - injection G2 as <-. cbn in L2. destruct (Ac _ _ _ e2 G L2 I2). auto.
      - destruct (Ac _ _ _ e2 G2 L2 I2). auto. }
    assert (L0 : left_undescribed h0 e).
    { eapply left_frame; eauto. intros q Hq. apply hset_other. intros ->. lia. }
    destruct (IH h0 e Ac0 ltac:(lia) L0) as (h1 & offs & R & L1 & Fr).
    assert (exists oe, h0 e = Some oe /\ o_size oe = 0) as (oe & Ge & Ze) by (inversion L0; subst; eauto).
    cbn [init_loop]. rewrite Ge. cbn [of_option bind]. rewrite Ze. cbn [Z.eqb]. rewrite R. cbn [bind].
    exists h1, []. split; [reflexivity|]. split.
    + eapply left_member with (o := set_layout o 0 0); eauto.
      rewrite (Fr p) by lia. apply hset_same.
    + intros q Hq. rewrite Fr by lia. apply hset_other. intros ->; lia.
Qed.

(** ** Termination of whole preparations *)

Definition touches_any (ps : list tptr) (h h' : theap) : Prop :=
  forall q, h' q = h q \/
    (exists o s a p, In p ps /\ reaches h p q /\ h q = Some o /\ h' q = Some (set_layout o s a) /\ o_size o = 0).

Lemma touches_any_shape ps h h' : acyclic rank h -> touches_any ps h h' -> acyclic rank h' /\
  (forall q, h q <> None -> h' q <> None) /\ (forall p q, reaches h' p q -> reaches h p q).
Proof.
  intros Ac T.
  assert (Hdom : forall e, h e <> None -> h' e <> None).
  { intros e' He. destruct (T e') as [->|(o' & s & a & p & _ & _ & _ & -> & _)]; congruence. }
  assert (El : forall p o, h' p = Some o -> exists o0, h p = Some o0 /\ o_elems o0 = o_elems o).
  { intros p o G. destruct (T p) as [E|(o' & s & a & p' & _ & _ & G1 & G2 & _)].
    - exists o. rewrite <- E. auto.
    - rewrite G2 in G. injection G as <-. exists o'. auto. }
  split; [|split; auto].
  - intros p o es e G L I. destruct (El _ _ G) as (o0 & G0 & E0).
    destruct (Ac p o0 es e G0); auto. congruence.
  - induction 1 as [|p o es e q G L I R IH]; [constructor|].
    destruct (El _ _ G) as (o0 & G0 & E0). eapply reaches_step; eauto. congruence.
Qed.

Lemma touches_any_trans ps h h1 h2 : acyclic rank h -> touches_any ps h h1 -> touches_any ps h1 h2 ->
  touches_any ps h h2.
Proof.
  intros Ac T1 T2 q. destruct (touches_any_shape _ _ _ Ac T1) as (_ & _ & Re).
  destruct (T2 q) as [->|(o & s & a & p & I & R & G & G' & Z0)]; [apply T1|]. right.
  destruct (T1 q) as [E|(o1 & s1 & a1 & p1 & I1 & R1 & G1 & G1' & Z1)].
  - exists o, s, a, p. rewrite E in G. repeat split; auto.
  - exists o1, s, a, p1. rewrite G1' in G. injection G as <-. repeat split; auto.
Qed.

Lemma init_if_needed_total w fuel h p ps : acyclic rank h -> (rank p < fuel)%nat -> h p <> None -> In p ps ->
  exists st h', init_if_needed w fuel h p = Ok (st, h') /\ touches_any ps h h' /\
    (st = FFI_OK \/ st = FFI_BAD_TYPEDEF).
Proof.
  intros Ac Lt N I. unfold init_if_needed. destruct (h p) as [o|] eqn:G; [|congruence]. cbn [of_option bind].
  destruct (Z.eqb_spec (o_size o) 0) as [Z0|Z0].
  - destruct (init_agg_total rank w fuel h p o Ac Lt G) as (st & h' & offs & R & T & St & _).
    rewrite R. cbn [bind]. eexists _, h'. split; [reflexivity|]. split.
    + intros q. destruct (T q) as [|(o1 & s & a & G1 & G2 & Re & C)]; auto. right.
      exists o1, s, a, p. repeat split; auto. destruct C as [->|]; auto. congruence.
    + destruct St as [->| ->]; auto.
  - exists FFI_OK, h. repeat split; auto. intros q; auto.
Qed.

Lemma prep_args_total tg fuel ps : forall ptrs h bytes, acyclic rank h ->
  (forall p, In p ptrs -> In p ps /\ (rank p < fuel)%nat /\ h p <> None) ->
  (exists st h' b, prep_args tg fuel ptrs h bytes = Ok (st, h', b) /\ touches_any ps h h') \/
  (prep_args tg fuel ptrs h bytes = Abort /\ tg_complex tg = false).
Proof.
  induction ptrs as [|p ptrs IH]; intros h bytes Ac H; cbn [prep_args].
  - left. eexists _, h, _. split; [reflexivity|]. intros q; auto.
  - destruct (H p (or_introl eq_refl)) as (Ip & Lp & Np).
    destruct (init_if_needed_total (tg_width tg) fuel h p ps Ac Lp Np Ip) as (st & h1 & R & T & St).
    rewrite R. cbn [bind]. destruct (touches_any_shape _ _ _ Ac T) as (Ac1 & Dom & Re).
    destruct St as [-> | ->]; [|left; eauto].
    destruct (h1 p) as [o|] eqn:G; [|exfalso; apply (Dom p); congruence]. cbn [of_option bind].
    destruct (_ && _) eqn:C.
    + right. split; auto. apply andb_prop in C as [_ C]. destruct (tg_complex tg); auto; discriminate.
    + match goal with |- context [prep_args tg fuel ptrs h1 ?b] => set (bb := b) end.
      destruct (IH h1 bb Ac1) as [(st & h2 & b & R2 & T2)|[R2 C2]].
      * intros q Hq. destruct (H q (or_intror Hq)) as (A & B & D). auto.
      * left. exists st, h2, b. split; auto. eapply touches_any_trans; eauto.
      * right. auto.
Qed.

Lemma prep_core_total tg fuel abi rt ats h : acyclic rank h ->
  (forall p, In p (rt :: ats) -> h p <> None /\ (rank p < fuel)%nat) ->
  (exists st h' c, prep_core tg fuel abi rt ats h = Ok (st, h', c) /\ touches_any (rt :: ats) h h') \/
  (prep_core tg fuel abi rt ats h = Abort /\ tg_complex tg = false).
Proof.
  intros Ac H. unfold prep_core. destruct (negb _).
  { left. eexists _, h, _. split; [reflexivity|]. intros q; auto. }
  destruct (H rt (or_introl eq_refl)) as (Np & Lp).
  destruct (init_if_needed_total (tg_width tg) fuel h rt (rt :: ats) Ac Lp Np (or_introl eq_refl)) as (st & h1 & R & T & St).
  rewrite R. cbn [bind]. destruct (touches_any_shape _ _ _ Ac T) as (Ac1 & Dom & Re).
  destruct St as [-> | ->]; [|left; eauto].
  destruct (h1 rt) as [o|] eqn:G; [|exfalso; apply (Dom rt); congruence]. cbn [of_option bind].
  destruct (_ && _) eqn:C.
  + right. split; auto. apply andb_prop in C as [_ C]. destruct (tg_complex tg); auto; discriminate.
  + match goal with |- context [prep_args tg fuel ats h1 ?b] => set (bb := b) end.
    destruct (prep_args_total tg fuel (rt :: ats) ats h1 bb Ac1) as [(st & h2 & b & R2 & T2)|[R2 C2]].
    * intros q Hq. destruct (H q (or_intror Hq)) as (A & B). repeat split; auto. right; auto.
    * left. rewrite R2. cbn [bind]. destruct st; eexists _, h2, _; (split; [reflexivity|]); eapply touches_any_trans; eauto.
    * right. rewrite R2. auto.
Qed.

(** ** Offsets *)

Lemma struct_offsets_ok tg fuel abi p h ms offs s a : 16 <= tg_width tg ->
  wf_theap rank h -> sizes_fit (tg_width tg) h -> (rank p < fuel)%nat -> abi_in_range tg abi ->
  members_of h p ms -> struct_layout ms offs s a -> s < 2 ^ tg_width tg ->
  exists h' o, get_struct_offsets tg fuel abi p h = Ok (FFI_OK, h', offs) /\
    h p = Some o /\ h' p = Some (TObj s a (o_code o) (o_elems o)) /\
    forall q, q <> p -> h' q = h q \/
      exists oq sq aq, h q = Some oq /\ o_size oq = 0 /\ eff_layout h q sq aq /\
        h' q = Some (TObj sq aq (o_code oq) (o_elems oq)).
Proof.
  intros Hw W SF Lt Habi (o & es & G & C & L & NE & F) SL Hs.
  unfold get_struct_offsets, abi_in_range in *. replace (negb _) with false by lia.
  rewrite G. cbn [of_option bind]. rewrite C. cbn [tcode_eqb negb].
  destruct (init_agg_ok rank (tg_width tg) Hw fuel h p s a o es) with (ms := ms) (offs := offs)
    as (h' & R & Hp & EL); auto.
  - intros q sq aq _ Eq. apply (fits_of_sizes_fit _ _ W SF) in Eq. exact Eq.
  - eapply Forall2_impl_in; [|exact F]. cbn. intros e m _ E. apply (eff_eff_layout rank); auto.
  - exists h', o. rewrite R. repeat split; auto.
    intros q Hq. destruct (EL q Hq) as [|(_ & oq & sq & aq & Gq & Zq & Eq & Gq')]; auto. right.
    exists oq, sq, aq. repeat split; auto. apply (eff_eff_layout rank); auto.
Qed.

(** ** Variadic check *)

Lemma tcode_eqb_false a b : tcode_eqb a b = false <-> a <> b.
Proof. rewrite <- tcode_eqb_spec. destruct (tcode_eqb a b); split; congruence. Qed.

Lemma var_check_spec float_obj int_size h ps :
  (forall p, In p ps -> h p <> None) ->
  (forall p o, In p ps -> h p = Some o -> (p = float_obj <-> o_code o = T_FLOAT)) ->
  exists st, var_check float_obj int_size h ps = Ok st /\
    ((st = FFI_BAD_ARGTYPE /\ exists p, In p ps /\ unpromoted h int_size p) \/
     (st = FFI_OK /\ forall p, In p ps -> ~ unpromoted h int_size p)).
Proof.
  induction ps as [|p ps IH]; intros N Fl; cbn [var_check].
  - exists FFI_OK. split; auto.
  - destruct (h p) as [o|] eqn:G; [|exfalso; apply (N p); [left|]; auto]. cbn [of_option bind].
    pose proof (Fl p o (or_introl eq_refl) G) as Fp.
    destruct (_ || _) eqn:B.
    + exists FFI_BAD_ARGTYPE. split; auto. left. split; auto. exists p. split; [left; auto|].
      exists o. split; auto. apply orb_prop in B as [B|B].
      * left. apply Fp. lia.
      * right. apply andb_prop in B as [B B2]. apply andb_prop in B as [B0 B1].
        rewrite negb_true_iff in B0, B1. apply tcode_eqb_false in B0, B1. repeat split; auto. lia.
    + destruct IH as (st & R & [[-> (q & Hq & U)]|[-> U]]).
      * intros q Hq. apply N. right; auto.
      * intros q oq Hq. apply Fl. right; auto.
      * exists FFI_BAD_ARGTYPE. split; auto. left. split; auto. exists q. split; [right|]; auto.
      * exists FFI_OK. split; auto. right. split; auto. intros q [<-|Hq]; auto.
        intros (o' & G' & C). rewrite G in G'. injection G' as <-.
        apply orb_false_iff in B as [B0 B]. destruct C as [C|(C1 & C2 & C3)].
        -- apply Fp in C. lia.
        -- apply tcode_eqb_false in C1, C2. rewrite C1, C2 in B. cbn in B. lia.
Qed.

End Rank3.
