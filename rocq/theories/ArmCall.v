(** The arguments that ffi_call stores on ARM. *)
From Coq Require Import ZifyBool ZifyNat.
From Verif Require Import Base BaseFacts Types LayoutSpec NaturalTypes NaturalFacts ByteMem ArmModel ArmSpec ArmHfa ArmFp ArmPlan.
Local Arguments Z.mul : simpl never.
Local Arguments Z.add : simpl never.

(** ** One argument *)

(** The bytes stored. *)
Definition image (t : ftype) (o : list Z) : list Z :=
  if small_int (ty_code t) then le_enc 4 (word_value (ty_code t) o) else o.

Lemma small_size t : ctype t -> small_int (ty_code t) = true -> ty_size t = 1 \/ ty_size t = 2 \/ ty_size t = 4.
Proof.
  intros C. inversion C as [|t0 H|t0 H|s0 a0 es0 offs NE F SL]; subst; cbn; auto; try discriminate.
  cbn in H. in_cases H; cbn; auto; discriminate.
Qed.
Lemma image_len t o : ctype t -> zlen o = ty_size t -> ty_size t <= zlen (image t o) <= words t.
Proof.
  intros C L. destruct (words_ge t C) as [W1 W2]. unfold image. destruct (small_int (ty_code t)) eqn:S; [|lia].
  destruct (small_size t C S) as [E|[E|E]]; rewrite le_enc_zlen; lia.
Qed.

Lemma le_enc_low n m x : (n <= m)%nat -> le_enc n (x mod 2 ^ (8 * Z.of_nat m)) = le_enc n x.
Proof. intros L. rewrite <- (le_enc_firstn n m (x mod _)) by auto. rewrite le_enc_mod. apply le_enc_firstn. auto. Qed.
Lemma le_enc_signed n o : length o = n -> (0 < n)%nat -> bytes_ok o -> le_enc n (to_signed (8 * Z.of_nat n) (le_dec o)) = o.
Proof.
  intros L P B. rewrite <- le_enc_mod, to_signed_mod by lia. rewrite le_enc_mod, <- L. apply le_enc_dec. auto.
Qed.
Lemma image_object t o : ctype t -> zlen o = ty_size t -> bytes_ok o -> firstn (Z.to_nat (ty_size t)) (image t o) = o.
Proof.
  intros C L B. unfold image. destruct (small_int (ty_code t)) eqn:S.
  - assert (LN : length o = Z.to_nat (ty_size t)) by (unfold zlen in L; lia).
    assert (SZ : (1 <= Z.to_nat (ty_size t) <= 4)%nat) by (destruct (small_size t C S) as [E|[E|E]]; rewrite E; cbn; lia).
    rewrite le_enc_firstn by lia. unfold word_value. change (2 ^ 32) with (2 ^ (8 * Z.of_nat 4)). rewrite le_enc_low by lia.
    destruct (signed (ty_code t)).
    + replace (8 * zlen o) with (8 * Z.of_nat (Z.to_nat (ty_size t))) by lia. apply le_enc_signed; auto; lia.
    + rewrite <- LN. apply le_enc_dec. auto.
  - apply firstn_all2. unfold zlen in L. lia.
Qed.

Lemma store_ok lo hi m a d : lo <= a -> a + zlen d <= hi -> store lo hi m a d = Ok (wr m a d).
Proof. intros A B. unfold store. replace ((lo <=? a) && (a + zlen d <=? hi)) with true by lia. reflexivity. Qed.

Ltac num o L G FIN :=
  match type of G with get_range _ 0 (ty_size ?t) = _ =>
    let z := eval vm_compute in (ty_size t) in change (ty_size t) with z in G, L;
    let c := eval vm_compute in (ty_code t) in change (ty_code t) with c;
    cbv iota; rewrite G; cbn [of_option bind]; apply FIN; unfold image;
    change (ty_code t) with c; cbn [small_int];
    first [ reflexivity
          | unfold word_value; cbn [signed]; change (2 ^ 32) with (2 ^ (8 * Z.of_nat 4)); rewrite ?L; rewrite ?le_enc_mod;
            first [ reflexivity
                  | unfold wrap32, wrap; change (2 ^ 32) with (2 ^ (8 * Z.of_nat 4)); rewrite le_enc_mod; reflexivity
                  | symmetry; replace 4%nat with (length o) by (unfold zlen in L; lia); apply le_enc_dec; auto ] ]
  end.
Lemma put_ok lo hi t o m a : ctype t -> zlen o = ty_size t -> bytes_ok o -> words t < 2 ^ 32 -> lo <= a -> a + words t <= hi ->
  put_arg lo hi t o m a = Ok (wr m a (image t o), words t).
Proof.
  intros C L B W P1 P2. pose proof (image_len t o C L) as IL.
  assert (G : get_range o 0 (ty_size t) = Some o) by (rewrite <- L; apply get_range_all).
  assert (DN : ffi_align_w 32 (ty_size t) 4 = words t).
  { apply align_w_round; [apply pow2_small| |exact W]. pose proof (zlen_nonneg o). lia. }
  assert (FIN : forall d, d = image t o -> (let* m' := store lo hi m a d in Ok (m', words t)) = Ok (wr m a (image t o), words t)).
  { intros d ->. rewrite store_ok by lia. reflexivity. }
  unfold put_arg. rewrite DN.
  inversion C as [|t0 H|t0 H|s0 a0 es0 offs NE F SL]; subst.
  - cbn [ty_code ty_ptr]. change (get_range o 0 4) with (get_range o 0 (ty_size ty_ptr)). rewrite G. cbn [of_option bind]. apply FIN.
    unfold image, word_value. cbn [ty_code ty_ptr small_int signed]. change (2 ^ 32) with (2 ^ (8 * Z.of_nat 4)). rewrite le_enc_mod.
    symmetry. change (ty_size ty_ptr) with 4 in L. replace 4%nat with (length o) by (unfold zlen in L; lia). apply le_enc_dec; auto.
  - cbn in H. in_cases H; num o L G FIN.
  - cbn [ty_code]. rewrite G. cbn [of_option bind]. apply FIN. reflexivity.
  - cbn [ty_code]. rewrite G. cbn [of_option bind]. apply FIN. reflexivity.
Qed.

(** ** Addresses *)

Definition pos (stk vfp : Z) (l : loc) : Z :=
  match l with Core i => stk + 4 * i | Stk o => stk + 16 + o | Fp i => vfp + 4 * i end.

Lemma align_ptr_ok t p : ctype t -> 0 <= p -> round_up p (al t) < 2 ^ 32 -> align_ptr t p = round_up p (al t).
Proof.
  intros C P B. unfold align_ptr. assert (E : (if ty_align t <? 4 then 4 else ty_align t) = al t).
  { unfold al. destruct (align_cases t C) as [E|[E|[E|E]]]; rewrite E; reflexivity. }
  rewrite E. apply align_w_round; auto. apply al_pow2.
Qed.
Lemma round_stk stk x t : (8 | stk) -> round_up (stk + x) (al t) = stk + round_up x (al t).
Proof.
  intros D. apply round_up_add; [destruct (al_cases t); lia|]. destruct (al_cases t) as [-> | ->]; auto.
  apply Z.divide_trans with 8; [exists 2; reflexivity|auto].
Qed.
Lemma padded_le t n : ctype t -> (4 | n) -> (n + padded t <=? 16) = (n + words t <=? 16).
Proof.
  intros C [d D]. destruct (words_ge t C) as [W1 W2]. destruct (words_4 t) as [w W]. unfold padded.
  destruct (ty_size t <? 4) eqn:Q; lia.
Qed.

(** The arguments are where the plan says. *)
Fixpoint stored (m : Z -> Z) (stk vfp : Z) (ts : list ftype) (ls : list loc) (objs : list (list Z)) : Prop :=
  match ts, ls, objs with
  | [], [], [] => True
  | t :: ts', l :: ls', o :: objs' =>
    rd m (pos stk vfp l) (length (image t o)) = image t o /\ stored m stk vfp ts' ls' objs'
  | _, _, _ => False
  end.

(** Memory that later arguments leave alone. *)
Definition kept (vfp stk bnd n : Z) (u : list Z) (s x : Z) : Prop :=
  x < vfp \/ stk + bnd <= x \/ (vfp <= x < stk /\ In ((x - vfp) / 4) u) \/ (stk <= x < stk + 4 * n) \/ (stk + 16 <= x < stk + 16 + s).

Lemma stored_step (m m' : Z -> Z) a d stk vfp bnd n u s :
  (forall x, kept vfp stk bnd n u s x -> m' x = wr m a d x) ->
  (forall x, a <= x < a + zlen d -> kept vfp stk bnd n u s x) -> rd m' a (length d) = d.
Proof.
  intros K H. rewrite <- (rd_wr_same m a d (length d) eq_refl) at 2. apply rd_ext.
  intros x X. apply K, H. unfold zlen. lia.
Qed.

(** ** All arguments, base standard *)

Section Sysv.
Variables lo hi stk vfp bnd : Z.
Hypothesis Hstk : (8 | stk).
Hypothesis Hpos : 0 <= stk.
Hypothesis Hlo : lo <= stk.
Hypothesis Hhi : stk + bnd <= hi.
Hypothesis Hmem : hi < 2 ^ 32.

Lemma step_sysv t n s p n' s' : ctype t -> 0 <= n <= 4 -> 0 <= s -> (4 | s) -> (s = 0 \/ n = 4) ->
  code_arg t n s = (p, n', s') -> loc_end t p <= bnd ->
  align_ptr t (stk + fill n s) = pos stk vfp p /\ pos stk vfp p + words t = stk + fill n' s' /\
  0 <= n' <= 4 /\ 0 <= s' /\ (4 | s') /\ (s' = 0 \/ n' = 4) /\ stk <= pos stk vfp p /\ pos stk vfp p + words t <= hi /\ words t < 2 ^ 32 /\
  fill n s <= fill n' s' /\ stk + fill n s <= pos stk vfp p /\ fill n' s' <= bnd /\
  round_up (stk + fill n s) (al t) = pos stk vfp p.
Proof.
  intros C N S D H CA LE. destruct (code_core t n s C N S D p n' s' CA) as (N' & NN & SS & DD & M).
  destruct (words_ge t C) as [W1 W2]. assert (AP : 0 < al t) by (destruct (al_cases t); lia).
  assert (FN : 0 <= fill n s) by (unfold fill; destruct (s =? 0); lia).
  pose proof (round_up_le (fill n s) (al t) AP) as RL.
  assert (P : round_up (fill n s) (al t) = pos 0 vfp p /\ fill n' s' = pos 0 vfp p + words t /\ (s' = 0 \/ n' = 4) /\ pos 0 vfp p + words t <= bnd /\ (pos stk vfp p = stk + pos 0 vfp p)).
  { unfold fill in *. destruct p as [i|i|o]; [|contradiction|].
    - cbn [pos loc_end] in *. destruct M as (I1 & I2 & I3 & [(Q1 & Q2 & Q3)|(Q1 & Q2 & Q3 & Q4 & Q5)]).
      + assert (s = 0). { destruct H as [H|H]; [auto|]. subst n. assert (16 <= 4 * i) by lia. lia. }
        subst s s'. cbn [Z.eqb] in *. repeat split; try lia.
      + subst s n'. cbn [Z.eqb] in *. replace (s' =? 0) with false by lia. repeat split; try lia.
    - cbn [pos loc_end] in *. destruct M as (I1 & I2 & I3 & I4 & I5).
      assert (O : 0 <= o) by (rewrite I1; apply round_up_nonneg; auto).
      replace (s' =? 0) with false by lia. destruct (Z.eqb_spec s 0) as [Z0|Z0].
      + rewrite (I5 Z0). subst s. rewrite (round_up_id 0) in I1 by (auto; apply Z.divide_0_r). repeat split; try lia.
      + rewrite round_16, <- I1. repeat split; try lia. }
  destruct P as (P1 & P2 & P3 & P4 & P5).
  rewrite align_ptr_ok; [|auto|lia|rewrite round_stk, P1 by auto; lia]. rewrite round_stk, P1, P5 by auto.
  repeat split; auto; try lia.
Qed.

Theorem args_sysv_spec ts : Forall ctype ts -> forall objs, objects_ok ts objs -> forall n s m,
  0 <= n <= 4 -> 0 <= s -> (4 | s) -> (s = 0 \/ n = 4) -> fits bnd ts (plan false ts n [] s) ->
  exists m', args_sysv lo hi ts objs m (stk + fill n s) = Ok m' /\ stored m' stk vfp ts (plan false ts n [] s) objs /\
    forall x, x < stk + fill n s \/ stk + bnd <= x -> m' x = m x.
Proof.
  induction 1 as [|t ts C F IH]; intros objs O n s m N S D H FT; inversion O as [|? o ? objs' [O1 O2] OR]; subst; cbn [args_sysv plan need] in *.
  - exists m. split; [reflexivity|]. split; [exact Logic.I|auto].
  - destruct (code_arg t n s) as [[p n'] s'] eqn:CA. inversion FT as [|? ? ? ? F1 F2]; subst.
    destruct (step_sysv t n s p n' s' C N S D H CA F1) as (P1 & P2 & N' & S' & D' & H' & L1 & L2 & L3 & L4 & L5 & L6 & _).
    rewrite P1. rewrite put_ok by (auto; lia). cbn [bind]. rewrite P2.
    pose proof (image_len t o C O1) as IL.
    destruct (IH objs' OR n' s' (wr m (pos stk vfp p) (image t o)) N' S' D' H' F2) as (m' & E1 & E2 & E3).
    exists m'. split; [exact E1|]. cbn [stored]. split; [split; [|exact E2]|].
    + rewrite <- (rd_wr_same m (pos stk vfp p) (image t o) _ eq_refl) at 2. apply rd_ext. intros x X. apply E3. unfold zlen in IL. lia.
    + intros x X. rewrite E3 by lia. apply wr_out. lia.
Qed.
End Sysv.

(** ** All arguments, with floating point registers *)

Section Vfp.
Variables lo hi stk vfp bnd : Z.
Hypothesis Hstk : (8 | stk).
Hypothesis Hpos : 0 <= vfp.
Hypothesis Hlo : lo <= vfp.
Hypothesis Hvfp : vfp + 64 = stk.
Hypothesis Hhi : stk + bnd <= hi.
Hypothesis Hbnd : 16 <= bnd.
Hypothesis Hmem : hi < 2 ^ 32.

(** The variables of ffi_prep_args_VFP. *)
Definition sync (ts : list ftype) (n : Z) (u : list Z) (s : Z) (st : pst) : Prop :=
  0 <= n <= 4 /\ 0 <= s /\ (4 | s) /\ packed u /\
  p_left st = fps u ts /\ p_argp st = stk + 16 + s /\ p_used st = negb (s =? 0) /\
  (p_done st = true -> n = 4) /\ (p_done st = false -> p_regp st = stk + 4 * n).

Lemma find_all k a : 1 <= k -> find_fp all_fp k a = None.
Proof.
  intros K. apply find_fp_none. intros r R. destruct (free_at all_fp r k a) eqn:E; [|reflexivity].
  exfalso. apply free_at_spec in E. destruct E as (_ & E1 & E2). apply (E2 r); [lia|]. apply range_in. lia.
Qed.
Lemma fps_all ts : Forall ctype ts -> fps all_fp ts = [].
Proof.
  induction 1 as [|t ts C F IH]; cbn [fps]; [reflexivity|]. destruct (fp_need t) as [[k a]|] eqn:E; [|auto].
  destruct (fp_need_size t k a C E) as (_ & _ & K & _). rewrite find_all by lia. reflexivity.
Qed.

Lemma step_stack t o s st : ctype t -> zlen o = ty_size t -> bytes_ok o -> 0 <= s -> (4 | s) -> p_argp st = stk + 16 + s ->
  16 + round_up s (al t) + words t <= bnd ->
  on_stack lo hi t o st = Ok (PSt (wr (p_mem st) (stk + 16 + round_up s (al t)) (image t o)) (p_regp st) (stk + 16 + (round_up s (al t) + words t)) true (p_done st) (p_left st)).
Proof.
  intros C L B S D A LE. unfold on_stack. rewrite A.
  assert (AP : 0 < al t) by (destruct (al_cases t); lia). pose proof (round_up_le s (al t) AP). destruct (words_ge t C) as [W1 W2].
  replace (stk + 16 + s) with (stk + (16 + s)) by lia.
  assert (RE : round_up (stk + (16 + s)) (al t) = stk + 16 + round_up s (al t)) by (rewrite round_stk, round_16 by auto; lia).
  rewrite align_ptr_ok by (auto; lia). rewrite RE. rewrite put_ok by (auto; lia). cbn [bind].
  replace (stk + 16 + round_up s (al t) + words t) with (stk + 16 + (round_up s (al t) + words t)) by lia. reflexivity.
Qed.

Theorem args_vfp_spec ts : Forall ctype ts -> forall objs, objects_ok ts objs -> forall n u s st,
  sync ts n u s st -> fits bnd ts (plan true ts n u s) ->
  exists st', args_vfp lo hi stk vfp ts objs st = Ok st' /\ stored (p_mem st') stk vfp ts (plan true ts n u s) objs /\
    forall x, kept vfp stk bnd n u s x -> p_mem st' x = p_mem st x.
Proof.
  induction 1 as [|t ts C F IH]; intros objs O n u s st SY FT; inversion O as [|? o ? objs' [O1 O2] OR]; subst; cbn [args_vfp plan need] in *.
  - exists st. split; [reflexivity|]. split; [exact Logic.I|auto].
  - destruct SY as (N & S & D & PK & LF & AR & US & DN & ND). cbn [fps] in LF.
    destruct (words_ge t C) as [W1 W2]. pose proof (image_len t o C O1) as IL.
    assert (AP : 0 < al t) by (destruct (al_cases t); lia).
    unfold put_vfp1. rewrite (vfp_type_exact t C). cbn [bind]. unfold in_vfp. rewrite (fp_need_code t C).
    assert (GO : forall p n' u' s' st', sync ts n' u' s' st' -> fits bnd ts (plan true ts n' u' s') ->
      p_mem st' = wr (p_mem st) (pos stk vfp p) (image t o) ->
      (forall x, pos stk vfp p <= x < pos stk vfp p + zlen (image t o) -> kept vfp stk bnd n' u' s' x) ->
      (forall x, kept vfp stk bnd n u s x -> kept vfp stk bnd n' u' s' x /\ ~ (pos stk vfp p <= x < pos stk vfp p + zlen (image t o))) ->
      exists stf, args_vfp lo hi stk vfp ts objs' st' = Ok stf /\
        stored (p_mem stf) stk vfp (t :: ts) (p :: plan true ts n' u' s') (o :: objs') /\
        forall x, kept vfp stk bnd n u s x -> p_mem stf x = p_mem st x).
    { intros p n' u' s' st' SY' FT' ME K1 K2. destruct (IH objs' OR n' u' s' st' SY' FT') as (stf & E1 & E2 & E3).
      exists stf. split; [exact E1|]. split.
      - cbn [stored]. split; [|exact E2]. rewrite ME in E3. eapply stored_step; eauto.
      - intros x X. destruct (K2 x X) as [X1 X2]. rewrite (E3 x X1), ME. apply wr_out. exact X2. }
    assert (STACK : forall left n' u', packed u' -> left = fps u' ts -> p_left st = left -> 0 <= n' <= 4 -> (p_done st = true -> n' = 4) -> (p_done st = false -> n' = n) -> n <= n' ->
      (forall x, In x u -> In x u') ->
      fits bnd (t :: ts) (Stk (round_up s (al t)) :: plan true ts n' u' (round_up s (al t) + words t)) ->
      exists stf, (let* s' := on_stack lo hi t o st in args_vfp lo hi stk vfp ts objs' s') = Ok stf /\
        stored (p_mem stf) stk vfp (t :: ts) (Stk (round_up s (al t)) :: plan true ts n' u' (round_up s (al t) + words t)) (o :: objs') /\
        forall x, kept vfp stk bnd n u s x -> p_mem stf x = p_mem st x).
    { intros left n' u' PK' LF' LS N' DN' ND' NN IU FT'. inversion FT' as [|? ? ? ? F1 F2]; subst. cbn [loc_end] in F1.
      pose proof (round_up_le s (al t) AP) as RL.
      rewrite (step_stack t o s st) by auto. cbn [bind].
      apply (GO (Stk (round_up s (al t))) n' u' (round_up s (al t) + words t)); auto.
      - split; [auto|]. split; [lia|]. split; [apply Z.divide_add_r; [apply al_4|apply words_4]|]. split; [auto|].
        cbn. split; [congruence|]. split; [lia|]. split; [lia|]. split; [auto|]. intros Q. rewrite (ND Q), (ND' Q). reflexivity.
      - cbn [pos]. intros x X. unfold kept. lia.
      - cbn [pos]. intros x X. unfold kept in *. split.
        + destruct X as [X|[X|[[X1 X2]|[X|X]]]]; auto; [|lia|lia]. right; right; left. auto.
        + destruct X as [X|[X|[[X1 X2]|[X|X]]]]; lia. }
    destruct (fp_need t) as [[k a]|] eqn:FN.
    + destruct (fp_need_size t k a C FN) as (SZ & _ & KB & _).
      destruct (find_fp u k a) as [f|] eqn:FF.
      * inversion FT as [|? ? ? ? F1 F2]; subst. rewrite LF. destruct (packed_step t k a u f C FN PK FF) as (PK' & FB1 & FB2 & FB3).
        assert (WX : words t = 4 * k) by (rewrite words_exact; auto; exists k; lia).
        replace (vfp + f * 4) with (vfp + 4 * f) by lia. rewrite put_ok by (auto; lia). cbn [bind].
        apply (GO (Fp f) n (u ++ range f k) s); auto.
        -- split; [auto|]. split; [auto|]. split; [auto|]. split; [auto|]. cbn. repeat split; auto.
        -- cbn [pos]. intros x X. unfold kept. right; right; left. split; [lia|]. apply in_app_iff. right. apply range_in.
           assert (x - vfp < 4 * (f + k)) by lia. split; [apply Z.div_le_lower_bound; lia|apply Z.div_lt_upper_bound; lia].
        -- cbn [pos]. intros x X. unfold kept in *. split.
           ++ destruct X as [X|[X|[[X1 X2]|[X|X]]]]; auto. right; right; left. split; [auto|]. apply in_app_iff. auto.
           ++ intros Y. destruct X as [X|[X|[[X1 X2]|[X|X]]]]; try lia. apply (FB3 _ ) in X2; [auto|].
              split; [apply Z.div_le_lower_bound; lia|apply Z.div_lt_upper_bound; lia].
      * rewrite LF. rewrite andb_false_r.
        apply (STACK [] n all_fp); auto; try lia.
        -- apply packed_all.
        -- symmetry. apply fps_all. auto.
        -- intros x X. apply range_in. destruct PK as (_ & PI & _). specialize (PI x X). lia.
    + destruct (code_arg t n s) as [[p n'] s'] eqn:CA.
      destruct (code_core t n s C N S D p n' s' CA) as (N' & NN & SS & DD & M).
      rewrite andb_true_r. destruct (p_done st) eqn:DO; cbn [negb].
      * pose proof (DN eq_refl) as E4. subst n. destruct p as [i|i|off]; [|contradiction|].
        { exfalso. destruct M as (I1 & I2 & I3 & [(Q1 & Q2 & Q3)|(Q1 & Q2 & Q3 & Q4 & Q5)]); lia. }
        destruct M as (I1 & I2 & I3 & I4 & I5).
        assert (N4 : n' = 4) by (rewrite I4; destruct (s =? 0); auto). clear I4. subst n' off s'.
        apply (STACK (fps u ts) 4 u); auto; try lia. 
      * specialize (ND eq_refl). rewrite ND.
        assert (A4 : 0 <= round_up (4 * n) (al t) <= 16).
        { destruct (n1_spec t n N) as [X1 X2]. rewrite <- X2. lia. }
        assert (AL : align_ptr t (stk + 4 * n) = stk + round_up (4 * n) (al t)).
        { rewrite align_ptr_ok, round_stk by (auto; rewrite ?round_stk by auto; lia). reflexivity. }
        rewrite AL. replace (stk + round_up (4 * n) (al t) + padded t <=? stk + 16) with (round_up (4 * n) (al t) + padded t <=? 16) by lia.
        rewrite padded_le by (auto; apply al_4).
        inversion FT as [|? ? ? ? F1 F2]; subst.
        destruct p as [i|i|off]; [|contradiction|].
        -- destruct M as (I1 & I2 & I3 & I4). rewrite <- I1 in *. cbn [loc_end] in F1.
           destruct I4 as [(Q1 & Q2 & Q3)|(Q1 & Q2 & Q3 & Q4 & Q5)].
           ++ replace (4 * i + words t <=? 16) with true by lia. rewrite put_ok by (auto; lia). cbn [bind].
              subst s'. apply (GO (Core i) n' u s); auto.
              ** split; [auto|]. split; [auto|]. split; [auto|]. split; [auto|]. cbn. repeat split; auto; try lia.
              ** cbn [pos]. intros x X. unfold kept. lia.
              ** cbn [pos]. intros x X. unfold kept in *. split; [|lia]. destruct X as [X|[X|[X|[X|X]]]]; auto. lia.
           ++ replace (4 * i + words t <=? 16) with false by lia. rewrite US. subst s. cbn [Z.eqb negb].
              rewrite put_ok by (auto; lia). cbn [bind]. subst n'.
              apply (GO (Core i) 4 u s'); auto.
              ** split; [lia|]. split; [lia|]. split; [auto|]. split; [auto|]. cbn. repeat split; auto; try lia; try discriminate.
              ** cbn [pos]. intros x X. unfold kept. lia.
              ** cbn [pos]. intros x X. unfold kept in *. split; [|lia]. destruct X as [X|[X|[X|[X|X]]]]; auto; lia.
        -- destruct M as (I1 & I2 & I3 & I4 & I5).
           replace (round_up (4 * n) (al t) + words t <=? 16) with false by lia. rewrite US, negb_involutive.
           destruct (Z.eqb_spec s 0) as [Z0|Z0].
           ++ rewrite (I5 Z0). assert (off = 0) by (rewrite I1, Z0; apply round_up_id; [auto|apply Z.divide_0_r]). 
              cbn [loc_end] in F1. rewrite put_ok by (auto; lia). cbn [bind].
              apply (GO (Stk off) n' u s'); auto.
              ** split; [auto|]. split; [lia|]. split; [auto|]. split; [auto|]. cbn. repeat split; auto; try lia; try discriminate.
              ** cbn [pos p_mem]. replace off with 0 by lia. rewrite Z.add_0_r. reflexivity.
              ** cbn [pos]. intros x X. unfold kept. lia.
              ** cbn [pos]. intros x X. unfold kept in *. split; [|lia]. destruct X as [X|[X|[X|[X|X]]]]; auto; lia.
           ++ subst off s' n'. apply (STACK (fps u ts) n u); auto; try lia.
Qed.
End Vfp.
