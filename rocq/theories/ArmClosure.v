(** The arguments that a closure finds on ARM. *)
From Coq Require Import ZifyBool ZifyNat.
From Verif Require Import Base BaseFacts Types LayoutSpec NaturalTypes NaturalFacts ByteMem ArmModel ArmSpec ArmHfa ArmFp ArmPlan ArmCall ArmPrep ArmCallMem.
Local Arguments Z.mul : simpl never.
Local Arguments Z.add : simpl never.

Section Closure.
Variables stk vfp bnd : Z.
Hypothesis Hstk : (8 | stk).
Hypothesis Hpos : 0 <= stk.
Hypothesis Hmem : stk + bnd < 2 ^ 32.

(** An offset from which arguments go on. *)
Lemma round_twice x y t : (4 | y) -> x <= y < x + 4 -> round_up x (al t) = round_up y (al t).
Proof.
  intros D L. assert (AP : 0 < al t) by (destruct (al_cases t); lia).
  apply round_up_unique; [auto|apply round_up_divide|].
  pose proof (round_up_le x (al t) AP). pose proof (round_up_lt x (al t) AP). pose proof (al_4 x t) as A4. destruct D as [d D]. destruct A4 as [e E].
  split; [lia|]. lia.
Qed.

Lemma align_twice t p q a : ctype t -> (4 | q) -> p <= q < p + 4 -> 0 <= p -> round_up q (al t) = a -> a < 2 ^ 32 -> align_ptr t p = a.
Proof. intros C D L P R B. rewrite align_ptr_ok; auto; rewrite (round_twice p q) by auto; auto. lia. Qed.
Lemma div4_stk x : (4 | x) -> (4 | stk + x).
Proof. intros D. apply Z.divide_add_r; [apply Z.divide_trans with 8; [exists 2; reflexivity|auto]|auto]. Qed.

Theorem incoming_sysv_spec ts : Forall ctype ts -> forall n s p,
  0 <= n <= 4 -> 0 <= s -> (4 | s) -> (s = 0 \/ n = 4) -> fits bnd ts (plan false ts n [] s) -> p <= stk + fill n s < p + 4 -> 0 <= p ->
  incoming_sysv ts p = map (pos stk vfp) (plan false ts n [] s).
Proof.
  induction 1 as [|t ts C F IH]; intros n s p N S D H FT PB P0; cbn [incoming_sysv plan need] in *; [reflexivity|].
  destruct (code_arg t n s) as [[l n'] s'] eqn:CA. inversion FT as [|? ? ? ? F1 F2]; subst. cbn [map].
  destruct (step_sysv (stk + bnd) stk vfp bnd Hstk Hpos ltac:(lia) Hmem t n s l n' s' C N S D H CA F1) as (P1 & P2 & N' & S' & D' & H' & L1 & L2 & L3 & L4 & L5 & L6 & L7).
  assert (FD : (4 | stk + fill n s)).
  { apply div4_stk. unfold fill. destruct (s =? 0); [apply Z.divide_factor_l|].
    apply Z.divide_add_r; [exists 4; reflexivity|auto]. }
  destruct (words_ge t C) as [W1 W2].
  rewrite (align_twice t p (stk + fill n s) (pos stk vfp l)) by (auto; lia). f_equal. apply IH; auto; lia.
Qed.

(** The variables of ffi_prep_incoming_args_VFP. *)
Definition isync (ts : list ftype) (n : Z) (u : list Z) (s : Z) (st : ist) : Prop :=
  0 <= n <= 4 /\ 0 <= s /\ (4 | s) /\ packed u /\
  i_left st = fps u ts /\ (i_argp st <= stk + 16 + s < i_argp st + 4 /\ 0 <= i_argp st) /\
  (s <> 0 -> i_used st = true) /\ (i_used st = true -> i_done st = false -> s <> 0) /\
  (i_done st = true -> n = 4) /\ (i_done st = false -> i_regp st <= stk + 4 * n < i_regp st + 4 /\ 0 <= i_regp st).

Hypothesis Hbnd : 16 <= bnd.

Theorem incoming_vfp_spec ts : Forall ctype ts -> forall n u s st,
  isync ts n u s st -> fits bnd ts (plan true ts n u s) ->
  incoming_vfp stk vfp ts st = Ok (map (pos stk vfp) (plan true ts n u s)).
Proof.
  induction 1 as [|t ts C F IH]; intros n u s st SY FT; cbn [incoming_vfp plan need] in *; [reflexivity|].
  destruct SY as (N & S & D & PK & LF & [AR AR0] & US & UD & DN & ND). cbn [fps] in LF.
  destruct (words_ge t C) as [W1 W2]. assert (AP : 0 < al t) by (destruct (al_cases t); lia).
  pose proof (round_up_le s (al t) AP) as RLS.
  assert (D' : (4 | round_up s (al t) + words t)) by (apply Z.divide_add_r; [apply al_4|apply words_4]).
  unfold take_vfp1. rewrite (vfp_type_exact t C). cbn [bind]. unfold in_vfp. rewrite (fp_need_code t C).
  assert (GO : forall l n' u' s' st', isync ts n' u' s' st' -> fits bnd ts (plan true ts n' u' s') ->
    (let* l0 := incoming_vfp stk vfp ts st' in Ok (pos stk vfp l :: l0)) = Ok (map (pos stk vfp) (l :: plan true ts n' u' s'))).
  { intros l n' u' s' st' SY' FT'. rewrite (IH n' u' s' st' SY' FT'). reflexivity. }
  assert (STACK : forall z n' u', ty_size t <= z <= words t -> packed u' -> i_left st = fps u' ts -> 0 <= n' <= 4 -> (i_done st = true -> n' = 4) -> (i_done st = false -> n' = n) ->
    fits bnd (t :: ts) (Stk (round_up s (al t)) :: plan true ts n' u' (round_up s (al t) + words t)) ->
    (let* (p, s') := Ok (from_stack t z st) in let* l0 := incoming_vfp stk vfp ts s' in Ok (p :: l0)) =
    Ok (map (pos stk vfp) (Stk (round_up s (al t)) :: plan true ts n' u' (round_up s (al t) + words t)))).
  { intros z n' u' ZB PK' LF' N' DN' ND' FT'. inversion FT' as [|? ? ? ? F1 F2]; subst. cbn [loc_end] in F1.
    unfold from_stack.
    assert (RE : round_up (stk + 16 + s) (al t) = stk + 16 + round_up s (al t)).
    { replace (stk + 16 + s) with (stk + (16 + s)) by lia. rewrite round_stk, round_16 by auto. lia. }
    rewrite (align_twice t (i_argp st) (stk + 16 + s) (stk + 16 + round_up s (al t))); auto; try lia.
    2: { replace (stk + 16 + s) with (stk + (16 + s)) by lia. apply div4_stk. apply Z.divide_add_r; [exists 4; reflexivity|auto]. }
    cbn [bind]. apply (GO (Stk (round_up s (al t)))); auto.
    split; [auto|]. split; [lia|]. split; [auto|]. split; [auto|]. cbn [i_left i_argp i_used i_done i_regp].
    split; [auto|]. split; [lia|]. split; [auto|]. split; [lia|]. split; [auto|]. intros Q. rewrite (ND' Q). auto. }
  destruct (fp_need t) as [[k a]|] eqn:FN.
  - destruct (fp_need_size t k a C FN) as (SZ & _ & KB & _).
    destruct (find_fp u k a) as [f|] eqn:FF.
    + inversion FT as [|? ? ? ? F1 F2]; subst. rewrite LF. cbn [bind]. replace (vfp + f * 4) with (pos stk vfp (Fp f)) by (cbn [pos]; lia).
      apply GO; auto. destruct (packed_step t k a u f C FN PK FF) as (PK' & _).
      split; [auto|]. split; [auto|]. split; [auto|]. split; [auto|]. cbn [i_left i_argp i_used i_done i_regp]. repeat split; auto; lia.
    + rewrite LF. rewrite andb_false_r. apply STACK; auto; try lia.
      * apply packed_all.
      * rewrite LF. symmetry. apply fps_all. auto.
  - destruct (code_arg t n s) as [[p n'] s'] eqn:CA.
    destruct (code_core t n s C N S D p n' s' CA) as (N' & NN & SS & DD & M).
    rewrite andb_true_r. destruct (i_done st) eqn:DO; cbn [negb].
    + pose proof (DN eq_refl) as E4. subst n. destruct p as [i|i|off]; [|contradiction|].
      { exfalso. destruct M as (I1 & I2 & I3 & [(Q1 & Q2 & Q3)|(Q1 & Q2 & Q3 & Q4 & Q5)]); lia. }
      destruct M as (I1 & I2 & I3 & I4 & I5).
      assert (N4 : n' = 4) by (rewrite I4; destruct (s =? 0); auto). clear I4. subst n' off s'.
      apply STACK; auto; lia.
    + destruct (ND eq_refl) as [RG RG0].
      assert (A4 : 0 <= round_up (4 * n) (al t) <= 16).
      { destruct (n1_spec t n N) as [X1 X2]. rewrite <- X2. lia. }
      assert (AL : align_ptr t (i_regp st) = stk + round_up (4 * n) (al t)).
      { apply (align_twice t (i_regp st) (stk + 4 * n)); auto; try lia.
        - apply div4_stk. apply Z.divide_factor_l.
        - apply round_stk. auto. }
      rewrite AL. set (q := round_up (4 * n) (al t)) in *.
      replace (stk + q + padded t <=? stk + 16) with (q + padded t <=? 16) by lia.
      rewrite padded_le by (auto; apply al_4).
      assert (PD : ty_size t <= padded t <= words t /\ words t < padded t + 4) by (unfold padded; destruct (Z.ltb_spec (ty_size t) 4); lia).
      assert (Q4 : (4 | q)) by apply al_4.
      assert (W4 := words_4 t).
      destruct p as [i|i|off]; [|contradiction|].
      * inversion FT as [|? ? ? ? F1 F2]; subst. destruct M as (I1 & I2 & I3 & I4). fold q in I1. cbn [loc_end] in F1.
        destruct I4 as [(Q1 & Q2 & Q3)|(Q1 & Q2 & Q3 & Q4' & Q5)].
        -- replace (q + words t <=? 16) with true by lia. cbn [orb].
           replace (stk + q + padded t >? stk + 16) with false by lia. cbn [bind].
           replace (stk + q) with (pos stk vfp (Core i)) by (cbn [pos]; lia).
           apply GO; auto. subst s'.
           split; [auto|]. split; [auto|]. split; [auto|]. split; [auto|]. cbn [pos i_left i_argp i_used i_done i_regp].
           destruct (stk + 4 * i + padded t >=? stk + 16) eqn:OV.
           ++ split; [auto|]. split; [auto|]. split; [auto|]. split; [intros _ X; discriminate X|]. split; [lia|]. intros X; discriminate X.
           ++ split; [auto|]. split; [auto|]. split; [auto|]. split; [auto|]. split; [intros X; discriminate X|]. lia.
        -- replace (q + words t <=? 16) with false by lia. cbn [orb].
           assert (UF : i_used st = false).
           { destruct (i_used st) eqn:X; [|reflexivity]. exfalso. apply (UD eq_refl eq_refl). auto. }
           rewrite UF. cbn [negb].
           assert (BIG : q + padded t > 16).
           { pose proof (padded_le t q C Q4). lia. }
           replace (stk + q + padded t >? stk + 16) with true by lia. replace (stk + q + padded t >=? stk + 16) with true by lia. cbn [bind].
           replace (stk + q) with (pos stk vfp (Core i)) by (cbn [pos]; lia).
           apply GO; auto. subst n'.
           split; [lia|]. split; [lia|]. split; [auto|]. split; [auto|]. cbn [pos i_left i_argp i_used i_done i_regp].
           split; [auto|]. split; [lia|]. split; [auto|]. split; [intros _ X; discriminate X|]. split; [auto|]. intros X; discriminate X.
      * destruct M as (I1 & I2 & I3 & I4 & I5). fold q in I3, I5.
        replace (q + words t <=? 16) with false by lia. cbn [orb].
        assert (BIG : q + padded t > 16) by (pose proof (padded_le t q C Q4); lia).
        destruct (Z.eqb_spec s 0) as [Z0|Z0].
        -- assert (UF : i_used st = false).
           { destruct (i_used st) eqn:X; [|reflexivity]. exfalso. apply (UD eq_refl eq_refl). auto. }
           rewrite UF. cbn [negb].
           replace (stk + q + padded t >? stk + 16) with true by lia. replace (stk + q + padded t >=? stk + 16) with true by lia. cbn [bind].
           assert (off = 0) by (rewrite I1, Z0; apply round_up_id; [auto|apply Z.divide_0_r]).
           specialize (I5 Z0).
           replace (stk + q) with (pos stk vfp (Stk off)) by (cbn [pos]; lia).
           assert (F2 : fits bnd ts (plan true ts n' u s')) by (inversion FT; auto).
           apply GO; auto.
           split; [auto|]. split; [lia|]. split; [auto|]. split; [auto|]. cbn [pos i_left i_argp i_used i_done i_regp].
           split; [auto|]. split; [lia|]. split; [auto|]. split; [intros _ X; discriminate X|]. split; [auto|]. intros X; discriminate X.
        -- rewrite (US Z0). cbn [negb]. subst off s' n'. apply STACK; auto; try lia.
Qed.
End Closure.
