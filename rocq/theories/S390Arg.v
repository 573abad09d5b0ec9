(** One argument: what ffi_call_int stores for it, and where a closure looks for it. *)
From Coq Require Import ZifyBool ZifyNat.
From Verif Require Import Base BaseFacts Types LayoutSpec NaturalTypes NaturalFacts ByteMem S390Model S390Spec S390Facts.
Local Open Scope Z_scope.
Local Arguments Z.mul : simpl never.
Local Arguments Z.add : simpl never.
Local Arguments Z.sub : simpl never.
Local Arguments Z.pow : simpl never.
Local Arguments Z.div : simpl never.
Local Arguments Z.modulo : simpl never.
Local Arguments Z.of_nat : simpl never.
Local Arguments be_enc : simpl never.

Definition word_ok (w : Z) : Prop := 0 <= w < 2 ^ 64.
Lemma wrap_ok x : word_ok (wrap64 x).
Proof. unfold word_ok, wrap64, wrap. apply Z.mod_pos_bound. lia. Qed.

(** Bytes of words. *)
Lemma low_enc n v w : length v = n -> bytes_ok v -> (n <= 8)%nat -> w = wrap64 (be_dec v) -> word_bytes (8 - n) n w = v.
Proof.
  intros L B N ->. rewrite word_low by lia. pose proof (be_dec_bound v B) as Bd. unfold zlen in Bd. rewrite L in Bd.
  unfold wrap64, wrap. rewrite Z.mod_small; [rewrite <- L; apply be_enc_dec, B|].
  assert (2 ^ (8 * Z.of_nat n) <= 2 ^ 64) by (apply Z.pow_le_mono_r; lia). lia.
Qed.
Lemma high_enc v w : length v = 4%nat -> bytes_ok v -> w = wrap64 (Z.shiftl (be_dec v) 32) -> word_bytes 0 4 w = v.
Proof.
  intros L B ->. rewrite word_high. pose proof (be_dec_bound v B) as Bd. unfold zlen in Bd. rewrite L in Bd. change (8 * Z.of_nat 4) with 32 in Bd.
  rewrite Z.shiftl_mul_pow2 by lia. unfold wrap64, wrap. rewrite Z.mod_small by lia. rewrite Z.div_mul by lia.
  rewrite <- L. apply be_enc_dec, B.
Qed.

Ltac int_case Lv Bv :=
  match goal with |- carries _ ?t _ _ ?v =>
    let c := eval cbn in (ty_code t) in let z := eval cbn in (ty_size t) in
    assert (HI : In (FT c z z []) int_types) by (cbn; tauto);
    exact (sx_ext c z z v HI Lv Bv)
  end.

Lemma call_arg_cases stack frame t arg s v :
  ctype t -> is_value t v -> rd (c_m s) arg (Z.to_nat (ty_size t)) = v ->
  (by_ref t = true /\ floating t = false /\ call_arg stack frame t arg s = Ok (do_ref stack frame t arg s)) \/
  (by_ref t = false /\ floating t = true /\ exists reg ov, call_arg stack frame t arg s = Ok (do_fp stack frame reg ov s) /\
     word_ok reg /\ word_ok ov /\ forall M r i, carries M t (LF r) reg v /\ carries M t (LS i) ov v) \/
  (by_ref t = false /\ floating t = false /\ exists w, call_arg stack frame t arg s = Ok (do_int stack frame w s) /\ word_ok w /\
     forall M l, carries M t l w v).
Proof.
  intros C V R. destruct (is_value_rd t v _ _ C V R) as (Lv & Bv).
  pose proof (be_dec_bound v Bv) as Bd. unfold zlen in Bd. rewrite Lv in Bd.
  assert (FL : ty_size t = 4 -> call_arg stack frame t arg s = do_scalar stack frame T_FLOAT arg s -> by_ref t = false -> floating t = true ->
    exists reg ov, call_arg stack frame t arg s = Ok (do_fp stack frame reg ov s) /\
     word_ok reg /\ word_ok ov /\ forall M r i, carries M t (LF r) reg v /\ carries M t (LS i) ov v).
  { intros E K BR F. rewrite E in *. change (Z.to_nat 4) with 4%nat in *. change (8 * Z.of_nat 4) with 32 in Bd.
    rewrite K. cbn [do_scalar]. rewrite R. eexists _, _. split; [reflexivity|]. split; [apply wrap_ok|].
    split; [unfold word_ok; lia|]. intros M r i. unfold carries. rewrite BR, F, E. change (Z.to_nat 4) with 4%nat. change (Z.to_nat (8 - 4)) with (8 - 4)%nat.
    split; [apply high_enc; auto|apply low_enc; auto; try lia]. unfold wrap64, wrap. rewrite Z.mod_small; lia. }
  assert (DB : ty_size t = 8 -> call_arg stack frame t arg s = do_scalar stack frame T_DOUBLE arg s -> by_ref t = false -> floating t = true ->
    exists reg ov, call_arg stack frame t arg s = Ok (do_fp stack frame reg ov s) /\
     word_ok reg /\ word_ok ov /\ forall M r i, carries M t (LF r) reg v /\ carries M t (LS i) ov v).
  { intros E K BR F. rewrite E in *. change (Z.to_nat 8) with 8%nat in *. change (8 * Z.of_nat 8) with 64 in Bd.
    rewrite K. cbn [do_scalar]. rewrite R. eexists _, _. split; [reflexivity|]. split; [exact Bd|]. split; [exact Bd|].
    intros M r i. unfold carries. rewrite BR, F, E. change (Z.to_nat 8) with 8%nat. change (Z.to_nat (8 - 8)) with 0%nat.
    rewrite word_all. rewrite <- Lv at 1 2. rewrite be_enc_dec by auto. auto. }
  destruct (ty_code t) eqn:EC.
  all: try (
    inversion C as [|t0 H|t0 H|s0 a0 es offs NE FA SL]; subst; cbn [ty_code] in EC; try discriminate EC; cbn in H;
    repeat destruct H as [H|H]; try contradiction; subst t; cbn in EC; try discriminate EC; fail).
  - (* float *) assert (t = ty_float).
    { inversion C as [|t0 H|t0 H|s0 a0 es offs NE FA SL]; subst; cbn [ty_code] in EC; try discriminate EC; cbn in H;
      repeat destruct H as [H|H]; try contradiction; subst t; cbn in EC; try discriminate EC; reflexivity. }
    subst t. right; left. split; [reflexivity|]. split; [reflexivity|]. apply FL; reflexivity.
  - (* double *) assert (t = ty_double).
    { inversion C as [|t0 H|t0 H|s0 a0 es offs NE FA SL]; subst; cbn [ty_code] in EC; try discriminate EC; cbn in H;
      repeat destruct H as [H|H]; try contradiction; subst t; cbn in EC; try discriminate EC; reflexivity. }
    subst t. right; left. split; [reflexivity|]. split; [reflexivity|]. apply DB; reflexivity.
  - (* long double *) left. assert (floating t = false) by (destruct t as [c ? ? ?]; cbn in EC; subst c; reflexivity).
    unfold by_ref, call_arg. rewrite EC. auto.
  - right; right. inversion C as [|t0 H|t0 H|s0 a0 es offs NE FA SL]; subst; cbn [ty_code] in EC; try discriminate EC; cbn in H;
      repeat destruct H as [H|H]; try contradiction; subst t; cbn in EC; try discriminate EC;
      (split; [reflexivity|]; split; [reflexivity|]; eexists; split; [reflexivity|]; split; [apply wrap_ok|]; intros M l;
       int_case Lv Bv).
  - right; right. inversion C as [|t0 H|t0 H|s0 a0 es offs NE FA SL]; subst; cbn [ty_code] in EC; try discriminate EC; cbn in H;
      repeat destruct H as [H|H]; try contradiction; subst t; cbn in EC; try discriminate EC;
      (split; [reflexivity|]; split; [reflexivity|]; eexists; split; [reflexivity|]; split; [apply wrap_ok|]; intros M l;
       int_case Lv Bv).
  - right; right. inversion C as [|t0 H|t0 H|s0 a0 es offs NE FA SL]; subst; cbn [ty_code] in EC; try discriminate EC; cbn in H;
      repeat destruct H as [H|H]; try contradiction; subst t; cbn in EC; try discriminate EC;
      (split; [reflexivity|]; split; [reflexivity|]; eexists; split; [reflexivity|]; split; [apply wrap_ok|]; intros M l;
       int_case Lv Bv).
  - right; right. inversion C as [|t0 H|t0 H|s0 a0 es offs NE FA SL]; subst; cbn [ty_code] in EC; try discriminate EC; cbn in H;
      repeat destruct H as [H|H]; try contradiction; subst t; cbn in EC; try discriminate EC;
      (split; [reflexivity|]; split; [reflexivity|]; eexists; split; [reflexivity|]; split; [apply wrap_ok|]; intros M l;
       int_case Lv Bv).
  - right; right. inversion C as [|t0 H|t0 H|s0 a0 es offs NE FA SL]; subst; cbn [ty_code] in EC; try discriminate EC; cbn in H;
      repeat destruct H as [H|H]; try contradiction; subst t; cbn in EC; try discriminate EC;
      (split; [reflexivity|]; split; [reflexivity|]; eexists; split; [reflexivity|]; split; [apply wrap_ok|]; intros M l;
       int_case Lv Bv).
  - right; right. inversion C as [|t0 H|t0 H|s0 a0 es offs NE FA SL]; subst; cbn [ty_code] in EC; try discriminate EC; cbn in H;
      repeat destruct H as [H|H]; try contradiction; subst t; cbn in EC; try discriminate EC;
      (split; [reflexivity|]; split; [reflexivity|]; eexists; split; [reflexivity|]; split; [apply wrap_ok|]; intros M l;
       int_case Lv Bv).
  - right; right. inversion C as [|t0 H|t0 H|s0 a0 es offs NE FA SL]; subst; cbn [ty_code] in EC; try discriminate EC; cbn in H;
      repeat destruct H as [H|H]; try contradiction; subst t; cbn in EC; try discriminate EC;
      (split; [reflexivity|]; split; [reflexivity|]; eexists; split; [reflexivity|]; split; [apply wrap_ok|]; intros M l;
       int_case Lv Bv).
  - (* sint64: read as unsigned *) right; right. inversion C as [|t0 H|t0 H|s0 a0 es offs NE FA SL]; subst; cbn [ty_code] in EC; try discriminate EC; cbn in H;
      repeat destruct H as [H|H]; try contradiction; subst t; cbn in EC; try discriminate EC.
    split; [reflexivity|]; split; [reflexivity|]; eexists; split; [reflexivity|]; split; [apply wrap_ok|]; intros M l.
    assert (HI : In (FT T_SINT64 8 8 []) int_types) by (cbn; tauto).
    refine (eq_trans _ (sx_ext T_SINT64 8 8 _ HI Lv Bv)). cbn match.
    change (8 * 8) with 64. unfold wrap64, wrap. rewrite !Zmod_mod, to_signed_mod by lia. reflexivity.
  - (* struct *)
    assert (IC : forall c, check_struct t = c -> by_ref t = false -> floating t = false ->
       (c = T_UINT8 /\ ty_size t = 1) \/ (c = T_UINT16 /\ ty_size t = 2) \/ (c = T_UINT32 /\ ty_size t = 4) \/ (c = T_UINT64 /\ ty_size t = 8) ->
       exists w, call_arg stack frame t arg s = Ok (do_int stack frame w s) /\ word_ok w /\ forall M l, carries M t l w v).
    { intros c K BR F D. unfold call_arg. rewrite EC, K.
      destruct D as [(-> & E)|[(-> & E)|[(-> & E)|(-> & E)]]]; rewrite E in *; cbn [do_scalar];
        (eexists; split; [reflexivity|]; split; [apply wrap_ok|]; intros M l; unfold carries; rewrite BR, F, EC, E).
      all: rewrite <- R.
      - refine (low_enc 1 _ _ _ _ _ eq_refl); [rewrite rd_length; reflexivity|exact (eq_ind_r bytes_ok Bv R)|lia].
      - refine (low_enc 2 _ _ _ _ _ eq_refl); [rewrite rd_length; reflexivity|exact (eq_ind_r bytes_ok Bv R)|lia].
      - refine (low_enc 4 _ _ _ _ _ eq_refl); [rewrite rd_length; reflexivity|exact (eq_ind_r bytes_ok Bv R)|lia].
      - refine (low_enc 8 _ _ _ _ _ eq_refl); [rewrite rd_length; reflexivity|exact (eq_ind_r bytes_ok Bv R)|lia]. }
    destruct (check_cases t C EC) as [(B & F & K)|[(B & F & [(K & E)|(K & E)])|(B & F & K)]].
    + left. unfold call_arg. rewrite EC, K. auto.
    + right; left. split; [auto|]. split; [auto|]. apply FL; auto. unfold call_arg. rewrite EC, K. reflexivity.
    + right; left. split; [auto|]. split; [auto|]. apply DB; auto. unfold call_arg. rewrite EC, K. reflexivity.
    + right; right. split; [auto|]. split; [auto|]. apply (IC _ eq_refl B F K).
  - (* pointer *) right; right. assert (t = ty_pointer).
    { inversion C as [|t0 H|t0 H|s0 a0 es offs NE FA SL]; subst; cbn [ty_code] in EC; try discriminate EC; try reflexivity; cbn in H;
      repeat destruct H as [H|H]; try contradiction; subst t; cbn in EC; discriminate EC. }
    subst t. split; [reflexivity|]; split; [reflexivity|]; eexists; split; [reflexivity|]; split; [apply wrap_ok|]; intros M l.
    unfold carries. cbn [by_ref ty_code ty_pointer floating extended]. rewrite value_dec, <- R. unfold wrap64, wrap. rewrite Zmod_mod. reflexivity.
  - left. assert (floating t = false) by (destruct t as [c ? ? ?]; cbn in EC; subst c; reflexivity).
    unfold by_ref, call_arg. rewrite EC. auto.
Qed.
