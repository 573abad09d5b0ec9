(** Arithmetic and byte block facts for the AArch64 proofs. *)
From Coq Require Import ZifyBool ZifyNat.
From Verif Require Import Base BaseFacts Types LayoutSpec NaturalTypes NaturalFacts A64Model A64Spec A64Hfa.
Local Arguments Z.mul : simpl never.
Local Arguments Z.add : simpl never.

Lemma align_down_round v a : is_pow2 a -> 0 <= v < 2 ^ 64 -> ffi_align_down v a = round_down v a.
Proof.
  intros P V. pose proof (is_pow2_pos a P) as B. destruct P as (k & K & ->).
  unfold ffi_align_down, round_down, wrap64, wrap. rewrite (Z.mod_small v) by lia.
  assert (E : (- 2 ^ k) mod 2 ^ 64 = Z.shiftl (Z.ones (64 - k)) k).
  { rewrite Z.shiftl_mul_pow2, Z.ones_equiv by lia. rewrite <- (Z_mod_plus_full _ 1), Z.mod_small by lia.
    rewrite <- Z.sub_1_r, Z.mul_sub_distr_r. rewrite <- Z.pow_add_r by lia. replace (64 - k + k) with 64 by lia. lia. }
  rewrite E. apply Z.bits_inj'. intros n Hn. rewrite Z.land_spec, Z.shiftl_spec by lia.
  replace (2 ^ k * (v / 2 ^ k)) with (Z.shiftl (Z.shiftr v k) k)
    by (rewrite Z.shiftl_mul_pow2, Z.shiftr_div_pow2 by lia; lia).
  rewrite Z.shiftl_spec by lia.
  destruct (Z.ltb_spec n k).
  - rewrite !(Z.testbit_neg_r _ (n - k)) by lia. apply andb_false_r.
  - rewrite Z.shiftr_spec by lia. replace (n - k + k) with n by lia.
    destruct (Z.ltb_spec n 64).
    + rewrite Z.ones_spec_low by lia. apply andb_true_r.
    + assert (T : Z.testbit v n = false).
      { destruct (Z.eq_dec v 0) as [->|NZ]; [apply Z.testbit_0_l|].
        apply Z.bits_above_log2; [lia|]. apply Z.log2_lt_pow2; [lia|]. apply Z.lt_le_trans with (2 ^ 64); [lia|].
        apply Z.pow_le_mono_r; lia. }
      rewrite T. reflexivity.
Qed.

Lemma round_down_bounds v a : 0 < a -> round_down v a <= v /\ v - a < round_down v a /\ (a | round_down v a).
Proof.
  intros A. unfold round_down. pose proof (Z.mul_div_le v a A). pose proof (Z.mod_pos_bound v a A).
  pose proof (Z.div_mod v a ltac:(lia)). repeat split; try lia. apply Z.divide_factor_l.
Qed.

Lemma round_down_nonneg v a : 0 < a -> 0 <= v -> 0 <= round_down v a.
Proof. intros A V. unfold round_down. pose proof (Z.div_pos v a V A). nia. Qed.

(** Prefix of a written range. *)
Lemma get_set_prefix (m m' a r : list Z) off : set_range m off (a ++ r) = Some m' ->
  get_range m' off (zlen a) = Some a.
Proof.
  intros H. apply get_set_same in H. rewrite zlen_app in H. pose proof (zlen_nonneg a). pose proof (zlen_nonneg r).
  rewrite <- (Z.add_0_r off). rewrite (get_range_sub _ _ _ _ 0 (zlen a) H) by lia.
  rewrite get_range_some by (rewrite ?zlen_app; lia). f_equal. cbn [skipn Z.to_nat].
  unfold zlen. rewrite Nat2Z.id, firstn_app, Nat.sub_diag, firstn_all. cbn [firstn]. apply app_nil_r.
Qed.

(** Integers. *)
Definition is_int_type (t : ftype) : Prop := t = ty_pointer \/ In t int_types.

Lemma int_type_facts t : is_int_type t ->
  hfa_of t = None /\ ty_align t = ty_size t /\ 1 <= ty_size t <= 8 /\ integral (ty_code t) = true /\
  match ty_code t with T_VOID | T_FLOAT | T_DOUBLE | T_LONGDOUBLE | T_STRUCT | T_COMPLEX => False | _ => True end.
Proof.
  intros [-> | H]; [cbn; repeat split; lia|]. cbn in H.
  repeat (destruct H as [<-|H]; [cbn; repeat split; lia|]). contradiction.
Qed.

Lemma le_enc_value n (e : Z) (a : list Z) : (n <= 8)%nat -> length a = n -> bytes_ok a ->
  e mod 2 ^ (8 * Z.of_nat n) = le_dec a -> exists r, le_enc 8 e = a ++ r.
Proof.
  intros L E B M. replace 8%nat with (n + (8 - n))%nat by lia. rewrite le_enc_add. eexists. f_equal.
  rewrite <- le_enc_mod, M, <- E. apply le_enc_dec; auto.
Qed.

Lemma extend_integer_ok t a : is_int_type t -> zlen a = ty_size t -> bytes_ok a ->
  extend_integer a (ty_code t) = Ok (widened (ty_code t) a) /\
  exists r, le_enc 8 (widened (ty_code t) a) = a ++ r.
Proof.
  intros I L B.
  assert (G : get_range a 0 (ty_size t) = Some a) by (rewrite <- L; apply get_range_all).
  pose proof (le_dec_bound a B) as LB. rewrite L in LB.
  assert (M : widened (ty_code t) a mod 2 ^ (8 * ty_size t) = le_dec a).
  { unfold widened. rewrite L. destruct (int_type_facts t I) as (_ & _ & S & _).
    assert (D : exists q, 2 ^ 64 = q * 2 ^ (8 * ty_size t)).
    { exists (2 ^ (64 - 8 * ty_size t)). rewrite <- Z.pow_add_r by lia. f_equal. lia. }
    assert (P : 0 < 2 ^ (8 * ty_size t)) by (apply Z.pow_pos_nonneg; lia).
    assert (MM : forall x, (x mod 2 ^ 64) mod 2 ^ (8 * ty_size t) = x mod 2 ^ (8 * ty_size t)).
    { intros x. destruct D as [q D]. assert (Q : 0 < q) by nia. rewrite D.
      rewrite (Z.mul_comm q), Z.rem_mul_r by lia. rewrite (Z.mul_comm _ (_ mod q)), Z_mod_plus_full. apply Z.mod_mod. lia. }
    rewrite MM. destruct (signed_code (ty_code t)).
    - rewrite to_signed_mod by lia. apply Z.mod_small; lia.
    - apply Z.mod_small; lia. }
  split.
  - assert (W : forall c, 0 <= c -> wrap64 c = c mod 2 ^ 64) by reflexivity.
    unfold widened. destruct I as [-> | I].
    + cbn [ty_code ty_pointer extend_integer ty_size signed_code] in *. rewrite G. cbn [of_option bind].
      rewrite Z.mod_small by lia. reflexivity.
    + cbn in I. repeat (destruct I as [<-|I]; [cbn [ty_code ty_uint8 ty_sint8 ty_uint16 ty_sint16 ty_uint32 ty_sint32 ty_uint64 ty_sint64 extend_integer ty_size signed_code] in *;
        rewrite G; cbn [of_option bind]; rewrite ?L; f_equal; unfold wrap64, wrap; cbn [Z.mul] in *;
        first [reflexivity|symmetry; apply Z.mod_small; lia|idtac]|]).
      2: contradiction.
      all: try (unfold to_signed; change (8 * 8) with 64 in *; rewrite (Z.mod_small (le_dec a) (2 ^ 64)) by lia;
                destruct (le_dec a <? 2 ^ (64 - 1)); [symmetry; apply Z.mod_small; lia|];
                rewrite <- (Z_mod_plus_full _ 1), Z.mod_small; lia).
  - destruct (int_type_facts t I) as (_ & _ & S & _).
    apply (le_enc_value (Z.to_nat (ty_size t))); auto; try lia.
    + unfold zlen in L. lia.
    + rewrite Z2Nat.id by lia. exact M.
Qed.
