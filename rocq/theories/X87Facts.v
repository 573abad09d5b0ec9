(** Loading and storing through the x87 is exact, but for signalling NaNs. *)
From Verif Require Import Base BaseFacts X87Model.
Local Open Scope Z_scope.

(** Signalling NaN of a format: exponent all ones, fraction nonzero with top bit clear. *)
Definition snan (eb mb x : Z) : bool :=
  ((x / 2 ^ mb) mod 2 ^ eb =? 2 ^ eb - 1) && (0 <? x mod 2 ^ mb) && (x mod 2 ^ mb <? 2 ^ (mb - 1)).

Lemma rne_exact q s : 0 <= s -> rne (q * 2 ^ s) s = q.
Proof.
  intros S. unfold rne. assert (P : 0 < 2 ^ s) by (apply Z.pow_pos_nonneg; lia).
  rewrite Z.mod_mul, Z.div_mul by lia. replace (2 ^ s <? 2 * 0) with false by lia.
  replace (2 * 0 =? 2 ^ s) with false by lia. reflexivity.
Qed.

Lemma ld_st eb mb x : 2 <= eb <= 14 -> 2 <= mb <= 62 -> 0 <= x < 2 ^ (1 + eb + mb) -> snan eb mb x = false ->
  st eb mb (ld eb mb x) = x.
Proof.
  intros EB MB X NS. unfold snan in NS.
  assert (PM : 0 < 2 ^ mb) by (apply Z.pow_pos_nonneg; lia).
  assert (PE : 0 < 2 ^ eb) by (apply Z.pow_pos_nonneg; lia).
  assert (PEM : 2 ^ (eb + mb) = 2 ^ eb * 2 ^ mb) by (apply Z.pow_add_r; lia).
  assert (PF : 0 < 2 ^ (63 - mb)) by (apply Z.pow_pos_nonneg; lia).
  assert (P63 : 2 ^ 63 = 2 ^ mb * 2 ^ (63 - mb)) by (rewrite <- Z.pow_add_r by lia; f_equal; lia).
  assert (PH : 2 ^ mb = 2 * 2 ^ (mb - 1)) by (rewrite <- Z.pow_succ_r by lia; f_equal; lia).
  assert (PH0 : 0 < 2 ^ (mb - 1)) by (apply Z.pow_pos_nonneg; lia).
  assert (PB : 2 ^ eb = 2 * 2 ^ (eb - 1)) by (rewrite <- Z.pow_succ_r by lia; f_equal; lia).
  assert (PB2 : 2 <= 2 ^ (eb - 1)) by (change 2 with (2 ^ 1) at 1; apply Z.pow_le_mono_r; lia).
  assert (PB3 : 2 ^ (eb - 1) <= 8192) by (change 8192 with (2 ^ 13); apply Z.pow_le_mono_r; lia).
  set (m := x mod 2 ^ mb) in *. set (e := (x / 2 ^ mb) mod 2 ^ eb) in *. set (s := x / 2 ^ (eb + mb)).
  assert (M : 0 <= m < 2 ^ mb) by (apply Z.mod_pos_bound; lia).
  assert (E : 0 <= e < 2 ^ eb) by (apply Z.mod_pos_bound; lia).
  assert (DEC : x = s * 2 ^ (eb + mb) + e * 2 ^ mb + m).
  { subst m e s. rewrite PEM. rewrite (Z.mul_comm (2 ^ eb)). rewrite <- Z.div_div by lia.
    pose proof (Z.div_mod x (2 ^ mb) ltac:(lia)) as D1. pose proof (Z.div_mod (x / 2 ^ mb) (2 ^ eb) ltac:(lia)) as D2.
    rewrite D1 at 1. rewrite D2 at 1. ring. }
  unfold ld. fold m e s.
  destruct (Z.eqb_spec e (2 ^ eb - 1)) as [E1|E1].
  - destruct (Z.eqb_spec m 0) as [M0|M0].
    + unfold st. cbn [x_exp x_man x_sign]. rewrite Z.eqb_refl. replace (2 ^ 63 <? 2 ^ 63) with false by lia.
      replace (2 ^ 63 - 2 ^ 63 =? 0) with true by lia. rewrite DEC, M0, E1. lia.
    + assert (HM : 2 ^ (mb - 1) <= m) by lia.
      replace (m <? 2 ^ (mb - 1)) with false by lia.
      unfold st. cbn [x_exp x_man x_sign]. rewrite Z.eqb_refl.
      assert (MP : 0 < m * 2 ^ (63 - mb)) by (apply Z.mul_pos_pos; lia).
      replace (2 ^ 63 + m * 2 ^ (63 - mb) <? 2 ^ 63) with false by lia.
      replace (2 ^ 63 + m * 2 ^ (63 - mb) - 2 ^ 63) with (m * 2 ^ (63 - mb)) by lia.
      replace (m * 2 ^ (63 - mb) =? 0) with false by lia.
      rewrite Z.div_mul by lia. replace (m <? 2 ^ (mb - 1)) with false by lia. rewrite DEC, E1. lia.
  - destruct (Z.eqb_spec e 0) as [E0|E0].
    + destruct (Z.eqb_spec m 0) as [M0|M0].
      * unfold st. cbn [x_exp x_man x_sign]. cbn [Z.eqb]. rewrite DEC, M0, E0. lia.
      * pose proof (Z.log2_spec m ltac:(lia)) as [L1 L2]. pose proof (Z.log2_nonneg m) as L0.
        assert (L3 : Z.log2 m < mb) by (apply Z.log2_lt_pow2; lia).
        assert (BIAS : bias eb = 2 ^ (eb - 1) - 1) by reflexivity.
        assert (P63' : 2 ^ 63 = 2 ^ (Z.log2 m) * 2 ^ (63 - Z.log2 m)) by (rewrite <- Z.pow_add_r by lia; f_equal; lia).
        assert (PL : 0 < 2 ^ (63 - Z.log2 m)) by (apply Z.pow_pos_nonneg; lia).
        assert (MG : 2 ^ 63 <= m * 2 ^ (63 - Z.log2 m)) by (rewrite P63'; apply Z.mul_le_mono_nonneg_r; lia).
        unfold st. cbn [x_exp x_man x_sign].
        replace (16383 - bias eb + 1 - mb + Z.log2 m =? 32767) with false by lia.
        replace (m * 2 ^ (63 - Z.log2 m) =? 0) with false by lia.
        replace (m * 2 ^ (63 - Z.log2 m) <? 2 ^ 63) with false by lia. cbn [andb].
        replace (Z.max 1 (16383 - bias eb + 1 - mb + Z.log2 m)) with (16383 - bias eb + 1 - mb + Z.log2 m) by lia.
        replace (16383 - bias eb + 1 - mb + Z.log2 m - 16383) with (1 - bias eb - mb + Z.log2 m) by lia.
        replace (1 - bias eb - mb + Z.log2 m <? 1 - bias eb) with true by lia.
        replace (63 - mb + (1 - bias eb - (1 - bias eb - mb + Z.log2 m))) with (63 - Z.log2 m) by lia.
        rewrite rne_exact by lia. rewrite DEC, E0. lia.
    + assert (BIAS : bias eb = 2 ^ (eb - 1) - 1) by reflexivity.
      unfold st. cbn [x_exp x_man x_sign].
      replace (e - bias eb + 16383 =? 32767) with false by lia.
      assert (MG : 2 ^ 63 <= (2 ^ mb + m) * 2 ^ (63 - mb)) by (rewrite P63; apply Z.mul_le_mono_nonneg_r; lia).
      replace ((2 ^ mb + m) * 2 ^ (63 - mb) =? 0) with false by lia.
      replace ((2 ^ mb + m) * 2 ^ (63 - mb) <? 2 ^ 63) with false by lia. cbn [andb].
      replace (Z.max 1 (e - bias eb + 16383)) with (e - bias eb + 16383) by lia.
      replace (e - bias eb + 16383 - 16383) with (e - bias eb) by lia.
      replace (e - bias eb <? 1 - bias eb) with false by lia.
      rewrite rne_exact by lia. replace (e - bias eb - (1 - bias eb)) with (e - 1) by lia.
      rewrite Z.min_r.
      * rewrite DEC. ring.
      * assert (LE : e * 2 ^ mb <= (2 ^ eb - 2) * 2 ^ mb) by (apply Z.mul_le_mono_nonneg_r; lia). lia.
Qed.

Lemma ld_st80 x : 0 <= x < 2 ^ 80 -> st80 (ld80 x) = x.
Proof.
  intros X. unfold st80, ld80. cbn [x_sign x_exp x_man].
  pose proof (Z.div_mod x (2 ^ 64) ltac:(lia)). pose proof (Z.div_mod (x / 2 ^ 64) (2 ^ 15) ltac:(lia)).
  replace (x / 2 ^ 79) with (x / 2 ^ 64 / 2 ^ 15) by (rewrite Z.div_div by lia; reflexivity). lia.
Qed.

(** Is an object of [n] bytes a signalling NaN? *)
Definition signalling (n : Z) (d : list Z) : bool :=
  if n =? 4 then snan 8 23 (le_dec d) else if n =? 8 then snan 11 52 (le_dec d) else false.

Lemma fld_fstp n d : (n = 4 \/ n = 8 \/ n = 10) -> zlen d = n -> bytes_ok d -> signalling n d = false -> fstp n (fld n d) = d.
Proof.
  intros N Z B S. pose proof (le_dec_bound d B) as LB. rewrite Z in LB.
  assert (L : length d = Z.to_nat n) by (unfold zlen in Z; lia).
  destruct N as [->|[->| ->]]; unfold fstp, fld, signalling in *; cbn [Z.eqb Pos.eqb] in *.
  - rewrite ld_st by (auto; lia). rewrite <- (le_enc_dec d B) at 2. rewrite L. reflexivity.
  - rewrite ld_st by (auto; lia). rewrite <- (le_enc_dec d B) at 2. rewrite L. reflexivity.
  - rewrite ld_st80 by exact LB. rewrite <- (le_enc_dec d B) at 2. rewrite L. reflexivity.
Qed.
Lemma fstp_len n x : (n = 4 \/ n = 8 \/ n = 10) -> zlen (fstp n x) = n /\ bytes_ok (fstp n x).
Proof.
  intros [->|[->| ->]]; unfold fstp; cbn [Z.eqb Pos.eqb]; (split; [rewrite le_enc_zlen; reflexivity|apply le_enc_ok]).
Qed.
