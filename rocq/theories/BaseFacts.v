(** Lemmas about Base. *)
From Coq Require Import ZifyBool ZifyNat.
From Verif Require Import Base.
Ltac Zify.zify_post_hook ::= Z.div_mod_to_equations.

Lemma bind_ok {A B} (x : res A) (f : A -> res B) b :
  bind x f = Ok b -> exists a, x = Ok a /\ f a = Ok b.
Proof. destruct x; cbn; intros H; try discriminate; eauto. Qed.

Lemma zlen_nonneg {A} (l : list A) : 0 <= zlen l.
Proof. unfold zlen; lia. Qed.
Lemma zlen_nil {A} : zlen (@nil A) = 0.
Proof. reflexivity. Qed.
Lemma zlen_cons {A} (a : A) l : zlen (a :: l) = 1 + zlen l.
Proof. unfold zlen; cbn [length]; lia. Qed.
Lemma zlen_app {A} (l m : list A) : zlen (l ++ m) = zlen l + zlen m.
Proof. unfold zlen; rewrite app_length; lia. Qed.
Lemma zlen_firstn {A} (n : nat) (l : list A) : zlen (firstn n l) = Z.min (Z.of_nat n) (zlen l).
Proof. unfold zlen; rewrite firstn_length; lia. Qed.
Lemma zlen_skipn {A} (n : nat) (l : list A) : zlen (skipn n l) = Z.max 0 (zlen l - Z.of_nat n).
Proof. unfold zlen; rewrite skipn_length; lia. Qed.
Lemma zlen_repeat {A} (a : A) n : zlen (repeat a n) = Z.of_nat n.
Proof. unfold zlen; rewrite repeat_length; lia. Qed.
Lemma zlen_map {A B} (f : A -> B) l : zlen (map f l) = zlen l.
Proof. unfold zlen; rewrite map_length; lia. Qed.
Lemma zlen_0 {A} (l : list A) : zlen l = 0 -> l = [].
Proof. destruct l; unfold zlen; cbn; intros; [reflexivity|lia]. Qed.

(** ** Alignment *)

Lemma lor_ones_low x k : 0 <= k -> 0 <= x ->
  Z.lor x (2 ^ k - 1) = x / 2 ^ k * 2 ^ k + (2 ^ k - 1).
Proof.
  intros Hk Hx.
  replace (2 ^ k - 1) with (Z.ones k) by (rewrite Z.ones_equiv; lia).
  rewrite <- Z.shiftr_div_pow2, <- Z.shiftl_mul_pow2 by lia.
  rewrite Z.add_nocarry_lxor.
  - apply Z.bits_inj'; intros n Hn.
    rewrite Z.lor_spec, Z.lxor_spec, Z.shiftl_spec by lia.
    destruct (Z_lt_le_dec n k).
    + rewrite Z.ones_spec_low by lia.
      rewrite (Z.testbit_neg_r _ (n - k)) by lia. rewrite orb_true_r. reflexivity.
    + rewrite Z.ones_spec_high by lia. rewrite Z.shiftr_spec by lia.
      replace (n - k + k) with n by lia.
      rewrite orb_false_r, xorb_false_r. reflexivity.
  - apply Z.bits_inj'; intros n Hn.
    rewrite Z.land_spec, Z.shiftl_spec, Z.bits_0 by lia.
    destruct (Z_lt_le_dec n k).
    + rewrite (Z.testbit_neg_r _ (n - k)) by lia. reflexivity.
    + rewrite Z.ones_spec_high by lia. apply andb_false_r.
Qed.

(** Powers of two that fit the 16-bit alignment field. *)
Definition is_pow2 (a : Z) : Prop := exists k, 0 <= k < 16 /\ a = 2 ^ k.

Lemma is_pow2_pos a : is_pow2 a -> 1 <= a < 65536.
Proof.
  intros (k & Hk & ->). split.
  - assert (0 < 2 ^ k) by (apply Z.pow_pos_nonneg; lia). lia.
  - change 65536 with (2 ^ 16). apply Z.pow_lt_mono_r; lia.
Qed.

Lemma is_pow2_divide a b : is_pow2 a -> is_pow2 b -> a <= b -> (a | b).
Proof.
  intros (k & Hk & ->) (l & Hl & ->) Hle.
  assert (k <= l).
  { destruct (Z_lt_le_dec l k); [|lia].
    assert (2 ^ l < 2 ^ k) by (apply Z.pow_lt_mono_r; lia). lia. }
  exists (2 ^ (l - k)). rewrite <- Z.pow_add_r by lia. f_equal; lia.
Qed.

Lemma is_pow2_max a b : is_pow2 a -> is_pow2 b -> is_pow2 (Z.max a b).
Proof. intros. destruct (Z.max_spec a b) as [[_ ->]|[_ ->]]; assumption. Qed.

(** Mathematical rounding up. *)
Definition round_up (v a : Z) : Z := (v + a - 1) / a * a.

Lemma ffi_align_w_round w v a : 16 <= w -> is_pow2 a -> 0 <= v -> round_up v a < 2 ^ w ->
  ffi_align_w w v a = round_up v a.
Proof.
  intros Hw Ha Hv Hlt. pose proof (is_pow2_pos a Ha) as Hpos.
  assert (Hw2 : 65536 <= 2 ^ w).
  { change 65536 with (2 ^ 16). apply Z.pow_le_mono_r; lia. }
  unfold ffi_align_w, wrap. unfold round_up in *.
  destruct Ha as (k & Hk & ->).
  rewrite (Z.mod_small (2 ^ k - 1)) by lia.
  destruct (Z.eq_dec v 0) as [->|Hv0].
  - assert ((0 - 1) mod 2 ^ w = 2 ^ w - 1) as ->.
    { symmetry. apply Z.mod_unique with (q := -1); lia. }
    rewrite lor_ones_low by lia.
    assert (Hd : (2 ^ w - 1) / 2 ^ k * 2 ^ k + (2 ^ k - 1) = 2 ^ w - 1).
    { assert (2 ^ w = 2 ^ (w - k) * 2 ^ k) as E.
      { rewrite <- Z.pow_add_r by lia. f_equal; lia. }
      assert ((2 ^ w - 1) / 2 ^ k = 2 ^ (w - k) - 1) as ->.
      { symmetry. apply Z.div_unique with (r := 2 ^ k - 1); lia. }
      lia. }
    rewrite Hd. replace (2 ^ w - 1 + 1) with (2 ^ w) by lia.
    rewrite Z.mod_same by lia.
    replace (0 + 2 ^ k - 1) with (2 ^ k - 1) by lia.
    rewrite Z.div_small by lia. lia.
  - assert (Hr : (v + 2 ^ k - 1) / 2 ^ k = (v - 1) / 2 ^ k + 1).
    { replace (v + 2 ^ k - 1) with ((v - 1) + 1 * 2 ^ k) by lia.
      rewrite Z.div_add by lia. reflexivity. }
    assert (Hge : v <= (v + 2 ^ k - 1) / 2 ^ k * 2 ^ k) by nia.
    rewrite (Z.mod_small (v - 1)) by lia.
    rewrite lor_ones_low by lia.
    replace ((v - 1) / 2 ^ k * 2 ^ k + (2 ^ k - 1) + 1)
      with ((v + 2 ^ k - 1) / 2 ^ k * 2 ^ k) by (rewrite Hr; ring).
    apply Z.mod_small. lia.
Qed.

Lemma ffi_align_round v a : is_pow2 a -> 0 <= v -> round_up v a < 2 ^ 64 ->
  ffi_align v a = round_up v a.
Proof. intros. apply ffi_align_w_round; auto; lia. Qed.

Lemma round_up_le v a : 0 < a -> v <= round_up v a.
Proof. unfold round_up; intros; nia. Qed.
Lemma round_up_lt v a : 0 < a -> round_up v a < v + a.
Proof. unfold round_up; intros; nia. Qed.
Lemma round_up_divide v a : (a | round_up v a).
Proof. exists ((v + a - 1) / a). reflexivity. Qed.
Lemma round_up_mod v a : 0 < a -> round_up v a mod a = 0.
Proof. intros; unfold round_up. apply Z.mod_mul; lia. Qed.
Lemma round_up_id v a : 0 < a -> (a | v) -> round_up v a = v.
Proof.
  intros Ha (q & ->). unfold round_up.
  replace (q * a + a - 1) with ((a - 1) + q * a) by lia.
  rewrite Z.div_add by lia. rewrite Z.div_small by lia. lia.
Qed.
Lemma round_up_nonneg v a : 0 < a -> 0 <= v -> 0 <= round_up v a.
Proof. intros. pose proof (round_up_le v a); lia. Qed.
Lemma round_up_least v a m : 0 < a -> (a | m) -> v <= m -> round_up v a <= m.
Proof.
  intros Ha (q & ->) H. pose proof (round_up_lt v a Ha). pose proof (round_up_divide v a) as (p & Hp).
  rewrite Hp in *. assert (p < q + 1) by nia. nia.
Qed.
Lemma round_up_mono v w a : 0 < a -> v <= w -> round_up v a <= round_up w a.
Proof.
  intros. apply round_up_least; auto using round_up_divide.
  pose proof (round_up_le w a); lia.
Qed.
Lemma round_up_unique v a m : 0 < a -> (a | m) -> v <= m < v + a -> m = round_up v a.
Proof.
  intros Ha Hd [H1 H2]. assert (round_up v a <= m) by (apply round_up_least; auto).
  pose proof (round_up_le v a Ha). destruct Hd as (q & ->).
  pose proof (round_up_divide v a) as (p & Hp). rewrite Hp in *.
  assert (q < p + 1) by nia. assert (p <= q) by nia. assert (p = q) by lia. subst; reflexivity.
Qed.
Lemma round_up_add v b a : 0 < a -> (a | b) -> round_up (b + v) a = b + round_up v a.
Proof.
  intros Ha Hb. symmetry. apply round_up_unique; auto.
  - apply Z.divide_add_r; auto using round_up_divide.
  - pose proof (round_up_le v a Ha). pose proof (round_up_lt v a Ha). lia.
Qed.

(** ** Little-endian encodings *)

Lemma le_enc_length n x : length (le_enc n x) = n.
Proof. revert x; induction n; intros; cbn; [|rewrite IHn]; reflexivity. Qed.
Lemma le_enc_zlen n x : zlen (le_enc n x) = Z.of_nat n.
Proof. unfold zlen; rewrite le_enc_length; reflexivity. Qed.
Lemma le_enc_ok n x : bytes_ok (le_enc n x).
Proof.
  revert x; induction n; intros; cbn; constructor; [|apply IHn].
  unfold byte_ok. apply Z.mod_pos_bound; lia.
Qed.
Lemma le_dec_enc n x : le_dec (le_enc n x) = x mod 2 ^ (8 * Z.of_nat n).
Proof.
  revert x; induction n; intros; cbn [le_enc le_dec].
  - rewrite Z.mod_1_r. reflexivity.
  - rewrite IHn. replace (8 * Z.of_nat (S n)) with (8 + 8 * Z.of_nat n) by lia.
    rewrite Z.pow_add_r by lia. change (2 ^ 8) with 256.
    rewrite Z.rem_mul_r by (try lia; apply Z.pow_nonzero; lia). lia.
Qed.
Lemma le_dec_bound l : bytes_ok l -> 0 <= le_dec l < 2 ^ (8 * zlen l).
Proof.
  induction 1; cbn [le_dec].
  - change (8 * zlen (@nil Z)) with 0. lia.
  - rewrite zlen_cons. unfold byte_ok in *.
    replace (8 * (1 + zlen l)) with (8 + 8 * zlen l) by lia.
    pose proof (zlen_nonneg l).
    rewrite Z.pow_add_r by lia. change (2 ^ 8) with 256. lia.
Qed.
Lemma le_enc_dec l : bytes_ok l -> le_enc (length l) (le_dec l) = l.
Proof.
  induction 1 as [|b l Hb Hl IH]; cbn [length le_enc le_dec]; [reflexivity|].
  unfold byte_ok in Hb. f_equal.
  - rewrite (Z.mul_comm 256), Z.mod_add by lia. apply Z.mod_small; lia.
  - rewrite (Z.mul_comm 256), Z.div_add by lia. rewrite Z.div_small by lia.
    exact IH.
Qed.
Lemma le_enc_mod n x : le_enc n (x mod 2 ^ (8 * Z.of_nat n)) = le_enc n x.
Proof.
  rewrite <- le_dec_enc. rewrite <- (le_enc_length n x) at 1. apply le_enc_dec. apply le_enc_ok.
Qed.
Lemma le_enc_firstn n m x : (n <= m)%nat -> firstn n (le_enc m x) = le_enc n x.
Proof.
  revert m x; induction n; intros m x H; [reflexivity|].
  destruct m; [lia|]. cbn. f_equal. apply IHn; lia.
Qed.
Lemma le_dec_app l m : le_dec (l ++ m) = le_dec l + 2 ^ (8 * zlen l) * le_dec m.
Proof.
  induction l as [|b l IH]; cbn [app le_dec].
  - change (8 * zlen (@nil Z)) with 0. rewrite Z.pow_0_r. lia.
  - rewrite IH, zlen_cons. pose proof (zlen_nonneg l).
    replace (8 * (1 + zlen l)) with (8 + 8 * zlen l) by lia.
    rewrite Z.pow_add_r by lia. change (2 ^ 8) with 256. ring.
Qed.
Lemma le_dec_repeat0 n : le_dec (repeat 0 n) = 0.
Proof. induction n; cbn [repeat le_dec]; lia. Qed.
Lemma le_dec_inj l m : bytes_ok l -> bytes_ok m -> length l = length m -> le_dec l = le_dec m -> l = m.
Proof.
  intros Hl Hm Hlen E. rewrite <- (le_enc_dec l), <- (le_enc_dec m) by assumption. congruence.
Qed.
Lemma le_enc_add k n x : le_enc (k + n) x = le_enc k x ++ le_enc n (x / 2 ^ (8 * Z.of_nat k)).
Proof.
  revert x; induction k; intros; cbn [Nat.add le_enc app].
  - rewrite Z.div_1_r. reflexivity.
  - rewrite IHk. do 3 f_equal.
    rewrite Z.div_div by (try lia; apply Z.pow_pos_nonneg; lia).
    f_equal. replace (8 * Z.of_nat (S k)) with (8 + 8 * Z.of_nat k) by lia.
    rewrite Z.pow_add_r by lia. reflexivity.
Qed.

Lemma bytes_ok_app l m : bytes_ok (l ++ m) <-> bytes_ok l /\ bytes_ok m.
Proof. unfold bytes_ok. apply Forall_app. Qed.
Lemma bytes_ok_firstn n l : bytes_ok l -> bytes_ok (firstn n l).
Proof.
  intros H. rewrite <- (firstn_skipn n l) in H. apply bytes_ok_app in H. tauto.
Qed.
Lemma bytes_ok_skipn n l : bytes_ok l -> bytes_ok (skipn n l).
Proof.
  intros H. rewrite <- (firstn_skipn n l) in H. apply bytes_ok_app in H. tauto.
Qed.
Lemma bytes_ok_repeat0 n : bytes_ok (repeat 0 n).
Proof. induction n; cbn; constructor; auto. unfold byte_ok; lia. Qed.

(** ** Bounded accesses *)

Lemma get_range_some {A} (m : list A) off len : 0 <= off -> 0 <= len -> off + len <= zlen m ->
  get_range m off len = Some (firstn (Z.to_nat len) (skipn (Z.to_nat off) m)).
Proof.
  intros. unfold get_range.
  replace ((0 <=? off) && (0 <=? len) && (off + len <=? zlen m)) with true by lia. reflexivity.
Qed.
Lemma get_range_inv {A} (m : list A) off len d : get_range m off len = Some d ->
  0 <= off /\ 0 <= len /\ off + len <= zlen m /\
  d = firstn (Z.to_nat len) (skipn (Z.to_nat off) m) /\ zlen d = len.
Proof.
  unfold get_range. destruct ((0 <=? off) && (0 <=? len) && (off + len <=? zlen m)) eqn:E; [|discriminate].
  intros [= <-]. repeat split; try lia.
  rewrite zlen_firstn, zlen_skipn. lia.
Qed.
Lemma get_range_all {A} (m : list A) : get_range m 0 (zlen m) = Some m.
Proof.
  rewrite get_range_some by (pose proof (zlen_nonneg m); lia). f_equal.
  cbn [Z.to_nat skipn]. unfold zlen. rewrite Nat2Z.id. apply firstn_all.
Qed.
Lemma set_range_some {A} (m : list A) off d : 0 <= off -> off + zlen d <= zlen m ->
  set_range m off d = Some (firstn (Z.to_nat off) m ++ d ++ skipn (Z.to_nat (off + zlen d)) m).
Proof.
  intros. unfold set_range.
  replace ((0 <=? off) && (off + zlen d <=? zlen m)) with true by lia. reflexivity.
Qed.
Lemma set_range_inv {A} (m : list A) off d m' : set_range m off d = Some m' ->
  0 <= off /\ off + zlen d <= zlen m /\
  m' = firstn (Z.to_nat off) m ++ d ++ skipn (Z.to_nat (off + zlen d)) m /\ zlen m' = zlen m.
Proof.
  unfold set_range. destruct ((0 <=? off) && (off + zlen d <=? zlen m)) eqn:E; [|discriminate].
  intros [= <-]. repeat split; try lia.
  rewrite !zlen_app, zlen_firstn, zlen_skipn. pose proof (zlen_nonneg d). lia.
Qed.

Lemma nth_error_firstn_lt {A} (l : list A) n i : (i < n)%nat -> nth_error (firstn n l) i = nth_error l i.
Proof.
  revert l i; induction n; intros l i H; [lia|].
  destruct l; [destruct i; reflexivity|]. destruct i; cbn; [reflexivity|]. apply IHn; lia.
Qed.
Lemma nth_error_skipn {A} (l : list A) n i : nth_error (skipn n l) i = nth_error l (n + i).
Proof.
  revert l; induction n; intros l; [reflexivity|].
  destruct l; cbn; [destruct i; reflexivity|]. apply IHn.
Qed.

Lemma nth_error_ext {A} (l m : list A) : (forall i, nth_error l i = nth_error m i) -> l = m.
Proof.
  revert m; induction l as [|a l IH]; intros [|b m] H.
  - reflexivity.
  - specialize (H O); discriminate.
  - specialize (H O); discriminate.
  - pose proof (H O) as H0. cbn in H0. injection H0 as ->. f_equal.
    apply IH. intros i. exact (H (S i)).
Qed.

(** Pointwise view of ranges. *)
Lemma nth_error_get_range {A} (m : list A) off len d i : get_range m off len = Some d ->
  (i < length d)%nat -> nth_error d i = nth_error m (Z.to_nat off + i).
Proof.
  intros H Hi. apply get_range_inv in H as (H1 & H2 & H3 & -> & H4).
  rewrite nth_error_firstn_lt by (rewrite firstn_length in Hi; lia).
  apply nth_error_skipn.
Qed.
Lemma nth_error_set_range_out {A} (m : list A) off d m' i : set_range m off d = Some m' ->
  (Z.of_nat i < off \/ off + zlen d <= Z.of_nat i) -> nth_error m' i = nth_error m i.
Proof.
  intros H Hi. apply set_range_inv in H as (H1 & H2 & -> & H4).
  unfold zlen in *. destruct Hi as [Hi|Hi].
  - rewrite nth_error_app1 by (rewrite firstn_length; lia). apply nth_error_firstn_lt; lia.
  - rewrite nth_error_app2 by (rewrite firstn_length; lia).
    rewrite nth_error_app2 by (rewrite firstn_length; lia).
    rewrite nth_error_skipn. f_equal. rewrite firstn_length. lia.
Qed.
Lemma nth_error_set_range_in {A} (m : list A) off d m' i : set_range m off d = Some m' ->
  (i < length d)%nat -> nth_error m' (Z.to_nat off + i) = nth_error d i.
Proof.
  intros H Hi. apply set_range_inv in H as (H1 & H2 & -> & H4).
  unfold zlen in *.
  rewrite nth_error_app2 by (rewrite firstn_length; lia).
  rewrite firstn_length. replace (Z.to_nat off + i - Nat.min (Z.to_nat off) (length m))%nat with i by lia.
  apply nth_error_app1; assumption.
Qed.

Lemma get_range_nth {A} (m : list A) off len d : 0 <= off -> 0 <= len -> off + len <= zlen m ->
  zlen d = len -> (forall i, (i < length d)%nat -> nth_error m (Z.to_nat off + i) = nth_error d i) ->
  get_range m off len = Some d.
Proof.
  intros H1 H2 H3 H4 H. rewrite get_range_some by assumption. f_equal.
  apply nth_error_ext. intros i. destruct (Nat.lt_ge_cases i (length d)) as [Hi|Hi].
  - rewrite nth_error_firstn_lt by (unfold zlen in *; lia).
    rewrite nth_error_skipn. auto.
  - rewrite (proj2 (nth_error_None _ _)) by (rewrite firstn_length; unfold zlen in *; lia).
    symmetry. apply nth_error_None. lia.
Qed.

Lemma get_set_same {A} (m : list A) off d m' : set_range m off d = Some m' ->
  get_range m' off (zlen d) = Some d.
Proof.
  intros H. pose proof (set_range_inv _ _ _ _ H) as (H1 & H2 & _ & H4).
  apply get_range_nth; auto using zlen_nonneg; try lia.
  intros i Hi. eapply nth_error_set_range_in; eauto.
Qed.
Lemma get_set_disjoint {A} (m : list A) off d m' off2 len2 : set_range m off d = Some m' ->
  (off2 + len2 <= off \/ off + zlen d <= off2) ->
  get_range m' off2 len2 = get_range m off2 len2.
Proof.
  intros H Hd. pose proof (set_range_inv _ _ _ _ H) as (H1 & H2 & _ & H4).
  unfold get_range. rewrite H4.
  destruct ((0 <=? off2) && (0 <=? len2) && (off2 + len2 <=? zlen m)) eqn:E; [|reflexivity].
  f_equal. apply nth_error_ext. intros i.
  destruct (Nat.lt_ge_cases i (Z.to_nat len2)) as [Hi|Hi].
  - rewrite !nth_error_firstn_lt by lia. rewrite !nth_error_skipn.
    eapply nth_error_set_range_out; eauto. lia.
  - rewrite !(proj2 (nth_error_None _ _)); auto; rewrite firstn_length; lia.
Qed.
Lemma get_range_sub {A} (m : list A) off len d off2 len2 : get_range m off len = Some d ->
  0 <= off2 -> 0 <= len2 -> off2 + len2 <= len ->
  get_range m (off + off2) len2 = get_range d off2 len2.
Proof.
  intros H H1 H2 H3. pose proof (get_range_inv _ _ _ _ H) as (Ha & Hb & Hc & _ & Hd).
  rewrite (get_range_some d) by lia.
  apply get_range_nth; try lia.
  - rewrite zlen_firstn, zlen_skipn. lia.
  - intros i Hi. rewrite firstn_length, skipn_length in Hi.
    rewrite nth_error_firstn_lt by lia. rewrite nth_error_skipn.
    rewrite (nth_error_get_range _ _ _ _ _ H) by lia. f_equal. lia.
Qed.
Lemma bytes_ok_get_range m off len d : bytes_ok m -> get_range m off len = Some d -> bytes_ok d.
Proof.
  intros Hm H. apply get_range_inv in H as (_ & _ & _ & -> & _).
  apply bytes_ok_firstn, bytes_ok_skipn; assumption.
Qed.
Lemma bytes_ok_set_range m off d m' : bytes_ok m -> bytes_ok d -> set_range m off d = Some m' -> bytes_ok m'.
Proof.
  intros Hm Hd H. apply set_range_inv in H as (_ & _ & -> & _).
  rewrite !bytes_ok_app. auto using bytes_ok_firstn, bytes_ok_skipn.
Qed.

Lemma set_range_ok {A} (m : list A) off d : 0 <= off -> off + zlen d <= zlen m ->
  exists m', set_range m off d = Some m' /\ zlen m' = zlen m.
Proof.
  intros. destruct (set_range m off d) as [m'|] eqn:E.
  - exists m'. split; auto. apply set_range_inv in E. tauto.
  - rewrite set_range_some in E by assumption. discriminate.
Qed.
Lemma get_range_ok {A} (m : list A) off len : 0 <= off -> 0 <= len -> off + len <= zlen m ->
  exists d, get_range m off len = Some d /\ zlen d = len.
Proof.
  intros. destruct (get_range m off len) as [d|] eqn:E.
  - exists d. split; auto. apply get_range_inv in E. tauto.
  - rewrite get_range_some in E by assumption. discriminate.
Qed.

(** Signed readings. *)
Lemma to_signed_range n x : 0 < n -> - 2 ^ (n - 1) <= to_signed n x < 2 ^ (n - 1).
Proof.
  intros Hn. unfold to_signed.
  assert (E : 2 ^ n = 2 * 2 ^ (n - 1)).
  { rewrite <- Z.pow_succ_r by lia. f_equal; lia. }
  assert (0 < 2 ^ (n - 1)) by (apply Z.pow_pos_nonneg; lia).
  pose proof (Z.mod_pos_bound x (2 ^ n)).
  destruct (x mod 2 ^ n <? 2 ^ (n - 1)) eqn:D; lia.
Qed.
Lemma to_signed_mod n x : 0 < n -> to_signed n x mod 2 ^ n = x mod 2 ^ n.
Proof.
  intros Hn. unfold to_signed.
  assert (0 < 2 ^ n) by (apply Z.pow_pos_nonneg; lia).
  destruct (x mod 2 ^ n <? 2 ^ (n - 1)).
  - apply Z.mod_mod; lia.
  - rewrite <- (Z.mod_add _ 1) by lia. rewrite Z.mul_1_l, Z.sub_add. apply Z.mod_mod; lia.
Qed.
