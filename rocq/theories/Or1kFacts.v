(** Facts about words of the or1k target, and what ffi_prep_args leaves. *)
From Coq Require Import ZifyBool ZifyNat.
From Verif Require Import Base BaseFacts Types ByteMem S390Model S390Facts Or1kModel Or1kSpec.
Local Open Scope Z_scope.
Local Arguments Z.mul : simpl never.
Local Arguments Z.add : simpl never.
Local Arguments Z.sub : simpl never.
Local Arguments Z.pow : simpl never.
Local Arguments Z.div : simpl never.
Local Arguments Z.modulo : simpl never.
Local Arguments Z.of_nat : simpl never.
Local Arguments be_enc : simpl never.
Local Arguments rd : simpl never.

Lemma value_dec l : value l = be_dec l.
Proof.
  induction l as [|b l IH]; [reflexivity|]. cbn [value]. rewrite IH. unfold be_dec. cbn [rev]. rewrite le_dec_app. cbn [le_dec].
  replace (zlen (rev l)) with (zlen l) by (unfold zlen; rewrite rev_length; reflexivity). lia.
Qed.
Lemma bytes_at_rd M p n : bytes_at M p n = rd M p (Z.to_nat n).
Proof. apply seq_rd. Qed.
Lemma word_enc w : word_bytes w = be_enc 4 w.
Proof.
  unfold word_bytes, be_enc. cbn [seq map le_enc rev app]. rewrite !Z.div_div by lia.
  repeat (f_equal; try (f_equal; try reflexivity)).
  change (2 ^ (8 * (3 - Z.of_nat 3))) with 1. rewrite Z.div_1_r. reflexivity.
Qed.
Lemma rd_ok m a n : bytes_in m -> bytes_ok (rd m a n).
Proof. intros B. apply rd_bytes, B. Qed.
Lemma rd_word m a : bytes_in m -> be_enc 4 (be_dec (rd m a 4)) = rd m a 4.
Proof. intros B. change 4%nat with (length (rd m a 4)) at 1. apply be_enc_dec, rd_ok, B. Qed.
Lemma rd_word_bound m a : bytes_in m -> 0 <= be_dec (rd m a 4) < 2 ^ 32.
Proof. intros B. pose proof (be_dec_bound _ (rd_ok m a 4 B)) as H. rewrite rd_zlen in H. exact H. Qed.
Lemma rd_8 m a : rd m a 8 = rd m a 4 ++ rd m (a + 4) 4.
Proof. change 8%nat with (4 + 4)%nat. apply rd_app. Qed.

Lemma is_struct_eq t : is_struct t = aggregate t.
Proof. reflexivity. Qed.
Lemma words_cases t : words t = 1 \/ words t = 2.
Proof. unfold words. destruct (aggregate t); auto. destruct (_ =? _); auto. Qed.

(** What is stored for an argument. *)
Definition image (t : ftype) (arg : Z) (v : list Z) : list Z :=
  if aggregate t then be_enc 4 arg else if ty_size t <? 4 then be_enc 4 (extended t v) else v.
Lemma image_length t arg v : otype t -> is_value t v -> length (image t arg v) = Z.to_nat (4 * words t).
Proof.
  intros O (L & _). unfold otype, image, words, aggregate, zlen in *. destruct (ty_code t); try contradiction;
    rewrite ?O in *; cbn; rewrite ?be_enc_length; try reflexivity; lia.
Qed.
Lemma image_ok t arg v : is_value t v -> bytes_ok (image t arg v).
Proof. intros (_ & B). unfold image. destruct (aggregate t); [apply be_enc_ok|]. destruct (_ <? _); [apply be_enc_ok|exact B]. Qed.

Lemma small_dec t v : is_value t v -> 0 <= be_dec v < 2 ^ (8 * ty_size t).
Proof. intros (L & B). rewrite <- L. apply be_dec_bound, B. Qed.

(** One argument, in words of the specification. *)
Lemma prep_arg_eq stack t arg v s : otype t -> is_value t v -> rd (p_m s) arg (Z.to_nat (ty_size t)) = v ->
  let s1 := skip_regs stack s in
  let g := if (words t =? 2) && (p_count s1 =? 20) then 4 else 0 in
  prep_arg stack t arg s = PSt (wr (p_m s) (p_at s1 + g) (image t arg v)) (p_at s1 + g + 4 * words t) (p_count s1 + g + 4 * words t) (p_fixed s - 1).
Proof.
  intros O V R s1. assert (Em : p_m s1 = p_m s) by (unfold s1, skip_regs; destruct (_ && _); reflexivity).
  assert (Ef : p_fixed s1 = p_fixed s - 1) by (unfold s1, skip_regs; destruct (_ && _); reflexivity).
  intros g. unfold prep_arg. fold s1. clearbody s1. rewrite Em. pose proof (small_dec t v V) as Bd.
  unfold otype in O. unfold words, image, aggregate, extended in *.
  destruct (ty_code t) eqn:E; try contradiction; rewrite ?O in *;
    unfold g; cbn [Z.ltb Z.compare Pos.compare Pos.compare_cont Z.eqb Pos.eqb andb] in *; unfold put_word, put_copy; rewrite ?Em, ?Ef, ?O, ?value_dec;
    try (rewrite R); try (change (Z.to_nat 1) with 1%nat in R; rewrite R); try (change (Z.to_nat 2) with 2%nat in R; rewrite R); try (change (Z.to_nat 4) with 4%nat in R; rewrite R);
    change (4 * 1) with 4; change (4 * 2) with 8; rewrite ?Z.add_0_r; try reflexivity.
  - f_equal. f_equal. change 4%nat with (length v) at 1 || idtac. destruct V as (L & B). unfold zlen in L. replace 4%nat with (length v) by lia. apply be_enc_dec, B.
  - f_equal. f_equal. f_equal. rewrite to_signed_value; try lia. reflexivity.
  - f_equal. f_equal. f_equal. rewrite to_signed_value; try lia. reflexivity.
  - f_equal. f_equal. destruct V as (L & B). unfold zlen in L. replace 4%nat with (length v) by lia. apply be_enc_dec, B.
  - f_equal. f_equal. destruct V as (L & B). unfold zlen in L. replace 4%nat with (length v) by lia. apply be_enc_dec, B.
  - f_equal. f_equal. destruct V as (L & B). unfold zlen in L. replace 4%nat with (length v) by lia. apply be_enc_dec, B.
Qed.
