(** Proofs about the raw argument forms. *)
From Coq Require Import ZifyBool ZifyNat Znumtheory.
From Verif Require Import Base BaseFacts Types LayoutSpec Win64Model RawModel RawSpec.
Local Arguments Z.mul : simpl never.
Local Arguments Z.add : simpl never.
Local Arguments Z.sub : simpl never.
Local Arguments Z.pow : simpl never.
Local Arguments Z.eqb : simpl never.
Local Arguments Z.div : simpl never.
Local Arguments le_enc : simpl never.

(** ** Byte orders *)

Lemma enc_zlen be n x : 0 <= n -> zlen (enc be n x) = n.
Proof. intros H. unfold enc. destruct be; unfold zlen; rewrite ?rev_length, le_enc_length; lia. Qed.

Lemma bytes_ok_rev d : bytes_ok d -> bytes_ok (rev d).
Proof. intros H. apply Forall_forall. intros x I. apply in_rev in I. revert x I. apply Forall_forall. exact H. Qed.

Lemma enc_bytes be n x : bytes_ok (enc be n x).
Proof. unfold enc. destruct be; [apply bytes_ok_rev|]; apply le_enc_ok. Qed.

Lemma dec_enc be n x : 0 <= n -> dec be (enc be n x) = x mod 2 ^ (8 * n).
Proof. intros H. unfold dec, enc. destruct be; rewrite ?rev_involutive, le_dec_enc; do 3 f_equal; lia. Qed.

Lemma enc_mod be n x : 0 <= n -> enc be n (x mod 2 ^ (8 * n)) = enc be n x.
Proof.
  intros H. unfold enc. replace (8 * n) with (8 * Z.of_nat (Z.to_nat n)) by lia. rewrite le_enc_mod. reflexivity.
Qed.

Lemma enc_dec be d : bytes_ok d -> enc be (zlen d) (dec be d) = d.
Proof.
  intros H. unfold enc, dec, zlen. rewrite Nat2Z.id. destruct be; [|apply le_enc_dec; exact H].
  rewrite <- (rev_length d). rewrite le_enc_dec by (apply bytes_ok_rev; exact H). apply rev_involutive.
Qed.

Lemma enc_cong be n x y : 0 <= n -> x mod 2 ^ (8 * n) = y mod 2 ^ (8 * n) -> enc be n x = enc be n y.
Proof. intros H E. rewrite <- (enc_mod be n x), <- (enc_mod be n y), E by lia. reflexivity. Qed.

Lemma le_low (raw : list Z) off arg n x : get_range raw off arg = Some (enc false arg x) -> 0 <= n <= arg ->
  get_range raw off n = Some (enc false n x).
Proof.
  intros G H. pose proof (get_range_sub _ _ _ _ 0 n G ltac:(lia) ltac:(lia) ltac:(lia)) as E.
  replace (off + 0) with off in E by lia. rewrite E. unfold enc.
  rewrite get_range_some by (rewrite ?le_enc_zlen; lia). f_equal. cbn [skipn Z.to_nat]. apply le_enc_firstn. lia.
Qed.

Lemma be_low (raw : list Z) off arg n x : get_range raw off arg = Some (enc true arg x) -> 0 <= n <= arg ->
  get_range raw (off + arg - n) n = Some (enc true n x).
Proof.
  intros G H. pose proof (get_range_sub _ _ _ _ (arg - n) n G ltac:(lia) ltac:(lia) ltac:(lia)) as E.
  replace (off + (arg - n)) with (off + arg - n) in E by lia. rewrite E.
  rewrite get_range_some by (rewrite ?enc_zlen; lia). f_equal. unfold enc.
  assert (L : length (rev (le_enc (Z.to_nat arg) x)) = Z.to_nat arg) by (rewrite rev_length; apply le_enc_length).
  rewrite firstn_all2 by (rewrite skipn_length; lia).
  rewrite skipn_rev. rewrite le_enc_length. f_equal.
  replace (Z.to_nat arg - Z.to_nat (arg - n))%nat with (Z.to_nat n) by lia. apply le_enc_firstn. lia.
Qed.

(** A narrow integer can be read back from its widened word. *)
Lemma int_value_low be c d n : bytes_ok d -> zlen d = n -> 0 < n -> enc be n (int_value be c d) = d.
Proof.
  intros B L P. transitivity (enc be n (dec be d)).
  - unfold int_value. destruct c; try reflexivity; apply enc_cong; try lia;
      rewrite L; (rewrite to_signed_mod by lia); reflexivity.
  - rewrite <- L. apply enc_dec. exact B.
Qed.

Lemma get_range_zlen {A} (m : list A) off len d : get_range m off len = Some d -> zlen d = len.
Proof. intros G. apply get_range_inv in G as (_ & _ & _ & _ & H). exact H. Qed.

Lemma mread_zlen m p n d : mread m p n = Some d -> zlen d = n.
Proof.
  induction m as [|b m IH]; [discriminate|]. cbn [mread]. destruct (get_range _ _ _) eqn:G; [|exact IH].
  intros [= <-]. eapply get_range_zlen; eauto.
Qed.

Lemma Forall2_weaken {A B} (P Q : A -> B -> Prop) l1 l2 : (forall a b, P a b -> Q a b) -> Forall2 P l1 l2 -> Forall2 Q l1 l2.
Proof. intros H F. induction F; constructor; auto. Qed.

Section Cfg.
Context (g : rawcfg).
Context (Cfg : cfg_ok g).

Lemma pow_arg : is_pow2 (rc_arg g).
Proof. destruct Cfg as ([->| ->] & _); [exists 2|exists 3]; split; try lia; reflexivity. Qed.
Lemma pow_ptr : is_pow2 (rc_ptr g).
Proof. destruct Cfg as (_ & [->| ->] & _); [exists 2|exists 3]; split; try lia; reflexivity. Qed.
Lemma pow_java : is_pow2 (rc_java g).
Proof. destruct Cfg as (H & _ & _ & [->|[-> _]]); [apply pow_arg|]; exists 2; split; try lia; reflexivity. Qed.
Lemma width_ok : 32 <= rc_width g.
Proof. unfold rc_width. destruct Cfg as (_ & [->| ->] & _); lia. Qed.

Lemma words_round a n : 0 < a -> a * words a n = round_up n a.
Proof. intros H. unfold words, round_up. lia. Qed.

Lemma align_words a n : is_pow2 a -> 0 <= n -> a * words a n < 2 ^ rc_width g ->
  ffi_align_w (rc_width g) n a / a * a = a * words a n.
Proof.
  intros P Hn B. pose proof (is_pow2_pos a P). pose proof width_ok.
  rewrite words_round in B |- * by lia.
  rewrite ffi_align_w_round by (auto; lia). unfold round_up. rewrite Z.div_mul by lia. reflexivity.
Qed.

Lemma words_one a n : 0 < n <= a -> words a n = 1.
Proof. intros H. unfold words. symmetry. apply Z.div_unique with (r := n - 1); lia. Qed.
Lemma words_pos a n : 0 < a -> 0 < n -> 1 <= words a n.
Proof. intros Ha H. unfold words. assert (1 * a <= n + a - 1) by lia. apply Z.div_le_lower_bound; lia. Qed.

Lemma arg_pos t : arg_type g t -> 0 < ty_size t.
Proof. unfold arg_type. destruct Cfg as (_ & [P|P] & _); destruct (ty_code t); try contradiction; rewrite ?P; intros; lia. Qed.

Lemma slot_pos t : arg_type g t -> rc_arg g <= slot_bytes g t /\ 4 <= rc_arg g.
Proof.
  intros A. apply arg_pos in A. pose proof (is_pow2_pos _ pow_arg).
  assert (4 <= rc_arg g) by (destruct Cfg as ([->| ->] & _); lia).
  pose proof (words_pos (rc_arg g) (ty_size t) ltac:(lia) A). split; [|auto]. unfold slot_bytes. destruct (ty_code t); try lia; nia.
Qed.

Lemma words_cover a n : 0 < a -> n <= a * words a n.
Proof. intros H. rewrite words_round by auto. apply round_up_le. exact H. Qed.

(** What is stored for one argument. *)
Lemma word_ok m t p v : arg_type g t -> arg_object g m t p v -> rc_arg g * words (rc_arg g) (ty_size t) < 2 ^ rc_width g ->
  exists d, raw_word g m t p = Ok (d, slot_bytes g t) /\ zlen d <= slot_bytes g t /\
    forall raw off raw', set_range raw off d = Some raw' -> raw_holds g raw' t off p v.
Proof.
  intros A (Hp & Rd & Bv) Sm. pose proof (slot_pos t A) as [S1 S2]. pose proof (arg_pos t A) as Ps.
  pose proof (mread_zlen _ _ _ _ Rd) as Lv.
  assert (P4 : 4 <= rc_ptr g <= rc_arg g) by (destruct Cfg as (_ & [->| ->] & H & _); lia).
  assert (U : forall c, ty_code t = c -> widened c = true -> slot_bytes g t = rc_arg g).
  { intros c E W. unfold slot_bytes. unfold arg_type in A. rewrite E in *.
    destruct c; try discriminate; rewrite A, words_one by lia; lia. }
  assert (D : forall c, ty_code t = c -> widened c = false -> c <> T_STRUCT -> c <> T_COMPLEX ->
     slot_bytes g t = rc_arg g * words (rc_arg g) (ty_size t) /\ ty_size t <= slot_bytes g t).
  { intros c E W N1 N2. unfold slot_bytes. rewrite E.
    assert (X : ty_size t <= rc_arg g * words (rc_arg g) (ty_size t)) by (apply words_cover; lia).
    destruct c; try congruence; auto. }
  assert (Al : ffi_align_w (rc_width g) (ty_size t) (rc_arg g) / rc_arg g * rc_arg g = rc_arg g * words (rc_arg g) (ty_size t)).
  { apply align_words; [apply pow_arg|lia|exact Sm]. }
  unfold raw_word, raw_holds. unfold arg_type in A.
  destruct (ty_code t) eqn:Ec; try contradiction.
  all: try (rewrite (U _ eq_refl eq_refl) in *; rewrite A in Rd, Lv; rewrite Rd; cbn [of_option bind];
    eexists; (split; [reflexivity|]); (split; [rewrite enc_zlen; lia|]);
    intros raw off raw' Hs; apply get_set_same in Hs; rewrite enc_zlen in Hs by lia; cbn [widened];
    rewrite Hs; unfold int_value; rewrite ?Lv; reflexivity).
  all: try (destruct (D _ eq_refl eq_refl ltac:(discriminate) ltac:(discriminate)) as [D1 D2];
    rewrite D1 in *; rewrite Rd; cbn [of_option bind]; rewrite Al; eexists; (split; [reflexivity|]); (split; [lia|]);
    intros raw off raw' Hs; apply get_set_same in Hs; rewrite Lv in Hs; cbn [widened]; exact Hs).
  - (* STRUCT *) assert (Es : slot_bytes g t = rc_arg g) by (unfold slot_bytes; rewrite Ec; reflexivity). rewrite Es in *.
    eexists. split; [reflexivity|]. split; [rewrite enc_zlen; lia|].
    intros raw off raw' Hs. apply get_set_same in Hs. rewrite enc_zlen in Hs by lia. exact Hs.
  - (* POINTER *) destruct (D _ eq_refl eq_refl ltac:(discriminate) ltac:(discriminate)) as [D1 D2].
    assert (Es : slot_bytes g t = rc_arg g) by (rewrite D1, A, words_one by lia; lia). rewrite Es in *.
    rewrite A in Rd, Lv |- *. rewrite Rd. cbn [of_option bind]. pose proof (enc_dec (rc_be g) v Bv) as Ed. rewrite Lv in Ed. rewrite Ed.
    eexists. split; [reflexivity|]. split; [lia|].
    intros raw off raw' Hs. apply get_set_same in Hs. rewrite Lv in Hs. exact Hs.
  - (* COMPLEX *) assert (Es : slot_bytes g t = rc_arg g) by (unfold slot_bytes; rewrite Ec; reflexivity). rewrite Es in *.
    eexists. split; [reflexivity|]. split; [rewrite enc_zlen; lia|].
    intros raw off raw' Hs. apply get_set_same in Hs. rewrite enc_zlen in Hs by lia. exact Hs.
Qed.

(** Changes behind the slot do not matter. *)
Lemma holds_keep raw raw' t off p v : arg_type g t -> raw_holds g raw t off p v ->
  (forall o n, o + n <= off + slot_bytes g t -> 0 <= n -> get_range raw' o n = get_range raw o n) ->
  raw_holds g raw' t off p v.
Proof.
  intros A H K. pose proof (slot_pos t A) as [S1 S2]. pose proof (arg_pos t A) as Ps.
  assert (P4 : 4 <= rc_ptr g <= rc_arg g) by (destruct Cfg as (_ & [->| ->] & H' & _); lia).
  pose proof (words_cover (rc_arg g) (ty_size t) ltac:(lia)) as Wc.
  unfold raw_holds, slot_bytes in *. destruct (ty_code t); cbn [widened] in *; rewrite K; auto; lia.
Qed.

Fixpoint slots (ts : list ftype) : Z := match ts with [] => 0 | t :: r => slot_bytes g t + slots r end.

Lemma slots_nonneg ts : Forall (arg_type g) ts -> 0 <= slots ts.
Proof. induction 1 as [|t ts A F IH]; cbn [slots]; [lia|]. pose proof (slot_pos t A). lia. Qed.

Lemma sizes_small_inv t ts : Forall (arg_type g) (t :: ts) -> sizes_small g (t :: ts) ->
  rc_arg g * words (rc_arg g) (ty_size t) < 2 ^ rc_width g /\ sizes_small g ts.
Proof.
  intros F. unfold sizes_small, rc_width. cbn [total_size]. inversion F as [|x l A F']; subst.
  pose proof (slot_pos t A). pose proof (words_pos (rc_arg g) (ty_size t) ltac:(lia) (arg_pos t A)).
  assert (0 <= total_size g ts).
  { clear - F' Cfg. induction F' as [|t ts A F IH]; cbn [total_size]; [lia|].
    pose proof (slot_pos t A). pose proof (words_pos (rc_arg g) (ty_size t) ltac:(lia) (arg_pos t A)). nia. }
  intros. split; nia.
Qed.

Lemma to_raw_ok m : forall ts args vs raw off, Forall (arg_type g) ts -> sizes_small g ts -> args_at g m ts args vs ->
  0 <= off -> off + slots ts <= zlen raw ->
  exists raw', ptrarray_to_raw g m ts args raw off = Ok raw' /\ zlen raw' = zlen raw /\ raw_form g raw' ts off args vs /\
    forall o n, o + n <= off -> 0 <= n -> get_range raw' o n = get_range raw o n.
Proof.
  induction ts as [|t ts IH]; intros args vs raw off F Sm At Ho Hl.
  - destruct args, vs; try contradiction. exists raw. repeat split; auto.
  - destruct args as [|p ps], vs as [|v vs]; try contradiction. destruct At as [Ob At].
    destruct (sizes_small_inv _ _ F Sm) as [S1 S2]. inversion F as [|x l A F']; subst. cbn [slots] in Hl.
    pose proof (slots_nonneg _ F') as Sn. pose proof (slot_pos t A) as [Sp Sp4].
    destruct (word_ok m t p v A Ob S1) as (d & W & Ld & Hd).
    cbn [ptrarray_to_raw]. rewrite W. cbn [bind].
    destruct (set_range_ok raw off d ltac:(lia) ltac:(lia)) as (raw1 & R1 & L1). rewrite R1. cbn [of_option bind].
    destruct (IH ps vs raw1 (off + slot_bytes g t)) as (raw2 & P2 & L2 & Fm & K); auto; try lia.
    exists raw2. rewrite P2. split; [reflexivity|]. split; [lia|]. cbn [raw_form]. split; [split|].
    + apply (holds_keep raw1); [exact A|eapply Hd; exact R1|]. intros o n H Hn. apply K; lia.
    + exact Fm.
    + intros o n H Hn. rewrite K by lia. apply (get_set_disjoint _ _ _ _ _ _ R1). left. lia.
Qed.

(** Back. *)
Lemma raw_ptr_pos t raw off : arg_type g t -> advance_agrees g t -> rc_arg g * words (rc_arg g) (ty_size t) < 2 ^ rc_width g ->
  0 <= off -> off + slot_bytes g t <= zlen raw ->
  exists q, raw_ptr g t raw off = Ok (q, off + slot_bytes g t) /\
    (forall o, q = InRaw o -> off <= o /\ o + ty_size t <= off + slot_bytes g t) /\
    forall m p v, arg_object g m t p v -> raw_holds g raw t off p v -> read_rptr raw m q (ty_size t) = Some v.
Proof.
  intros A Ag Sm Ho Hl. pose proof (slot_pos t A) as [S1 S2]. pose proof (arg_pos t A) as Ps.
  assert (P4 : 4 <= rc_ptr g <= rc_arg g) by (destruct Cfg as (_ & [->| ->] & H' & _); lia).
  assert (Al : ffi_align_w (rc_width g) (ty_size t) (rc_arg g) / rc_arg g * rc_arg g = rc_arg g * words (rc_arg g) (ty_size t)).
  { apply align_words; [apply pow_arg|lia|exact Sm]. }
  assert (Small : ty_size t <= rc_arg g -> rc_arg g * words (rc_arg g) (ty_size t) = rc_arg g) by (intros; rewrite words_one by lia; lia).
  pose proof (words_cover (rc_arg g) (ty_size t) ltac:(lia)) as Wc.
  assert (Alp : ty_code t <> T_STRUCT -> ty_code t <> T_COMPLEX -> rc_be g = false ->
     ffi_align_w (rc_width g) (ty_size t) (rc_ptr g) / rc_ptr g * rc_arg g = rc_arg g * words (rc_arg g) (ty_size t)).
  { intros N1 N2 Be. destruct Ag as [Ag|[Ag|[Ag|[Ag|Ag]]]]; [congruence|rewrite Ag; exact Al| |contradiction|contradiction].
    pose proof width_ok. rewrite ffi_align_w_round; [|lia|apply pow_ptr|lia|].
      + unfold round_up. rewrite Z.div_mul by lia. fold (words (rc_ptr g) (ty_size t)). rewrite words_one by lia. rewrite Small by lia. lia.
      + rewrite <- words_round by lia. rewrite words_one by lia.
        assert (2 ^ 32 <= 2 ^ rc_width g) by (apply Z.pow_le_mono_r; lia). destruct Cfg as ([C|C] & _); lia. }
  assert (Der : (ty_code t = T_STRUCT \/ ty_code t = T_COMPLEX) -> exists q, raw_deref g raw off = Ok (q, off + slot_bytes g t) /\
    (forall o, q = InRaw o -> off <= o /\ o + ty_size t <= off + slot_bytes g t) /\
    forall m p v, arg_object g m t p v -> raw_holds g raw t off p v -> read_rptr raw m q (ty_size t) = Some v).
  { intros E. assert (Es : slot_bytes g t = rc_arg g) by (unfold slot_bytes; destruct E as [-> | ->]; reflexivity). rewrite Es in *.
    unfold raw_deref. destruct (get_range_ok raw off (rc_ptr g) ltac:(lia) ltac:(lia) ltac:(lia)) as (d & G & _). rewrite G. cbn [of_option bind].
    eexists. split; [reflexivity|]. split; [discriminate|]. intros m p v (Hp & Rd & _) H. cbn [read_rptr].
    unfold raw_holds in H. assert (H' : get_range raw off (rc_ptr g) = Some (enc (rc_be g) (rc_ptr g) p)) by (destruct E as [E|E]; rewrite E in H; exact H).
    rewrite G in H'. injection H' as ->. rewrite dec_enc by lia. rewrite Z.mod_small by lia. exact Rd. }
  assert (Int : forall n, widened (ty_code t) = true -> ty_size t = n -> n <= 4 ->
    forall m p v, arg_object g m t p v -> raw_holds g raw t off p v ->
       get_range raw (if rc_be g then off + rc_arg g - n else off) n = Some v).
  { intros n W Sz N m p v (Hp & Rd & Bv) H. assert (Lv : zlen v = n) by (rewrite <- Sz; eapply mread_zlen; eauto).
    assert (H' : get_range raw off (rc_arg g) = Some (enc (rc_be g) (rc_arg g) (int_value (rc_be g) (ty_code t) v))).
    { unfold raw_holds in H. destruct (ty_code t); try discriminate W; exact H. }
    rewrite <- (int_value_low (rc_be g) (ty_code t) v n) by (auto; lia).
    destruct (rc_be g); [apply be_low|apply (le_low raw off (rc_arg g))]; auto; lia. }
  unfold raw_ptr. cbv zeta. unfold arg_type in A. 
  destruct (rc_be g) eqn:Be; destruct (ty_code t) eqn:Ec; try contradiction; try (apply Der; auto; fail).
  (* little-endian non-references and big-endian defaults point to the slot *)
  all: unfold slot_bytes in *; rewrite Ec in *.
  all: try rewrite Alp by (auto; discriminate).
  all: try rewrite Al.
  all: try (eexists; split; [reflexivity|]; split;
     [intros o [= <-]; lia| intros m p v Ob H; cbn [read_rptr]; unfold raw_holds in H; rewrite Ec in H; cbn [widened] in H; exact H]).
  all: rewrite ?Small in * by lia.
  all: eexists; (split; [reflexivity|]); split; [intros o [= <-]; lia|].
  all: intros m p v Ob H; cbn [read_rptr].
  all: first [ rewrite A; eapply (Int _ eq_refl A); [lia|exact Ob|exact H] | unfold raw_holds in H; rewrite Ec in H; cbn [widened] in H; exact H].
Qed.

Lemma from_raw_ok m : forall ts args vs raw off, Forall (arg_type g) ts -> Forall (advance_agrees g) ts -> sizes_small g ts ->
  args_at g m ts args vs -> raw_form g raw ts off args vs -> 0 <= off -> off + slots ts <= zlen raw ->
  exists ps, raw_to_ptrarray g ts raw off = Ok ps /\ reads_back raw m ts ps vs.
Proof.
  induction ts as [|t ts IH]; intros args vs raw off F Ag Sm At Fm Ho Hl.
  - destruct args, vs; try contradiction. exists []. split; reflexivity.
  - destruct args as [|p ps], vs as [|v vs]; try contradiction. destruct At as [Ob At], Fm as [Hd Fm].
    destruct (sizes_small_inv _ _ F Sm) as [S1 S2]. inversion F as [|x l A F']; subst. inversion Ag as [|x l Ag1 Ag2]; subst. cbn [slots] in Hl.
    pose proof (slots_nonneg _ F') as Sn. pose proof (slot_pos t A) as [Sp Sp4].
    destruct (raw_ptr_pos t raw off A Ag1 S1 ltac:(lia) ltac:(lia)) as (q & R & _ & Q).
    cbn [raw_to_ptrarray]. rewrite R. cbn [bind].
    destruct (IH ps vs raw (off + slot_bytes g t)) as (qs & Rs & Bk); auto; try lia.
    rewrite Rs. cbn [bind]. exists (q :: qs). split; [reflexivity|]. split; [eapply Q; eauto|exact Bk].
Qed.

Lemma raw_size_ok : forall ts acc, Forall (arg_type g) ts -> 0 <= acc -> acc + total_size g ts < 2 ^ rc_width g ->
  acc + slots ts <= raw_size g ts acc <= acc + total_size g ts.
Proof.
  induction ts as [|t ts IH]; intros acc F Ha B; cbn [raw_size slots total_size] in *; [lia|].
  inversion F as [|x l A F']; subst. pose proof (slot_pos t A) as [S1 S2]. pose proof (arg_pos t A) as Ps.
  pose proof (words_pos (rc_arg g) (ty_size t) ltac:(lia) Ps). pose proof width_ok.
  assert (P4 : 4 <= rc_ptr g <= rc_arg g) by (destruct Cfg as (_ & [->| ->] & H' & _); lia).
  assert (Tn : 0 <= total_size g ts).
  { clear - F' Cfg. induction F' as [|t ts A F IH]; cbn [total_size]; [lia|].
    pose proof (slot_pos t A). pose proof (words_pos (rc_arg g) (ty_size t) ltac:(lia) (arg_pos t A)). nia. }
  set (n := if tcode_eqb (ty_code t) T_STRUCT then rc_ptr g else ty_size t).
  assert (E : ffi_align_w (rc_width g) n (rc_arg g) = rc_arg g * words (rc_arg g) n).
  { rewrite words_round by lia. apply ffi_align_w_round; [lia|apply pow_arg|unfold n; destruct (tcode_eqb _ _); lia|].
    rewrite <- words_round by lia. unfold n. destruct (tcode_eqb _ _); [rewrite words_one by lia|]; nia. }
  rewrite E.
  assert (Nb : slot_bytes g t <= rc_arg g * words (rc_arg g) n <= rc_arg g * (words (rc_arg g) (ty_size t) + 1)).
  { set (X := words (rc_arg g) (ty_size t)) in *.
    assert (Sl : slot_bytes g t = rc_arg g \/ slot_bytes g t = rc_arg g * words (rc_arg g) (ty_size t)).
    { unfold slot_bytes. destruct (ty_code t); auto. }
    unfold n. destruct (tcode_eqb (ty_code t) T_STRUCT) eqn:Et.
    - rewrite words_one by lia. assert (ty_code t = T_STRUCT) by (destruct (ty_code t); try discriminate Et; reflexivity).
      unfold slot_bytes. rewrite H1. nia.
    - fold X. destruct Sl as [->|Es]; [nia|]. rewrite Es. fold X. nia. }
  unfold wrap. rewrite Z.mod_small by nia.
  specialize (IH (acc + rc_arg g * words (rc_arg g) n) F' ltac:(nia) ltac:(nia)). lia.
Qed.

Lemma raw_size_slots ts : Forall (arg_type g) ts -> sizes_small g ts -> slots ts <= raw_size g ts 0.
Proof. intros F B. pose proof (raw_size_ok ts 0 F (Z.le_refl 0) B). lia. Qed.

Lemma raw_round_trip m ts args vs raw : Forall (arg_type g) ts -> Forall (advance_agrees g) ts -> sizes_small g ts ->
  args_at g m ts args vs -> zlen raw = raw_size g ts 0 ->
  exists raw' ps, ptrarray_to_raw g m ts args raw 0 = Ok raw' /\ zlen raw' = zlen raw /\
    raw_to_ptrarray g ts raw' 0 = Ok ps /\ reads_back raw' m ts ps vs.
Proof.
  intros F Ag B At L. pose proof (raw_size_slots ts F B).
  destruct (to_raw_ok m ts args vs raw 0 F B At ltac:(lia) ltac:(lia)) as (raw' & P & L' & Fm & _).
  destruct (from_raw_ok m ts args vs raw' 0 F Ag B At Fm ltac:(lia) ltac:(lia)) as (ps & Q & Bk).
  exists raw', ps. auto.
Qed.

Lemma from_raw_inside : forall ts raw off, Forall (arg_type g) ts -> Forall (advance_agrees g) ts -> sizes_small g ts ->
  0 <= off -> off + slots ts <= zlen raw ->
  exists ps, raw_to_ptrarray g ts raw off = Ok ps /\
    Forall2 (fun t q => forall o, q = InRaw o -> off <= o /\ o + ty_size t <= off + slots ts) ts ps.
Proof.
  induction ts as [|t ts IH]; intros raw off F Ag Sm Ho Hl; [exists []; split; [reflexivity|constructor]|].
  destruct (sizes_small_inv _ _ F Sm) as [S1 S2]. inversion F as [|x l A F']; subst. inversion Ag as [|x l Ag1 Ag2]; subst. cbn [slots] in *.
  pose proof (slots_nonneg _ F') as Sn. pose proof (slot_pos t A) as [Sp Sp4].
  destruct (raw_ptr_pos t raw off A Ag1 S1 ltac:(lia) ltac:(lia)) as (q & R & Q & _).
  cbn [raw_to_ptrarray]. rewrite R. cbn [bind].
  destruct (IH raw (off + slot_bytes g t)) as (qs & Rs & Fs); auto; try lia.
  rewrite Rs. cbn [bind]. exists (q :: qs). split; [reflexivity|]. constructor.
  - intros o Eo. specialize (Q o Eo). lia.
  - eapply Forall2_weaken; [|exact Fs]. cbn beta. intros t' q' H o Eo. specialize (H o Eo). lia.
Qed.
End Cfg.
