(** Proofs about the Java raw form. *)
From Coq Require Import ZifyBool ZifyNat Znumtheory.
From Verif Require Import Base BaseFacts Types LayoutSpec Win64Model RawModel RawSpec RawProofs.
Local Arguments Z.mul : simpl never.
Local Arguments Z.add : simpl never.
Local Arguments Z.sub : simpl never.
Local Arguments Z.pow : simpl never.
Local Arguments Z.eqb : simpl never.
Local Arguments Z.div : simpl never.
Local Arguments le_enc : simpl never.

Section Cfg.
Context (g : rawcfg).
Context (Cfg : cfg_ok g).

(** ** Java form *)

Lemma java_word_ok m t p v : java_type g t -> arg_object g m t p v ->
  exists d, java_word g m t p = Ok (d, rc_java g * java_words t) /\ zlen d <= rc_java g * java_words t /\
    forall raw off raw', set_range raw off d = Some raw' -> java_holds g raw' t off v.
Proof.
  intros [A Jt] (Hp & Rd & Bv). pose proof (arg_pos g Cfg t A) as Ps. pose proof (mread_zlen _ _ _ _ Rd) as Lv.
  assert (J : rc_java g = 4 \/ rc_java g = 8) by (destruct Cfg as ([->| ->] & _ & _ & [->|[-> _]]); auto).
  assert (Jp : 4 <= rc_ptr g <= rc_java g) by (destruct Cfg as (H1 & H2 & H3 & [->|[-> ->]]); lia).
  assert (N : 4 <= (if rc_be g then 4 else rc_java g) <= rc_java g) by (destruct (rc_be g); lia).
  assert (Al : ty_size t = 8 -> rc_java g = 4 -> ffi_align_w (rc_width g) 8 4 / 4 * 4 = 4 * 2).
  { intros _ _. rewrite (align_words g Cfg); [reflexivity|exists 2; split; [lia|reflexivity]|lia|].
    pose proof (width_ok g Cfg). assert (2 ^ 32 <= 2 ^ rc_width g) by (apply Z.pow_le_mono_r; lia). change (4 * words 4 8) with 8. lia. }
  unfold java_word, java_holds, java_words. cbv zeta. unfold arg_type in A.
  destruct (ty_code t) eqn:Ec; try contradiction; cbn [widened]; rewrite A in *.
  all: try (rewrite Rd; cbn [of_option bind]; replace (rc_java g * 1) with (rc_java g) by lia;
    eexists; (split; [reflexivity|]); (split; [rewrite enc_zlen; lia|]);
    intros raw off raw' Hs; apply get_set_same in Hs; rewrite enc_zlen in Hs by lia;
    rewrite Hs; unfold int_value; rewrite ?Lv; reflexivity).
  (* float, pointer *)
  all: try (rewrite Rd; cbn [of_option bind]; replace (rc_java g * 1) with (rc_java g) by lia;
    eexists; (split; [reflexivity|]); (split; [lia|]);
    intros raw off raw' Hs; apply get_set_same in Hs; rewrite Lv in Hs; exact Hs).
  all: try (rewrite Rd; cbn [of_option bind]; replace (rc_java g * 1) with (rc_java g) by lia;
    pose proof (enc_dec (rc_be g) v Bv) as Ed; rewrite Lv in Ed; rewrite Ed;
    eexists; (split; [reflexivity|]); (split; [lia|]);
    intros raw off raw' Hs; apply get_set_same in Hs; rewrite Lv in Hs; exact Hs).
  all: pose proof (enc_dec (rc_be g) v Bv) as Ed; rewrite Lv in Ed;
    destruct J as [J|J]; rewrite J in *; [change (4 =? 8) with false|change (8 =? 8) with true]; cbn iota;
    rewrite Rd; cbn [of_option bind]; rewrite ?Ed; rewrite ?Al by reflexivity;
    eexists; (split; [reflexivity|]); (split; [lia|]);
    intros raw off raw' Hs; apply get_set_same in Hs; rewrite Lv in Hs; exact Hs.
Qed.

Lemma java_holds_keep raw raw' t off v : java_type g t -> java_holds g raw t off v ->
  (forall o n, o + n <= off + rc_java g * java_words t -> 0 <= n -> get_range raw' o n = get_range raw o n) ->
  java_holds g raw' t off v.
Proof.
  intros [A Jt] H K. pose proof (arg_pos g Cfg t A) as Ps.
  assert (J : rc_java g = 4 \/ rc_java g = 8) by (destruct Cfg as ([->| ->] & _ & _ & [->|[-> _]]); auto).
  assert (Jp : 4 <= rc_ptr g <= rc_java g) by (destruct Cfg as (H1 & H2 & H3 & [->|[-> ->]]); lia).
  assert (N : 4 <= (if rc_be g then 4 else rc_java g) <= rc_java g) by (destruct (rc_be g); lia).
  unfold java_holds in *. unfold arg_type in A. unfold java_words in K.
  destruct (ty_code t); try contradiction; cbn [widened] in *; cbv zeta in *; rewrite K; auto; lia.
Qed.

Lemma java_total_nonneg ts : 0 <= java_total ts.
Proof. induction ts as [|t ts IH]; cbn [java_total]; [lia|]. unfold java_words. destruct (ty_code t); lia. Qed.

Lemma java_words_pos t : 1 <= java_words t <= 2.
Proof. unfold java_words. destruct (ty_code t); lia. Qed.

Lemma java_pos : 4 <= rc_java g.
Proof. destruct Cfg as ([->| ->] & _ & _ & [->|[-> _]]); lia. Qed.

Lemma java_to_raw_ok m : forall ts args vs raw off, Forall (java_type g) ts -> args_at g m ts args vs ->
  0 <= off -> off + rc_java g * java_total ts <= zlen raw ->
  exists raw', java_to_raw g m ts args raw off = Ok raw' /\ zlen raw' = zlen raw /\ java_form g raw' ts off vs /\
    forall o n, o + n <= off -> 0 <= n -> get_range raw' o n = get_range raw o n.
Proof.
  pose proof java_pos as Jp.
  induction ts as [|t ts IH]; intros args vs raw off F At Ho Hl.
  - destruct args, vs; try contradiction. exists raw. repeat split; auto.
  - destruct args as [|p ps], vs as [|v vs]; try contradiction. destruct At as [Ob At].
    inversion F as [|x l A F']; subst. cbn [java_total] in Hl.
    pose proof (java_total_nonneg ts) as Sn. pose proof (java_words_pos t) as Wp.
    destruct (java_word_ok m t p v A Ob) as (d & W & Ld & Hd).
    cbn [java_to_raw]. rewrite W. cbn [bind].
    destruct (set_range_ok raw off d ltac:(lia) ltac:(nia)) as (raw1 & R1 & L1). rewrite R1. cbn [of_option bind].
    destruct (IH ps vs raw1 (off + rc_java g * java_words t)) as (raw2 & P2 & L2 & Fm & K); auto; try nia.
    exists raw2. rewrite P2. split; [reflexivity|]. split; [lia|]. cbn [java_form]. split; [split|].
    + apply (java_holds_keep raw1); [exact A|eapply Hd; exact R1|]. intros o n H Hn. apply K; lia.
    + exact Fm.
    + intros o n H Hn. rewrite K by nia. apply (get_set_disjoint _ _ _ _ _ _ R1). left. lia.
Qed.

Lemma java_ptr_ok t off : java_type g t ->
  exists q, java_ptr g t off = Ok (q, off + rc_java g * java_words t) /\
    (off <= q /\ q + ty_size t <= off + rc_java g * java_words t) /\
    forall raw m p v, arg_object g m t p v -> java_holds g raw t off v -> get_range raw q (ty_size t) = Some v.
Proof.
  intros [A Jt]. pose proof (arg_pos g Cfg t A) as Ps.
  assert (J : rc_java g = 4 \/ rc_java g = 8) by (destruct Cfg as ([->| ->] & _ & _ & [->|[-> _]]); auto).
  assert (Jp : 4 <= rc_ptr g <= rc_java g) by (destruct Cfg as (H1 & H2 & H3 & [->|[-> ->]]); lia).
  assert (Int : forall n, widened (ty_code t) = true -> ty_size t = n -> n <= 4 ->
    forall raw m p v, arg_object g m t p v -> java_holds g raw t off v ->
       get_range raw (if rc_be g then off + 4 - n else off) n = Some v).
  { intros n W Sz N raw m p v (Hp & Rd & Bv) H. assert (Lv : zlen v = n) by (rewrite <- Sz; eapply mread_zlen; eauto).
    unfold java_holds in H. rewrite W in H. cbv zeta in H.
    rewrite <- (int_value_low (rc_be g) (ty_code t) v n) by (auto; lia).
    destruct (rc_be g); [apply be_low|apply (le_low raw off (rc_java g))]; auto; lia. }
  assert (Al : forall n, 0 < n -> n <= 8 -> ffi_align_w (rc_width g) n (rc_java g) / rc_java g * rc_java g = rc_java g * words (rc_java g) n).
  { intros n H1 H2. apply (align_words g Cfg); [apply (pow_java g Cfg)|lia|].
    pose proof (width_ok g Cfg). assert (2 ^ 32 <= 2 ^ rc_width g) by (apply Z.pow_le_mono_r; lia).
    rewrite words_round by lia. pose proof (round_up_lt n (rc_java g) ltac:(lia)). lia. }
  assert (W1 : forall n, 0 < n <= rc_java g -> words (rc_java g) n = 1) by (intros; apply words_one; lia).
  assert (W2 : rc_java g = 4 -> words (rc_java g) 8 = 2) by (intros ->; reflexivity).
  unfold java_ptr. cbv zeta. unfold arg_type in A. unfold java_words.
  destruct (ty_code t) eqn:Ec; try contradiction; rewrite A in *; rewrite ?Al by lia.
  all: destruct J as [J|J]; [change (rc_java g =? 8) with (rc_java g =? 8); rewrite J in *; change (4 =? 8) with false
                            |rewrite J in *; change (8 =? 8) with true]; cbn iota; destruct (rc_be g) eqn:Be;
    rewrite ?W2 by reflexivity; rewrite ?W1 by lia; (eexists; split; [f_equal; f_equal; lia|]).
  all: (split; [lia|]); intros raw m p v Ob H.
  all: try (unfold java_holds in H; rewrite Ec in H; cbn [widened] in H; rewrite A in H; exact H).
  all: pose proof (Int _ eq_refl eq_refl ltac:(lia) raw m p v Ob H) as I2; cbn iota in I2;
     rewrite ?A; rewrite <- I2; f_equal; lia.
Qed.

Lemma java_from_raw_ok m : forall ts args vs raw off, Forall (java_type g) ts ->
  args_at g m ts args vs -> java_form g raw ts off vs ->
  exists ps, java_to_ptrarray g ts off = Ok ps /\ java_reads_back raw ts ps vs.
Proof.
  induction ts as [|t ts IH]; intros args vs raw off F At Fm.
  - destruct args, vs; try contradiction. exists []. split; reflexivity.
  - destruct args as [|p ps], vs as [|v vs]; try contradiction. destruct At as [Ob At], Fm as [Hd Fm].
    inversion F as [|x l A F']; subst.
    destruct (java_ptr_ok t off A) as (q & R & _ & Q).
    cbn [java_to_ptrarray]. rewrite R. cbn [bind].
    destruct (IH ps vs raw _ F' At Fm) as (qs & Rs & Bk).
    rewrite Rs. cbn [bind]. exists (q :: qs). split; [reflexivity|]. split; [eapply Q; eauto|exact Bk].
Qed.

Lemma java_size_ok : forall ts acc, Forall (java_type g) ts -> 0 <= acc -> acc + rc_java g * java_total ts < 2 ^ rc_width g ->
  java_size g ts acc = Ok (acc + rc_java g * java_total ts).
Proof.
  pose proof java_pos as Jp. induction ts as [|t ts IH]; intros acc F Ha B; cbn [java_size java_total] in *; [f_equal; lia|].
  inversion F as [|x l [A Jt] F']; subst. pose proof (java_total_nonneg ts). pose proof (java_words_pos t).
  assert (E : forall k, java_words t = k -> java_size g ts (wrap (rc_width g) (acc + k * rc_java g)) = Ok (acc + rc_java g * (java_words t + java_total ts))).
  { intros k Ek. unfold wrap. rewrite Z.mod_small by nia. rewrite IH by (auto; nia). f_equal. rewrite Ek. lia. }
  unfold java_words in E. unfold arg_type in A. unfold java_words.
  destruct (ty_code t); try contradiction; first [exact (E 2 eq_refl) | rewrite <- (E 1 eq_refl); do 2 f_equal; lia].
Qed.

Lemma java_round_trip m ts args vs raw n : Forall (java_type g) ts -> rc_java g * java_total ts < 2 ^ rc_width g ->
  args_at g m ts args vs -> java_size g ts 0 = Ok n -> zlen raw = n ->
  exists raw' ps, java_to_raw g m ts args raw 0 = Ok raw' /\ zlen raw' = zlen raw /\ java_form g raw' ts 0 vs /\
    java_to_ptrarray g ts 0 = Ok ps /\ java_reads_back raw' ts ps vs.
Proof.
  intros F B At S L. rewrite java_size_ok in S by (auto; lia). injection S as <-.
  destruct (java_to_raw_ok m ts args vs raw 0 F At ltac:(lia) ltac:(lia)) as (raw' & P & L' & Fm & _).
  destruct (java_from_raw_ok m ts args vs raw' 0 F At Fm) as (ps & Q & Bk).
  exists raw', ps. auto.
Qed.

Lemma java_result rt v : ty_code rt = T_VOID \/ arg_type g rt -> ty_code rt <> T_COMPLEX -> (ty_code rt = T_POINTER -> rc_java g = 8 \/ rc_be g = false \/ rc_arg g = 4) ->
  ty_code rt <> T_INT -> widened_result rt v ->
  exists w, java_rvalue_to_raw g rt v = Ok w /\ java_raw_to_rvalue g rt w = Ok v /\
    (rc_be g = true -> rc_arg g = 8 -> widened (ty_code rt) = true -> firstn 4 (enc true 8 w) = enc true 4 v).
Proof.
  intros A Nc Np Ni W. unfold java_rvalue_to_raw, java_raw_to_rvalue, widened_result, arg_type in *.
  assert (Hi : forall x, 0 <= x < 2 ^ 32 -> firstn 4 (enc true 8 (x * 2 ^ 32)) = enc true 4 x).
  { intros x Hx. unfold enc. change (Z.to_nat 8) with (4 + 4)%nat. change (Z.to_nat 4) with 4%nat. rewrite le_enc_add.
    rewrite rev_app_distr. change (2 ^ (8 * Z.of_nat 4)) with (2 ^ 32). rewrite Z.div_mul by lia.
    rewrite firstn_app. rewrite rev_length, le_enc_length. replace (4 - 4)%nat with 0%nat by reflexivity. rewrite firstn_O, app_nil_r. apply firstn_all2.
    rewrite rev_length, le_enc_length. lia. }
  destruct (rc_be g && (rc_arg g =? 8)) eqn:Bb.
  2:{ exists v. split; [reflexivity|]. split; [reflexivity|]. intros E1 E2. rewrite E1, E2 in Bb. discriminate. }
  assert (Un : 0 <= v < 2 ^ 32 -> exists w, Ok (wrap64 (v * 2 ^ 32)) = Ok w /\ Ok (w / 2 ^ 32) = Ok v /\ firstn 4 (enc true 8 w) = enc true 4 v).
  { intros Hv. exists (v * 2 ^ 32). unfold wrap64, wrap. rewrite Z.mod_small by lia. split; [reflexivity|].
    rewrite Z.div_mul by lia. split; [reflexivity|]. apply Hi. exact Hv. }
  assert (Si : forall x, - 2 ^ 31 <= x < 2 ^ 31 -> v = x mod 2 ^ 64 -> exists w, Ok (wrap64 (to_signed 64 v * 2 ^ 32)) = Ok w /\
     Ok (wrap64 (to_signed 64 w / 2 ^ 32)) = Ok v /\ firstn 4 (enc true 8 w) = enc true 4 v).
  { intros x Hx Ev. assert (E1 : to_signed 64 v = x).
    { unfold to_signed. rewrite Ev, Z.mod_mod by lia. destruct (Z.ltb_spec (x mod 2 ^ 64) (2 ^ (64 - 1))) as [L|L].
      - destruct (Z.lt_ge_cases x 0); [|rewrite Z.mod_small by lia; reflexivity].
        exfalso. rewrite (Z.mod_eq x (2 ^ 64)) in L by lia. assert (x / 2 ^ 64 = -1) by (symmetry; apply Z.div_unique with (r := x + 2 ^ 64); lia). lia.
      - destruct (Z.lt_ge_cases x 0); [|rewrite Z.mod_small in L by lia; lia].
        rewrite (Z.mod_eq x (2 ^ 64)) by lia. assert (x / 2 ^ 64 = -1) by (symmetry; apply Z.div_unique with (r := x + 2 ^ 64); lia). lia. }
    rewrite E1. exists (wrap64 (x * 2 ^ 32)). split; [reflexivity|].
    assert (E2 : to_signed 64 (wrap64 (x * 2 ^ 32)) = x * 2 ^ 32).
    { unfold to_signed, wrap64, wrap. rewrite Z.mod_mod by lia. destruct (Z.ltb_spec ((x * 2 ^ 32) mod 2 ^ 64) (2 ^ (64 - 1))) as [L|L].
      - destruct (Z.lt_ge_cases x 0); [|rewrite Z.mod_small by lia; reflexivity].
        exfalso. rewrite (Z.mod_eq _ (2 ^ 64)) in L by lia. assert (x * 2 ^ 32 / 2 ^ 64 = -1) by (symmetry; apply Z.div_unique with (r := x * 2 ^ 32 + 2 ^ 64); lia). lia.
      - destruct (Z.lt_ge_cases x 0); [|rewrite Z.mod_small in L by lia; lia].
        rewrite (Z.mod_eq _ (2 ^ 64)) by lia. assert (x * 2 ^ 32 / 2 ^ 64 = -1) by (symmetry; apply Z.div_unique with (r := x * 2 ^ 32 + 2 ^ 64); lia). lia. }
    rewrite E2, Z.div_mul by lia. split; [f_equal; symmetry; exact Ev|].
    transitivity (firstn 4 (enc true 8 ((x mod 2 ^ 32) * 2 ^ 32))).
    - f_equal. apply enc_cong; [lia|]. unfold wrap64, wrap. change (8 * 8) with 64. rewrite Z.mod_mod by lia.
      rewrite <- (Z_mod_plus_full (x mod 2 ^ 32 * 2 ^ 32) (x / 2 ^ 32)). f_equal. pose proof (Z.div_mod x (2 ^ 32) ltac:(lia)). lia.
    - rewrite Hi by (apply Z.mod_pos_bound; lia). apply enc_cong; [lia|]. change (8 * 4) with 32. rewrite Ev.
      rewrite Z.mod_mod by lia. apply Zmod_div_mod; [lia|lia|exists (2 ^ 32); reflexivity]. }
  apply andb_true_iff in Bb as [R1 R2]. apply Z.eqb_eq in R2.
  destruct A as [A|A].
  { rewrite A in *. exists v. split; [reflexivity|]. split; [reflexivity|]. discriminate. }
  destruct (ty_code rt) eqn:Ec; try contradiction; try congruence; try rewrite A in W.
  all: try (exists v; split; [reflexivity|]; split; [reflexivity|]; discriminate).
  all: try (destruct Un as (w & Q1 & Q2 & Q3); [lia|]; exists w; auto; fail).
  all: try (destruct W as (x & Hx & Ev); destruct (Si x) as (w & Q1 & Q2 & Q3); [lia|exact Ev|]; exists w; auto; fail).
  destruct (Np eq_refl) as [J|[J|J]]; try congruence.
  rewrite J. change (8 =? 4) with false. cbn iota. exists v. split; [reflexivity|]. split; [reflexivity|]. discriminate.
Qed.

End Cfg.
