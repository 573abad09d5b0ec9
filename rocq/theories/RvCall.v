(** RISC-V: ffi_call puts every argument where the calling convention says. *)
From Coq Require Import ZifyBool ZifyNat.
From Verif Require Import Base BaseFacts Types LayoutSpec NaturalTypes NaturalFacts RvModel RvSpec RvFlat.
Local Arguments Z.mul : simpl never.
Local Arguments Z.add : simpl never.

Section Block.
(** The block: [A] bytes of stack arguments, copies from [A] up to [ctx], the registers. *)
Variables base ctx fl A : Z.
Hypothesis FL : fl_ok fl.
Hypothesis A0 : 0 <= A <= ctx.

Definition xo : Z := ctx + 8 * fl.

(** Ranges already written for good. *)
Definition low (s : cb) (o k : Z) : Prop :=
  0 <= k /\
  (0 <= o /\ o + k <= b_stk s \/ A <= o /\ o + k <= b_cpy s \/
   ctx <= o /\ o + k <= ctx + fl * b_flt s \/ xo <= o /\ o + k <= xo + 8 * b_int s).

Definition inv (s : cb) (g f k : Z) : Prop :=
  b_int s = g /\ b_flt s = f /\ b_stk s = k /\ 0 <= g <= 8 /\ 0 <= f <= 8 /\ 0 <= k <= A /\ (8 | k) /\ (g < 8 -> k = 0) /\
  A <= b_cpy s <= ctx /\ (8 | b_cpy s) /\ zlen (b_blk s) = ctx + ctx_size fl.

Definition agree (s : cb) (b : list Z) : Prop :=
  zlen b = zlen (b_blk s) /\ forall o k, low s o k -> get_range b o k = get_range (b_blk s) o k.

Definition extends (s s' : cb) : Prop := forall b, agree s' b -> agree s b.

Lemma extends_refl s : extends s s. Proof. intros b; auto. Qed.
Lemma extends_trans a b c : extends a b -> extends b c -> extends a c.
Proof. intros H K x X. auto. Qed.
Lemma agree_self s : agree s (b_blk s). Proof. split; auto. Qed.

Lemma flcases : 0 <= fl. Proof. destruct FL as [-> | [-> | ->]]; lia. Qed.

(** One store outside the finished ranges. *)
Lemma store_extends s b s' off d : set_range (b_blk s) off d = Some b -> b_blk s' = b ->
  b_int s <= b_int s' -> b_flt s <= b_flt s' -> b_stk s <= b_stk s' -> b_cpy s <= b_cpy s' ->
  (forall o k, low s o k -> o + k <= off \/ off + zlen d <= o) -> extends s s'.
Proof.
  intros H E I1 I2 I3 I4 D x (L & G). pose proof flcases. split.
  - rewrite L, E. apply set_range_inv in H. lia.
  - intros o k LK. rewrite G.
    + rewrite E. eapply get_set_disjoint; eauto.
    + destruct LK as (K0 & K). split; auto. destruct K as [K|[K|[K|K]]]; [left|right; left|right; right; left|right; right; right]; nia.
Qed.

Definition woff (w : wloc) : Z := match w with XR i => xo + 8 * i | ST o => o end.

Lemma put_word_ok s g f k v w g' k' : inv s g f k -> word_at g k = (w, g', k') -> k' <= A ->
  exists s', put_word ctx fl v s = Ok s' /\ inv s' g' f k' /\ extends s s' /\ b_cpy s' = b_cpy s /\
    low s' (woff w) 8 /\ get_range (b_blk s') (woff w) 8 = Some (le_enc 8 v).
Proof.
  intros (I1 & I2 & I3 & G & F & K & DK & SK & C & DC & Z0) W KA. pose proof flcases as FP.
  unfold put_word, word_at in *. rewrite I1. destruct (g =? NARGREG) eqn:E.
  - assert (G8 : g = 8) by (unfold NARGREG in E; lia). replace (g <? 8) with false in W by lia. injection W as <- <- <-.
    destruct (set_range_ok (b_blk s) (b_stk s) (le_enc 8 v)) as (b & B & ZB).
    { lia. } { rewrite le_enc_zlen, Z0, I3. unfold ctx_size. lia. }
    rewrite B. cbn [of_option bind]. eexists. split; [reflexivity|]. unfold inv. cbn [b_int b_flt b_stk b_cpy b_blk]. rewrite I2, I3.
    split. { do 5 (split; [lia|]). split; [lia|]. split; [apply Z.divide_add_r; [exact DK|apply Z.divide_refl]|]. split; [lia|]. split; [lia|]. split; [exact DC|lia]. }
    split. { eapply store_extends; [exact B|reflexivity|cbn; lia|cbn; lia|cbn; lia|cbn; lia|].
      rewrite le_enc_zlen. intros o q (Q & LK). unfold xo in *. destruct LK as [LK|[LK|[LK|LK]]]; nia. }
    split; [reflexivity|]. split; [split; [lia|]; left; cbn [woff b_stk]; lia|].
    pose proof (get_set_same _ _ _ _ B) as GS. rewrite le_enc_zlen, I3 in GS. exact GS.
  - replace (g <? 8) with true in W by (unfold NARGREG in E; lia). injection W as <- <- <-. assert (g < 8) by (unfold NARGREG in E; lia).
    destruct (set_range_ok (b_blk s) (ctx + 8 * fl + 8 * g) (le_enc 8 v)) as (b & B & ZB).
    { lia. } { rewrite le_enc_zlen, Z0. unfold ctx_size. lia. }
    rewrite B. cbn [of_option bind]. eexists. split; [reflexivity|]. unfold inv. cbn [b_int b_flt b_stk b_cpy b_blk]. rewrite I2, I3.
    split. { do 6 (split; [lia|]). split; [exact DK|]. split; [lia|]. split; [lia|]. split; [exact DC|lia]. }
    split. { eapply store_extends; [exact B|reflexivity|cbn; lia|cbn; lia|cbn; lia|cbn; lia|].
      rewrite le_enc_zlen. intros o q (Q & LK). unfold xo in *. destruct LK as [LK|[LK|[LK|LK]]]; nia. }
    split; [reflexivity|]. split; [split; [lia|]; right; right; right; unfold xo; cbn [woff b_int]; unfold xo; lia|].
    pose proof (get_set_same _ _ _ _ B) as GS. rewrite le_enc_zlen in GS. exact GS.
Qed.

Lemma put_float_ok s g f k d : inv s g f k -> f < 8 -> 0 < zlen d <= fl ->
  exists s', put_float ctx fl d s = Ok s' /\ inv s' g (f + 1) k /\ extends s s' /\ b_cpy s' = b_cpy s /\
    low s' (ctx + fl * f) fl /\
    get_range (b_blk s') (ctx + fl * f) fl = Some (d ++ repeat 255 (Z.to_nat (fl - zlen d))).
Proof.
  intros (I1 & I2 & I3 & G & F & K & DK & SK & C & DC & Z0) F8 ZD. pose proof flcases as FP.
  unfold put_float. rewrite I2.
  assert (ZX : zlen (d ++ repeat 255 (Z.to_nat (fl - zlen d))) = fl) by (rewrite zlen_app, zlen_repeat; lia).
  destruct (set_range_ok (b_blk s) (ctx + fl * f) (d ++ repeat 255 (Z.to_nat (fl - zlen d)))) as (b & B & ZB).
  { nia. } { rewrite ZX, Z0. unfold ctx_size. nia. }
  rewrite B. cbn [of_option bind]. eexists. split; [reflexivity|]. unfold inv. cbn [b_int b_flt b_stk b_cpy b_blk].
  split. { do 6 (split; [lia|]). split; [exact DK|]. split; [lia|]. split; [lia|]. split; [exact DC|lia]. }
  split. { eapply store_extends; [exact B|reflexivity|cbn; lia|cbn; lia|cbn; lia|cbn; lia|].
    rewrite ZX. intros o q (Q & LK). unfold xo in *. destruct LK as [LK|[LK|[LK|LK]]]; try nia. }
  split; [reflexivity|]. split; [split; [lia|]; right; right; left; cbn [b_flt]; nia|].
  pose proof (get_set_same _ _ _ _ B) as GS. rewrite ZX in GS. exact GS.
Qed.

(** ** What the called function will see *)

(** Register contents and memory of a block. *)
Definition ra (b : list Z) : list Z := match get_range b xo 64 with Some x => x | None => [] end.
Definition rf (b : list Z) : list Z := match get_range b ctx (8 * fl) with Some x => x | None => [] end.
Definition rdb (b : list Z) : Z -> Z -> option (list Z) := fun p n => get_range b (p - base) n.

Lemma word_sees s g f k b w x : inv s g f k -> agree s b -> low s (woff w) 8 ->
  (match w with XR i => 0 <= i < 8 | ST o => 0 <= o end) ->
  get_range (b_blk s) (woff w) 8 = Some x -> word_of (ra b) base (rdb b) w = Some x.
Proof.
  intros (_ & _ & _ & _ & _ & _ & _ & _ & C & _ & Z0) (ZB & G) L R H. rewrite <- G in H by auto. pose proof flcases.
  destruct w as [i|o]; cbn [word_of woff] in *.
  - unfold ra. rewrite (get_range_some b xo 64) by (unfold xo, ctx_size in *; lia).
    rewrite <- H. symmetry. apply get_range_sub with (len := 64); try lia. apply get_range_some; unfold xo, ctx_size in *; lia.
  - unfold rdb. replace (base + o - base) with o by lia. exact H.
Qed.

Lemma float_sees s g f k b i d : inv s g f k -> agree s b -> low s (ctx + fl * i) fl -> 0 <= i < 8 ->
  get_range (b_blk s) (ctx + fl * i) fl = Some (d ++ repeat 255 (Z.to_nat (fl - zlen d))) -> in_freg fl (rf b) i d.
Proof.
  intros (_ & _ & _ & _ & _ & _ & _ & _ & C & _ & Z0) (ZB & G) L R H. rewrite <- G in H by auto. pose proof flcases.
  unfold in_freg, rf. rewrite (get_range_some b ctx (8 * fl)) by (unfold ctx_size in *; lia).
  rewrite <- H. symmetry. apply get_range_sub with (len := 8 * fl); try nia. apply get_range_some; unfold ctx_size in *; lia.
Qed.

Lemma word_at_range g k w g' k' : word_at g k = (w, g', k') -> 0 <= g <= 8 -> 0 <= k ->
  match w with XR i => 0 <= i < 8 | ST o => 0 <= o end.
Proof. unfold word_at. destruct (g <? 8) eqn:E; intros H; injection H as <- <- <-; lia. Qed.
Lemma word_at_mono g k w g' k' : word_at g k = (w, g', k') -> g <= g' /\ k <= k'.
Proof. unfold word_at. destruct (g <? 8) eqn:E; intros H; injection H as <- <- <-; lia. Qed.

(** ** Atoms *)

Lemma atom_int c d v s : integral c = true -> get_range d 0 (csize c) = Some v -> bytes_ok v ->
  marshal_atom ctx fl c d s = put_word ctx fl (extended c v) s.
Proof.
  intros I H O. destruct (get_range_inv _ _ _ _ H) as (_ & _ & _ & _ & ZV).
  assert (B : 0 <= le_dec v < 2 ^ 64).
  { pose proof (le_dec_bound v O) as B. rewrite ZV in B. split; [lia|]. eapply Z.lt_le_trans; [apply B|].
    apply Z.pow_le_mono_r; [lia|]. destruct c; cbn; lia. }
  destruct c; try discriminate I; cbn [marshal_atom csize] in *; rewrite H; cbn [of_option bind]; f_equal; unfold extended, wrap64, wrap;
    cbn [by_sign]; try (rewrite ZV; reflexivity);
    try (rewrite ZV; change (8 * 8) with 64; rewrite to_signed_mod by lia); rewrite Z.mod_small by lia; reflexivity.
Qed.

Lemma atom_float c d v s : real fl c = true -> get_range d 0 (csize c) = Some v ->
  marshal_atom ctx fl c d s = put_float ctx fl v s /\ 0 < zlen v <= fl.
Proof.
  intros R H. destruct (get_range_inv _ _ _ _ H) as (_ & _ & _ & _ & ZV). unfold real in R.
  destruct c; try discriminate R; cbn [marshal_atom csize] in *; rewrite R, H; cbn [of_option bind]; split; try reflexivity; lia.
Qed.

Lemma enc_ptr v : bytes_ok v -> zlen v = 8 -> le_enc 8 (extended T_POINTER v) = v.
Proof.
  intros O Z8. unfold extended. cbn [by_sign]. pose proof (le_dec_bound v O) as B. rewrite Z8 in B. change (8 * 8) with 64 in B.
  rewrite Z.mod_small by lia. replace 8%nat with (length v) by (unfold zlen in Z8; lia). apply le_enc_dec; auto.
Qed.

Lemma extended_low c o : bytes_ok o -> (0 < length o <= 8)%nat -> firstn (length o) (le_enc 8 (extended c o)) = o.
Proof.
  intros OO LE. rewrite le_enc_firstn by lia. rewrite <- le_enc_mod.
  assert (D : (2 ^ (8 * Z.of_nat (length o)) | 2 ^ 64)).
  { exists (2 ^ (64 - 8 * Z.of_nat (length o))). rewrite <- Z.pow_add_r by lia. f_equal. lia. }
  unfold extended. rewrite <- Znumtheory.Zmod_div_mod; auto; [|apply Z.pow_pos_nonneg; lia|lia].
  destruct (by_sign c); [unfold zlen; rewrite to_signed_mod by lia|]; rewrite le_enc_mod; apply le_enc_dec; auto.
Qed.

Hypothesis BASE : 0 <= base /\ (16 | base) /\ base + ctx + 32 < 2 ^ 64.

(** What is seen of an argument. *)
Definition sees (s : cb) (t : ftype) (pl : place) (o : list Z) (p : Z) : Prop :=
  forall b, agree s b ->
    match pl with
    | Ref w => word_of (ra b) base (rdb b) w = Some (le_enc 8 p) /\ rdb b p (ty_size t) = Some o
    | _ => at_place fl (ra b) (rf b) base (rdb b) t pl o
    end.
Definition grown (t : ftype) (pl : place) : Z := match pl with Ref _ => round_up (ty_size t) 8 | _ => 0 end.

Lemma low_mono s s' : b_int s <= b_int s' -> b_flt s <= b_flt s' -> b_stk s <= b_stk s' -> b_cpy s <= b_cpy s' ->
  forall o k, low s o k -> low s' o k.
Proof.
  intros I1 I2 I3 I4 o k (K0 & K). pose proof flcases. split; auto.
  destruct K as [K|[K|[K|K]]]; [left|right; left|right; right; left|right; right; right]; nia.
Qed.

(** The part of marshal for the integer convention. *)
Definition rest (t : ftype) (var : bool) (d gr : list Z) (s : cb) : res cb :=
  if ty_size t >? 16 then
    let* x := of_option (get_range d 0 (ty_size t)) in
    let* b := of_option (set_range (b_blk s) (b_cpy s) x) in
    marshal_atom ctx fl T_POINTER (le_enc 8 (base + b_cpy s))
      (CB b (b_int s) (b_flt s) (b_stk s) (ffi_align (base + b_cpy s + ty_size t) 8 - base))
  else if is_int_code (ty_code t) || tcode_eqb (ty_code t) T_POINTER then marshal_atom ctx fl (ty_code t) d s
  else
    let s1 := align_pair base var t s in
    let* x := of_option (get_range d 0 (ty_size t)) in
    let* re := of_option (set_range gr 0 x) in
    let* s2 := if ty_size t >? 0 then marshal_atom ctx fl T_POINTER re s1 else Ok s1 in
    if ty_size t >? 8 then let* re1 := of_option (get_range re 8 8) in marshal_atom ctx fl T_POINTER re1 s2 else Ok s2.

Lemma get_all (o : list Z) n : zlen o = n -> get_range o 0 n = Some o.
Proof. intros <-. apply get_range_all. Qed.

Lemma align_word g k var t : 0 <= g <= 8 -> (g < 8 -> k = 0) -> 0 <= k <= A ->
  let g0 := if var && (ty_align t >? 8) then round_up g 2 else g in
  let k0 := if (ty_align t >? 8) && (8 <=? g0) then round_up k 16 else k in
  (if ty_align t >? 8 then if var then ffi_align g 2 else g else g) = g0 /\
  (if ty_align t >? 8 then ffi_align (base + k) 16 - base else k) = k0 /\
  g <= g0 <= 8 /\ k <= k0 /\ (g0 < 8 -> k0 = 0).
Proof.
  intros G SK K. cbv zeta. assert (P2 : is_pow2 2) by (exists 1; split; [lia|reflexivity]). assert (P16 : is_pow2 16) by (exists 4; split; [lia|reflexivity]).
  pose proof (round_up_le g 2 ltac:(lia)). pose proof (round_up_lt g 2 ltac:(lia)).
  assert (R8 : round_up g 2 <= 8) by (apply round_up_least; [lia|exists 4; lia|lia]).
  pose proof (round_up_le k 16 ltac:(lia)). pose proof (round_up_lt k 16 ltac:(lia)).
  destruct (ty_align t >? 8).
  - rewrite andb_true_r. cbn [andb].
    assert (E1 : (if var then ffi_align g 2 else g) = if var then round_up g 2 else g).
    { destruct var; [|reflexivity]. apply ffi_align_round; auto; lia. }
    rewrite E1. split; [reflexivity|].
    assert (E2 : ffi_align (base + k) 16 - base = round_up k 16).
    { destruct BASE as (B0 & B1 & B2).
      rewrite ffi_align_round; auto; [|lia|rewrite round_up_add by (auto; lia); lia]. rewrite round_up_add by (auto; lia). lia. }
    rewrite E2. destruct (8 <=? (if var then round_up g 2 else g)) eqn:E8.
    + split; [reflexivity|]. split; [destruct var; lia|]. split; lia.
    + assert (g < 8) by (destruct var; lia). assert (k = 0) by auto. subst k. rewrite round_up_0 by lia. split; [reflexivity|].
      split; [destruct var; lia|]. lia.
  - rewrite andb_false_r. cbn [andb]. split; [reflexivity|]. split; [reflexivity|]. split; [lia|]. split; [lia|]. auto.
Qed.

Lemma rest_ok s g f k t var o gr pl g' k' : inv s g f k -> natural t -> zlen o = ty_size t -> bytes_ok o ->
  zlen gr = 16 -> bytes_ok gr -> place_words var t g k = (pl, g', k') -> k' <= A -> b_cpy s + grown t pl <= ctx ->
  exists s', rest t var o gr s = Ok s' /\ inv s' g' f k' /\ extends s s' /\ b_cpy s' = b_cpy s + grown t pl /\
    sees s' t pl o (base + b_cpy s).
Proof.
  intros I N ZO OO ZG OG PW KA CA. pose proof I as (I1 & I2 & I3 & G & F & K & DK & SK & C & DC & Z0). pose proof flcases as FP.
  destruct (natural_basic _ N) as (SP & AP & A16 & _). unfold rest, place_words in *.
  destruct (ty_size t >? 16) eqn:BIG.
  - destruct (word_at g k) as [[w g1] k1] eqn:W. injection PW as <- <- <-. cbn [grown] in *.
    rewrite (get_all o) by auto. cbn [of_option bind].
    pose proof (round_up_le (ty_size t) 8 ltac:(lia)) as R1. pose proof (round_up_lt (ty_size t) 8 ltac:(lia)) as R2.
    destruct (set_range_ok (b_blk s) (b_cpy s) o) as (b & B & ZB). { lia. } { rewrite ZO, Z0. unfold ctx_size. lia. }
    rewrite B. cbn [of_option bind].
    assert (P8 : is_pow2 8) by (exists 3; split; [lia|reflexivity]). destruct BASE as (B0 & B16 & BB).
    assert (B8 : (8 | base)) by (eapply Z.divide_trans; [|exact B16]; exists 2; reflexivity).
    assert (E : ffi_align (base + b_cpy s + ty_size t) 8 - base = b_cpy s + round_up (ty_size t) 8).
    { assert (D : (8 | base + b_cpy s)) by (apply Z.divide_add_r; auto).
      rewrite ffi_align_round; auto; [|lia|rewrite round_up_add by (auto; lia); lia]. rewrite round_up_add by (auto; lia). lia. }
    rewrite E. set (s1 := CB b (b_int s) (b_flt s) (b_stk s) (b_cpy s + round_up (ty_size t) 8)).
    assert (J : inv s1 g f k).
    { unfold inv, s1. cbn [b_int b_flt b_stk b_cpy b_blk]. do 6 (split; [lia|]). split; [exact DK|]. split; [exact SK|]. split; [lia|].
      split; [apply Z.divide_add_r; [exact DC|apply round_up_divide]|lia]. }
    assert (X1 : extends s s1).
    { eapply store_extends; [exact B|reflexivity|cbn; lia|cbn; lia|cbn; lia|cbn; lia|].
      intros q n (Q & LK). rewrite ZO. unfold xo in *. destruct LK as [LK|[LK|[LK|LK]]]; nia. }
    assert (PB : 0 <= base + b_cpy s < 2 ^ 64) by lia.
    rewrite (atom_int T_POINTER _ (le_enc 8 (base + b_cpy s))); [|reflexivity| |apply le_enc_ok].
    2: { cbn [csize]. apply get_all. apply le_enc_zlen. }
    destruct (put_word_ok s1 g f k (extended T_POINTER (le_enc 8 (base + b_cpy s))) w g1 k1 J W KA) as (s' & E' & I' & X' & C' & L' & G').
    rewrite E'. exists s'. split; [reflexivity|]. split; [exact I'|]. split; [eapply extends_trans; eauto|]. split; [rewrite C'; reflexivity|].
    intros x X. split.
    + rewrite enc_ptr in G' by (try apply le_enc_ok; apply le_enc_zlen).
      eapply word_sees; eauto. eapply word_at_range; eauto; lia.
    + pose proof (X' _ X) as X2. unfold rdb. replace (base + b_cpy s - base) with (b_cpy s) by lia.
      destruct X2 as (_ & X2). rewrite X2; [|split; [lia|]; right; left; cbn [b_cpy s1]; lia].
      cbn [b_blk s1]. rewrite <- ZO. eapply get_set_same; eauto.
  - destruct (is_int_code (ty_code t) || tcode_eqb (ty_code t) T_POINTER) eqn:IC.
    + assert (IT : integral (ty_code t) = true) by (rewrite is_int_whole in IC; destruct (ty_code t); try discriminate IC; reflexivity).
      assert (NS : ty_code t <> T_STRUCT /\ ty_code t <> T_COMPLEX) by (split; intros E; rewrite E in IT; discriminate).
      destruct (scalar_size t _ N eq_refl (proj1 NS) (proj2 NS)) as (AL & S1 & S2 & S3 & S4 & SR & _ & _ & Q1 & Q2 & Q3 & Q4).
      assert (SZ : ty_size t = csize (ty_code t)).
      { destruct (ty_code t) eqn:E; try discriminate IT; cbn [csize]; auto. }
      assert (S8 : ty_size t <= 8) by (rewrite SZ; destruct (ty_code t); cbn; lia).
      replace (ty_align t >? 8) with false in PW by lia. rewrite andb_false_r in PW. cbn [andb] in PW.
      replace (ty_size t >? 8) with false in PW by lia.
      destruct (word_at g k) as [[w g1] k1] eqn:W. injection PW as <- <- <-. cbn [grown] in *.
      rewrite (atom_int (ty_code t) o o) by (auto; rewrite <- SZ; apply get_all; auto).
      destruct (put_word_ok s g f k (extended (ty_code t) o) w g1 k1 I W KA) as (s' & E' & I' & X' & C' & L' & G').
      rewrite E'. exists s'. split; [reflexivity|]. split; [exact I'|]. split; [exact X'|]. split; [lia|].
      intros x X. cbn [at_place]. exists (le_enc 8 (extended (ty_code t) o)). cbn [words_of].
      rewrite (word_sees s' g1 f k1 x w _ I' X L' ltac:(eapply word_at_range; eauto; lia) G'). rewrite app_nil_r.
      split; [reflexivity|]. split; [apply le_enc_ok|]. split; [|auto].
      assert (LE : (length o <= 8)%nat) by (unfold zlen in ZO; lia).
      rewrite get_range_some; [|lia|apply zlen_nonneg|rewrite le_enc_zlen; lia]. cbn [Z.to_nat skipn]. f_equal.
      unfold zlen. rewrite Nat2Z.id. apply extended_low; auto. unfold zlen in ZO. lia.
    + destruct (align_word g k var t ltac:(lia) SK K) as (E1 & E2 & GG & KK & SK0).
      set (g0 := if var && (ty_align t >? 8) then round_up g 2 else g) in *.
      set (k0 := if (ty_align t >? 8) && (8 <=? g0) then round_up k 16 else k) in *.
      set (s1 := align_pair base var t s).
      assert (F1 : b_blk s1 = b_blk s /\ b_int s1 = g0 /\ b_flt s1 = f /\ b_stk s1 = k0 /\ b_cpy s1 = b_cpy s).
      { unfold s1, align_pair. rewrite <- E1, <- E2. destruct (ty_align t >? 8); cbn [b_blk b_int b_flt b_stk b_cpy]; rewrite ?I1, ?I2, ?I3; auto. }
      destruct F1 as (F1 & F2 & F3 & F4 & F5).
      assert (D0 : (8 | k0)).
      { unfold k0. destruct ((ty_align t >? 8) && (8 <=? g0)); auto. eapply Z.divide_trans; [|apply round_up_divide]. exists 2; reflexivity. }
      assert (IA : k0 <= A -> inv s1 g0 f k0).
      { intros. unfold inv. rewrite F1, F2, F3, F4, F5. do 6 (split; [lia|]). split; [exact D0|]. split; [exact SK0|]. split; [lia|]. split; [exact DC|exact Z0]. }
      assert (X1 : extends s s1).
      { intros x (ZX & X). split; [rewrite ZX, F1; reflexivity|]. intros q n LK. rewrite X; [rewrite F1; reflexivity|].
        eapply low_mono; [..|exact LK]; lia. }
      rewrite (get_all o) by auto. cbn [of_option bind].
      destruct (set_range_ok gr 0 o) as (re & R & ZR). { lia. } { lia. }
      rewrite R. cbn [of_option bind]. replace (ty_size t >? 0) with true by lia.
      assert (OR : bytes_ok re).
      { apply set_range_inv in R as (_ & _ & -> & _). cbn [Z.to_nat firstn app]. apply bytes_ok_app. split; auto. apply bytes_ok_skipn; auto. }
      pose proof (get_set_same _ _ _ _ R) as RO.
      destruct (get_range re 0 8) as [re0|] eqn:R0; [|rewrite get_range_some in R0 by lia; discriminate].
      assert (O0 : bytes_ok re0) by (destruct (get_range_inv _ _ _ _ R0) as (_ & _ & _ & -> & _); apply bytes_ok_firstn, bytes_ok_skipn; auto).
      assert (Z8 : zlen re0 = 8) by (apply get_range_inv in R0; lia).
      assert (NI : integral (ty_code t) = true -> False).
      { intros IT. rewrite is_int_whole in IC. destruct (ty_code t); try discriminate IT; discriminate IC. }
      destruct (word_at g0 k0) as [[w g1] k1] eqn:W. pose proof (word_at_mono _ _ _ _ _ W) as MW.
      rewrite (atom_int T_POINTER re re0) by auto.
      destruct (ty_size t >? 8) eqn:TWO.
      * destruct (word_at g1 k1) as [[w2 g2] k2] eqn:W2. pose proof (word_at_mono _ _ _ _ _ W2) as MW2. injection PW as <- <- <-. cbn [grown] in *.
        assert (J : inv s1 g0 f k0) by (apply IA; lia).
        destruct (put_word_ok s1 g0 f k0 (extended T_POINTER re0) w g1 k1 J W ltac:(lia)) as (s2 & E' & I' & X' & C' & L' & G').
        rewrite E'. cbn [bind]. destruct (get_range re 8 8) as [re1|] eqn:R1; [|rewrite get_range_some in R1 by lia; discriminate].
        cbn [of_option bind].
        assert (O1 : bytes_ok re1) by (destruct (get_range_inv _ _ _ _ R1) as (_ & _ & _ & -> & _); apply bytes_ok_firstn, bytes_ok_skipn; auto).
        assert (Z81 : zlen re1 = 8) by (apply get_range_inv in R1; lia).
        rewrite (atom_int T_POINTER re1 re1) by (auto; apply get_all; auto).
        destruct (put_word_ok s2 g1 f k1 (extended T_POINTER re1) w2 g2 k2 I' W2 KA) as (s3 & E3 & I3' & X3 & C3 & L3 & G3).
        rewrite E3. exists s3. split; [reflexivity|]. split; [exact I3'|]. split; [eapply extends_trans; [eassumption|]; eapply extends_trans; eassumption|].
        split; [lia|]. intros x X. cbn [at_place words_of]. rewrite enc_ptr in G' by auto. rewrite enc_ptr in G3 by auto.
        rewrite (word_sees s2 g1 f k1 x w _ I' (X3 _ X) L' ltac:(eapply word_at_range; eauto; lia) G').
        assert (PR : 0 <= g1 <= 8 /\ 0 <= k1) by (destruct I' as (_ & _ & _ & Q & _ & Q2 & _); lia).
        rewrite (word_sees s3 g2 f k2 x w2 _ I3' X L3 ltac:(eapply word_at_range; eauto; lia) G3). rewrite app_nil_r.
        exists (re0 ++ re1). split; [reflexivity|]. split; [apply bytes_ok_app; auto|]. split; [|intros IT; contradiction].
        rewrite <- RO. f_equal. 
        transitivity (firstn 16 re); [|rewrite firstn_all2; [reflexivity|unfold zlen in ZR, ZG; lia]].
        apply get_range_inv in R0 as (_ & _ & _ & -> & _). apply get_range_inv in R1 as (_ & _ & _ & -> & _).
        change (Z.to_nat 0) with 0%nat. change (Z.to_nat 8) with 8%nat. rewrite skipn_O.
        rewrite <- (firstn_skipn 8 (firstn 16 re)). rewrite firstn_firstn. cbn [Nat.min]. f_equal.
        rewrite firstn_skipn_comm. reflexivity.
      * injection PW as <- <- <-. cbn [grown] in *.
        assert (J : inv s1 g0 f k0) by (apply IA; lia).
        destruct (put_word_ok s1 g0 f k0 (extended T_POINTER re0) w g1 k1 J W ltac:(lia)) as (s2 & E' & I' & X' & C' & L' & G').
        rewrite E'. cbn [bind]. exists s2. split; [reflexivity|]. split; [exact I'|]. split; [eapply extends_trans; eassumption|].
        split; [lia|]. intros x X. cbn [at_place words_of]. rewrite enc_ptr in G' by auto.
        rewrite (word_sees s2 g1 f k1 x w _ I' X L' ltac:(eapply word_at_range; eauto; lia) G'). rewrite app_nil_r.
        exists re0. split; [reflexivity|]. split; [auto|]. split; [|intros IT; contradiction].
        rewrite <- RO. rewrite <- (get_range_sub re 0 8 re0 0 (zlen o)) by (auto; lia). reflexivity.
Qed.

Lemma float_ok s g f k c d v : inv s g f k -> f < 8 -> real fl c = true -> get_range d 0 (csize c) = Some v ->
  exists s', marshal_atom ctx fl c d s = Ok s' /\ inv s' g (f + 1) k /\ extends s s' /\ b_cpy s' = b_cpy s /\
    forall b, agree s' b -> in_freg fl (rf b) f v.
Proof.
  intros I F R H. destruct (atom_float c d v s R H) as (E & ZV). rewrite E.
  destruct (put_float_ok s g f k v I F ZV) as (s' & E' & I' & X' & C' & L' & G'). exists s'. do 4 (split; [assumption|]).
  intros b Ab. eapply float_sees; eauto. destruct I as (_ & _ & _ & _ & ? & _). lia.
Qed.

Lemma int_ok s g f k c d v : inv s g f k -> g < 8 -> whole c = true -> get_range d 0 (csize c) = Some v -> bytes_ok v ->
  exists s', marshal_atom ctx fl c d s = Ok s' /\ inv s' (g + 1) f k /\ extends s s' /\ b_cpy s' = b_cpy s /\
    forall b, agree s' b -> low_in (ra b) g v.
Proof.
  intros I G W H O. assert (IT : integral c = true) by (destruct c; try discriminate W; reflexivity).
  rewrite (atom_int c d v) by auto.
  assert (WA : word_at g k = (XR g, g + 1, k)) by (unfold word_at; replace (g <? 8) with true by lia; reflexivity).
  pose proof I as (_ & _ & _ & G0 & _ & K0 & _).
  destruct (put_word_ok s g f k (extended c v) _ _ _ I WA ltac:(lia)) as (s' & E' & I' & X' & C' & L' & G'). rewrite E'.
  exists s'. do 4 (split; [assumption || reflexivity|]). intros b Ab.
  pose proof (word_sees s' _ _ _ b (XR g) _ I' Ab L' ltac:(cbn; lia) G') as WS. cbn [word_of] in WS.
  assert (ZV : 0 < zlen v <= 8) by (apply get_range_inv in H; destruct c; cbn in H; lia).
  exists (le_enc 8 (extended c v)). split; [exact WS|]. split; [apply le_enc_ok|].
  rewrite get_range_some by (rewrite ?le_enc_zlen; lia). cbn [Z.to_nat skipn]. f_equal.
  unfold zlen. rewrite Nat2Z.id. apply extended_low; auto. unfold zlen in ZV. lia.
Qed.

Lemma agree_ext s s' b : extends s s' -> agree s' b -> agree s b.
Proof. auto. Qed.

(** The condition on structs with one real number. *)
Definition lone_ok (var : bool) (t : ftype) (f : Z) : Prop :=
  var = false -> ty_code t = T_STRUCT -> forall n, shape_of fl t = OneReal n -> f < 8.

Lemma marshal_ok s g f k t var o gr pl g' f' k' : inv s g f k -> natural t -> zlen o = ty_size t -> bytes_ok o ->
  zlen gr = 16 -> bytes_ok gr -> lone_ok var t f ->
  place_arg fl var t g f k = (pl, g', f', k') -> k' <= A -> b_cpy s + grown t pl <= ctx ->
  exists s', marshal base ctx fl t var o gr s = Ok s' /\ inv s' g' f' k' /\ extends s s' /\ b_cpy s' = b_cpy s + grown t pl /\
    sees s' t pl o (base + b_cpy s).
Proof.
  intros I N ZO OO ZG OG LONE PA KA CA.
  pose proof I as (I1 & I2 & I3 & G & F & K & DK & SK & C & DC & Z0).
  assert (REST : (let '(p, g1, s1) := place_words var t g k in (p, g1, f, s1)) = (pl, g', f', k') ->
    exists s', rest t var o gr s = Ok s' /\ inv s' g' f' k' /\ extends s s' /\ b_cpy s' = b_cpy s + grown t pl /\
    sees s' t pl o (base + b_cpy s)).
  { destruct (place_words var t g k) as [[p g1] s1] eqn:PW. intros E. injection E as -> -> <- ->. eapply rest_ok; eauto. }
  unfold marshal. change (if ty_size t >? 16 then _ else _) with (rest t var o gr s). unfold elements_of. rewrite I1, I2.
  unfold place_arg in PA. destruct var.
  { rewrite orb_true_r. cbn [negb andb]. auto. }
  rewrite orb_false_r. cbn [negb andb].
  destruct (tcode_eqb (ty_code t) T_STRUCT) eqn:ST.
  2: { assert (NS : ty_code t <> T_STRUCT) by (intros E; rewrite E in ST; discriminate).
    destruct (leaf_not_struct t NS) as (_ & FS).
    replace (if fl =? 0 then None else _) with (@None (tcode * option (Z * tcode))) by (destruct (fl =? 0); [reflexivity|destruct (ty_code t); try reflexivity; congruence]).
    unfold shape_of in PA. rewrite FS in PA. rewrite (is_float_real fl _ FL).
    destruct (real fl (ty_code t)) eqn:R; [|rewrite andb_false_r; auto]. rewrite andb_true_r. change (f <? NARGREG) with (f <? 8).
    destruct (f <? 8) eqn:F8; [|auto]. injection PA as <- <- <- <-. cbn [grown] in *.
    assert (CS : ty_size t = csize (ty_code t)) by (apply (csize_of fl); auto).
    destruct (float_ok s g f k (ty_code t) o o I ltac:(lia) R ltac:(apply get_all; lia)) as (s' & E' & I' & X' & C' & S').
    exists s'. do 3 (split; [assumption|]). split; [lia|]. intros b Ab. cbn [at_place]. auto. }
  assert (TS : ty_code t = T_STRUCT) by (destruct (ty_code t); try discriminate ST; reflexivity). rewrite TS.
  replace (is_float_code fl T_STRUCT) with false by (rewrite is_float_real by auto; reflexivity). rewrite andb_false_r.
  destruct (fl =? 0) eqn:F0.
  { assert (FZ : fl = 0) by lia. clear F0. assert (SH : shape_of fl t = Other); [|rewrite SH in PA; auto].
    pose proof (shape_fields fl t N) as SF. assert (R0 : forall c, real fl c = false) by (intros c; rewrite FZ; destruct c; reflexivity).
    destruct (shape_of fl t); auto; exfalso.
    - destruct SF as (c & _ & R & _). rewrite R0 in R. discriminate.
    - destruct SF as (c1 & c2 & _ & R & _). rewrite R0 in R. discriminate.
    - destruct SF as (c1 & c2 & _ & R & _). rewrite R0 in R. discriminate.
    - destruct SF as (c1 & c2 & _ & _ & R). rewrite R0 in R. discriminate. }
  rewrite (elements_shape fl g f t FL N TS). pose proof (shape_fields fl t N) as SF.
  destruct (shape_of fl t) as [n|n1 o2 n2|n1 o2 n2|n1 o2 n2|] eqn:SH.
  - destruct SF as (c & FS & R & CN & SZ). rewrite FS. pose proof (LONE eq_refl TS n SH) as F8.
    replace (f <? 8) with true in PA by lia. injection PA as <- <- <- <-. cbn [grown] in *.
    destruct (float_ok s g f k c o o I F8 R ltac:(apply get_all; lia)) as (s' & E' & I' & X' & C' & S').
    exists s'. do 3 (split; [assumption|]). split; [lia|]. intros b Ab. cbn [at_place]. auto.
  - destruct SF as (c1 & c2 & (FS & N1 & N2 & L1 & L2 & L3) & R1 & R2). rewrite FS.
    destruct (f <? 7) eqn:F7.
    2: { replace ((f + 2 >? 8) || (g >? 8)) with true by lia. auto. }
    replace ((f + 2 >? 8) || (g >? 8)) with false by lia. injection PA as <- <- <- <-. cbn [grown] in *.
    assert (P1 : 0 < csize c1) by (destruct c1; cbn; lia). assert (P2 : 0 < csize c2) by (destruct c2; cbn; lia).
    destruct (get_range o 0 n1) as [x|] eqn:X1; [|rewrite get_range_some in X1 by lia; discriminate].
    destruct (get_range o o2 n2) as [y|] eqn:Y1; [|rewrite get_range_some in Y1 by lia; discriminate].
    destruct (float_ok s g f k c1 o x I ltac:(lia) R1 ltac:(rewrite <- N1; auto)) as (s1 & E1 & I1' & XX1 & C1 & S1).
    rewrite E1. cbn [bind]. destruct (get_range o o2 (zlen o - o2)) as [d2|] eqn:D2; [|rewrite get_range_some in D2 by lia; discriminate].
    cbn [of_option bind].
    assert (Y2 : get_range d2 0 n2 = Some y) by (rewrite <- (get_range_sub _ _ _ _ 0 n2 D2) by lia; rewrite Z.add_0_r; exact Y1).
    destruct (float_ok s1 g (f + 1) k c2 d2 y I1' ltac:(lia) R2 ltac:(rewrite <- N2; auto)) as (s2 & E2 & I2' & XX2 & C2 & S2).
    exists s2. split; [exact E2|]. split; [replace (f + 2) with (f + 1 + 1) by lia; exact I2'|]. split; [eapply extends_trans; eauto|].
    split; [lia|]. intros b Ab. cbn [at_place]. exists x, y. auto 6.
  - destruct SF as (c1 & c2 & (FS & N1 & N2 & L1 & L2 & L3) & R1 & R2). rewrite FS.
    destruct ((f <? 8) && (g <? 8)) eqn:F7.
    2: { replace ((f + 1 >? 8) || (g + 1 >? 8)) with true by lia. auto. }
    replace ((f + 1 >? 8) || (g + 1 >? 8)) with false by lia. injection PA as <- <- <- <-. cbn [grown] in *.
    assert (P1 : 0 < csize c1) by (destruct c1; cbn; lia). assert (P2 : 0 < csize c2) by (destruct c2; cbn; lia).
    destruct (get_range o 0 n1) as [x|] eqn:X1; [|rewrite get_range_some in X1 by lia; discriminate].
    destruct (get_range o o2 n2) as [y|] eqn:Y1; [|rewrite get_range_some in Y1 by lia; discriminate].
    destruct (float_ok s g f k c1 o x I ltac:(lia) R1 ltac:(rewrite <- N1; auto)) as (s1 & E1 & I1' & XX1 & C1 & S1).
    rewrite E1. cbn [bind]. destruct (get_range o o2 (zlen o - o2)) as [d2|] eqn:D2; [|rewrite get_range_some in D2 by lia; discriminate].
    cbn [of_option bind].
    assert (Y2 : get_range d2 0 n2 = Some y) by (rewrite <- (get_range_sub _ _ _ _ 0 n2 D2) by lia; rewrite Z.add_0_r; exact Y1).
    assert (OY : bytes_ok y) by (apply get_range_inv in Y1 as (_ & _ & _ & -> & _); apply bytes_ok_firstn, bytes_ok_skipn; auto).
    destruct (int_ok s1 g (f + 1) k c2 d2 y I1' ltac:(lia) R2 ltac:(rewrite <- N2; auto) OY) as (s2 & E2 & I2' & XX2 & C2 & S2).
    exists s2. split; [exact E2|]. split; [exact I2'|]. split; [eapply extends_trans; eauto|].
    split; [lia|]. intros b Ab. cbn [at_place]. exists x, y. auto 6.
  - destruct SF as (c1 & c2 & (FS & N1 & N2 & L1 & L2 & L3) & R1 & R2). rewrite FS.
    destruct ((f <? 8) && (g <? 8)) eqn:F7.
    2: { replace ((f + 1 >? 8) || (g + 1 >? 8)) with true by lia. auto. }
    replace ((f + 1 >? 8) || (g + 1 >? 8)) with false by lia. injection PA as <- <- <- <-. cbn [grown] in *.
    assert (P1 : 0 < csize c1) by (destruct c1; cbn; lia). assert (P2 : 0 < csize c2) by (destruct c2; cbn; lia).
    destruct (get_range o 0 n1) as [x|] eqn:X1; [|rewrite get_range_some in X1 by lia; discriminate].
    destruct (get_range o o2 n2) as [y|] eqn:Y1; [|rewrite get_range_some in Y1 by lia; discriminate].
    assert (OX : bytes_ok x) by (apply get_range_inv in X1 as (_ & _ & _ & -> & _); apply bytes_ok_firstn, bytes_ok_skipn; auto).
    destruct (int_ok s g f k c1 o x I ltac:(lia) R1 ltac:(rewrite <- N1; auto) OX) as (s1 & E1 & I1' & XX1 & C1 & S1).
    rewrite E1. cbn [bind]. destruct (get_range o o2 (zlen o - o2)) as [d2|] eqn:D2; [|rewrite get_range_some in D2 by lia; discriminate].
    cbn [of_option bind].
    assert (Y2 : get_range d2 0 n2 = Some y) by (rewrite <- (get_range_sub _ _ _ _ 0 n2 D2) by lia; rewrite Z.add_0_r; exact Y1).
    destruct (float_ok s1 (g + 1) f k c2 d2 y I1' ltac:(lia) R2 ltac:(rewrite <- N2; auto)) as (s2 & E2 & I2' & XX2 & C2 & S2).
    exists s2. split; [exact E2|]. split; [exact I2'|]. split; [eapply extends_trans; eauto|].
    split; [lia|]. intros b Ab. cbn [at_place]. exists x, y. auto 6.
  - auto.
Qed.

End Block.
