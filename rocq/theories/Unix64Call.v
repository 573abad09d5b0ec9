(** ffi_call on x86-64 establishes the state the psABI prescribes. *)
From Coq Require Import ZifyBool ZifyNat Znumtheory.
From Verif Require Import Base BaseFacts Types LayoutSpec NaturalTypes NaturalFacts Unix64Model Unix64Spec Unix64Classify.
Ltac Zify.zify_post_hook ::= Z.div_mod_to_equations.
Local Arguments Z.mul : simpl never.
Local Arguments Z.add : simpl never.
Local Arguments Z.sub : simpl never.
Local Arguments Z.pow : simpl never.
Local Arguments Z.div : simpl never.
Local Arguments Z.modulo : simpl never.
Local Arguments Z.leb : simpl never.
Local Arguments Z.ltb : simpl never.
Local Arguments Z.eqb : simpl never.
Local Arguments Z.gtb : simpl never.

(** ** Every eightbyte of a natural type without x87 members holds a member *)

Lemma covered t : natural t -> x87_in t = false -> forall off k, (ty_align t | off) ->
  off < 8 * k + 8 -> 8 * k < off + ty_size t -> existsb (fun s => touches8 s k) (flatten t off) = true.
Proof.
  induction t as [c s a es IH] using ftype_ind'. intros N X off k D H1 H2.
  destruct (natural_inv _ _ _ _ N) as [H|[(t0 & H & -> & -> & -> & ->)|(-> & NE & F & offs & SL)]].
  - rewrite flatten_other by (apply (scalar_not_agg _ _ _ _ H)). cbn [existsb touches8]. cbn [ty_size] in H2. lia.
  - rewrite flatten_complex. cbn [existsb touches8].
    change (ty_size (FT T_COMPLEX (2 * ty_size t0) (ty_align t0) [t0])) with (2 * ty_size t0) in H2. lia.
  - rewrite flatten_struct. pose proof (nox87_align _ N X) as A8.
    rewrite x87_struct in X by auto. cbn [ty_align ty_size] in *.
    pose proof (natural_basic _ N) as (Bs & Bp & Ba & _). cbn [ty_size ty_align] in *.
    assert (FB : Forall basic es) by (rewrite Forall_forall in *; auto using natural_basic).
    destruct (natural_struct_inv _ _ _ N) as (_ & _ & Hs & Ha).
    assert (Pa : 0 < a) by (pose proof (is_pow2_pos _ Bp); lia).
    assert (Da : forall e, In e es -> (ty_align e | off)).
    { intros e I. eapply Z.divide_trans; [|exact D]. eapply natural_elem_align; eauto. }
    assert (G : forall l boff, Forall natural l -> existsb x87_in l = false -> (forall e, In e l -> In e es) ->
              boff <= 8 * k < end_at boff l -> existsb (fun s => touches8 s k) (members l boff) = true).
    { clear -IH. induction l as [|e l IHl]; intros boff F X I H; cbn [end_at] in H; [lia|].
      inversion F as [|? ? Fe Fr]; subst. cbn [existsb] in X. apply orb_false_elim in X as [X1 X2].
      pose proof (natural_basic _ Fe) as Be. pose proof (basic_align_pos _ Be). destruct Be as (Es & Ep & Ea & Ed).
      pose proof (nox87_align _ Fe X1). cbn [members]. rewrite existsb_app.
      pose proof (round_up_le boff (ty_align e) ltac:(lia)). pose proof (round_up_lt boff (ty_align e) ltac:(lia)).
      set (b := round_up boff (ty_align e)) in *.
      destruct (Z.lt_ge_cases (8 * k) (b + ty_size e)).
      - rewrite Forall_forall in IH. rewrite (IH e (I e (or_introl eq_refl)) Fe X1 b k (round_up_divide _ _) ltac:(lia) ltac:(lia)). reflexivity.
      - rewrite (IHl (b + ty_size e) Fr X2 (fun e' h => I e' (or_intror h)) ltac:(lia)). apply orb_true_r. }
    assert (Hend : end_at off es = end_at 0 es + off).
    { assert (K : forall l z, Forall basic l -> (forall e, In e l -> (ty_align e | off)) -> end_at (z + off) l = end_at z l + off).
      { clear. induction l as [|e l IHl]; intros z FB Da; cbn [end_at]; [lia|].
        inversion FB as [|? ? Be Bes]; subst. pose proof (basic_align_pos _ Be).
        rewrite round_up_shift by (try apply Da; try left; auto; lia).
        replace (round_up z (ty_align e) + off + ty_size e) with (round_up z (ty_align e) + ty_size e + off) by lia.
        apply IHl; auto. intros; apply Da; right; auto. }
      specialize (K es 0 FB Da). rewrite Z.add_0_l in K. auto. }
    destruct (Z.lt_ge_cases (8 * k) off) as [L|L].
    + destruct es as [|e es]; [congruence|]. inversion F as [|? ? Fe Fr]; subst. inversion IH as [|? ? IHe IHr]; subst.
      cbn [existsb] in X. apply orb_false_elim in X as [X1 X2].
      pose proof (natural_basic _ Fe) as Be. pose proof (basic_align_pos _ Be). destruct Be as (Es & _).
      cbn [members]. rewrite existsb_app. rewrite round_up_id by (try apply Da; try left; auto; lia).
      rewrite (IHe Fe X1 off k (Da e (or_introl eq_refl)) ltac:(lia) ltac:(lia)). reflexivity.
    + apply G; auto. split; [auto|].
      destruct (Z.lt_ge_cases (8 * k) (end_at off es)); auto. exfalso.
      assert (D8 : (a | 8 * k)).
      { apply Z.divide_mul_l. apply (is_pow2_divide a 8); [exact Bp|exists 3; split; [lia|reflexivity]|lia]. }
      assert (off + s <= 8 * k); [|lia].
      rewrite Hs. replace (off + round_up (end_at 0 es) a) with (round_up (end_at off es) a).
      * apply round_up_least; auto.
      * rewrite Hend, round_up_shift by auto. lia.
Qed.

Lemma eightbyte_touched ss k : existsb is_x87 ss = false -> existsb (fun s => touches8 s k) ss = true ->
  eightbyte ss k <> ENone.
Proof.
  intros X T. unfold eightbyte.
  destruct (existsb (fun s => is_int s && touches8 s k) ss) eqn:E1; [discriminate|].
  destruct (existsb (fun s => is_sse s && touches8 s k) ss) eqn:E2; [discriminate|]. exfalso.
  induction ss as [|s ss IH]; [discriminate|]. cbn [existsb] in *.
  apply orb_false_elim in X as [X1 X2]. apply orb_false_elim in E1 as [A1 A2]. apply orb_false_elim in E2 as [B1 B2].
  apply orb_prop in T as [T|T]; [|auto].
  destruct s as [[o n] []]; try discriminate; cbn [is_int is_sse andb] in *; congruence.
Qed.

Lemma zseq_in z n x : In x (zseq z n) -> z <= x < z + Z.of_nat n.
Proof. revert z. induction n; intros z H; [contradiction|]. cbn [zseq] in H. destruct H as [<-|H]; [lia|]. apply IHn in H. lia. Qed.

Lemma words_not_none t : natural t -> x87_in t = false -> Forall (fun c => c <> ENone) (words_of t 0).
Proof.
  intros N X. unfold words_of. apply Forall_forall. intros c I. apply in_map_iff in I as (k & <- & I).
  apply zseq_in in I. pose proof (natural_basic _ N) as (Bs & _). unfold eightbytes in I.
  apply eightbyte_touched; auto. apply covered; auto; [apply Z.divide_0_r|lia|lia].
Qed.

(** ** Storing one argument in registers *)

Definition signed_size (c : tcode) : Z :=
  match c with T_SINT8 => 1 | T_SINT16 => 2 | T_SINT32 => 4 | _ => 0 end.

Fixpoint fits (cl : list rclass) (n : Z) : Prop :=
  match cl with
  | [] => True
  | c :: r => (whole c = true -> 8 <= n) /\ (half c = true -> 4 <= n) /\ fits r (n - 8)
  end.

Lemma extents_fits ss hi cl : forall k, extents ss hi k cl = true -> fits cl (hi - 8 * k).
Proof.
  induction cl as [|c cl IH]; intros k H; cbn [fits extents] in *; [auto|].
  apply andb_prop in H as [H1 H2]. apply IH in H2. unfold extent_ok in H1.
  replace (hi - 8 * (k + 1)) with (hi - 8 * k - 8) in H2 by lia.
  split; [|split]; auto; intros E; rewrite E in H1; cbn in H1; lia.
Qed.

(** The words of an argument are in registers as the code puts them there. *)
Fixpoint stored (code : tcode) (cl : list rclass) (a : list Z) (size : Z) (gpr : list Z) (sse : list (list Z)) (gc sc : Z) : Prop :=
  match cl with
  | [] => True
  | c :: rest =>
    match c with
    | INTEGER_CLASS | INTEGERSI_CLASS =>
      (exists v, gpr_value code a size = Ok v /\ znth gpr gc = Some v) /\
      stored code rest (skipn 8 a) (wrap64 (size - 8)) gpr sse (gc + 1) sc
    | SSE_CLASS | SSEDF_CLASS =>
      (exists b, znth sse sc = Some b /\ zlen b = 16 /\ firstn 8 b = firstn 8 a) /\
      stored code rest (skipn 8 a) (wrap64 (size - 8)) gpr sse gc (sc + 1)
    | SSESF_CLASS =>
      (exists b, znth sse sc = Some b /\ zlen b = 16 /\ firstn 4 b = firstn 4 a) /\
      stored code rest (skipn 8 a) (wrap64 (size - 8)) gpr sse gc (sc + 1)
    | _ => False
    end
  end.

Lemma znth_set_same {A} (l : list A) i v l' : set_range l i [v] = Some l' -> znth l' i = Some v.
Proof.
  intros H. pose proof (set_range_inv _ _ _ _ H) as (H1 & _). unfold znth. replace (0 <=? i) with true by lia.
  pose proof (nth_error_set_range_in l i [v] l' 0 H ltac:(cbn; lia)) as E. rewrite Nat.add_0_r in E. exact E.
Qed.
Lemma znth_set_other {A} (l : list A) i v l' j : set_range l i [v] = Some l' -> j <> i -> znth l' j = znth l j.
Proof.
  intros H N. pose proof (set_range_inv _ _ _ _ H) as (H1 & _). unfold znth. destruct (Z.leb_spec 0 j); [|reflexivity].
  apply (nth_error_set_range_out _ _ _ _ _ H). change (zlen [v]) with 1. lia.
Qed.
Lemma znth_some {A} (l : list A) i : 0 <= i < zlen l -> exists x, znth l i = Some x.
Proof.
  intros H. unfold znth. replace (0 <=? i) with true by lia.
  destruct (nth_error l (Z.to_nat i)) eqn:E; [eauto|]. apply nth_error_None in E. unfold zlen in H. lia.
Qed.
Lemma znth_in {A} (l : list A) i x : znth l i = Some x -> In x l.
Proof. unfold znth. destruct (0 <=? i); [|discriminate]. apply nth_error_In. Qed.

Lemma Forall_set_range {A} (P : A -> Prop) l i d l' : Forall P l -> Forall P d -> set_range l i d = Some l' -> Forall P l'.
Proof.
  intros Hl Hd H. apply set_range_inv in H as (_ & _ & -> & _).
  apply Forall_app; split; [|apply Forall_app; split]; auto.
  - clear -Hl. revert l Hl. generalize (Z.to_nat i) as n. induction n; intros l H; cbn; [constructor|]. destruct H; cbn; constructor; auto.
  - clear -Hl. revert l Hl. generalize (Z.to_nat (i + zlen d)) as n. induction n; intros l H; cbn; [auto|]. destruct H; cbn; auto.
Qed.

Lemma gpr_value_ok code a size : zlen a = size -> 0 < size -> signed_size code <= size ->
  exists v, gpr_value code a size = Ok v.
Proof.
  intros L P S. pose proof (zlen_nonneg a).
  destruct code; cbn [gpr_value signed_size] in *;
  try (rewrite get_range_some by (lia || (destruct (size <=? 8) eqn:?; lia)); cbn; eauto).
Qed.

Lemma firstn_le_eq {A} n (l : list A) : length l = n -> firstn n l = l.
Proof. intros <-. apply firstn_all. Qed.

Lemma firstn_app_exact {A} (l m : list A) n : length l = n -> firstn n (l ++ m) = l.
Proof. intros <-. rewrite firstn_app, Nat.sub_diag, firstn_O, app_nil_r, firstn_all. reflexivity. Qed.

Lemma sse_store_ok sse i n a : 0 <= n <= 16 -> n <= zlen a -> 0 <= i < zlen sse -> Forall (fun b => zlen b = 16) sse ->
  exists sse' b, sse_store sse i n a = Ok sse' /\ zlen sse' = zlen sse /\ Forall (fun b => zlen b = 16) sse' /\
    znth sse' i = Some b /\ zlen b = 16 /\ firstn (Z.to_nat n) b = firstn (Z.to_nat n) a /\
    forall j, j <> i -> znth sse' j = znth sse j.
Proof.
  intros Hn Ha Hi F. unfold sse_store. rewrite get_range_some by lia. cbn [of_option bind].
  destruct (znth_some sse i Hi) as (old & E). rewrite E. cbn [of_option bind].
  assert (Lo : zlen old = 16) by (rewrite Forall_forall in F; apply F; eapply znth_in; eauto).
  set (d := firstn (Z.to_nat n) (skipn (Z.to_nat 0) a)).
  assert (Ld : zlen d = n) by (unfold d; rewrite zlen_firstn, zlen_skipn; lia).
  destruct (set_range old 0 d) as [new|] eqn:S1.
  2: { rewrite set_range_some in S1 by lia. discriminate. }
  cbn [of_option bind]. unfold upd. pose proof (set_range_inv _ _ _ _ S1) as (_ & _ & Enew & Lnew).
  destruct (set_range sse i [new]) as [sse'|] eqn:S2.
  2: { rewrite set_range_some in S2 by (change (zlen [new]) with 1; lia). discriminate. }
  exists sse', new. pose proof (set_range_inv _ _ _ _ S2) as (_ & _ & _ & L2).
  split; [reflexivity|]. split; [auto|]. split.
  { eapply Forall_set_range; [exact F| |exact S2]. constructor; [lia|constructor]. }
  split; [eapply znth_set_same; eauto|]. split; [lia|]. split.
  { rewrite Enew. cbn [Z.to_nat firstn app]. rewrite firstn_app_exact by (unfold zlen in Ld; lia). reflexivity. }
  intros j Hj. eapply znth_set_other; eauto.
Qed.

Lemma store_words_ok code cl : forall a size gpr sse gc sc,
  forallb plain cl = true -> Forall (fun c => c <> ENone) (map proj cl) ->
  zlen a = size -> size < 2 ^ 64 -> zlen cl = eightbytes size -> fits cl size ->
  signed_size code = 0 \/ (zlen cl <= 1 /\ signed_size code <= size) ->
  zlen gpr = 6 -> zlen sse = 8 -> Forall (fun b => zlen b = 16) sse ->
  0 <= gc -> 0 <= sc -> gc + count is_eint (map proj cl) <= 6 -> sc + count is_esse (map proj cl) <= 8 ->
  exists gpr' sse', store_words code cl a size gpr sse gc sc =
      Ok (gpr', sse', gc + count is_eint (map proj cl), sc + count is_esse (map proj cl)) /\
    zlen gpr' = 6 /\ zlen sse' = 8 /\ Forall (fun b => zlen b = 16) sse' /\
    (forall i, i < gc -> znth gpr' i = znth gpr i) /\ (forall i, i < sc -> znth sse' i = znth sse i) /\
    stored code cl a size gpr' sse' gc sc.
Proof.
  unfold count.
  induction cl as [|c cl IH]; intros a size gpr sse gc sc Pl NN La Sz Lc Ft Sg Lg Ls F G0 S0 Gc Sc.
  - exists gpr, sse. cbn. change (zlen (@nil eclass)) with 0. rewrite !Z.add_0_r. repeat (split; [auto|]). auto.
  - cbn [forallb map] in Pl, NN. apply andb_prop in Pl as [P1 P2]. inversion NN as [|? ? N1 N2]; subst.
    rewrite zlen_cons in Lc. pose proof (zlen_nonneg cl) as Zc. cbn [fits] in Ft. destruct Ft as (F1 & F2 & F3).
    pose proof (zlen_nonneg a) as Za.
    assert (Hpos : 0 < zlen a) by (unfold eightbytes in Lc; lia).
    set (size := zlen a) in *.
    (* the recursive call *)
    assert (Rec : forall gpr sse gc sc, zlen gpr = 6 -> zlen sse = 8 -> Forall (fun b => zlen b = 16) sse ->
       0 <= gc -> 0 <= sc -> gc + zlen (filter is_eint (map proj cl)) <= 6 -> sc + zlen (filter is_esse (map proj cl)) <= 8 ->
       exists gpr' sse', store_words code cl (skipn 8 a) (wrap64 (size - 8)) gpr sse gc sc =
         Ok (gpr', sse', gc + zlen (filter is_eint (map proj cl)), sc + zlen (filter is_esse (map proj cl))) /\
         zlen gpr' = 6 /\ zlen sse' = 8 /\ Forall (fun b => zlen b = 16) sse' /\
         (forall i, i < gc -> znth gpr' i = znth gpr i) /\ (forall i, i < sc -> znth sse' i = znth sse i) /\
         stored code cl (skipn 8 a) (wrap64 (size - 8)) gpr' sse' gc sc).
    { intros. destruct cl as [|c' cl'].
      - exists gpr0, sse0. cbn. change (zlen (@nil eclass)) with 0. rewrite !Z.add_0_r. repeat (split; [auto|]). auto.
      - rewrite zlen_cons in Lc. pose proof (zlen_nonneg cl').
        assert (8 < size) by (unfold eightbytes in Lc; lia).
        rewrite wrap64_small by lia.
        assert (zlen (skipn 8 a) = size - 8) by (rewrite zlen_skipn; unfold size; lia).
        assert (zlen (c' :: cl') = eightbytes (size - 8)) by (rewrite zlen_cons; unfold eightbytes in *; lia).
        assert (size - 8 < 2 ^ 64) by lia.
        assert (signed_size code = 0 \/ zlen (c' :: cl') <= 1 /\ signed_size code <= size - 8)
          by (destruct Sg as [Sg|[Sg _]]; [left; auto|exfalso; rewrite ?zlen_cons in Sg; lia]).
        apply IH; auto. }
    cbn [store_words map].
    destruct c; try discriminate P1; try (exfalso; apply N1; reflexivity); cbn [proj map filter is_eint is_esse] in *;
      rewrite ?zlen_cons in *; pose proof (zlen_nonneg (filter is_eint (map proj cl))); pose proof (zlen_nonneg (filter is_esse (map proj cl))).
    1,2: (destruct (gpr_value_ok code a size) as (v & Ev); [reflexivity|auto|lia|];
      rewrite Ev; cbn [bind]; unfold upd;
      destruct (set_range gpr gc [v]) as [gpr1|] eqn:S1;
        [|rewrite set_range_some in S1 by (change (zlen [v]) with 1; lia); discriminate];
      cbn [of_option bind]; pose proof (set_range_inv _ _ _ _ S1) as (_ & _ & _ & L1);
      destruct (Rec gpr1 sse (gc + 1) sc) as (gpr' & sse' & R & A1 & A2 & A3 & A4 & A5 & A6); auto; try lia;
      exists gpr', sse'; rewrite R;
      split; [do 3 f_equal; lia|]; split; [auto|]; split; [auto|]; split; [auto|];
      split; [intros i Hi; rewrite A4 by lia; apply (znth_set_other _ _ _ _ _ S1); lia|];
      split; [auto|]; cbn [stored]; split; [|auto];
      exists v; split; [auto|]; rewrite A4 by lia; apply (znth_set_same _ _ _ _ S1)).
    + destruct (sse_store_ok sse sc 8 a) as (sse1 & b & E1 & B1 & B2 & B3 & B4 & B5 & B6); try lia; try (fold size; apply F1; reflexivity); auto.
      rewrite E1. cbn [bind].
      destruct (Rec gpr sse1 gc (sc + 1)) as (gpr' & sse' & R & A1 & A2 & A3 & A4 & A5 & A6); auto; try lia.
      exists gpr', sse'. rewrite R. split; [do 2 f_equal; lia|]. split; [auto|]. split; [auto|]. split; [auto|]. split; [auto|].
      split; [intros i Hi; rewrite A5 by lia; apply B6; lia|]. cbn [stored]. split; [|auto].
      exists b. split; [rewrite A5 by lia; auto|auto].
    + destruct (sse_store_ok sse sc 4 a) as (sse1 & b & E1 & B1 & B2 & B3 & B4 & B5 & B6); try lia; try (fold size; apply F2; reflexivity); auto.
      rewrite E1. cbn [bind].
      destruct (Rec gpr sse1 gc (sc + 1)) as (gpr' & sse' & R & A1 & A2 & A3 & A4 & A5 & A6); auto; try lia.
      exists gpr', sse'. rewrite R. split; [do 2 f_equal; lia|]. split; [auto|]. split; [auto|]. split; [auto|]. split; [auto|].
      split; [intros i Hi; rewrite A5 by lia; apply B6; lia|]. cbn [stored]. split; [|auto].
      exists b. split; [rewrite A5 by lia; auto|auto].
    + destruct (sse_store_ok sse sc 8 a) as (sse1 & b & E1 & B1 & B2 & B3 & B4 & B5 & B6); try lia; try (fold size; apply F1; reflexivity); auto.
      rewrite E1. cbn [bind].
      destruct (Rec gpr sse1 gc (sc + 1)) as (gpr' & sse' & R & A1 & A2 & A3 & A4 & A5 & A6); auto; try lia.
      exists gpr', sse'. rewrite R. split; [do 2 f_equal; lia|]. split; [auto|]. split; [auto|]. split; [auto|]. split; [auto|].
      split; [intros i Hi; rewrite A5 by lia; apply B6; lia|]. cbn [stored]. split; [|auto].
      exists b. split; [rewrite A5 by lia; auto|auto].
Qed.

(** ** From stored words to the specification *)

Lemma gpr_value_low code a size v : bytes_ok a -> zlen a = size -> 0 < size ->
  signed_size code = 0 \/ signed_size code = size ->
  gpr_value code a size = Ok v -> le_enc (Nat.min 8 (length a)) v = firstn 8 a.
Proof.
  intros B L P S E.
  assert (U : forall n, (n <= 8)%nat -> length a = n -> le_enc (Nat.min 8 (length a)) (wrap64 (to_signed (8 * Z.of_nat n) (le_dec a))) = firstn 8 a).
  { intros n Hn La. rewrite La. replace (Nat.min 8 n) with n by lia.
    rewrite <- (le_enc_mod n (wrap64 _)). unfold wrap64, wrap.
    destruct (Nat.eq_dec n 0) as [->|Hn0]; [unfold zlen in L; lia|].
    assert (Hp : 0 < 2 ^ (8 * Z.of_nat n)) by (apply Z.pow_pos_nonneg; lia).
    assert (Hd : (2 ^ (8 * Z.of_nat n) | 2 ^ 64)).
    { exists (2 ^ (64 - 8 * Z.of_nat n)). rewrite <- Z.pow_add_r by lia. f_equal. lia. }
    rewrite <- (Zmod_div_mod (2 ^ (8 * Z.of_nat n)) (2 ^ 64)) by (auto; lia).
    rewrite to_signed_mod by lia. rewrite le_enc_mod. rewrite <- La, le_enc_dec by auto.
    symmetry. apply firstn_all2. lia. }
  assert (V : forall n, 0 <= n <= 8 -> n = Z.min 8 size -> le_enc (Nat.min 8 (length a)) (le_dec (firstn (Z.to_nat n) a)) = firstn 8 a).
  { intros n Hn ->. assert (E1 : firstn (Z.to_nat (Z.min 8 size)) a = firstn 8 a).
    { destruct (Z.le_gt_cases 8 size); [rewrite Z.min_l by lia; reflexivity|]. rewrite Z.min_r by lia.
      rewrite !firstn_all2; auto; unfold zlen in L; lia. }
    rewrite E1. replace (Nat.min 8 (length a)) with (length (firstn 8 a)) by (rewrite firstn_length; lia).
    apply le_enc_dec. apply bytes_ok_firstn. auto. }
  assert (W : forall n d, get_range a 0 n = Some d -> d = firstn (Z.to_nat n) a).
  { intros n d H. apply get_range_inv in H as (_ & _ & _ & -> & _). reflexivity. }
  destruct code; cbn [gpr_value signed_size] in *;
  match type of E with (bind (of_option (get_range _ _ ?n)) _ = _) => destruct (get_range a 0 n) as [d|] eqn:G; [|discriminate] end;
  cbn [of_option bind] in E; injection E as <-; pose proof (W _ _ G) as ->;
  try (apply V; destruct (Z.leb_spec size 8); lia).
  - destruct S as [S|S]; [discriminate|]. rewrite (firstn_all2 (n := Z.to_nat 1)) by (unfold zlen in L; lia). apply (U 1%nat); unfold zlen in L; lia.
  - destruct S as [S|S]; [discriminate|]. rewrite (firstn_all2 (n := Z.to_nat 2)) by (unfold zlen in L; lia). apply (U 2%nat); unfold zlen in L; lia.
  - destruct S as [S|S]; [discriminate|]. rewrite (firstn_all2 (n := Z.to_nat 4)) by (unfold zlen in L; lia). apply (U 4%nat); unfold zlen in L; lia.
Qed.

Lemma stored_holds code cl : forall a size gpr sse gc sc,
  bytes_ok a -> zlen a = size -> size < 2 ^ 64 -> zlen cl = eightbytes size -> forallb plain cl = true -> fits cl size ->
  signed_size code = 0 \/ (zlen cl <= 1 /\ signed_size code = size) ->
  stored code cl a size gpr sse gc sc ->
  exists w, length w = length a /\ regs_hold gpr sse (take_regs (map proj cl) gc sc) w /\
    forall k j, (j < 8)%nat -> half (nth k cl NO_CLASS) = false \/ (j < 4)%nat ->
      nth_error w (8 * k + j) = nth_error a (8 * k + j).
Proof.
  induction cl as [|c cl IH]; intros a size gpr sse gc sc B La Sz Lc Pl Ft Sg St.
  - exists []. assert (a = []) as ->.
    { apply zlen_0. pose proof (zlen_nonneg a). unfold eightbytes in Lc. change (zlen (@nil rclass)) with 0 in Lc. lia. }
    cbn. auto.
  - rewrite zlen_cons in Lc. pose proof (zlen_nonneg cl). pose proof (zlen_nonneg a).
    cbn [forallb] in Pl. apply andb_prop in Pl as [P1 P2]. cbn [fits] in Ft. destruct Ft as (F1 & F2 & F3).
    assert (Hpos : 0 < size) by (unfold eightbytes in Lc; lia).
    assert (Rec : forall gc sc, stored code cl (skipn 8 a) (wrap64 (size - 8)) gpr sse gc sc ->
      exists w, length w = length (skipn 8 a) /\ regs_hold gpr sse (take_regs (map proj cl) gc sc) w /\
       forall k j, (j < 8)%nat -> half (nth k cl NO_CLASS) = false \/ (j < 4)%nat ->
       nth_error w (8 * k + j) = nth_error (skipn 8 a) (8 * k + j)).
    { intros gc' sc' St'. destruct cl as [|c' cl'].
      - exists []. assert (skipn 8 a = []) as ->.
        { apply skipn_all2. unfold zlen in *. change (length (@nil rclass)) with 0%nat in *. unfold eightbytes in Lc. lia. }
        cbn. auto.
      - rewrite zlen_cons in Lc. pose proof (zlen_nonneg cl').
        assert (8 < size) by (unfold eightbytes in Lc; lia).
        rewrite wrap64_small in St' by lia.
        assert (bytes_ok (skipn 8 a)) by (apply bytes_ok_skipn; auto).
        assert (zlen (skipn 8 a) = size - 8) by (rewrite zlen_skipn; lia).
        assert (zlen (c' :: cl') = eightbytes (size - 8)) by (rewrite zlen_cons; unfold eightbytes in *; lia).
        assert (size - 8 < 2 ^ 64) by lia.
        assert (signed_size code = 0 \/ zlen (c' :: cl') <= 1 /\ signed_size code = size - 8)
          by (destruct Sg as [Sg|[Sg _]]; [left; auto|exfalso; rewrite ?zlen_cons in Sg; lia]).
        apply (IH (skipn 8 a) (size - 8)); auto. }
    assert (Glue : forall x w, length x = Nat.min 8 (length a) ->
        length w = length (skipn 8 a) ->
        (forall j, (j < 8)%nat -> half c = false \/ (j < 4)%nat -> nth_error x j = nth_error a j) ->
        (forall k j, (j < 8)%nat -> half (nth k cl NO_CLASS) = false \/ (j < 4)%nat ->
          nth_error w (8 * k + j) = nth_error (skipn 8 a) (8 * k + j)) ->
        length (x ++ w) = length a /\ firstn 8 (x ++ w) = x /\ skipn 8 (x ++ w) = w /\
        forall k j, (j < 8)%nat -> half (nth k (c :: cl) NO_CLASS) = false \/ (j < 4)%nat ->
          nth_error (x ++ w) (8 * k + j) = nth_error a (8 * k + j)).
    { intros x w Lx Lw Hx Hw. rewrite skipn_length in Lw. split; [rewrite app_length; lia|].
      destruct (Nat.le_gt_cases 8 (length a)) as [G8|G8].
      - split; [apply firstn_app_exact; lia|]. split.
        { rewrite skipn_app. replace (8 - length x)%nat with 0%nat by lia. rewrite skipn_all2 by lia. reflexivity. }
        intros k j Hj Hh. destruct k as [|k]; cbn [nth] in Hh.
        + rewrite nth_error_app1 by lia. apply Hx; auto.
        + rewrite nth_error_app2 by lia. replace (8 * S k + j - length x)%nat with (8 * k + j)%nat by lia.
          rewrite Hw by auto. rewrite nth_error_skipn. f_equal. lia.
      - assert (w = []) as -> by (destruct w; [auto|cbn in Lw; lia]). rewrite app_nil_r.
        split; [apply firstn_all2; lia|]. split; [apply skipn_all2; lia|].
        intros k j Hj Hh. destruct k as [|k]; cbn [nth] in Hh; [apply Hx; auto|].
        rewrite !(proj2 (nth_error_None _ _)) by lia. reflexivity. }
    assert (Lmin : forall (x : list Z), length x = Nat.min 8 (length a) -> forall w : list Z, length (x ++ w) = length a ->
       Nat.min 8 (length (x ++ w)) = length x) by (intros; lia).
    cbn [stored] in St.
    destruct c; try discriminate P1; try contradiction; destruct St as [H1 St]; cbn [map proj take_regs regs_hold].
    1,2: (destruct H1 as (v & Ev & Zv); destruct (Rec _ _ St) as (w & Lw & Rw & Hw);
      destruct (Glue (firstn 8 a) w) as (G1 & G2 & G3 & G4);
        [rewrite firstn_length; lia|auto|intros; apply nth_error_firstn_lt; auto|auto|];
      exists (firstn 8 a ++ w); split; [auto|]; split; [|exact G4];
      split; [|rewrite G3; auto]; unfold reg_low; rewrite Zv, G2, G1; f_equal;
      apply (gpr_value_low code a size); auto; lia).
    1,3: (destruct H1 as (b & Zb & Lb & Eb); destruct (Rec _ _ St) as (w & Lw & Rw & Hw);
      specialize (F1 eq_refl);
      destruct (Glue (firstn 8 a) w) as (G1 & G2 & G3 & G4);
        [rewrite firstn_length; lia|auto|intros; apply nth_error_firstn_lt; auto|auto|];
      exists (firstn 8 a ++ w); split; [auto|]; split; [|exact G4];
      split; [|rewrite G3; auto]; unfold reg_low; rewrite Zb, G2, G1; f_equal;
      replace (Nat.min 8 (length a)) with 8%nat by (unfold zlen in *; lia); auto).
    + destruct H1 as (b & Zb & Lb & Eb). destruct (Rec _ _ St) as (w & Lw & Rw & Hw).
      specialize (F2 eq_refl).
      destruct (Glue (firstn (Nat.min 8 (length a)) b) w) as (G1 & G2 & G3 & G4).
      * rewrite firstn_length. unfold zlen in *. lia.
      * auto.
      * intros j Hj [Hh|Hh]; [discriminate|]. rewrite nth_error_firstn_lt by (unfold zlen in *; lia).
        rewrite <- (nth_error_firstn_lt b 4 j), <- (nth_error_firstn_lt a 4 j) by lia. rewrite Eb. reflexivity.
      * auto.
      * exists (firstn (Nat.min 8 (length a)) b ++ w). split; [auto|]. split; [|exact G4].
        split; [|rewrite G3; auto]. unfold reg_low. rewrite Zb, G2, G1. reflexivity.
Qed.

(** Objects agreeing except in the uncopied halves have the same value. *)
Lemma halves_same_value t cl v w : natural t -> zlen v = ty_size t -> length w = length v ->
  extents (flatten t 0) (ty_size t) 0 cl = true -> zlen cl = eightbytes (ty_size t) ->
  (forall k j, (j < 8)%nat -> half (nth k cl NO_CLASS) = false \/ (j < 4)%nat ->
      nth_error w (8 * k + j) = nth_error v (8 * k + j)) ->
  same_value t v w.
Proof.
  intros N L Lw Ex Lc H. split; [unfold zlen; lia|]. intros o n kd I.
  pose proof (flatten_inside t N 0 (Z.divide_0_r _)) as Fi. rewrite Forall_forall in Fi. pose proof (Fi _ I) as (I1 & I2 & I3).
  assert (Vs : 0 <= value_size n kd <= n) by (unfold value_size; destruct kd; lia).
  set (m := value_size n kd) in *.
  exists (firstn (Z.to_nat m) (skipn (Z.to_nat o) v)). split; [apply get_range_some; lia|].
  apply get_range_nth; try lia.
  - unfold zlen in *. lia.
  - rewrite zlen_firstn, zlen_skipn. lia.
  - intros i Hi. rewrite firstn_length, skipn_length in Hi.
    rewrite nth_error_firstn_lt by lia. rewrite nth_error_skipn.
    set (p := (Z.to_nat o + i)%nat). pose proof (Nat.div_mod_eq p 8) as Ep. pose proof (Nat.mod_upper_bound p 8 ltac:(lia)) as Ub.
    rewrite Ep. apply H; [auto|].
    destruct (half (nth (p / 8) cl NO_CLASS)) eqn:Hh; [|auto]. right.
    destruct (Nat.lt_ge_cases (p mod 8) 4) as [Q|Q]; auto. exfalso.
    rewrite extents_nth in Ex.
    destruct (Nat.lt_ge_cases (p / 8) (length cl)) as [Q2|Q2].
    2: { rewrite nth_overflow in Hh by auto. discriminate. }
    specialize (Ex _ Q2). unfold extent_ok in Ex. rewrite Hh in Ex. apply andb_prop in Ex as [_ Ex]. cbn [implb] in Ex.
    apply andb_prop in Ex as [_ Ex]. apply negb_true_iff in Ex.
    assert (existsb (touches_high (0 + Z.of_nat (p / 8))) (flatten t 0) = true); [|congruence].
    apply existsb_exists. exists (o, n, kd). split; [auto|]. unfold touches_high.
    assert (Z.of_nat p = 8 * Z.of_nat (p / 8) + Z.of_nat (p mod 8)) by lia.
    apply andb_true_iff. split; lia.
Qed.
