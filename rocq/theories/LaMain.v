(** LoongArch: the argument loop and the area of ffi_call. *)
From Coq Require Import ZifyBool ZifyNat.
From Verif Require Import Base BaseFacts Types LayoutSpec NaturalTypes NaturalFacts RvSpec RvFlat RvMain LaModel LaSpec LaFlat LaCall.
From Verif Require A64Model A64Fits.
Local Arguments Z.mul : simpl never.
Local Arguments Z.add : simpl never.

Lemma P8 : is_pow2 8. Proof. exists 3; split; [lia|reflexivity]. Qed.
Lemma P16 : is_pow2 16. Proof. exists 4; split; [lia|reflexivity]. Qed.

Lemma copies_end_le ts : Forall natural ts -> forall pls hi, copies_end ts pls hi <= hi.
Proof.
  induction 1 as [|t r N F IH]; intros pls hi; cbn [copies_end]; [lia|]. destruct pls as [|pl l]; [lia|].
  destruct (natural_basic _ N) as (SP & PW & _). pose proof (is_pow2_pos _ PW).
  pose proof (round_down_le (hi - ty_size t) (ty_align t) ltac:(lia)).
  destruct pl; auto. specialize (IH l (round_down (hi - ty_size t) (ty_align t))). lia.
Qed.

Lemma args_ok base ctx fl A top fixed nfixed gr : la_fl fl -> 0 <= A <= top -> top <= ctx ->
  0 <= base /\ (16 | base) /\ base + ctx + 32 < 2 ^ 64 ->
  (forall i, zlen (gr i) = 16 /\ bytes_ok (gr i)) ->
  forall ts objs i s g f k pls e m, inv ctx fl A top s g f k -> room g k m -> Forall natural ts -> objects_ok ts objs ->
  (forall j, i <= j < i + zlen ts -> (nfixed <=? j) = variadic fixed j) -> promoted fixed i ts ->
  assign fl fixed i ts g f k = (pls, e) -> lone_reals_ok fl fixed i ts pls -> e <= A -> A <= copies_end ts pls (b_cpy s) ->
  exists s' ptrs g' f', marshal_args base ctx fl nfixed i ts objs gr s = Ok s' /\ inv ctx fl A top s' g' f' e /\
    extends ctx fl top s s' /\ b_cpy s' = copies_end ts pls (b_cpy s) /\
    copies_down ts pls ptrs (base + b_cpy s') (base + b_cpy s) /\
    forall b, agree ctx fl top s' b -> held fl (ra ctx fl b) (rf ctx fl b) base (rdb base b) ts pls objs ptrs.
Proof.
  intros FL A0 TOP BASE GR. induction ts as [|t r IH]; intros objs i s g f k pls e m I RM N O V PR AS LO EA CA.
  - cbn [assign] in AS. injection AS as <- <-. inversion O; subst. exists s, [], g, f. cbn [marshal_args copies_end copies_down held].
    split; [reflexivity|]. split; [exact I|]. split; [apply extends_refl|]. auto.
  - inversion O as [|? o ? os (ZO & OO) O']; subst. inversion N as [|? ? NT NR]; subst. cbn [assign marshal_args promoted] in *.
    destruct (place_arg fl (variadic fixed i) t g f k) as [[[pl g1] f1] k1] eqn:P.
    destruct (assign fl fixed (i + 1) r g1 f1 k1) as [l e'] eqn:AS'. injection AS as <- <-.
    pose proof (place_arg_room _ _ _ _ _ _ _ _ _ _ _ RM P) as RM1. destruct (assign_room _ _ _ _ _ _ _ _ _ _ RM1 AS') as (KE & _).
    cbn [lone_reals_ok] in *. destruct LO as (LO & LO'). destruct PR as (PR & PR').
    assert (V0 : (nfixed <=? i) = variadic fixed i) by (apply V; rewrite zlen_cons; pose proof (zlen_nonneg r); lia). rewrite V0.
    assert (CE : copies_end (t :: r) (pl :: l) (b_cpy s) = copies_end r l (lowered t pl (b_cpy s))) by (destruct pl; reflexivity).
    rewrite CE in *. pose proof (copies_end_le r NR l (lowered t pl (b_cpy s))) as CL.
    assert (LN : lone_ok fl (variadic fixed i) t f).
    { intros V1 TS n SH. specialize (LO V1 TS n SH). destruct LO as (f0 & ->). rewrite V1 in P. unfold place_arg in P. rewrite SH in P.
      destruct (f <? 8) eqn:F8; [lia|]. destruct (place_words false t g k) as [[p ?] ?] eqn:PW. injection P as -> _ _ _.
      unfold place_words in PW. destruct (ty_size t >? 16); destruct (word_at _ _) as [[? ?] ?] in PW; [discriminate PW|].
      destruct (ty_size t >? 8); [destruct (word_at _ _) as [[? ?] ?] in PW|]; discriminate PW. }
    destruct (GR i) as (ZG & OG).
    destruct (marshal_ok base ctx fl A top FL A0 TOP BASE s g f k t (variadic fixed i) o (gr i) pl g1 f1 k1 I NT ZO OO ZG OG LN PR P)
      as (s1 & E1 & I1 & X1 & C1 & S1); [lia|lia|].
    rewrite E1. cbn [bind].
    destruct (IH os (i + 1) s1 g1 f1 k1 l e' (m + 1) I1 RM1 NR O') as (s2 & ptrs & g' & f' & E2 & I2 & X2 & C2 & CO & H2); auto.
    { intros j J. apply V. rewrite zlen_cons. lia. } { rewrite C1. lia. }
    exists s2, (match pl with Ref _ => base + b_cpy s1 :: ptrs | _ => ptrs end), g', f'.
    split; [exact E2|]. split; [exact I2|]. split; [eapply extends_trans; eauto|]. split; [rewrite C2, C1; reflexivity|].
    destruct (natural_basic _ NT) as (SP & PW & A16 & _). pose proof (is_pow2_pos _ PW).
    pose proof (copies_end_le r NR l (b_cpy s1)) as CL1.
    split.
    + cbn [copies_down]. destruct pl; cbn [lowered] in C1; rewrite C1 in *; try exact CO.
      pose proof (round_down_le (b_cpy s - ty_size t) (ty_align t) ltac:(lia)).
      split; [lia|]. split; [lia|]. split; [|exact CO].
      apply Z.divide_add_r; [|apply round_down_divide]. destruct BASE as (_ & D & _).
      eapply Z.divide_trans; [apply (is_pow2_divide _ 16 PW P16 A16)|exact D].
    + intros b Ab. specialize (H2 b Ab). specialize (S1 b (X2 _ Ab)). cbn [held]. destruct pl; try (split; assumption).
      destruct S1 as (S1 & S2). auto.
Qed.

(** ** Room *)

(** Nothing by reference: the stack arguments fit. *)
Lemma place_stack fl var t g f k pl g' f' k' : natural t -> 0 <= g -> 0 <= k -> place_arg fl var t g f k = (pl, g', f', k') ->
  (forall w, pl <> Ref w) -> 0 <= g' /\ 0 <= k' <= round_up k (ty_align t) + round_up (ty_size t) 8.
Proof.
  intros N G K P NR. destruct (natural_basic _ N) as (SP & PW & A16 & _). pose proof (is_pow2_pos _ PW).
  pose proof (round_up_le k (ty_align t) ltac:(lia)). pose proof (round_up_le (ty_size t) 8 ltac:(lia)).
  assert (INT : (let '(p, g1, s1) := place_words var t g k in (p, g1, f, s1)) = (pl, g', f', k') ->
    0 <= g' /\ 0 <= k' <= round_up k (ty_align t) + round_up (ty_size t) 8).
  { destruct (place_words var t g k) as [[p g1] s1] eqn:W. intros E. injection E as -> -> _ ->.
    unfold place_words in W. destruct (ty_size t >? 16) eqn:BIG.
    { destruct (word_at g k) as [[w ?] ?]. injection W as <- _ _. exfalso. eapply NR. reflexivity. }
    set (g0 := if var && (ty_align t >? 8) then round_up g 2 else g) in *.
    set (k0 := if (ty_align t >? 8) && (8 <=? g0) then round_up k 16 else k) in *.
    pose proof (round_up_le g 2 ltac:(lia)). pose proof (round_up_le k 16 ltac:(lia)).
    assert (G0 : 0 <= g0) by (unfold g0; destruct (var && (ty_align t >? 8)); lia).
    assert (K0 : 0 <= k0 <= round_up k (ty_align t)).
    { unfold k0. destruct ((ty_align t >? 8) && (8 <=? g0)) eqn:E; [|lia].
      replace (ty_align t) with 16; [lia|]. destruct PW as (j & J & EJ). rewrite EJ in *.
      destruct (Z.lt_ge_cases j 4); [exfalso; assert (2 ^ j <= 2 ^ 3) by (apply Z.pow_le_mono_r; lia); lia|].
      destruct (Z.lt_ge_cases 4 j); [exfalso; assert (2 ^ 5 <= 2 ^ j) by (apply Z.pow_le_mono_r; lia); lia|].
      replace j with 4 by lia. reflexivity. }
    pose proof (round_up_lt (ty_size t) 8 ltac:(lia)) as RL. pose proof (round_up_divide (ty_size t) 8) as (q & RD).
    destruct (word_at g0 k0) as [[w g2] k2] eqn:W1. unfold word_at in W1.
    assert (HW2 : 0 <= g2 /\ 0 <= k2 <= k0 + 8) by (destruct (g0 <? 8); injection W1 as <- <- <-; lia).
    destruct (ty_size t >? 8) eqn:TWO.
    - destruct (word_at g2 k2) as [[w2 g3] k3] eqn:W2. unfold word_at in W2. injection W as <- <- <-.
      assert (HW3 : 0 <= g3 /\ 0 <= k3 <= k2 + 8) by (destruct (g2 <? 8); injection W2 as <- <- <-; lia). lia.
    - injection W as <- <- <-. lia. }
  unfold place_arg in P. destruct var; [auto|].
  destruct (shape_of fl t); [destruct (f <? 8)|destruct (f <? 7)|destruct ((f <? 8) && (g <? 8))|destruct ((f <? 8) && (g <? 8))|];
    auto; injection P as <- <- <- <-; lia.
Qed.

Lemma stack_reserve fl fixed ts : Forall natural ts -> forall i g f k b pls e, assign fl fixed i ts g f k = (pls, e) -> references pls = 0 ->
  0 <= g -> 0 <= k <= b -> e <= A64Fits.reserve ts b.
Proof.
  induction 1 as [|t r N F IH]; intros i g f k b pls e AS R G K; cbn [assign A64Fits.reserve] in *; [injection AS as <- <-; lia|].
  destruct (place_arg fl (variadic fixed i) t g f k) as [[[pl g1] f1] k1] eqn:P.
  destruct (assign fl fixed (i + 1) r g1 f1 k1) as [l e'] eqn:AS'. injection AS as <- <-.
  assert (RN : forall l', 0 <= references l').
  { induction l' as [|x l' IHl]; cbn [references]; [lia|]. destruct x; lia. }
  assert (NR : (forall w, pl <> Ref w) /\ references l = 0).
  { specialize (RN l). destruct pl; cbn [references] in R; split; try lia; congruence. }
  destruct NR as (NR & RL). destruct (place_stack _ _ _ _ _ _ _ _ _ _ N G (proj1 K) P NR) as (G1 & K1).
  destruct (natural_basic _ N) as (SP & PW & A16 & _). pose proof (is_pow2_pos _ PW).
  assert (round_up k (ty_align t) <= round_up b (ty_align t)).
  { apply round_up_least; [lia|apply round_up_divide|]. pose proof (round_up_le b (ty_align t) ltac:(lia)). lia. }
  pose proof (round_up_le b (ty_align t) ltac:(lia)). pose proof (round_up_le (ty_size t) 8 ltac:(lia)).
  eapply IH; [exact AS'|exact RL|exact G1|lia].
Qed.

Lemma no_references_end ts : forall pls hi, references pls = 0 -> copies_end ts pls hi = hi.
Proof.
  assert (RN : forall l', 0 <= references l').
  { induction l' as [|x l' IHl]; cbn [references]; [lia|]. destruct x; lia. }
  induction ts as [|t r IH]; intros pls hi R; cbn [copies_end]; [reflexivity|]. destruct pls as [|pl l]; [reflexivity|].
  specialize (RN l). destruct pl; cbn [references] in R; auto. lia.
Qed.

(** Bytes of arguments not passed by reference, rounded to words. *)
Fixpoint value_words (ts : list ftype) (pls : list place) : Z :=
  match ts, pls with
  | t :: r, pl :: l => match pl with Ref _ => 0 | _ => round_up (ty_size t) 8 end + value_words r l
  | _, _ => 0
  end.

Lemma place_cost fl var t g f k pl g' f' k' m : natural t -> ty_align t <= 8 -> room g k m -> place_arg fl var t g f k = (pl, g', f', k') ->
  8 * (g' - g) + (k' - k) <= (match pl with Ref _ => 8 | _ => round_up (ty_size t) 8 end) /\ (k < k' -> g' = 8).
Proof.
  intros N A8 R P. destruct (natural_basic _ N) as (SP & PW & A16 & _).
  pose proof (round_up_le (ty_size t) 8 ltac:(lia)) as RL. pose proof (round_up_divide (ty_size t) 8) as (q & RD).
  pose proof R as (G & K & D & S & M).
  assert (INT : (let '(p, g1, s1) := place_words var t g k in (p, g1, f, s1)) = (pl, g', f', k') ->
    8 * (g' - g) + (k' - k) <= (match pl with Ref _ => 8 | _ => round_up (ty_size t) 8 end) /\ (k < k' -> g' = 8)).
  { unfold place_words. replace (ty_align t >? 8) with false by lia. rewrite andb_false_r. cbn [andb].
    destruct (ty_size t >? 16).
    - destruct (word_at g k) as [[w g1] k1] eqn:W. unfold word_at in W. intros E. injection E as <- <- _ <-.
      destruct (g <? 8) eqn:G8; injection W as <- <- <-; lia.
    - destruct (word_at g k) as [[w g1] k1] eqn:W. unfold word_at in W. 
      assert (H1 : 8 * (g1 - g) + (k1 - k) = 8 /\ (k < k1 -> g1 = 8) /\ g1 <= 8 /\ k <= k1) by (destruct (g <? 8) eqn:G8; injection W as <- <- <-; lia).
      destruct (ty_size t >? 8) eqn:TWO.
      + destruct (word_at g1 k1) as [[w2 g2] k2] eqn:W2. unfold word_at in W2. intros E. injection E as <- <- _ <-.
        destruct (g1 <? 8) eqn:G8; injection W2 as <- <- <-; lia.
      + intros E. injection E as <- <- _ <-. lia. }
  unfold place_arg in P. destruct var; [auto|].
  destruct (shape_of fl t); [destruct (f <? 8)|destruct (f <? 7)|destruct ((f <? 8) && (g <? 8))|destruct ((f <? 8) && (g <? 8))|];
    auto; injection P as <- <- <- <-; lia.
Qed.

Lemma assign_cost fl fixed ts : Forall natural ts -> Forall (fun t => ty_align t <= 8) ts ->
  forall i g f k pls e m, room g k m -> assign fl fixed i ts g f k = (pls, e) ->
  e = k \/ 8 * (8 - g) + (e - k) <= value_words ts pls + 8 * references pls.
Proof.
  induction 1 as [|t r N F IH]; intros A8 i g f k pls e m R AS; cbn [assign] in AS; [injection AS as <- <-; auto|].
  inversion A8 as [|? ? AT AR]; subst.
  destruct (place_arg fl (variadic fixed i) t g f k) as [[[pl g1] f1] k1] eqn:P.
  destruct (assign fl fixed (i + 1) r g1 f1 k1) as [l e'] eqn:AS'. injection AS as <- <-.
  pose proof (place_arg_room _ _ _ _ _ _ _ _ _ _ _ R P) as R1.
  pose proof (place_cost _ _ _ _ _ _ _ _ _ _ _ N AT R P) as (C1 & C2).
  pose proof (place_arg_mono _ _ _ _ _ _ _ _ _ _ _ R P) as KM.
  assert (VN : 0 <= value_words r l + 8 * references l).
  { clear - F. revert l. induction F as [|x r N F IH]; intros l.
    - cbn [value_words]. induction l as [|y l IHl]; cbn [references]; [lia|]. destruct y; lia.
    - destruct l as [|y l]; cbn [value_words references]; [lia|]. destruct (natural_basic _ N) as (SP & _).
      pose proof (round_up_le (ty_size x) 8 ltac:(lia)). specialize (IH l). destruct y; lia. }
  assert (CV : value_words (t :: r) (pl :: l) + 8 * references (pl :: l) =
    (match pl with Ref _ => 8 | _ => round_up (ty_size t) 8 end) + (value_words r l + 8 * references l)).
  { cbn [value_words references]. destruct pl; lia. }
  rewrite CV. destruct (IH AR _ _ _ _ _ _ _ R1 AS') as [-> | H]; [|right; lia].
  destruct (Z.eq_dec k k1) as [-> | NE]; [left; reflexivity|]. right. specialize (C2 ltac:(lia)). lia.
Qed.

Lemma copies_words ts : Forall natural ts -> Forall (fun t => ty_align t <= 8) ts -> forall pls hi, length pls = length ts -> (8 | hi) ->
  hi - (A64Fits.words ts - value_words ts pls) <= copies_end ts pls hi.
Proof.
  intros N A8. assert (G : forall pls hi h8, length pls = length ts -> (8 | h8) -> h8 <= hi ->
    h8 - (A64Fits.words ts - value_words ts pls) <= copies_end ts pls hi).
  2: { intros pls hi L D. apply (G pls hi hi L D). lia. }
  induction N as [|t r N F IH]; intros pls hi h8 L D LE; destruct pls as [|pl l]; try discriminate L; [cbn; lia|].
  inversion A8 as [|? ? AT AR]; subst. destruct (natural_basic _ N) as (SP & PW & A16 & _). pose proof (is_pow2_pos _ PW).
  unfold A64Fits.words in *. cbn [copies_end value_words fold_right]. change (fold_right _ 0 r) with (A64Fits.words r) in *.
  injection L as L. destruct pl; try (specialize (IH AR l hi h8 L D LE); lia).
  assert (D2 : (8 | h8 - round_up (ty_size t) 8)) by (apply Z.divide_sub_r; [auto|apply round_up_divide]).
  pose proof (round_up_le (ty_size t) 8 ltac:(lia)) as RL.
  assert (B : h8 - round_up (ty_size t) 8 <= round_down (hi - ty_size t) (ty_align t)).
  { assert (DA : (ty_align t | h8 - round_up (ty_size t) 8)) by (apply Z.divide_trans with 8; [apply is_pow2_divide; auto using P8|exact D2]).
    destruct DA as (q & EQ). rewrite EQ. unfold round_down. apply Z.mul_le_mono_nonneg_r; [lia|].
    apply Z.div_le_lower_bound; lia. }
  specialize (IH AR l _ (h8 - round_up (ty_size t) 8) L D2 B). lia.
Qed.

Lemma assign_length fl fixed ts : forall i g f k pls e, assign fl fixed i ts g f k = (pls, e) -> length pls = length ts.
Proof.
  induction ts as [|t r IH]; intros i g f k pls e AS; cbn [assign] in AS; [injection AS as <- _; reflexivity|].
  destruct (place_arg _ _ _ _ _ _) as [[[pl g1] f1] k1]. destruct (assign fl fixed (i + 1) r g1 f1 k1) as [l e'] eqn:AS'.
  injection AS as <- _. cbn [length]. f_equal. eapply IH; eauto.
Qed.

(** Enough room: nothing is passed by reference, or alignments are at most 8 and at most eight
    arguments are passed by reference. *)
Definition area_enough (fl : Z) (fixed : option Z) (rt : ftype) (ts : list ftype) : Prop :=
  references (places fl fixed rt ts) = 0 \/
  (Forall (fun t => ty_align t <= 8) ts /\ references (places fl fixed rt ts) <= 8).

Lemma memory_struct fl rt : natural rt -> no_complex rt -> in_memory fl rt = true -> ty_code rt = T_STRUCT.
Proof.
  intros N NC IM. destruct (tcode_eqb (ty_code rt) T_STRUCT) eqn:E; [destruct (ty_code rt); try discriminate E; reflexivity|].
  assert (NS : ty_code rt <> T_STRUCT) by (intros C; rewrite C in E; discriminate).
  destruct (leaf_not_struct rt NS) as (_ & FS). unfold no_complex in NC. rewrite FS in NC. inversion NC as [|? ? NX _]; subst. cbn [fst] in NX.
  destruct (scalar_size rt _ N eq_refl NS NX) as (_ & _ & _ & _ & _ & SR & _). exfalso.
  unfold in_memory, place_arg, place_words in IM. replace (ty_size rt >? 16) with false in IM by lia.
  destruct (shape_of fl rt); cbn [andb] in IM; replace (8 <=? 0) with false in IM by reflexivity; rewrite ?andb_false_r in IM;
    change (0 <? 8) with true in IM; change (0 <? 7) with true in IM; cbn [andb] in IM; try discriminate IM;
    change (word_at 0 0) with (XR 0, 1, 0) in IM; cbv beta iota zeta in IM; change (word_at 1 0) with (XR 1, 2, 0) in IM;
    destruct (ty_size rt >? 8); discriminate IM.
Qed.

Theorem area_fits fl fixed rt ts : signature_ok rt ts -> A64Fits.total_size ts < 2 ^ 31 -> area_enough fl fixed rt ts ->
  stack_used fl fixed rt ts <= copies_end ts (places fl fixed rt ts) (arg_bytes (prep fixed rt ts)).
Proof.
  intros (N & NC & RT) T AE. unfold arg_bytes, prep. cbn [k_bytes].
  assert (C : A64Model.core_bytes rt ts = A64Fits.reserve ts (match ty_code rt with T_STRUCT => 8 | _ => 0 end)).
  { unfold A64Model.core_bytes. change (A64Model.stack_arg_size 8) with 8. pose proof (A64Fits.reserve_bound ts N 0 ltac:(lia)).
    pose proof (A64Fits.reserve_bound ts N 8 ltac:(lia)). apply A64Fits.core_args_reserve; [auto|destruct (ty_code rt); lia|destruct (ty_code rt); lia]. }
  rewrite C. set (b0 := match ty_code rt with T_STRUCT => 8 | _ => 0 end).
  assert (B0 : (8 | b0) /\ 0 <= b0 /\ 8 * first_reg fl rt <= b0).
  { split; [unfold b0; destruct (ty_code rt); try (exists 0; reflexivity); exists 1; reflexivity|]. split; [unfold b0; destruct (ty_code rt); lia|].
    unfold first_reg. destruct (in_memory fl rt) eqn:IM; [|unfold b0; destruct (ty_code rt); lia].
    destruct RT as [-> |(Nr & NCr)]; [destruct fl; discriminate IM|]. unfold b0. rewrite (memory_struct fl rt Nr NCr IM). lia. }
  destruct B0 as (D0 & B0 & F0). pose proof (first_reg_cases fl rt) as FC.
  unfold area_enough, places, stack_used in *. destruct (assign fl fixed 0 ts (first_reg fl rt) 0 0) as [pls e] eqn:AS. cbn [fst snd] in *.
  destruct AE as [NR | [A8 R8]].
  - rewrite no_references_end by auto. eapply stack_reserve; eauto; lia.
  - rewrite (A64Fits.reserve_words ts N A8 b0 D0).
    assert (DW : (8 | b0 + A64Fits.words ts)).
    { apply Z.divide_add_r; [exact D0|]. clear. induction ts as [|t r IH]; [exists 0; reflexivity|]. apply Z.divide_add_r; [apply round_up_divide|exact IH]. }
    pose proof (copies_words ts N A8 pls _ (assign_length _ _ _ _ _ _ _ _ _ AS) DW) as CW.
    assert (RM : room (first_reg fl rt) 0 1) by (destruct FC as [-> | ->]; repeat split; try lia; apply Z.divide_0_r).
    assert (VN : 0 <= value_words ts pls).
    { clear - N. revert pls. induction N as [|x r N F IH]; intros l; [destruct l; cbn; lia|]. destruct l as [|y l]; cbn [value_words]; [lia|].
      destruct (natural_basic _ N) as (SP & _). pose proof (round_up_le (ty_size x) 8 ltac:(lia)). specialize (IH l). destruct y; lia. }
    pose proof (assign_cost _ _ _ N A8 _ _ _ _ _ _ _ RM AS) as AC. lia.
Qed.
