(** RISC-V: the argument loop and the areas of ffi_call. *)
From Coq Require Import ZifyBool ZifyNat.
From Verif Require Import Base BaseFacts Types LayoutSpec NaturalTypes NaturalFacts RvModel RvSpec RvFlat RvCall.
From Verif Require A64Model A64Fits.
Local Arguments Z.mul : simpl never.
Local Arguments Z.add : simpl never.

Lemma place_words_mono var t g k pl g' k' : 0 <= g -> 0 <= k -> place_words var t g k = (pl, g', k') -> g <= g' /\ k <= k'.
Proof.
  intros G K. unfold place_words.
  destruct (ty_size t >? 16).
  - destruct (word_at g k) as [[w g1] k1] eqn:W. intros E. injection E as <- <- <-. eapply word_at_mono; eauto.
  - pose proof (round_up_le g 2 ltac:(lia)). pose proof (round_up_le k 16 ltac:(lia)).
    set (g0 := if var && (ty_align t >? 8) then round_up g 2 else g). assert (g <= g0) by (unfold g0; destruct (var && (ty_align t >? 8)); lia).
    set (k0 := if (ty_align t >? 8) && (8 <=? g0) then round_up k 16 else k).
    assert (k <= k0) by (unfold k0; destruct ((ty_align t >? 8) && (8 <=? g0)); lia).
    destruct (word_at g0 k0) as [[w g1] k1] eqn:W. pose proof (word_at_mono _ _ _ _ _ W).
    destruct (ty_size t >? 8).
    + destruct (word_at g1 k1) as [[w2 g2] k2] eqn:W2. pose proof (word_at_mono _ _ _ _ _ W2). intros E. injection E as <- <- <-. lia.
    + intros E. injection E as <- <- <-. lia.
Qed.

(** Registers and stack taken by an argument, in the units of two words. *)
Definition room (g k m : Z) : Prop := 0 <= g <= 8 /\ 0 <= k /\ (8 | k) /\ (g < 8 -> k = 0) /\ 8 * g + k <= 16 * m.

Lemma room_next g k m w g' k' : 0 <= g <= 8 -> 0 <= k -> (8 | k) -> (g < 8 -> k = 0) -> word_at g k = (w, g', k') -> 8 * g + k <= m ->
  0 <= g' <= 8 /\ 0 <= k' /\ (8 | k') /\ (g' < 8 -> k' = 0) /\ 8 * g' + k' <= m + 8.
Proof.
  intros G K D S W M. unfold word_at in W. destruct (g <? 8) eqn:E; injection W as <- <- <-.
  - assert (k = 0) by lia. subst k. repeat split; try lia. exact D.
  - do 2 (split; [lia|]). split; [apply Z.divide_add_r; [exact D|apply Z.divide_refl]|]. lia.
Qed.

Lemma place_words_room var t g k pl g' k' m : room g k m -> place_words var t g k = (pl, g', k') -> room g' k' (m + 1).
Proof.
  intros (G & K & D & S & M) P. unfold place_words in P. unfold room.
  destruct (ty_size t >? 16).
  - destruct (word_at g k) as [[w g1] k1] eqn:W. injection P as <- <- <-.
    destruct (room_next _ _ _ _ _ _ G K D S W M) as (A & B & C & E & F). repeat split; auto; lia.
  - set (g0 := if var && (ty_align t >? 8) then round_up g 2 else g) in *.
    set (k0 := if (ty_align t >? 8) && (8 <=? g0) then round_up k 16 else k) in *.
    assert (R : 0 <= g0 <= 8 /\ 0 <= k0 /\ (8 | k0) /\ (g0 < 8 -> k0 = 0) /\ 8 * g0 + k0 <= 16 * m).
    { pose proof (round_up_le g 2 ltac:(lia)) as L2. pose proof (round_up_lt g 2 ltac:(lia)) as U2.
      assert (G8 : round_up g 2 <= 8) by (apply round_up_least; [lia|exists 4; lia|lia]).
      pose proof (round_up_le k 16 ltac:(lia)) as L16. pose proof (round_up_lt k 16 ltac:(lia)) as U16.
      pose proof (round_up_divide g 2) as D2. pose proof (round_up_divide k 16) as D16. destruct D as (q & D), D2 as (q2 & D2), D16 as (q16 & D16).
      assert (GG : g <= g0 <= 8 /\ 0 <= g0) by (unfold g0; destruct (var && (ty_align t >? 8)); lia).
      assert (G16 : 8 * g0 + k <= 16 * m).
      { unfold g0. destruct (var && (ty_align t >? 8)); [|lia]. rewrite D2 in *. destruct (Z.lt_ge_cases g 8); lia. }
      unfold k0. destruct ((ty_align t >? 8) && (8 <=? g0)) eqn:E.
      - split; [lia|]. split; [lia|]. split; [exists (2 * q16); lia|]. split; [lia|]. assert (g0 = 8) by lia. rewrite D16 in *. lia.
      - split; [lia|]. split; [lia|]. split; [exists q; lia|]. split; [|lia]. intros. apply S. lia. }
    destruct R as (A & B & C & E & F).
    destruct (word_at g0 k0) as [[w g1] k1] eqn:W. destruct (room_next _ _ _ _ _ _ A B C E W F) as (A1 & B1 & C1 & E1 & F1).
    destruct (ty_size t >? 8).
    + destruct (word_at g1 k1) as [[w2 g2] k2] eqn:W2. injection P as <- <- <-.
      destruct (room_next _ _ _ _ _ _ A1 B1 C1 E1 W2 F1) as (A2 & B2 & C2 & E2 & F2). repeat split; auto; lia.
    + injection P as <- <- <-. repeat split; auto; lia.
Qed.

Lemma place_arg_room fl var t g f k pl g' f' k' m : room g k m -> place_arg fl var t g f k = (pl, g', f', k') -> room g' k' (m + 1).
Proof.
  intros R P. unfold place_arg in P.
  assert (INT : (let '(p, g1, s1) := place_words var t g k in (p, g1, f, s1)) = (pl, g', f', k') -> room g' k' (m + 1)).
  { destruct (place_words var t g k) as [[p g1] s1] eqn:W. intros E. injection E as <- <- <- <-. eapply place_words_room; eauto. }
  pose proof R as (A & B & C & D & E).
  destruct var; [auto|].
  destruct (shape_of fl t).
  - destruct (f <? 8); [|auto]. injection P as <- <- <- <-. repeat split; auto; lia.
  - destruct (f <? 7); [|auto]. injection P as <- <- <- <-. repeat split; auto; lia.
  - destruct ((f <? 8) && (g <? 8)) eqn:F; [|auto]. injection P as <- <- <- <-. repeat split; auto; lia.
  - destruct ((f <? 8) && (g <? 8)) eqn:F; [|auto]. injection P as <- <- <- <-. repeat split; auto; lia.
  - auto.
Qed.

Lemma place_arg_mono fl var t g f k pl g' f' k' m : room g k m -> place_arg fl var t g f k = (pl, g', f', k') -> k <= k'.
Proof.
  intros (R1 & R2 & _) P. unfold place_arg in P.
  assert (INT : (let '(p, g1, s1) := place_words var t g k in (p, g1, f, s1)) = (pl, g', f', k') -> k <= k').
  { destruct (place_words var t g k) as [[p g1] s1] eqn:W. intros E. injection E as <- <- <- <-. pose proof (place_words_mono _ _ _ _ _ _ _ (proj1 R1) R2 W). lia. }
  destruct var; [auto|].
  destruct (shape_of fl t); [destruct (f <? 8)|destruct (f <? 7)|destruct ((f <? 8) && (g <? 8))|destruct ((f <? 8) && (g <? 8))|]; auto; injection P as <- <- <- <-; lia.
Qed.

Lemma assign_room fl fixed ts : forall i g f k m pls e, room g k m -> assign fl fixed i ts g f k = (pls, e) ->
  k <= e /\ exists g', room g' e (m + zlen ts).
Proof.
  induction ts as [|t r IH]; intros i g f k m pls e R H; cbn [assign] in H.
  - injection H as <- <-. split; [lia|]. exists g. rewrite Z.add_0_r. exact R.
  - destruct (place_arg fl (variadic fixed i) t g f k) as [[[pl g'] f'] k'] eqn:P.
    destruct (assign fl fixed (i + 1) r g' f' k') as [l e'] eqn:AS. injection H as <- <-.
    destruct (IH _ _ _ _ _ _ _ (place_arg_room _ _ _ _ _ _ _ _ _ _ _ R P) AS) as (LE & X).
    pose proof (place_arg_mono _ _ _ _ _ _ _ _ _ _ _ R P). split; [lia|]. rewrite zlen_cons. replace (m + (1 + zlen r)) with (m + 1 + zlen r) by lia. exact X.
Qed.

(** C45: stack arguments. *)
Lemma first_reg_cases fl rt : first_reg fl rt = 0 \/ first_reg fl rt = 1.
Proof. unfold first_reg. destruct (in_memory fl rt); auto. Qed.

Lemma stack_fits fl fixed rt ts : stack_used fl fixed rt ts <= (if zlen ts <=? 3 then 0 else 16 * (zlen ts - 3)).
Proof.
  unfold stack_used. destruct (assign fl fixed 0 ts (first_reg fl rt) 0 0) as [pls e] eqn:AS. cbn [snd].
  assert (R : room (first_reg fl rt) 0 1).
  { destruct (first_reg_cases fl rt) as [-> | ->]; repeat split; try lia; apply Z.divide_0_r. }
  destruct (assign_room _ _ _ _ _ _ _ _ _ _ R AS) as (_ & g' & A & B & C & D & E).
  destruct (zlen ts <=? 3) eqn:Z3.
  - destruct (Z.lt_ge_cases g' 8); lia.
  - destruct (Z.lt_ge_cases g' 8); lia.
Qed.

(** C45: copies. *)
Lemma copy_space_reserve ts : Forall natural ts -> forall pls b, 0 <= b -> b + copy_space ts pls <= A64Fits.reserve ts b.
Proof.
  induction 1 as [|t r N F IH]; intros pls b B; cbn [copy_space A64Fits.reserve]; [lia|].
  pose proof (natural_basic _ N) as (SP & PW & A16 & _). pose proof (is_pow2_pos _ PW).
  pose proof (round_up_le b (ty_align t) ltac:(lia)). pose proof (round_up_le (ty_size t) 8 ltac:(lia)).
  destruct pls as [|pl l].
  - specialize (IH [] (round_up b (ty_align t) + round_up (ty_size t) 8) ltac:(lia)). destruct r; cbn [copy_space] in IH; lia.
  - specialize (IH l (round_up b (ty_align t) + round_up (ty_size t) 8) ltac:(lia)). destruct pl; lia.
Qed.

Lemma bytes_reserve rt ts : Forall natural ts -> A64Fits.total_size ts < 2 ^ 31 ->
  exists b0, (b0 = 0 \/ b0 = 8) /\ A64Model.core_bytes rt ts = A64Fits.reserve ts b0 /\ b0 <= A64Fits.reserve ts b0 <= 8 + A64Fits.total_size ts.
Proof.
  intros N T. unfold A64Model.core_bytes. set (b0 := match ty_code rt with T_STRUCT => A64Model.stack_arg_size 8 | _ => 0 end).
  assert (B0 : b0 = 0 \/ b0 = 8) by (unfold b0; destruct (ty_code rt); auto; right; reflexivity).
  pose proof (A64Fits.reserve_bound ts N b0 ltac:(lia)). exists b0. split; [exact B0|].
  rewrite A64Fits.core_args_reserve by (auto; lia). split; [reflexivity|]. lia.
Qed.

Lemma arg_bytes_eq fixed rt ts : zlen ts < 2 ^ 31 ->
  arg_bytes (prep fixed rt ts) = if zlen ts <=? 3 then 0 else 16 * (zlen ts - 3).
Proof.
  intros Z. unfold arg_bytes, prep. cbn [k_args]. destruct (zlen ts <=? 3) eqn:E; [reflexivity|].
  assert (P16 : is_pow2 16) by (exists 4; split; [lia|reflexivity]).
  assert (D : (16 | 2 * 8 * (zlen ts - 3))) by (exists (zlen ts - 3); lia).
  assert (R : round_up (2 * 8 * (zlen ts - 3)) 16 = 2 * 8 * (zlen ts - 3)) by (apply round_up_id; auto; lia).
  rewrite ffi_align_round by (auto; lia). lia.
Qed.

Lemma total_count ts : Forall natural ts -> 24 * zlen ts <= A64Fits.total_size ts.
Proof.
  induction 1 as [|t r N F IH]; [cbn; lia|]. rewrite zlen_cons. cbn [A64Fits.total_size]. destruct (natural_basic _ N) as (SP & _). lia.
Qed.

Theorem areas_fit fl fixed rt ts : Forall natural ts -> A64Fits.total_size ts < 2 ^ 31 ->
  let c := prep fixed rt ts in
  0 <= arg_bytes c /\ (16 | arg_bytes c) /\ stack_used fl fixed rt ts <= arg_bytes c /\
  0 <= struct_bytes c < 2 ^ 32 /\ (16 | struct_bytes c) /\ copy_space ts (places fl fixed rt ts) <= struct_bytes c.
Proof.
  intros N T. cbv zeta. pose proof (total_count ts N). pose proof (zlen_nonneg ts). pose proof (stack_fits fl fixed rt ts).
  rewrite arg_bytes_eq by lia. assert (P16 : is_pow2 16) by (exists 4; split; [lia|reflexivity]).
  destruct (bytes_reserve rt ts N T) as (b0 & B0 & E & R).
  assert (SB : struct_bytes (prep fixed rt ts) = round_up (A64Fits.reserve ts b0) 16).
  { unfold struct_bytes, prep. cbn [k_bytes]. rewrite E. pose proof (round_up_lt (A64Fits.reserve ts b0) 16 ltac:(lia)).
    apply ffi_align_round; auto; lia. }
  rewrite SB. pose proof (round_up_lt (A64Fits.reserve ts b0) 16 ltac:(lia)). pose proof (round_up_le (A64Fits.reserve ts b0) 16 ltac:(lia)).
  pose proof (copy_space_reserve ts N (places fl fixed rt ts) b0 ltac:(lia)).
  split; [destruct (zlen ts <=? 3) eqn:?; lia|]. split; [destruct (zlen ts <=? 3); [apply Z.divide_0_r|exists (zlen ts - 3); lia]|].
  split; [lia|]. split; [lia|]. split; [apply round_up_divide|]. lia.
Qed.

(** The argument loop. *)
Lemma copies_le al ts : forall pls ptrs lo lo' hi, copies_ok al ts pls ptrs lo hi -> lo' <= lo -> copies_ok al ts pls ptrs lo' hi.
Proof.
  induction ts as [|t r IH]; intros pls ptrs lo lo' hi; [auto|]. cbn [copies_ok]. destruct pls as [|pl l]; [auto|].
  destruct pl; try (intros; eapply IH; eauto). destruct ptrs; [auto|]. intros (A & B & C) L. split; [lia|auto].
Qed.

Lemma copies_hi al ts : forall pls ptrs lo hi hi', copies_ok al ts pls ptrs lo hi -> hi <= hi' -> copies_ok al ts pls ptrs lo hi'.
Proof.
  induction ts as [|t r IH]; intros pls ptrs lo hi hi'; [auto|]. cbn [copies_ok]. destruct pls as [|pl l]; [auto|].
  destruct pl; try (intros; eapply IH; eauto). destruct ptrs; [auto|]. intros (A & B & C & D) L. split; [lia|]. split; [lia|]. split; [auto|]. eapply IH; eauto.
Qed.

Lemma args_ok base ctx fl A fixed nfixed gr : fl_ok fl -> 0 <= A <= ctx -> 0 <= base /\ (16 | base) /\ base + ctx + 32 < 2 ^ 64 ->
  (forall i, zlen (gr i) = 16 /\ bytes_ok (gr i)) ->
  forall ts objs i s g f k pls e m, inv ctx fl A s g f k -> room g k m -> Forall natural ts -> objects_ok ts objs ->
  (forall j, i <= j < i + zlen ts -> (nfixed <=? j) = variadic fixed j) ->
  assign fl fixed i ts g f k = (pls, e) -> lone_reals_ok fl fixed i ts pls -> e <= A -> b_cpy s + copy_space ts pls <= ctx ->
  exists s' ptrs g' f', marshal_args base ctx fl nfixed i ts objs gr s = Ok s' /\ inv ctx fl A s' g' f' e /\ extends ctx fl A s s' /\
    b_cpy s' = b_cpy s + copy_space ts pls /\
    copies_ok (fun _ => 8) ts pls ptrs (base + b_cpy s) (base + b_cpy s') /\
    forall b, agree ctx fl A s' b -> held fl (ra ctx fl b) (rf ctx fl b) base (rdb base b) ts pls objs ptrs.
Proof.
  intros FL A0 BASE GR. induction ts as [|t r IH]; intros objs i s g f k pls e m I RM N O V AS LO EA CA.
  - cbn [assign] in AS. injection AS as <- <-. inversion O; subst. exists s, [], g, f. cbn [marshal_args copy_space copies_ok held].
    split; [reflexivity|]. split; [exact I|]. split; [apply extends_refl|]. split; [lia|]. auto.
  - inversion O as [|? o ? os (ZO & OO) O']; subst. inversion N as [|? ? NT NR]; subst. cbn [assign marshal_args] in *.
    destruct (place_arg fl (variadic fixed i) t g f k) as [[[pl g1] f1] k1] eqn:P.
    destruct (assign fl fixed (i + 1) r g1 f1 k1) as [l e'] eqn:AS'. injection AS as <- <-.
    pose proof (place_arg_room _ _ _ _ _ _ _ _ _ _ _ RM P) as RM1. destruct (assign_room _ _ _ _ _ _ _ _ _ _ RM1 AS') as (KE & _).
    cbn [lone_reals_ok copy_space] in *. destruct LO as (LO & LO').
    assert (V0 : (nfixed <=? i) = variadic fixed i) by (apply V; rewrite zlen_cons; pose proof (zlen_nonneg r); lia). rewrite V0.
    assert (CP : forall l', 0 <= copy_space r l').
    { clear -NR. induction NR as [|x r N F IH]; intros l'; cbn [copy_space]; [lia|]. destruct l' as [|y l']; [lia|].
      destruct (natural_basic _ N) as (SP & _). pose proof (round_up_le (ty_size x) 8 ltac:(lia)). specialize (IH l'). destruct y; lia. }
    specialize (CP l).
    assert (LN : lone_ok fl (variadic fixed i) t f).
    { intros V1 TS n SH. specialize (LO V1 TS n SH). destruct LO as (f0 & ->). rewrite V1 in P. unfold place_arg in P. rewrite SH in P.
      destruct (f <? 8) eqn:F8; [lia|]. destruct (place_words false t g k) as [[p ?] ?] eqn:PW. injection P as -> _ _ _.
      unfold place_words in PW. destruct (ty_size t >? 16); destruct (word_at _ _) as [[? ?] ?] in PW; [discriminate PW|].
      destruct (ty_size t >? 8); [destruct (word_at _ _) as [[? ?] ?] in PW|]; discriminate PW. }
    destruct (GR i) as (ZG & OG).
    destruct (marshal_ok base ctx fl A FL A0 BASE s g f k t (variadic fixed i) o (gr i) pl g1 f1 k1 I NT ZO OO ZG OG LN P) as (s1 & E1 & I1 & X1 & C1 & S1).
    { lia. } { unfold grown. destruct pl; lia. }
    rewrite E1. cbn [bind].
    destruct (IH os (i + 1) s1 g1 f1 k1 l e' (m + 1) I1 RM1 NR O') as (s2 & ptrs & g' & f' & E2 & I2 & X2 & C2 & CO & H2); auto.
    { intros j J. apply V. rewrite zlen_cons. lia. } { unfold grown in C1. destruct pl; lia. }
    pose proof I as (_ & _ & _ & _ & _ & _ & _ & _ & CS & DC & _).
    exists s2, (match pl with Ref _ => base + b_cpy s :: ptrs | _ => ptrs end), g', f'.
    split; [exact E2|]. split; [exact I2|]. split; [eapply extends_trans; eauto|]. split; [unfold grown in C1; destruct pl; lia|].
    destruct (natural_basic _ NT) as (SP & _). pose proof (round_up_le (ty_size t) 8 ltac:(lia)).
    split.
    + cbn [copies_ok]. unfold grown in C1. destruct pl; try (eapply copies_le; [exact CO|lia]).
      split; [lia|]. split; [lia|]. split; [|eapply copies_le; [exact CO|lia]].
      apply Z.divide_add_r; [|exact DC]. destruct BASE as (_ & D & _). eapply Z.divide_trans; [|exact D]. exists 2; reflexivity.
    + intros b Ab. specialize (H2 b Ab). specialize (S1 b (X2 _ Ab)). cbn [held]. destruct pl; try (split; assumption).
      destruct S1 as (S1 & S2). auto.
Qed.
