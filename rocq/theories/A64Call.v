(** The argument loop of ffi_call puts the arguments where AAPCS64 wants them. *)
From Coq Require Import ZifyBool ZifyNat.
From Verif Require Import Base BaseFacts Types LayoutSpec NaturalTypes NaturalFacts A64Model A64Spec A64Hfa A64Facts.
Local Arguments Z.mul : simpl never.
Local Arguments Z.add : simpl never.

Definition is_apple (p : platform) : bool := match p with Apple => true | _ => false end.

(** The loop state stands for the state of the specification. *)
Definition rel (apple : bool) (st : ast) (var : bool) (g v s : Z) : Prop :=
  a_var st = var /\
  (if var then a_ngrn st = 8 /\ a_nsrn st = 8 /\ apple = true else a_ngrn st = g /\ a_nsrn st = v) /\
  0 <= g <= 8 /\ 0 <= v <= 8 /\ 0 <= a_nsaa st /\
  (if apple then a_nsaa st = s else s = round_up (a_nsaa st) 8).

Lemma rel_s apple st var g v s : rel apple st var g v s -> a_nsaa st <= s < a_nsaa st + 8 /\ (apple = false -> (8 | s)).
Proof.
  intros (_ & _ & _ & _ & N & S). destruct apple.
  - subst s. split; [lia|discriminate].
  - subst s. pose proof (round_up_le (a_nsaa st) 8). pose proof (round_up_lt (a_nsaa st) 8).
    split; [lia|]. intros _. apply round_up_divide.
Qed.

Lemma round_up_twice x A : 0 < A -> (8 | A) -> round_up (round_up x 8) A = round_up x A.
Proof.
  intros P D. symmetry. pose proof (round_up_le x A P). pose proof (round_up_lt x A P).
  pose proof (round_up_le x 8). pose proof (round_up_lt x 8). pose proof (round_up_divide x A) as DA.
  assert (L : round_up x 8 <= round_up x A).
  { apply round_up_least; [lia| |lia]. eapply Z.divide_trans; eauto. }
  apply round_up_unique; auto. lia.
Qed.

Lemma stack_align_pow2 apple var a : is_pow2 a -> a <= 16 ->
  is_pow2 (stack_align apple var a) /\ stack_align apple var a <= 16 /\
  (apple = false -> (8 | stack_align apple var a)) /\ (var = true -> (8 | stack_align apple var a)).
Proof.
  intros P L. unfold stack_align.
  assert (P8 : is_pow2 8) by (exists 3; split; [lia|reflexivity]).
  assert (M : is_pow2 (Z.max 8 a)) by (apply is_pow2_max; auto).
  assert (D : (8 | Z.max 8 a)) by (apply is_pow2_divide; auto; lia).
  destruct (apple && negb var) eqn:E.
  - repeat split; auto; intros; subst; try discriminate E. destruct apple; discriminate E.
  - repeat split; auto. lia.
Qed.

Lemma allocate_ok p st var g v s al size : rel (is_apple p) st var g v s -> is_pow2 al -> al <= 16 -> 0 < size ->
  let A := stack_align (is_apple p) var al in
  let o := round_up s A in
  o + stack_size (is_apple p) size < 2 ^ 60 ->
  exists st1, allocate_to_stack p st al size = (o, st1) /\
    a_ngrn st1 = a_ngrn st /\ a_nsrn st1 = a_nsrn st /\ a_area st1 = a_area st /\ a_var st1 = var /\
    a_nsaa st1 = o + size /\ s <= o /\ 0 <= o /\
    (if is_apple p then True else o + stack_size (is_apple p) size = round_up (o + size) 8) /\
    size <= stack_size (is_apple p) size.
Proof.
  intros R P L SZ A o B. pose proof R as (V & RG & G & VV & N & S).
  destruct (stack_align_pow2 (is_apple p) var al P L) as (PA & LA & DA & _).
  pose proof (is_pow2_pos _ PA) as PP. fold A in PA, LA, DA, PP.
  assert (AL : (match p with
            | Apple => if a_var st && (al <? 8) then 8 else al
            | _ => if al <? 8 then 8 else al
            end) = A).
  { unfold A, stack_align. rewrite V. destruct p, var; cbn [is_apple andb negb]; try lia;
      try (destruct (al <? 8) eqn:E; cbn [andb]; lia). }
  assert (SS : size <= stack_size (is_apple p) size).
  { unfold stack_size. destruct (is_apple p); [lia|]. apply round_up_le. lia. }
  assert (O : round_up (a_nsaa st) A = o).
  { unfold o. destruct (is_apple p) eqn:AP; [subst s; reflexivity|]. subst s. symmetry. apply round_up_twice; [lia|auto]. }
  pose proof (round_up_le s A ltac:(lia)) as LE. fold o in LE.
  pose proof (rel_s _ _ _ _ _ _ R) as [RS _].
  assert (FA : ffi_align (a_nsaa st) A = o) by (rewrite ffi_align_round; auto; lia).
  unfold allocate_to_stack. rewrite AL, FA.
  exists (ASt (a_ngrn st) (a_nsrn st) (o + size) (a_area st) (a_var st)).
  split. { f_equal. f_equal. unfold wrap64, wrap. apply Z.mod_small. lia. }
  cbn. repeat split; auto; try lia. destruct (is_apple p) eqn:AP; [exact Logic.I|].
  unfold stack_size. symmetry. apply round_up_add; [lia|].
  eapply Z.divide_trans; [apply DA; auto|apply round_up_divide].
Qed.

Section Area.
(** Size of the argument area. *)
Variable top : Z.

(** Ranges of the block that later arguments leave alone. *)
Definition kept (st : ast) (s area off len : Z) : Prop :=
  0 <= off /\ 0 <= len /\
  (off + len <= 16 * a_nsrn st \/ (128 <= off /\ off + len <= 128 + 8 * a_ngrn st) \/
   (192 <= off /\ off + len <= 192 + s) \/ (192 + area <= off /\ off + len <= 192 + top)).

Definition keeps (st : ast) (s area : Z) (b b' : list Z) : Prop :=
  zlen b' = zlen b /\
  forall off len d, kept st s area off len -> get_range b off len = Some d -> get_range b' off len = Some d.

Lemma keeps_refl st s area b : keeps st s area b b.
Proof. split; auto. Qed.

Lemma keeps_trans st s area st' s' area' a b c :
  (forall off len, kept st s area off len -> kept st' s' area' off len) ->
  keeps st s area a b -> keeps st' s' area' b c -> keeps st s area a c.
Proof. intros K [L1 H1] [L2 H2]. split; [congruence|]. intros. apply H2; auto. Qed.

Lemma set_keeps st s area b off d b' : set_range b off d = Some b' ->
  0 <= a_nsrn st <= 8 -> 0 <= a_ngrn st <= 8 -> 0 <= s -> s <= area ->
  (16 * a_nsrn st <= off /\ off + zlen d <= 128 \/
   128 + 8 * a_ngrn st <= off /\ off + zlen d <= 192 \/
   192 + s <= off /\ off + zlen d <= 192 + area) -> keeps st s area b b'.
Proof.
  intros H V G S0 SA C. split; [apply set_range_inv in H; lia|].
  intros o n e (O & N & K) E. rewrite (get_set_disjoint _ _ _ _ o n H); [auto|]. lia.
Qed.

(** An argument in the block. *)
Definition at_block (b : list Z) (t : ftype) (pl : place) (d : list Z) : Prop :=
  match pl with
  | Xregs i => get_range b (128 + 8 * i) (zlen d) = Some d
  | Vregs i => exists c n, hfa_of t = Some (c, n) /\
      forall k, (k < n)%nat -> exists e, get_range d (fsize c * Z.of_nat k) (fsize c) = Some e /\
        get_range b (16 * (i + Z.of_nat k)) (fsize c) = Some e
  | Stack o => get_range b (192 + o) (zlen d) = Some d
  end.

Lemma extend_hfa_ok blk dest src u : (u = 4 \/ u = 8 \/ u = 16) -> 0 <= dest -> forall n,
  dest + 16 * Z.of_nat n <= zlen blk -> Z.of_nat n * u <= zlen src ->
  exists b, extend_hfa blk dest src u n = Ok b /\ zlen b = zlen blk /\
    (forall off len, 0 <= len -> off + len <= dest \/ dest + 16 * Z.of_nat n <= off -> get_range b off len = get_range blk off len) /\
    forall k, (k < n)%nat -> exists e, get_range src (u * Z.of_nat k) u = Some e /\
      get_range b (dest + 16 * Z.of_nat k) u = Some e.
Proof.
  intros U D. induction n as [|n IH]; intros L S.
  - exists blk. cbn [extend_hfa]. repeat split; auto. intros. lia.
  - destruct IH as (b & E & Z & K & H); [lia|lia|]. cbn [extend_hfa]. rewrite E. cbn [bind].
    destruct (get_range_ok src (u * Z.of_nat n) u) as (e & GE & LE); [lia|lia|nia|].
    rewrite GE. cbn [of_option bind].
    assert (LL : zlen (e ++ repeat 0 (Z.to_nat (16 - u))) = 16).
    { rewrite zlen_app, zlen_repeat. lia. }
    destruct (set_range_ok b (dest + 16 * Z.of_nat n) (e ++ repeat 0 (Z.to_nat (16 - u)))) as (b' & SB & ZB); [lia|lia|].
    rewrite SB. exists b'. split; [reflexivity|]. split; [lia|]. split.
    + intros off len LN C. rewrite (get_set_disjoint _ _ _ _ off len SB) by lia. apply K; [auto|lia].
    + intros k Hk. destruct (Nat.eq_dec k n) as [->|NE].
      * exists e. split; [auto|]. apply get_set_prefix in SB. rewrite LE in SB. exact SB.
      * destruct (H k ltac:(lia)) as (e' & G1 & G2). exists e'. split; [auto|].
        rewrite (get_set_disjoint _ _ _ _ _ u SB) by lia. exact G2.
Qed.

(** Integers and pointers. *)
Lemma put_int_ok p c al sz a e r blk st var g v s area :
  rel (is_apple p) st var g v s -> extend_integer a c = Ok e -> le_enc 8 e = a ++ r -> zlen a = sz -> 1 <= sz <= 8 ->
  is_pow2 al -> al <= 16 -> s <= area -> area < 2 ^ 40 -> 192 + area <= zlen blk -> a_area st = area ->
  let A := stack_align (is_apple p) var al in
  forall pl g' s', (pl, g', s') = (if negb var && (g + 1 <=? 8) then (Xregs g, g + 1, s)
                     else (Stack (round_up s A), 8, round_up s A + stack_size (is_apple p) sz)) ->
  s' <= area ->
  exists b st', put_int p c al sz a blk st = Ok (b, st') /\
    rel (is_apple p) st' var g' v s' /\ a_area st' = area /\ a_nsrn st' = a_nsrn st /\ a_ngrn st <= a_ngrn st' /\
    keeps st s area blk b /\
    forall t b2, keeps st' s' area b b2 -> at_block b2 t pl a.
Proof.
  intros R EX LE LA SZ P16 L16 SA AB ZB AR A pl g' s' PL S'. pose proof R as (V & RG & G & VV & N & S).
  unfold put_int. rewrite EX. cbn [bind].
  assert (L8 : zlen (le_enc 8 e) = 8) by apply le_enc_zlen.
  pose proof (rel_s _ _ _ _ _ _ R) as [RS _].
  change (16 * N_V) with 128. change CTX with 192. change N_X with 8.
  destruct (a_ngrn st <? 8) eqn:GR.
  - destruct var; [exfalso; lia|]. cbn [negb andb] in PL. destruct RG as [RG1 RG2].
    replace (g + 1 <=? 8) with true in PL by lia. injection PL as -> -> ->.
    destruct (set_range_ok blk (128 + 8 * a_ngrn st) (le_enc 8 e)) as (b & SB & ZB'); [lia|lia|].
    rewrite SB. cbn [of_option bind]. exists b, (with_ngrn (a_ngrn st + 1) st). split; [reflexivity|].
    split. { unfold rel, with_ngrn; cbn. repeat split; auto; lia. }
    split; [exact AR|]. split; [reflexivity|]. split; [cbn; lia|].
    split. { eapply set_keeps; eauto; lia. }
    intros t b2 [ZL K]. cbn [at_block]. apply K.
    + unfold kept; cbn. rewrite LA. lia.
    + rewrite LE in SB. apply get_set_prefix in SB. rewrite <- RG1. exact SB.
  - assert (C : negb var && (g + 1 <=? 8) = false) by (destruct var; [reflexivity|cbn; lia]).
    rewrite C in PL. injection PL as -> -> ->.
    assert (BB : round_up s A + stack_size (is_apple p) sz < 2 ^ 60) by lia.
    destruct (allocate_ok p st var g v s al sz R P16 L16 ltac:(lia) BB) as (st1 & AL & N1 & N2 & N3 & N4 & N5 & N6 & N7 & N8 & N9).
    rewrite AL. fold A in N5, N6, N7, N8 |- *.
    set (o := round_up s A) in *.
    assert (DD : exists dd, (match p with Apple => of_option (get_range a 0 sz) | _ => Ok (le_enc 8 e) end) = Ok dd /\
       (exists r', dd = a ++ r') /\ zlen dd <= stack_size (is_apple p) sz).
    { unfold stack_size. destruct p; cbn [is_apple].
      - exists (le_enc 8 e). split; [reflexivity|]. split; [eauto|]. pose proof (round_up_le sz 8). 
        assert (8 <= round_up sz 8). { pose proof (round_up_divide sz 8) as [q Q]. lia. } lia.
      - exists a. rewrite <- LA, get_range_all. split; [reflexivity|]. split; [exists []; rewrite app_nil_r; reflexivity|lia].
      - exists (le_enc 8 e). split; [reflexivity|]. split; [eauto|]. pose proof (round_up_le sz 8). 
        assert (8 <= round_up sz 8). { pose proof (round_up_divide sz 8) as [q Q]. lia. } lia. }
    destruct DD as (dd & ED & (r' & DR) & LD). rewrite ED. cbn [bind].
    assert (ZD : zlen a <= zlen dd) by (rewrite DR, zlen_app; pose proof (zlen_nonneg r'); lia).
    destruct (set_range_ok blk (192 + o) dd) as (b & SB & ZB'); [lia|lia|].
    rewrite SB. cbn [of_option bind]. exists b, (with_ngrn 8 st1). split; [reflexivity|].
    split.
    { unfold rel, with_ngrn; cbn. rewrite N4, N2, N5. repeat split; auto; try lia.
      - destruct var; [tauto|]. split; [reflexivity|tauto].
      - destruct (is_apple p) eqn:AP; [unfold stack_size; lia|]. exact N8. }
    split; [cbn; lia|]. split; [cbn; lia|].
    assert (G8 : a_ngrn st <= 8) by (destruct var; lia).
    split; [cbn; lia|].
    assert (V8 : 0 <= a_nsrn st <= 8) by (destruct var; lia).
    split. { eapply set_keeps; eauto; lia. }
    intros t b2 [ZL K]. cbn [at_block]. apply K.
    + unfold kept; cbn. rewrite LA. lia.
    + rewrite DR in SB. apply get_set_prefix in SB. exact SB.
Qed.

Lemma natural_int_or t : natural t -> is_int_type t \/
  match ty_code t with T_FLOAT | T_DOUBLE | T_LONGDOUBLE | T_STRUCT | T_COMPLEX => True | _ => False end.
Proof.
  intros N. destruct (natural_cases _ N) as [H|[(u & H & ->)|(s & a & es & -> & _)]]; [|right; exact Logic.I|right; exact Logic.I].
  cbn in H. destruct H as [<-|H]; [left; left; reflexivity|].
  repeat (destruct H as [<-|H]; [first [right; exact Logic.I|left; right; cbn; tauto]|]). contradiction.
Qed.

Lemma put_arg_int p win base t obj blk st : is_int_type t ->
  put_arg p win base t obj blk st = put_int p (ty_code t) (ty_align t) (ty_size t) obj blk st.
Proof.
  intros [-> | H]; [reflexivity|]. cbn in H. repeat (destruct H as [<-|H]; [reflexivity|]). contradiction.
Qed.

Lemma put_arg_agg p base t obj blk st :
  match ty_code t with T_FLOAT | T_DOUBLE | T_LONGDOUBLE | T_STRUCT | T_COMPLEX => True | _ => False end ->
  put_arg p false base t obj blk st =
    let s := ty_size t in
    let copy (off : Z) (st' : ast) :=
      let* d := of_option (get_range obj 0 s) in
      let* b := of_option (set_range blk off d) in
      Ok (b, st') in
    let* h := is_vfp p t in
    if negb (h =? 0) then
      if a_nsrn st + vfp_count h <=? N_V then
        let* b := extend_hfa blk (16 * a_nsrn st) obj (vfp_unit h) (Z.to_nat (vfp_count h)) in
        Ok (b, with_nsrn (a_nsrn st + vfp_count h) st)
      else
        let '(o, st1) := allocate_to_stack p (with_nsrn N_V st) (ty_align t) s in
        copy (CTX + o) st1
    else if s >? 16 then
      let dest := ffi_align_down (wrap64 (a_area st - s)) (ty_align t) in
      let* d := of_option (get_range obj 0 s) in
      let* b := of_option (set_range blk (CTX + dest) d) in
      put_int p T_POINTER (ty_align t) 8 (le_enc 8 (base + CTX + dest)) b (with_area dest st)
    else
      if a_ngrn st + (s + 7) / 8 <=? N_X then copy (16 * N_V + 8 * a_ngrn st) (with_ngrn (a_ngrn st + (s + 7) / 8) st)
      else
        let '(o, st1) := allocate_to_stack p (with_ngrn N_X st) (ty_align t) s in
        copy (CTX + o) st1.
Proof. unfold put_arg. destruct (ty_code t); intros H; try contradiction; reflexivity. Qed.

(** New lower end of the copies. *)
Definition next_area (t : ftype) (area : Z) : Z :=
  if by_ref t then round_down (area - ty_size t) (ty_align t) else area.

Lemma get_range_obj (o : list Z) n : zlen o = n -> get_range o 0 n = Some o.
Proof. intros <-. apply get_range_all. Qed.

Lemma kept_mono st s area st' s' area' off len :
  a_ngrn st <= a_ngrn st' -> a_nsrn st <= a_nsrn st' -> s <= s' -> area' <= area ->
  kept st s area off len -> kept st' s' area' off len.
Proof. unfold kept. intros. lia. Qed.

Lemma put_arg_ok p base t obj blk st var g v s area :
  natural t -> quads_ok p t -> zlen obj = ty_size t -> bytes_ok obj ->
  rel (is_apple p) st var g v s -> a_area st = area -> area < 2 ^ 40 -> area <= top -> 192 + area <= zlen blk ->
  0 <= base -> base + 192 + area < 2 ^ 64 -> 
  forall pl g' v' s', place_arg (is_apple p) var t g v s = (pl, g', v', s') ->
  0 <= s -> s' <= next_area t area ->
  (by_ref t = true -> forall o, pl = Stack o -> stack_align (is_apple p) var (ty_align t) = 8) ->
  exists b st', put_arg p false base t obj blk st = Ok (b, st') /\
    rel (is_apple p) st' var g' v' s' /\ a_area st' = next_area t area /\
    a_ngrn st <= a_ngrn st' /\ a_nsrn st <= a_nsrn st' /\ s <= s' /\ next_area t area <= area /\
    keeps st s area blk b /\
    forall b2, keeps st' s' (next_area t area) b b2 ->
      if by_ref t then
        at_block b2 t pl (le_enc 8 (base + 192 + next_area t area)) /\
        get_range b2 (192 + next_area t area) (ty_size t) = Some obj
      else at_block b2 t pl obj.
Proof.
  intros N Q LO BO R AR A40 AT ZB BP BB pl g' v' s' PL S0 S' PS.
  pose proof (natural_basic _ N) as (SP & PW & A16 & DV). pose proof (is_pow2_pos _ PW) as AP.
  pose proof R as (V & RG & G & VV & NN & S).
  destruct (natural_int_or t N) as [I|C].
  - (* integers *)
    destruct (int_type_facts t I) as (HN & AS & SZ & _).
    assert (BR : by_ref t = false) by (unfold by_ref; rewrite HN; lia).
    unfold next_area in *. rewrite BR in *. rewrite (put_arg_int _ _ _ _ _ _ _ I).
    destruct (extend_integer_ok t obj I LO BO) as (EX & r & LE).
    assert (DIV : (ty_size t + 7) / 8 = 1).
    { pose proof (Z.div_mod (ty_size t + 7) 8). pose proof (Z.mod_pos_bound (ty_size t + 7) 8). lia. }
    unfold place_arg in PL. rewrite HN, BR, DIV in PL.
    assert (PL' : (pl, g', s') = (if negb var && (g + 1 <=? 8) then (Xregs g, g + 1, s)
                     else (Stack (round_up s (stack_align (is_apple p) var (ty_align t))), 8,
                           round_up s (stack_align (is_apple p) var (ty_align t)) + stack_size (is_apple p) (ty_size t))) /\ v' = v).
    { destruct (negb var && (g + 1 <=? 8)); injection PL as <- <- <- <-; auto. }
    destruct PL' as [PL' ->].
    assert (SS : s <= s').
    { destruct (stack_align_pow2 (is_apple p) var (ty_align t) PW A16) as (PA & _).
      apply is_pow2_pos in PA. pose proof (round_up_le s (stack_align (is_apple p) var (ty_align t)) ltac:(lia)).
      assert (0 <= stack_size (is_apple p) (ty_size t)).
      { unfold stack_size. destruct (is_apple p); [lia|]. pose proof (round_up_le (ty_size t) 8). lia. }
      destruct (negb var && (g + 1 <=? 8)); injection PL' as -> -> ->; lia. }
    destruct (put_int_ok p (ty_code t) (ty_align t) (ty_size t) obj _ r blk st var g v s area R EX LE LO SZ PW A16
                ltac:(lia) A40 ZB AR pl g' s' PL' S') as (b & st' & E & R' & A' & N1 & N2 & K & H).
    exists b, st'. split; [exact E|]. split; [exact R'|]. split; [exact A'|]. split; [exact N2|]. split; [lia|].
    split; [exact SS|]. split; [lia|]. split; [exact K|]. intros b2 K2. apply H; auto.
  - rewrite (put_arg_agg _ _ _ _ _ _ C). rewrite (is_vfp_exact p t N Q). cbn [bind]. cbv zeta.
    change (16 * N_V) with 128. change CTX with 192. change N_X with 8. change N_V with 8.
    rewrite (get_range_obj obj (ty_size t) LO). cbn [of_option bind].
    destruct (stack_align_pow2 (is_apple p) var (ty_align t) PW A16) as (PA & _ & _ & _).
    apply is_pow2_pos in PA. pose proof (round_up_le s (stack_align (is_apple p) var (ty_align t)) ltac:(lia)) as RU.
    assert (SSZ : ty_size t <= stack_size (is_apple p) (ty_size t)).
    { unfold stack_size. destruct (is_apple p); [lia|]. pose proof (round_up_le (ty_size t) 8). lia. }
    destruct (hfa_of t) as [[c n]|] eqn:HF.
    + (* vector registers *)
      destruct (vfp_code_pos t c n HF) as (_ & NZ & CNT & UN & LN).
      assert (BR : by_ref t = false) by (unfold by_ref; rewrite HF; reflexivity).
      unfold next_area in *. rewrite BR in *.
      replace (negb (vfp_code t =? 0)) with true by lia. rewrite CNT, UN.
      pose proof (proj1 (hfa_of_spec _ _ _) HF) as (MM & FC & _).
      destruct (homogeneous_size t N c n FC MM) as [HS HA].
      assert (U : fsize c = 4 \/ fsize c = 8 \/ fsize c = 16) by (destruct c; try discriminate FC; cbn; auto).
      unfold place_arg in PL. rewrite HF in PL.
      destruct (a_nsrn st + Z.of_nat n <=? 8) eqn:VR.
      * destruct var; [exfalso; lia|]. destruct RG as [RG1 RG2].
        cbn [negb andb] in PL. replace (v + Z.of_nat n <=? 8) with true in PL by lia. injection PL as <- <- <- <-.
        rewrite Nat2Z.id.
        destruct (extend_hfa_ok blk (16 * a_nsrn st) obj (fsize c) U ltac:(lia) n ltac:(lia) ltac:(lia)) as (b & E & Zb & K & H).
        rewrite E. cbn [bind]. exists b, (with_nsrn (a_nsrn st + Z.of_nat n) st). split; [reflexivity|].
        split. { unfold rel, with_nsrn; cbn. repeat split; auto; lia. }
        split; [exact AR|]. split; [cbn; lia|]. split; [cbn; lia|]. split; [lia|]. split; [lia|].
        split. { split; [lia|]. intros off len d (O & L & KK) GG. rewrite K; [auto|auto|]. lia. }
        intros b2 [ZL K2]. cbn [at_block]. exists c, n. split; [exact HF|]. intros k Hk.
        destruct (H k Hk) as (e & G1 & G2). exists e. split; [exact G1|].
        apply K2. { unfold kept; cbn. lia. }
        replace (16 * (v + Z.of_nat k)) with (16 * a_nsrn st + 16 * Z.of_nat k) by lia. exact G2.
      * assert (CC : negb var && (v + Z.of_nat n <=? 8) = false) by (destruct var; [reflexivity|cbn; lia]).
        rewrite CC in PL. injection PL as <- <- <- <-.
        assert (R2 : rel (is_apple p) (with_nsrn 8 st) var g 8 s).
        { unfold rel, with_nsrn; cbn. destruct var; repeat split; auto; try lia; tauto. }
        destruct (allocate_ok p (with_nsrn 8 st) var g 8 s (ty_align t) (ty_size t) R2 PW A16 SP ltac:(lia)) as (st1 & AL & N1 & N2 & N3 & N4 & N5 & N6 & N7 & N8 & N9).
        cbv zeta in N5, N6, N7, N8, AL. rewrite AL. set (o := round_up s (stack_align (is_apple p) var (ty_align t))) in *.
        cbn in N1, N2, N3.
        destruct (set_range_ok blk (192 + o) obj) as (b & SB & ZB'); [lia|lia|].
        rewrite SB. cbn [of_option bind]. exists b, st1. split; [reflexivity|].
        split.
        { unfold rel. rewrite N1, N2, N4, N5. repeat split; auto; try lia.
          - destruct var; [tauto|]. split; [tauto|reflexivity].
          - destruct (is_apple p) eqn:APL; [unfold stack_size; lia|]. exact N8. }
        split; [lia|]. split; [lia|]. split; [destruct var; lia|]. split; [lia|]. split; [lia|].
        split. { eapply set_keeps; eauto; try lia; destruct var; lia. }
        intros b2 [ZL K]. cbn [at_block]. apply K; [unfold kept; rewrite LO; lia|].
        apply get_set_same in SB. exact SB.
    + assert (VZ : vfp_code t = 0) by (unfold vfp_code; rewrite HF; reflexivity). rewrite VZ. cbn [Z.eqb negb].
      unfold place_arg in PL. rewrite HF in PL.
      assert (BR : by_ref t = (ty_size t >? 16)) by (unfold by_ref; rewrite HF; reflexivity).
      unfold next_area in *. rewrite BR in *. destruct (ty_size t >? 16) eqn:S16.
      * (* by reference *)
        pose proof (round_down_bounds (area - ty_size t) (ty_align t) ltac:(lia)) as (D1 & D2 & D3).
        set (dest := round_down (area - ty_size t) (ty_align t)) in *.
        change ((8 + 7) / 8) with 1 in PL.
        assert (PL' : (pl, g', s') = (if negb var && (g + 1 <=? 8) then (Xregs g, g + 1, s)
                     else (Stack (round_up s (stack_align (is_apple p) var 8)), 8,
                           round_up s (stack_align (is_apple p) var 8) + stack_size (is_apple p) 8)) /\ v' = v).
        { destruct (negb var && (g + 1 <=? 8)); injection PL as <- <- <- <-; auto. }
        destruct PL' as [PL' ->]. clear PL.
        assert (E8 : stack_align (is_apple p) var 8 = 8) by (unfold stack_align; destruct (is_apple p && negb var); lia).
        assert (Z8 : stack_size (is_apple p) 8 = 8) by (unfold stack_size; destruct (is_apple p); [reflexivity|vm_compute; reflexivity]).
        rewrite E8, Z8 in PL'.
        pose proof (round_up_le s 8 ltac:(lia)) as RU8.
        assert (SS : s <= s') by (destruct (negb var && (g + 1 <=? 8)); injection PL' as -> -> ->; lia).
        assert (W : wrap64 (a_area st - ty_size t) = area - ty_size t) by (unfold wrap64, wrap; rewrite AR; apply Z.mod_small; lia).
        rewrite W, align_down_round by (auto; lia). fold dest.
        destruct (set_range_ok blk (192 + dest) obj) as (b & SB & ZB'); [lia|lia|].
        rewrite SB. cbn [of_option bind].
        assert (R2 : rel (is_apple p) (with_area dest st) var g v s) by exact R.
        assert (LB : le_dec (le_enc 8 (base + 192 + dest)) = base + 192 + dest).
        { rewrite le_dec_enc. apply Z.mod_small. change (2 ^ (8 * Z.of_nat 8)) with (2 ^ 64). lia. }
        assert (EX : extend_integer (le_enc 8 (base + 192 + dest)) T_POINTER = Ok (base + 192 + dest)).
        { unfold extend_integer. rewrite (get_range_obj _ 8 (le_enc_zlen 8 _)). cbn [of_option bind]. rewrite LB. reflexivity. }
        assert (PL2 : (pl, g', s') = (if negb var && (g + 1 <=? 8) then (Xregs g, g + 1, s)
                     else (Stack (round_up s (stack_align (is_apple p) var (ty_align t))), 8,
                           round_up s (stack_align (is_apple p) var (ty_align t)) + stack_size (is_apple p) 8))).
        { destruct (negb var && (g + 1 <=? 8)) eqn:CC; [exact PL'|].
          injection PL' as -> -> ->. rewrite (PS eq_refl _ eq_refl), Z8. reflexivity. }
        destruct (put_int_ok p T_POINTER (ty_align t) 8 (le_enc 8 (base + 192 + dest)) _ [] b (with_area dest st) var g v s dest
                    R2 EX (eq_sym (app_nil_r _)) (le_enc_zlen 8 _) ltac:(lia) PW A16 ltac:(lia) ltac:(lia) ltac:(lia) eq_refl pl g' s' PL2 S')
          as (b1 & st' & E & R' & A' & N1 & N2 & K & H).
        rewrite E. exists b1, st'. split; [reflexivity|]. split; [exact R'|]. split; [exact A'|].
        split; [exact N2|]. split; [cbn in N1; lia|]. split; [exact SS|]. split; [lia|].
        assert (K1 : keeps st s area blk b).
        { eapply set_keeps; eauto; try lia; destruct var; lia. }
        split.
        { eapply keeps_trans; [|exact K1|exact K]. intros off len KK. eapply kept_mono; [| | | |exact KK]; cbn; lia. }
        intros b2 K2. split; [apply H; auto|].
        destruct K2 as [_ K2]. apply K2; [unfold kept; cbn in N1; lia|].
        destruct K as [_ K]. apply K; [unfold kept; cbn; lia|].
        apply get_set_same in SB. rewrite LO in SB. exact SB.
      * (* small structs *)
        destruct (a_ngrn st + (ty_size t + 7) / 8 <=? 8) eqn:GR.
        -- assert (D8 : ty_size t <= 8 * ((ty_size t + 7) / 8) /\ 0 < (ty_size t + 7) / 8).
           { pose proof (Z.div_mod (ty_size t + 7) 8). pose proof (Z.mod_pos_bound (ty_size t + 7) 8). lia. }
           destruct var; [exfalso; lia|]. destruct RG as [RG1 RG2].
           cbn [negb andb] in PL. replace (g + (ty_size t + 7) / 8 <=? 8) with true in PL by lia. injection PL as <- <- <- <-.
           destruct (set_range_ok blk (128 + 8 * a_ngrn st) obj) as (b & SB & ZB'); [lia|lia|].
           rewrite SB. cbn [of_option bind]. exists b, (with_ngrn (a_ngrn st + (ty_size t + 7) / 8) st). split; [reflexivity|].
           split. { unfold rel, with_ngrn; cbn. repeat split; auto; lia. }
           split; [exact AR|]. split; [cbn; lia|]. split; [cbn; lia|]. split; [lia|]. split; [lia|].
           split. { eapply set_keeps; eauto; lia. }
           intros b2 [ZL K]. cbn [at_block]. apply K; [unfold kept; cbn; rewrite LO; lia|].
           apply get_set_same in SB. rewrite <- RG1. exact SB.
        -- assert (CC : negb var && (g + (ty_size t + 7) / 8 <=? 8) = false) by (destruct var; [reflexivity|cbn; lia]).
           rewrite CC in PL. injection PL as <- <- <- <-.
           assert (R2 : rel (is_apple p) (with_ngrn 8 st) var 8 v s).
           { unfold rel, with_ngrn; cbn. destruct var; repeat split; auto; try lia; tauto. }
           destruct (allocate_ok p (with_ngrn 8 st) var 8 v s (ty_align t) (ty_size t) R2 PW A16 SP ltac:(lia)) as (st1 & AL & N1 & N2 & N3 & N4 & N5 & N6 & N7 & N8 & N9).
           cbv zeta in N5, N6, N7, N8, AL. rewrite AL. set (o := round_up s (stack_align (is_apple p) var (ty_align t))) in *.
           cbn in N1, N2, N3.
           destruct (set_range_ok blk (192 + o) obj) as (b & SB & ZB'); [lia|lia|].
           rewrite SB. cbn [of_option bind]. exists b, st1. split; [reflexivity|].
           split.
           { unfold rel. rewrite N1, N2, N4, N5. repeat split; auto; try lia.
             - destruct var; [tauto|]. split; [reflexivity|tauto].
             - destruct (is_apple p) eqn:APL; [unfold stack_size; lia|]. exact N8. }
           split; [lia|]. split; [destruct var; lia|]. split; [lia|]. split; [lia|]. split; [lia|].
           split. { eapply set_keeps; eauto; try lia; destruct var; lia. }
           intros b2 [ZL K]. cbn [at_block]. apply K; [unfold kept; rewrite LO; lia|].
           apply get_set_same in SB. exact SB.
Qed.

(** All arguments in the block; [offs]: offsets of the copies. *)
Fixpoint heldb (base : Z) (b : list Z) (ts : list ftype) (pls : list place) (objs : list (list Z)) (offs : list Z) : Prop :=
  match ts, pls, objs with
  | [], [], [] => offs = []
  | t :: ts', pl :: pls', o :: objs' =>
    if by_ref t then
      match offs with
      | a :: offs' =>
        at_block b t pl (le_enc 8 (base + 192 + a)) /\ get_range b (192 + a) (ty_size t) = Some o /\
    heldb base b ts' pls' objs' offs'
      | [] => False
      end
    else at_block b t pl o /\ heldb base b ts' pls' objs' offs
  | _, _, _ => False
  end.

Fixpoint copy_offs (ts : list ftype) (area : Z) : list Z :=
  match ts with
  | [] => []
  | t :: r => if by_ref t then next_area t area :: copy_offs r (next_area t area) else copy_offs r area
  end.

Lemma lowest_next t r area : lowest_copy (t :: r) area = lowest_copy r (next_area t area).
Proof. reflexivity. Qed.

Lemma lowest_le ts area : Forall natural ts -> lowest_copy ts area <= area.
Proof.
  intros F. revert area. induction F as [|t r N F IH]; intros area; [cbn; lia|].
  rewrite lowest_next. specialize (IH (next_area t area)). unfold next_area in *.
  destruct (by_ref t); [|lia]. pose proof (natural_basic _ N) as (SP & PW & _). apply is_pow2_pos in PW.
  pose proof (round_down_bounds (area - ty_size t) (ty_align t)). lia.
Qed.

Lemma place_arg_mono apple var t g v s pl g' v' s' : natural t -> 0 <= s ->
  place_arg apple var t g v s = (pl, g', v', s') -> s <= s'.
Proof.
  intros N S H. pose proof (natural_basic _ N) as (SP & PW & A16 & _).
  assert (G : forall a sz, is_pow2 a -> a <= 16 -> 0 < sz -> s <= round_up s (stack_align apple var a) + stack_size apple sz).
  { intros a sz P L Z0. destruct (stack_align_pow2 apple var a P L) as (PA & _). apply is_pow2_pos in PA.
    pose proof (round_up_le s (stack_align apple var a) ltac:(lia)). unfold stack_size. destruct apple; [lia|].
    pose proof (round_up_le sz 8). lia. }
  assert (P8 : is_pow2 8) by (exists 3; split; [lia|reflexivity]).
  unfold place_arg in H. destruct (hfa_of t) as [[c n]|].
  - destruct (negb var && (v + Z.of_nat n <=? 8)); injection H as <- <- <- <-; [lia|auto].
  - destruct (by_ref t).
    + destruct (negb var && (g + (8 + 7) / 8 <=? 8)); injection H as <- <- <- <-; [lia|apply (G 8 8); [exact P8|lia|lia]].
    + destruct (negb var && (g + (ty_size t + 7) / 8 <=? 8)); injection H as <- <- <- <-; [lia|auto].
Qed.

Lemma assign_mono apple fixed ts : Forall natural ts -> forall i g v s pls e, 0 <= s ->
  assign apple fixed i ts g v s = (pls, e) -> s <= e.
Proof.
  induction 1 as [|t r N F IH]; intros i g v s pls e S H; cbn [assign] in H; [injection H as <- <-; lia|].
  destruct (place_arg apple (variadic apple fixed i) t g v s) as [[[pl g'] v'] s'] eqn:P.
  destruct (assign apple fixed (i + 1) r g' v' s') as [l e'] eqn:A. injection H as <- <-.
  pose proof (place_arg_mono _ _ _ _ _ _ _ _ _ _ N S P). assert (S2 : 0 <= s') by lia. specialize (IH _ _ _ _ _ _ S2 A). lia.
Qed.

(** aarch64_nfixedargs of the prepared cif. *)
Definition nfixed_of (p : platform) (fixed : option Z) : Z :=
  match p, fixed with Apple, Some n => n | _, _ => 0 end.

Lemma after_rel p fixed i st g v s : 0 <= i -> (forall n, fixed = Some n -> 1 <= n) ->
  rel (is_apple p) st (variadic (is_apple p) fixed i) g v s ->
  rel (is_apple p) (after_arg p (nfixed_of p fixed) i st) (variadic (is_apple p) fixed (i + 1)) g v s.
Proof.
  intros I F R. unfold after_arg. destruct p; cbn [is_apple nfixed_of] in *.
  - unfold variadic in *. destruct fixed; cbn [andb] in *; exact R.
  - destruct fixed as [n|]; cbn [variadic andb] in *.
    + specialize (F n eq_refl). destruct (i + 1 =? n) eqn:E.
      * replace (n <=? i + 1) with true by lia. destruct R as (A & B & C & D & H & K).
        unfold rel; cbn. repeat split; auto; lia.
      * replace (n <=? i + 1) with (n <=? i) by lia. exact R.
    + replace (i + 1 =? 0) with false by lia. exact R.
  - unfold variadic in *. destruct fixed; cbn [andb] in *; exact R.
Qed.

Lemma after_fields p nf i st : a_area (after_arg p nf i st) = a_area st /\
  (a_ngrn st <= 8 -> a_ngrn st <= a_ngrn (after_arg p nf i st)) /\ (a_nsrn st <= 8 -> a_nsrn st <= a_nsrn (after_arg p nf i st)).
Proof. unfold after_arg. destruct p; try (repeat split; lia). destruct (i + 1 =? nf); cbn; repeat split; unfold N_X, N_V; lia. Qed.

Lemma put_args_ok p fixed base : 0 <= base -> (forall n, fixed = Some n -> 1 <= n) ->
  forall ts, Forall natural ts -> Forall (quads_ok p) ts -> forall objs, objects_ok ts objs ->
  forall i blk st g v s area pls e, 0 <= i ->
  rel (is_apple p) st (variadic (is_apple p) fixed i) g v s -> a_area st = area ->
  area < 2 ^ 40 -> area <= top -> 192 + area <= zlen blk -> base + 192 + area < 2 ^ 64 ->
  assign (is_apple p) fixed i ts g v s = (pls, e) -> 0 <= s -> e <= lowest_copy ts area ->
  pointer_slots_ok (is_apple p) fixed i ts pls ->
  exists b st', put_args p false (nfixed_of p fixed) base i ts objs blk st = Ok (b, st') /\
    keeps st s area blk b /\ a_ngrn st <= a_ngrn st' /\ a_nsrn st <= a_nsrn st' /\
    (a_ngrn st' <= 8 /\ a_nsrn st' <= 8) /\
    forall b2, keeps st' e (lowest_copy ts area) b b2 -> heldb base b2 ts pls objs (copy_offs ts area).
Proof.
  intros BP FX ts F. induction F as [|t r N F IH]; intros Q objs O i blk st g v s area pls e I R AR A40 AT ZB BB AS S0 FIT PS.
  - cbn [assign] in AS. injection AS as <- <-. inversion O; subst. cbn [put_args]. exists blk, st.
    split; [reflexivity|]. split; [apply keeps_refl|]. split; [lia|]. split; [lia|].
    split. { destruct R as (_ & X & X1 & X2 & _). destruct (variadic (is_apple p) fixed i); lia. } intros. reflexivity.
  - inversion O as [|t0 o r0 os [LO BO] O']; subst. inversion Q as [|? ? Qt Qr]; subst.
    cbn [assign] in AS. destruct (place_arg (is_apple p) (variadic (is_apple p) fixed i) t g v s) as [[[pl g'] v'] s'] eqn:PL.
    destruct (assign (is_apple p) fixed (i + 1) r g' v' s') as [l e'] eqn:AS'. injection AS as <- <-.
    cbn [pointer_slots_ok] in PS. destruct PS as [PS1 PS2]. rewrite lowest_next in FIT.
    pose proof (place_arg_mono _ _ _ _ _ _ _ _ _ _ N S0 PL) as M1.
    assert (S2 : 0 <= s') by lia. pose proof (assign_mono _ _ _ F _ _ _ _ _ _ S2 AS') as M2.
    pose proof (lowest_le r (next_area t (a_area st)) F) as LL.
    destruct (put_arg_ok p base t o blk st _ g v s (a_area st) N Qt LO BO R eq_refl A40 AT ZB BP BB pl g' v' s' PL S0 ltac:(lia) PS1)
      as (b1 & st1 & E1 & R1 & A1 & G1 & V1 & SS1 & NA & K1 & H1).
    pose proof (after_rel p fixed i st1 g' v' s' I FX R1) as R2.
    destruct (after_fields p (nfixed_of p fixed) i st1) as (AF1 & AF2 & AF3).
    assert (G8 : a_ngrn st1 <= 8 /\ a_nsrn st1 <= 8).
    { destruct R1 as (_ & X & X1 & X2 & _). destruct (variadic (is_apple p) fixed i); lia. }
    destruct (IH Qr os O' (i + 1) b1 (after_arg p (nfixed_of p fixed) i st1) g' v' s' (next_area t (a_area st)) l e'
                ltac:(lia) R2 ltac:(lia) ltac:(lia) ltac:(lia) ltac:(destruct K1; lia) ltac:(lia) AS' ltac:(lia) FIT PS2)
      as (b & st' & E & K & MG & MV & M8 & H).
    cbn [put_args]. rewrite E1. cbn [bind]. rewrite E. exists b, st'. split; [reflexivity|].
    assert (KA : keeps st1 s' (next_area t (a_area st)) b1 b).
    { eapply keeps_trans; [|apply keeps_refl|exact K]. intros off len KK. eapply kept_mono; [| | | |exact KK]; lia. }
    split.
    { eapply keeps_trans; [|exact K1|exact KA]. intros off len KK. eapply kept_mono; [| | | |exact KK]; lia. }
    split; [lia|]. split; [lia|]. split; [exact M8|].
    intros b2 K2. rewrite lowest_next in K2. specialize (H b2 K2). cbn [heldb copy_offs].
    assert (K3 : keeps st1 s' (next_area t (a_area st)) b1 b2).
    { eapply keeps_trans; [|exact KA|exact K2]. intros off len KK. eapply kept_mono; [| | | |exact KK]; lia. }
    specialize (H1 b2 K3). unfold next_area in H1, H |- *. destruct (by_ref t).
    + destruct H1 as [H1 H2]. repeat split; auto.
    + split; auto.
Qed.
End Area.
