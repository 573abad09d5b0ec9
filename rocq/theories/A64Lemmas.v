(** Round trips, witnesses and sample signatures for the AArch64 properties. *)
From Coq Require Import ZifyBool ZifyNat.
From Verif Require Import Base BaseFacts Types LayoutSpec NaturalTypes NaturalFacts A64Model A64Spec A64Hfa A64Facts A64Call A64Main A64Closure A64Ret A64Fits.
Local Arguments Z.mul : simpl never.
Local Arguments Z.add : simpl never.

Lemma ptrs_range x v sp rd ts : Forall natural ts -> forall pls objs ptrs lo hi,
  held x v sp rd ts pls objs ptrs -> copies_ok ts ptrs lo hi -> 0 <= lo -> hi < 2 ^ 64 -> Forall (fun a => 0 <= a < 2 ^ 64) ptrs.
Proof.
  induction 1 as [|t r N F IH]; intros pls objs ptrs lo hi H C L HI; cbn [held copies_ok] in *.
  - destruct pls; [|contradiction]. destruct objs; [|contradiction]. subst. constructor.
  - destruct pls as [|pl l]; [contradiction|]. destruct objs as [|o os]; [contradiction|].
    pose proof (natural_basic _ N) as (SP & _). destruct (by_ref t).
    + destruct ptrs as [|a ps]; [contradiction|]. destruct H as (_ & _ & H). destruct C as (C1 & C2 & _ & C).
      constructor; [lia|]. apply (IH _ _ _ _ _ H C); lia.
    + destruct H as (_ & H). apply (IH _ _ _ _ _ H C); lia.
Qed.

Theorem round_trip p abi fixed rt ts c rv objs chain base g_blk g_v frame g_v2 slot :
  signature_ok p abi fixed rt ts -> prep p abi fixed rt ts = Ok c -> objects_ok ts objs ->
  zlen g_blk = call_size c rv -> zlen g_v = 128 -> zlen frame = 40 ->
  0 <= base -> (16 | base) -> base + call_size c rv < 2 ^ 64 ->
  fits p fixed c -> pointer_slots_ok (is_apple p) fixed 0 ts (places (is_apple p) fixed ts) ->
  zlen g_v2 = 128 -> zlen slot = 64 ->
  exists m fl r l blk q fl2, call p c rv objs chain base g_blk g_v frame = Ok (m, fl, r) /\
    closure p c m g_v2 slot = Ok (l, blk, q, fl2) /\ seen m blk ts l objs /\
    (forall a, rv = Some a -> q = if in_memory rt then RCaller a else RSlot).
Proof.
  intros SO PR O ZB ZV ZF BP DB BB FIT PS ZG ZS.
  destruct (call_places p abi fixed rt ts c rv objs chain base g_blk g_v frame SO PR O ZB ZV ZF BP DB BB FIT PS)
    as (m & fl & r & ptrs & E & SPE & _ & ZX & ZVM & H & C & X8).
  pose proof SO as (N & _ & RT & _).
  assert (EA : k_args c = ts) by (rewrite (prep_ok _ _ _ _ _ SO) in PR; injection PR as <-; reflexivity).
  assert (KB : 0 <= k_bytes c < 2 ^ 32).
  { rewrite (prep_ok _ _ _ _ _ SO) in PR. injection PR as <-. cbn [k_bytes]. apply wrap32_range. }
  assert (ER : k_rtype c = rt) by (rewrite (prep_ok _ _ _ _ _ SO) in PR; injection PR as <-; reflexivity).
  assert (RS : 0 <= ty_size rt) by (destruct RT as [-> | [NR _]]; [cbn; lia|pose proof (natural_basic _ NR) as (? & _); lia]).
  assert (CS : 232 + k_bytes c <= call_size c rv).
  { unfold call_size. rewrite ER. change CTX with 192. destruct rv; [destruct (negb _ && negb _)|destruct (negb _)]; lia. }
  pose proof (lowest_le ts (k_bytes c) N) as LL. unfold fits in FIT. rewrite EA in FIT.
  assert (U0 : 0 <= stack_used (is_apple p) fixed ts).
  { unfold stack_used. destruct (assign (is_apple p) fixed 0 ts 0 0 0) as [pls e] eqn:AS. cbn [snd].
    assert (0 <= 0) as Z00 by lia. apply (assign_mono _ _ _ N _ _ _ _ _ _ Z00 AS). }
  assert (PP : Forall (fun a => 0 <= a < 2 ^ 64) ptrs) by (apply (ptrs_range _ _ _ _ _ N _ _ _ _ _ H C); lia).
  destruct (closure_args p abi fixed rt ts c m objs ptrs g_v2 slot SO PR O ZX ZVM ZG ZS ltac:(lia) PP H)
    as (l & blk & q & fl2 & EC & _ & SN & QE & _).
  exists m, fl, r, l, blk, q, fl2. split; [exact E|]. split; [exact EC|].
  split; [apply SN; intros; reflexivity|]. intros a ->. rewrite QE. destruct (in_memory rt) eqn:IM; [|reflexivity].
  destruct (X8 a eq_refl eq_refl) as [-> _]. reflexivity.
Qed.

Theorem result_round_trip p abi fixed rt ts c a objs chain base g_blk g_v frame m fl r g_v2 slot l blk q fl2 :
  signature_ok p abi fixed rt ts -> prep p abi fixed rt ts = Ok c -> objects_ok ts objs ->
  call p c (Some a) objs chain base g_blk g_v frame = Ok (m, fl, r) ->
  closure p c m g_v2 slot = Ok (l, blk, q, fl2) ->
  natural rt -> in_memory rt = false ->
  forall slot2 x v tmp buf d, zlen slot2 = 64 -> bytes_ok slot2 -> zlen x = 16 -> bytes_ok x -> zlen v = 64 -> zlen tmp = 16 ->
  get_range slot2 0 (ty_size rt) = Some d -> room rt <= zlen buf ->
  exists x' v' b, load_ret fl2 slot2 (ARet x v) = Ok (ARet x' v') /\
    finish c fl (ARet x' v') tmp buf = Ok b /\ stored rt d buf b.
Proof.
  intros SO PR O CA CL NR IM slot2 x v tmp buf d L2 B2 LX BX LV LT G RM.
  assert (Q : quads_ok p rt).
  { pose proof SO as (_ & _ & [-> | [_ Q]] & _); [|exact Q]. exfalso. destruct (natural_int_or _ NR) as [[I|I]|C]; [discriminate I| |exact C].
    cbn in I. repeat (destruct I as [I|I]; [discriminate I|]). exact I. }
  assert (FL2 : Z.land fl2 A_RET_MASK = Z.land (spec_flags rt) A_RET_MASK).
  { unfold closure in CL. apply bind_ok in CL as ([l0 b0] & _ & CL). injection CL as _ _ _ <-.
    pose proof SO as (_ & _ & RT & _).
    assert (EF : k_flags c = all_flags p fixed rt ts) by (rewrite (prep_ok _ _ _ _ _ SO) in PR; injection PR as <-; reflexivity).
    pose proof (flags_bits p fixed rt ts RT) as FB. cbv zeta in FB. rewrite <- EF in FB. tauto. }
  destruct (load_result rt fl2 slot2 x v d p NR Q IM FL2 L2 B2 LX BX LV G) as (x' & v' & EL & LX' & BX' & LV' & RET & _).
  assert (LD : zlen d = ty_size rt) by (apply get_range_inv in G; lia).
  destruct (call_result _ _ _ _ _ _ _ _ _ _ _ _ _ _ _ _ SO PR CA NR IM x' v' tmp buf d LX' BX' LV' LT LD RET RM) as (b & EB & SB).
  exists x', v', b. auto.
Qed.

(** ** Samples *)
Definition s_hfa : ftype := c_struct_of [ty_float; c_struct_of [ty_float; ty_float]].
Definition s_big : ftype := c_struct_of [ty_uint64; ty_uint64; ty_uint8].
Definition s_mid : ftype := c_struct_of [ty_uint32; ty_double].
Definition x_args : list ftype :=
  [ty_sint32; s_hfa; s_big; ty_double; ty_uint8; s_mid; ty_pointer; ty_complex_double; ty_sint64; ty_longdouble;
   ty_sint16; s_hfa; s_big].
Definition x_args_apple : list ftype :=
  [ty_sint32; s_hfa; s_big; ty_double; ty_uint8; s_mid; ty_pointer; ty_complex_double; ty_sint64;
   ty_sint16; s_hfa; ty_uint8].
Definition x_objs (ts : list ftype) : list (list Z) :=
  map (fun t => map (fun i => Z.of_nat i + 1) (seq 0 (Z.to_nat (ty_size t)))) ts.

Lemma x_args_natural : Forall natural x_args /\ Forall natural x_args_apple.
Proof. unfold x_args, x_args_apple, s_hfa, s_big, s_mid. split; natural_tac. Qed.

Lemma x_signature_ok p : p = Linux -> signature_ok p A_SYSV None s_big x_args.
Proof.
  intros ->. split; [apply x_args_natural|]. split; [unfold x_args; repeat (apply Forall_cons || apply Forall_nil); left; reflexivity|].
  split; [right; split; [unfold s_big; natural_tac|left; reflexivity]|]. split; [discriminate|discriminate].
Qed.

Lemma x_apple_ok : signature_ok Apple A_SYSV (Some 9) s_mid x_args_apple.
Proof.
  split; [apply x_args_natural|]. split.
  { unfold x_args_apple; repeat (apply Forall_cons || apply Forall_nil); right; vm_compute; intuition discriminate. }
  split; [right; split; [unfold s_mid; natural_tac|right; vm_compute; intuition discriminate]|].
  split; [intros n E; injection E as <-; lia|discriminate].
Qed.

Lemma x_objects ts : Forall natural ts -> Forall (fun t => ty_size t <= 200) ts -> objects_ok ts (x_objs ts).
Proof.
  induction 1 as [|t r N F IH]; intros S; [constructor|]. inversion S as [|? ? ST SR]; subst. constructor; [|apply IH; auto].
  pose proof (natural_basic _ N) as (SP & _). split.
  - unfold zlen. rewrite map_length, seq_length. lia.
  - apply Forall_forall. intros z Z1. apply in_map_iff in Z1 as (i & <- & I). apply in_seq in I. unfold byte_ok. lia.
Qed.

(** ** Witnesses *)
Definition get_ok {A} (x : res A) (d : A) : A := match x with Ok a => a | _ => d end.
Definition no_cif : acif := ACif 0 [] ty_void 0 0 0.
Definition cif_of (p : platform) (fixed : option Z) (abi : Z) (rt : ftype) (ts : list ftype) : acif :=
  get_ok (prep p abi fixed rt ts) no_cif.

Definition s_32 : ftype := c_struct_of [ty_uint64; ty_uint64; ty_uint64; ty_uint64].
Definition nine : list ftype := repeat s_32 9.

Lemma nine_ok : signature_ok Linux A_SYSV None ty_void nine.
Proof.
  split; [unfold nine, s_32; cbn [repeat]; natural_tac|]. split; [unfold nine; cbn [repeat]; repeat (apply Forall_cons || apply Forall_nil); left; reflexivity|].
  split; [left; reflexivity|]. split; discriminate.
Qed.

Definition list_eqb (a b : list Z) : bool := (Nat.eqb (length a) (length b)) && forallb (fun p => Z.eqb (fst p) (snd p)) (combine a b).
Lemma list_eqb_eq a b : list_eqb a b = true <-> a = b.
Proof.
  unfold list_eqb. revert b. induction a as [|x a IH]; intros [|y b]; cbn; try (split; intros; congruence).
  rewrite Bool.andb_true_iff in *. split.
  - intros [L H]. apply Bool.andb_true_iff in H as [E H]. f_equal; [lia|]. apply IH. apply Bool.andb_true_iff. auto.
  - intros E. injection E as -> ->. split; [apply Nat.eqb_refl|]. rewrite Z.eqb_refl. destruct (IH b) as [_ I].
    specialize (I eq_refl). apply Bool.andb_true_iff in I. apply I.
Qed.

(** The callee of nine 32-byte structs does not find the ninth. *)
Definition nine_lost : bool :=
  match prep Linux A_SYSV None ty_void nine with
  | Ok c =>
    match call Linux c None (x_objs nine) 0 65536 (repeat 0 520) (repeat 0 128) (repeat 0 40) with
    | Ok (m, _, _) =>
      (call_size c None =? 520) &&
      match s_read m (s_sp m) 8 with
      | Some d => match s_read m (le_dec d) 32, znth (x_objs nine) 8 with
                  | Some o, Some o9 => negb (list_eqb o o9)
                  | _, _ => false
                  end
      | None => false
      end
    | _ => false
    end
  | _ => false
  end.
Lemma nine_lost_true : nine_lost = true.
Proof. vm_cast_no_check (eq_refl true). Qed.

Theorem area_refuted : exists rt ts c objs base g_blk g_v frame m fl r d o9,
  signature_ok Linux A_SYSV None rt ts /\ prep Linux A_SYSV None rt ts = Ok c /\ objects_ok ts objs /\
  zlen g_blk = call_size c None /\ zlen g_v = 128 /\ zlen frame = 40 /\ 0 <= base /\ (16 | base) /\
  call Linux c None objs 0 base g_blk g_v frame = Ok (m, fl, r) /\
  znth (places false None ts) 8 = Some (Stack 0) /\ (forall t, znth ts 8 = Some t -> by_ref t = true) /\ znth objs 8 = Some o9 /\
  s_read m (s_sp m + 0) 8 = Some d /\ s_read m (le_dec d) 32 <> Some o9.
Proof.
  pose proof nine_lost_true as W. unfold nine_lost in W.
  destruct (prep Linux A_SYSV None ty_void nine) as [c| |] eqn:PR; try discriminate W.
  destruct (call Linux c None (x_objs nine) 0 65536 (repeat 0 520) (repeat 0 128) (repeat 0 40)) as [[[m fl] r]| |] eqn:CA; try discriminate W.
  apply Bool.andb_true_iff in W as [CS W].
  destruct (s_read m (s_sp m) 8) as [d|] eqn:RD; [|discriminate W].
  destruct (s_read m (le_dec d) 32) as [o|] eqn:RO; [|discriminate W].
  destruct (znth (x_objs nine) 8) as [o9|] eqn:N9; [|discriminate W].
  exists ty_void, nine, c, (x_objs nine), 65536, (repeat 0 520), (repeat 0 128), (repeat 0 40), m, fl, r, d, o9.
  split; [exact nine_ok|]. split; [exact PR|].
  split. { apply x_objects; [apply nine_ok|]. unfold nine. apply Forall_forall. intros t H. apply repeat_spec in H. subst. vm_compute. discriminate. }
  split; [rewrite zlen_repeat; lia|]. split; [reflexivity|]. split; [reflexivity|]. split; [lia|]. split; [exists 4096; reflexivity|].
  split; [exact CA|]. split; [vm_compute; reflexivity|].
  split. { intros t E. vm_compute in E. injection E as <-. reflexivity. }
  split; [exact N9|]. rewrite Z.add_0_r. split; [exact RD|]. rewrite RO. intros E. injection E as ->.
  apply Bool.negb_true_iff in W. assert (T : list_eqb o9 o9 = true) by (apply list_eqb_eq; reflexivity). congruence.
Qed.

Definition opt_eqb (a : option (list Z)) (b : list Z) : bool := match a with Some x => list_eqb x b | None => false end.
Fixpoint seen_b (m : astate) (blk : list Z) (ts : list ftype) (l : list aptr) (objs : list (list Z)) : bool :=
  match ts, l, objs with
  | [], [], [] => true
  | t :: ts', q :: l', o :: objs' => opt_eqb (read_aptr m blk q (ty_size t)) o && seen_b m blk ts' l' objs'
  | _, _, _ => false
  end.
Lemma seen_b_ok m blk ts : forall l objs, seen m blk ts l objs -> seen_b m blk ts l objs = true.
Proof.
  induction ts as [|t r IH]; intros [|q l] [|o os]; cbn [seen seen_b]; try contradiction; auto.
  intros [H S]. rewrite H. cbn [opt_eqb]. rewrite (proj2 (list_eqb_eq o o) eq_refl). cbn. apply IH; auto.
Qed.

(** The closure of a call through libffi does not see the arguments. *)
Definition misread (p : platform) (abi : Z) (fixed : option Z) (ts : list ftype) (n : nat) : bool :=
  match prep p abi fixed ty_void ts with
  | Ok c =>
    match call p c None (x_objs ts) 0 65536 (repeat 0 n) (repeat 0 128) (repeat 0 40) with
    | Ok (m, _, _) =>
      (call_size c None =? Z.of_nat n) &&
      match closure p c m (repeat 0 128) (repeat 0 64) with
      | Ok (l, blk, _, _) => negb (seen_b m blk ts l (x_objs ts))
      | _ => true
      end
    | _ => false
    end
  | _ => false
  end.

Lemma misread_witness p abi fixed ts n : misread p abi fixed ts n = true ->
  signature_ok p abi fixed ty_void ts -> Forall (fun t => ty_size t <= 200) ts ->
  exists c objs base g_blk g_v frame g_v2 slot m fl r, prep p abi fixed ty_void ts = Ok c /\ objects_ok ts objs /\
    zlen g_blk = call_size c None /\ zlen g_v = 128 /\ zlen frame = 40 /\ 0 <= base /\ (16 | base) /\
    base + call_size c None < 2 ^ 64 /\ zlen g_v2 = 128 /\ zlen slot = 64 /\
    call p c None objs 0 base g_blk g_v frame = Ok (m, fl, r) /\
    forall l blk q fl2, closure p c m g_v2 slot = Ok (l, blk, q, fl2) -> ~ seen m blk ts l objs.
Proof.
  intros W SO S. unfold misread in W.
  destruct (prep p abi fixed ty_void ts) as [c| |] eqn:PR; try discriminate W.
  destruct (call p c None (x_objs ts) 0 65536 (repeat 0 n) (repeat 0 128) (repeat 0 40)) as [[[m fl] r]| |] eqn:CA; try discriminate W.
  apply Bool.andb_true_iff in W as [CS W].
  exists c, (x_objs ts), 65536, (repeat 0 n), (repeat 0 128), (repeat 0 40), (repeat 0 128), (repeat 0 64), m, fl, r.
  split; [reflexivity|]. split; [apply x_objects; [apply SO|exact S]|].
  split; [rewrite zlen_repeat; lia|]. split; [reflexivity|]. split; [reflexivity|]. split; [lia|]. split; [exists 4096; reflexivity|].
  split.
  { assert (KB : 0 <= k_bytes c < 2 ^ 32).
    { rewrite (prep_ok _ _ _ _ _ SO) in PR. injection PR as <-. cbn [k_bytes]. apply wrap32_range. }
    assert (ER : k_rtype c = ty_void) by (rewrite (prep_ok _ _ _ _ _ SO) in PR; injection PR as <-; reflexivity).
    unfold call_size. rewrite ER. change CTX with 192. change (ty_size ty_void) with 1. destruct (negb _); lia. }
  split; [reflexivity|]. split; [reflexivity|]. split; [exact CA|].
  intros l blk q fl2 CL SN. rewrite CL in W. apply seen_b_ok in SN. rewrite SN in W. discriminate W.
Qed.

(** Nine ints and a struct with a long double: the pointer to the copy is put where the
    struct, not the pointer, would be aligned. *)
Definition s_quad : ftype := c_struct_of [ty_longdouble; ty_sint32].
Definition w_quad : list ftype := repeat ty_sint32 9 ++ [s_quad].
Lemma w_quad_misread : misread Linux A_SYSV None w_quad 344 = true.
Proof. vm_cast_no_check (eq_refl true). Qed.
Lemma w_quad_ok : signature_ok Linux A_SYSV None ty_void w_quad /\ Forall (fun t => ty_size t <= 200) w_quad.
Proof.
  split.
  - split; [unfold w_quad, s_quad; cbn [repeat app]; natural_tac|].
    split; [unfold w_quad; cbn [repeat app]; repeat (apply Forall_cons || apply Forall_nil); left; reflexivity|].
    split; [left; reflexivity|]. split; discriminate.
  - unfold w_quad; cbn [repeat app]; repeat (apply Forall_cons || apply Forall_nil); vm_compute; discriminate.
Qed.

(** On Apple systems: eight ints, a char and a struct of twenty chars. *)
Definition s_chars : ftype := c_struct_of (repeat ty_uint8 20).
Definition w_apple : list ftype := repeat ty_sint32 8 ++ [ty_uint8; s_chars].
Lemma w_apple_misread : misread Apple A_SYSV None w_apple 328 = true.
Proof. vm_cast_no_check (eq_refl true). Qed.
Lemma w_apple_ok : signature_ok Apple A_SYSV None ty_void w_apple /\ Forall (fun t => ty_size t <= 200) w_apple.
Proof.
  split.
  - split; [unfold w_apple, s_chars; cbn [repeat app]; natural_tac|].
    split; [unfold w_apple; cbn [repeat app]; repeat (apply Forall_cons || apply Forall_nil); right; vm_compute; intuition discriminate|].
    split; [left; reflexivity|]. split; discriminate.
  - unfold w_apple; cbn [repeat app]; repeat (apply Forall_cons || apply Forall_nil); vm_compute; discriminate.
Qed.

(** ** Variadic calls of the Windows ABI *)

(** A scalar float or double goes to the next general register. *)
Lemma win_scalar base t obj blk st : t = ty_float \/ t = ty_double -> zlen obj = ty_size t ->
  zlen blk >= 208 -> 0 <= a_ngrn st < 8 ->
  exists b, put_arg Windows true base t obj blk st = Ok (b, with_ngrn (a_ngrn st + 1) st) /\ zlen b = zlen blk /\
    get_range b (128 + 8 * a_ngrn st) (ty_size t) = Some obj /\
    forall o k, 0 <= k -> o + k <= 128 + 8 * a_ngrn st -> get_range b o k = get_range blk o k.
Proof.
  intros T LO LB G.
  assert (SZ : ty_size t = 4 \/ ty_size t = 8) by (destruct T as [-> | ->]; auto).
  assert (E : put_arg Windows true base t obj blk st =
    let* b := extend_hfa blk (128 + 8 * a_ngrn st) obj (ty_size t) 1 in Ok (b, with_ngrn (a_ngrn st + 1) st)).
  { destruct T as [-> | ->]; unfold put_arg; cbn [ty_float ty_double ty_code ty_size ty_align];
      change (16 * N_V) with 128; change N_X with 8;
      change (is_vfp Windows ty_float) with (Ok 11); change (is_vfp Windows ty_double) with (Ok 15);
      cbn [bind Z.eqb negb]; change (vfp_count 11) with 1; change (vfp_count 15) with 1;
      replace (a_ngrn st + 1 <=? 8) with true by lia; reflexivity. }
  rewrite E. cbn [extend_hfa bind]. change (Z.of_nat 0) with 0. rewrite !Z.mul_0_r, Z.add_0_r.
  pose proof (get_range_all obj) as GA. rewrite LO in GA. rewrite GA. cbn [of_option bind].
  assert (LP : zlen (obj ++ repeat 0 (Z.to_nat (16 - ty_size t))) = 16) by (rewrite zlen_app, zlen_repeat; lia).
  destruct (set_range_ok blk (128 + 8 * a_ngrn st) (obj ++ repeat 0 (Z.to_nat (16 - ty_size t)))) as (b & SB & ZB); [lia|lia|].
  rewrite SB. cbn [of_option bind]. exists b. split; [reflexivity|]. split; [exact ZB|].
  split; [rewrite <- LO; apply (get_set_prefix _ _ _ _ _ SB)|].
  intros o k K L. apply (get_set_disjoint _ _ _ _ o k SB). lia.
Qed.

(** An int and, variadic, a struct of two doubles: the struct should be in x1 and x2. *)
Definition s_dd : ftype := c_struct_of [ty_double; ty_double].
Definition win_lost : bool :=
  match prep Windows A_WIN64 (Some 1) ty_void [ty_sint32; s_dd] with
  | Ok c =>
    match call Windows c None (x_objs [ty_sint32; s_dd]) 0 65536 (repeat 0 264) (repeat 0 128) (repeat 0 40) with
    | Ok (m, _, _) =>
      (call_size c None =? 264) &&
      match get_range (s_x m) 8 16, znth (x_objs [ty_sint32; s_dd]) 1 with
      | Some d, Some o => negb (list_eqb d o)
      | _, _ => false
      end
    | _ => false
    end
  | _ => false
  end.
Lemma win_lost_true : win_lost = true.
Proof. vm_cast_no_check (eq_refl true). Qed.

Theorem win_refuted : exists ts c objs base g_blk g_v frame m fl r o,
  Forall natural ts /\ prep Windows A_WIN64 (Some 1) ty_void ts = Ok c /\ objects_ok ts objs /\
  zlen g_blk = call_size c None /\ zlen g_v = 128 /\ zlen frame = 40 /\ (16 | base) /\
  call Windows c None objs 0 base g_blk g_v frame = Ok (m, fl, r) /\
  ts = [ty_sint32; s_dd] /\ znth objs 1 = Some o /\ get_range (s_x m) 8 16 <> Some o.
Proof.
  pose proof win_lost_true as W. unfold win_lost in W.
  destruct (prep Windows A_WIN64 (Some 1) ty_void [ty_sint32; s_dd]) as [c| |] eqn:PR; try discriminate W.
  destruct (call Windows c None (x_objs [ty_sint32; s_dd]) 0 65536 (repeat 0 264) (repeat 0 128) (repeat 0 40)) as [[[m fl] r]| |] eqn:CA; try discriminate W.
  apply Bool.andb_true_iff in W as [CS W].
  destruct (get_range (s_x m) 8 16) as [d|] eqn:RD; [|discriminate W].
  destruct (znth (x_objs [ty_sint32; s_dd]) 1) as [o|] eqn:N9; [|discriminate W].
  assert (N : Forall natural [ty_sint32; s_dd]) by (unfold s_dd; natural_tac).
  exists [ty_sint32; s_dd], c, (x_objs [ty_sint32; s_dd]), 65536, (repeat 0 264), (repeat 0 128), (repeat 0 40), m, fl, r, o.
  split; [exact N|]. split; [exact PR|].
  split. { apply x_objects; [exact N|]. repeat (apply Forall_cons || apply Forall_nil); vm_compute; discriminate. }
  split; [rewrite zlen_repeat; lia|]. split; [reflexivity|]. split; [reflexivity|]. split; [exists 4096; reflexivity|].
  split; [exact CA|]. split; [reflexivity|]. split; [exact N9|]. rewrite RD. intros E. injection E as ->.
  apply Bool.negb_true_iff in W. assert (T : list_eqb o o = true) by (apply list_eqb_eq; reflexivity). congruence.
Qed.

(** ** Statements used by the properties *)
Theorem area_suffices p abi fixed rt ts c rv objs chain base g_blk g_v frame :
  signature_ok p abi fixed rt ts -> prep p abi fixed rt ts = Ok c -> objects_ok ts objs ->
  zlen g_blk = call_size c rv -> zlen g_v = 128 -> zlen frame = 40 ->
  0 <= base -> (16 | base) -> base + call_size c rv < 2 ^ 64 ->
  total_size ts < 2 ^ 31 -> area_enough (is_apple p) fixed ts ->
  pointer_slots_ok (is_apple p) fixed 0 ts (places (is_apple p) fixed ts) ->
  stack_used (is_apple p) fixed ts <= k_bytes c /\
  exists m fl r ptrs, call p c rv objs chain base g_blk g_v frame = Ok (m, fl, r) /\
    held (s_x m) (s_v m) (s_sp m) (s_read m) ts (places (is_apple p) fixed ts) objs ptrs /\
    copies_ok ts ptrs (s_sp m + stack_used (is_apple p) fixed ts) (s_sp m + k_bytes c).
Proof.
  intros SO PR O ZB ZV ZF BP DB BB T AE PS. pose proof (area_fits _ _ _ _ _ _ SO PR T AE) as F.
  destruct (call_places p abi fixed rt ts c rv objs chain base g_blk g_v frame SO PR O ZB ZV ZF BP DB BB F PS)
    as (m & fl & r & ptrs & E & _ & _ & _ & _ & H & C & _).
  assert (EA : k_args c = ts) by (rewrite (prep_ok _ _ _ _ _ SO) in PR; injection PR as <-; reflexivity).
  split. { unfold fits in F. rewrite EA in F. pose proof (lowest_le ts (k_bytes c)) as L. specialize (L (proj1 SO)). lia. }
  exists m, fl, r, ptrs. auto.
Qed.

Lemma x_apple_sizes : Forall (fun t => ty_size t <= 200) x_args_apple /\ Forall (fun t => ty_size t <= 200) x_args.
Proof. split; unfold x_args_apple, x_args; repeat (apply Forall_cons || apply Forall_nil); vm_compute; discriminate. Qed.

Lemma area_sample :
  signature_ok Linux A_SYSV None s_mid x_args_apple /\
  prep Linux A_SYSV None s_mid x_args_apple = Ok (cif_of Linux None A_SYSV s_mid x_args_apple) /\
  objects_ok x_args_apple (x_objs x_args_apple) /\
  total_size x_args_apple < 2 ^ 31 /\ area_enough false None x_args_apple /\
  pointer_slots_ok false None 0 x_args_apple (places false None x_args_apple) /\
  (exists t, In t x_args_apple /\ by_ref t = true) /\
  places false None x_args_apple =
    [Xregs 0; Vregs 0; Xregs 1; Vregs 3; Xregs 2; Xregs 3; Xregs 5; Vregs 4; Xregs 6; Xregs 7; Stack 0; Stack 16].
Proof.
  assert (NA : narrow x_args_apple) by (unfold x_args_apple; repeat (apply Forall_cons || apply Forall_nil); vm_compute; discriminate).
  split. { split; [apply x_args_natural|]. split; [unfold x_args_apple; repeat (apply Forall_cons || apply Forall_nil); left; reflexivity|].
    split; [right; split; [unfold s_mid; natural_tac|left; reflexivity]|]. split; discriminate. }
  split; [vm_compute; reflexivity|]. split; [apply x_objects; [apply x_args_natural|apply x_apple_sizes]|].
  split; [vm_compute; reflexivity|]. split; [right; split; [exact NA|vm_compute; discriminate]|].
  split; [apply slots_of_narrow; [exact NA|apply x_args_natural]|].
  split; [exists s_big; split; [vm_compute; tauto|reflexivity]|]. vm_compute. reflexivity.
Qed.

Lemma linux_sample :
  signature_ok Linux A_SYSV None s_big x_args /\
  prep Linux A_SYSV None s_big x_args = Ok (cif_of Linux None A_SYSV s_big x_args) /\
  objects_ok x_args (x_objs x_args) /\ call_size (cif_of Linux None A_SYSV s_big x_args) (Some 8192) = 440 /\
  fits Linux None (cif_of Linux None A_SYSV s_big x_args) /\
  pointer_slots_ok false None 0 x_args (places false None x_args) /\ in_memory s_big = true /\
  places false None x_args =
    [Xregs 0; Vregs 0; Xregs 1; Vregs 3; Xregs 2; Xregs 3; Xregs 5; Vregs 4; Xregs 6; Vregs 6; Xregs 7; Stack 0; Stack 16].
Proof.
  split; [apply x_signature_ok; reflexivity|]. split; [vm_compute; reflexivity|].
  split; [apply x_objects; [apply x_args_natural|apply x_apple_sizes]|].
  split; [vm_compute; reflexivity|]. split; [vm_compute; discriminate|].
  split. { vm_compute. repeat split; intros; try discriminate; reflexivity. }
  split; vm_compute; reflexivity.
Qed.

Lemma apple_sample :
  signature_ok Apple A_SYSV (Some 9) s_mid x_args_apple /\
  prep Apple A_SYSV (Some 9) s_mid x_args_apple = Ok (cif_of Apple (Some 9) A_SYSV s_mid x_args_apple) /\
  objects_ok x_args_apple (x_objs x_args_apple) /\
  fits Apple (Some 9) (cif_of Apple (Some 9) A_SYSV s_mid x_args_apple) /\
  pointer_slots_ok true (Some 9) 0 x_args_apple (places true (Some 9) x_args_apple) /\
  places true (Some 9) x_args_apple =
    [Xregs 0; Vregs 0; Xregs 1; Vregs 3; Xregs 2; Xregs 3; Xregs 5; Vregs 4; Xregs 6; Stack 0; Stack 8; Stack 24].
Proof.
  split; [apply x_apple_ok|]. split; [vm_compute; reflexivity|].
  split; [apply x_objects; [apply x_args_natural|apply x_apple_sizes]|].
  split; [vm_compute; discriminate|].
  split. { vm_compute. repeat split; intros; try discriminate; reflexivity. }
  vm_compute; reflexivity.
Qed.

Theorem quad_refuted : exists ts c objs base g_blk g_v frame g_v2 slot m fl r,
  signature_ok Linux A_SYSV None ty_void ts /\ prep Linux A_SYSV None ty_void ts = Ok c /\ objects_ok ts objs /\
  zlen g_blk = call_size c None /\ zlen g_v = 128 /\ zlen frame = 40 /\ 0 <= base /\ (16 | base) /\
  base + call_size c None < 2 ^ 64 /\ zlen g_v2 = 128 /\ zlen slot = 64 /\
  call Linux c None objs 0 base g_blk g_v frame = Ok (m, fl, r) /\
  forall l blk q fl2, closure Linux c m g_v2 slot = Ok (l, blk, q, fl2) -> ~ seen m blk ts l objs.
Proof.
  destruct (misread_witness _ _ _ _ _ w_quad_misread (proj1 w_quad_ok) (proj2 w_quad_ok))
    as (c & objs & base & g_blk & g_v & frame & g_v2 & slot & m & fl & r & H).
  exists w_quad, c, objs, base, g_blk, g_v, frame, g_v2, slot, m, fl, r. split; [apply w_quad_ok|exact H].
Qed.

Theorem apple_refuted : exists ts c objs base g_blk g_v frame g_v2 slot m fl r,
  signature_ok Apple A_SYSV None ty_void ts /\ prep Apple A_SYSV None ty_void ts = Ok c /\ objects_ok ts objs /\
  zlen g_blk = call_size c None /\ zlen g_v = 128 /\ zlen frame = 40 /\ 0 <= base /\ (16 | base) /\
  base + call_size c None < 2 ^ 64 /\ zlen g_v2 = 128 /\ zlen slot = 64 /\
  call Apple c None objs 0 base g_blk g_v frame = Ok (m, fl, r) /\
  forall l blk q fl2, closure Apple c m g_v2 slot = Ok (l, blk, q, fl2) -> ~ seen m blk ts l objs.
Proof.
  destruct (misread_witness _ _ _ _ _ w_apple_misread (proj1 w_apple_ok) (proj2 w_apple_ok))
    as (c & objs & base & g_blk & g_v & frame & g_v2 & slot & m & fl & r & H).
  exists w_apple, c, objs, base, g_blk, g_v, frame, g_v2, slot, m, fl, r. split; [apply w_apple_ok|exact H].
Qed.

Definition caller_mem (o : list Z) : Z -> Z -> option (list Z) := fun a n => get_range o (a - 4096) n.
Lemma caller_sample :
  exists m, signature_ok Linux A_SYSV None ty_double [ty_complex_float; s_big; ty_sint32] /\
    places false None [ty_complex_float; s_big; ty_sint32] = [Vregs 0; Xregs 0; Xregs 1] /\
    held (s_x m) (s_v m) (s_sp m) (s_read m) [ty_complex_float; s_big; ty_sint32] [Vregs 0; Xregs 0; Xregs 1]
      (x_objs [ty_complex_float; s_big; ty_sint32]) [4096].
Proof.
  exists (AState (le_enc 8 4096 ++ [1; 2; 3; 4; 0; 0; 0; 0] ++ repeat 7 48)
            ([1; 2; 3; 4] ++ repeat 9 12 ++ [5; 6; 7; 8] ++ repeat 9 108) 0 0 8192
            (caller_mem (map (fun i => Z.of_nat i + 1) (seq 0 24)))).
  split. { split; [unfold s_big; natural_tac|]. split; [repeat (apply Forall_cons || apply Forall_nil); left; reflexivity|].
    split; [right; split; [natural_tac|left; reflexivity]|]. split; discriminate. }
  split; [vm_compute; reflexivity|]. cbn [s_x s_v s_sp s_read].
  split.
  { exists T_FLOAT, 2%nat. split; [reflexivity|]. intros k K. assert (C : k = 0%nat \/ k = 1%nat) by lia.
    destruct C as [-> | ->]; eexists; split; vm_compute; reflexivity. }
  split; [vm_compute; reflexivity|]. split; [vm_compute; reflexivity|]. split; vm_compute; reflexivity.
Qed.

Definition s_three : ftype := c_struct_of [ty_uint8; ty_uint8; ty_uint8].
Lemma three_sample :
  signature_ok Linux A_SYSV None s_three [ty_sint32] /\ natural s_three /\ in_memory s_three = false /\
  returned s_three [1; 2; 3; 4; 5; 6; 7; 8; 9; 10; 11; 12; 13; 14; 15; 16] (repeat 0 64) [1; 2; 3] /\ room s_three = 3 /\
  (let c := cif_of Linux None A_SYSV s_three [ty_sint32] in
   finish c (k_flags c) (ARet [1; 2; 3; 4; 5; 6; 7; 8; 9; 10; 11; 12; 13; 14; 15; 16] (repeat 0 64)) (repeat 0 16) [77; 77; 77; 77; 77]
     = Ok [1; 2; 3; 77; 77]).
Proof.
  assert (N : natural s_three) by (unfold s_three; natural_tac).
  split. { split; [natural_tac|]. split; [repeat (apply Forall_cons || apply Forall_nil); left; reflexivity|].
    split; [right; split; [exact N|left; reflexivity]|]. split; discriminate. }
  split; [exact N|]. split; [reflexivity|]. split; [vm_compute; reflexivity|]. split; [reflexivity|]. vm_compute. reflexivity.
Qed.

Lemma char_sample :
  natural ty_sint8 /\ quads_ok Apple ty_sint8 /\ in_memory ty_sint8 = false /\
  get_range (254 :: repeat 7 63) 0 (ty_size ty_sint8) = Some [254] /\
  load_ret (spec_flags ty_sint8) (254 :: repeat 7 63) (ARet (repeat 9 16) (repeat 5 64)) =
    Ok (ARet ([254; 255; 255; 255; 255; 255; 255; 255] ++ repeat 9 8) (repeat 5 64)) /\
  widened T_SINT8 [254] = 2 ^ 64 - 2.
Proof.
  split; [natural_tac|]. split; [right; vm_compute; intuition discriminate|]. split; [reflexivity|].
  split; [reflexivity|]. split; vm_compute; reflexivity.
Qed.

Lemma float_sample :
  signature_ok Linux A_SYSV None s_hfa [ty_double; ty_sint32] /\
  natural s_hfa /\ in_memory s_hfa = false /\ room s_hfa = 12 /\
  (let c := cif_of Linux None A_SYSV s_hfa [ty_double; ty_sint32] in
   match call Linux c (Some 8192) (x_objs [ty_double; ty_sint32]) 0 65536 (repeat 0 264) (repeat 0 128) (repeat 0 40) with
   | Ok (m, fl, _) => match closure Linux c m (repeat 0 128) (repeat 0 64) with
                      | Ok (l, _, RSlot, fl2) => l = [PFrame 0; PFrame 128] /\ fl2 = 137
                      | _ => False
                      end
   | _ => False
   end).
Proof.
  assert (N : natural s_hfa) by (unfold s_hfa; natural_tac).
  split. { split; [natural_tac|]. split; [repeat (apply Forall_cons || apply Forall_nil); left; reflexivity|].
    split; [right; split; [exact N|left; reflexivity]|]. split; discriminate. }
  split; [exact N|]. split; [reflexivity|]. split; [reflexivity|]. vm_compute. auto.
Qed.
