(** Properties C44-C46 and C60-C66: the RISC-V backend. *)
From Coq Require Import ZifyBool ZifyNat.
From Verif Require Import Base BaseFacts Types LayoutSpec NaturalTypes NaturalFacts RvModel RvSpec RvFlat RvCall RvMain RvWhole
  RvClosure RvRet RvLemmas.
From Verif Require A64Fits.

(** C44, in part: what a closure's handler gets when the closure is called by ffi_call with the
    same signature.  Missing: signatures with a non-variadic struct of a single float or double
    for which no floating point register is left, for which it is false (below). *)
Theorem C44_round_trip_partial :
  forall fl fixed rt ts rv objs gr chain base blk frame frame2 sto slot,
    let c := prep fixed rt ts in
    fl_ok fl -> signature_ok rt ts -> objects_ok ts objs -> A64Fits.total_size ts < 2 ^ 31 -> ty_size rt < 2 ^ 31 ->
    lone_reals_ok fl fixed 0 ts (places fl fixed rt ts) ->
    zlen blk = alloc_size fl c rv -> zlen frame = 16 -> (forall i, zlen (gr i) = 16 /\ bytes_ok (gr i)) ->
    0 <= base -> (16 | base) -> base + alloc_size fl c rv < 2 ^ 64 -> (forall a, rv = Some a -> 0 <= a < 2 ^ 64) ->
    (forall i, zlen (sto i) = 16) -> zlen slot = 16 ->
    exists m r l r2, call fl c rv objs gr chain base blk frame = Ok (m, r, in_memory fl rt) /\ s_t2 m = chain /\
      closure fl c m frame2 sto slot = Ok (l, s_fa m ++ s_a m ++ frame2, r2) /\
      received (s_read m) ts l objs /\
      match r2 with RCaller a => in_memory fl rt = true /\ r = Some a | RSlot n => in_memory fl rt = false /\ n = ty_size rt end.
Proof. exact round_trip. Qed.
Print Assumptions C44_round_trip_partial.

Example C44_hypotheses_met :
  fl_ok 8 /\ signature_ok s_big x_args /\ objects_ok x_args (x_objs x_args) /\ A64Fits.total_size x_args < 2 ^ 31 /\
  lone_reals_ok 8 None 0 x_args (places 8 None s_big x_args) /\ lone_reals_ok 8 (Some 3) 0 x_args (places 8 (Some 3) s_big x_args) /\
  in_memory 8 s_big = true /\ alloc_size 8 (prep None s_big x_args) None = 496.
Proof.
  split; [right; right; reflexivity|]. split; [exact x_signature|]. split; [exact x_args_objects|]. split; [vm_compute; reflexivity|].
  split; [apply x_lone; auto|]. split; [apply x_lone; auto|]. split; vm_compute; reflexivity.
Qed.

(** C44 is false in general: with an int and nine structs of one double the ninth is stored in
    a0, over the int, by a signature all whose objects and areas are in order. *)
Theorem C44_round_trip_refuted :
  exists ts objs gr base blk frame frame2 sto slot m r,
    signature_ok ty_void ts /\ objects_ok ts objs /\ A64Fits.total_size ts < 2 ^ 31 /\
    zlen blk = alloc_size 8 (prep None ty_void ts) None /\ zlen frame = 16 /\ (forall i, zlen (gr i) = 16 /\ bytes_ok (gr i)) /\
    0 <= base /\ (16 | base) /\ base + alloc_size 8 (prep None ty_void ts) None < 2 ^ 64 /\
    (forall i, zlen (sto i) = 16) /\ zlen slot = 16 /\
    call 8 (prep None ty_void ts) None objs gr 0 base blk frame = Ok (m, r, false) /\
    (forall l regs q, closure 8 (prep None ty_void ts) m frame2 sto slot = Ok (l, regs, q) -> ~ received (s_read m) ts l objs) /\
    (forall ptrs, ~ held 8 (s_a m) (s_fa m) (s_sp m) (s_read m) ts (places 8 None ty_void ts) objs ptrs).
Proof. exact round_trip_refuted. Qed.
Print Assumptions C44_round_trip_refuted.

(** C45, in part: the areas are aligned and large enough.  Missing: 2 GiB of arguments, for
    which it is false (below). *)
Theorem C45_areas_partial :
  forall fl fixed rt ts, Forall natural ts -> A64Fits.total_size ts < 2 ^ 31 ->
    let c := prep fixed rt ts in
    0 <= arg_bytes c /\ (16 | arg_bytes c) /\ stack_used fl fixed rt ts <= arg_bytes c /\
    0 <= struct_bytes c < 2 ^ 32 /\ (16 | struct_bytes c) /\ copy_space ts (places fl fixed rt ts) <= struct_bytes c.
Proof. exact areas_fit. Qed.
Print Assumptions C45_areas_partial.

Example C45_hypotheses_met :
  Forall natural x_args /\ A64Fits.total_size x_args < 2 ^ 31 /\
  stack_used 8 (Some 3) s_big x_args = 88 /\ arg_bytes (prep (Some 3) s_big x_args) = 144 /\
  copy_space x_args (places 8 (Some 3) s_big x_args) = 24 /\ struct_bytes (prep (Some 3) s_big x_args) = 176.
Proof. split; [exact x_args_natural|]. repeat split; vm_compute; reflexivity. Qed.

(** C45 is false in general: a struct of 4 GiB. *)
Theorem C45_areas_refuted :
  exists ts, Forall natural ts /\ struct_bytes (prep None ty_void ts) < copy_space ts (places 8 None ty_void ts).
Proof. exact areas_refuted. Qed.
Print Assumptions C45_areas_refuted.

(** C46, in part: a narrow integer result is stored as a full word of the same value.  Missing:
    values of ffi_type_uint32 from 2^31 on, for which it is false (below). *)
Theorem C46_narrow_results_partial :
  forall fl fixed rt ts rd r regs b d, fl_ok fl -> natural rt -> reads_ok rd -> narrow (ty_code rt) = true ->
    zlen regs = ctx_size fl -> zlen (r_a r) = 16 -> zlen (r_fa r) = 2 * fl -> zlen d = ty_size rt -> bytes_ok d -> 8 <= zlen b ->
    (ty_code rt = T_UINT32 -> le_dec d < 2 ^ 31) -> returned fl rt (r_a r) (r_fa r) d ->
    exists b', finish fl (prep fixed rt ts) rd r regs (in_memory fl rt) (Some b) = Ok (Some b') /\
      get_range b' 0 8 = Some (le_enc 8 (widened (ty_code rt) d)).
Proof. exact narrow_results. Qed.
Print Assumptions C46_narrow_results_partial.

Example C46_hypotheses_met :
  natural ty_sint16 /\ narrow (ty_code ty_sint16) = true /\ reads_ok (fun _ _ => None) /\ bytes_ok [254; 255] /\
  returned 8 ty_sint16 ([254; 255; 255; 255; 255; 255; 255; 255] ++ repeat 0 8) (repeat 0 16) [254; 255] /\
  widened T_SINT16 [254; 255] = 2 ^ 64 - 2.
Proof.
  split; [natural_tac|]. split; [reflexivity|]. split; [intros p n x H; discriminate H|].
  split; [repeat constructor; unfold byte_ok; lia|]. split; [|reflexivity].
  exists [254; 255; 255; 255; 255; 255; 255; 255]. split; [reflexivity|]. split; [repeat constructor; unfold byte_ok; lia|].
  split; [reflexivity|]. intros _. vm_compute. reflexivity.
Qed.

(** C46 is false in general: 0x80000000 of type ffi_type_uint32 is stored as 0xffffffff80000000. *)
Theorem C46_narrow_results_refuted :
  exists d r regs b b',
    zlen d = 4 /\ bytes_ok d /\ zlen regs = ctx_size 8 /\ zlen (r_a r) = 16 /\ zlen (r_fa r) = 16 /\ zlen b = 8 /\
    returned 8 ty_uint32 (r_a r) (r_fa r) d /\
    finish 8 (prep None ty_uint32 []) (fun _ _ => None) r regs (in_memory 8 ty_uint32) (Some b) = Ok (Some b') /\
    get_range b' 0 8 <> Some (le_enc 8 (widened T_UINT32 d)).
Proof. exact narrow_refuted. Qed.
Print Assumptions C46_narrow_results_refuted.

(** C60, in part: at the call every argument is where the RISC-V calling convention has it, for
    all three floating point register widths, variadic or not.  Missing: what C44 misses; the
    theorem C44_round_trip_refuted shows it false there too. *)
Theorem C60_placement_partial :
  forall fl fixed rt ts rv objs gr chain base blk frame,
    let c := prep fixed rt ts in
    fl_ok fl -> signature_ok rt ts -> objects_ok ts objs -> A64Fits.total_size ts < 2 ^ 31 -> ty_size rt < 2 ^ 31 ->
    lone_reals_ok fl fixed 0 ts (places fl fixed rt ts) ->
    zlen blk = alloc_size fl c rv -> zlen frame = 16 -> (forall i, zlen (gr i) = 16 /\ bytes_ok (gr i)) ->
    0 <= base -> (16 | base) -> base + alloc_size fl c rv < 2 ^ 64 -> (forall a, rv = Some a -> 0 <= a < 2 ^ 64) ->
    exists m r ptrs, call fl c rv objs gr chain base blk frame = Ok (m, r, in_memory fl rt) /\
      s_sp m = base /\ s_t2 m = chain /\ zlen (s_a m) = 64 /\ zlen (s_fa m) = 8 * fl /\
      held fl (s_a m) (s_fa m) (s_sp m) (s_read m) ts (places fl fixed rt ts) objs ptrs /\
      copies_ok (fun _ => 8) ts (places fl fixed rt ts) ptrs (base + stack_used fl fixed rt ts + rval_bytes c rv) (base + ctx_at c rv) /\
      (in_memory fl rt = true -> exists a, r = Some a /\ get_range (s_a m) 0 8 = Some (le_enc 8 a) /\
         (forall a', rv = Some a' -> a = a') /\
         (rv = None -> base + stack_used fl fixed rt ts <= a /\ a + ty_size rt <= base + arg_bytes c + rval_bytes c rv)).
Proof. exact call_ok. Qed.
Print Assumptions C60_placement_partial.

Example C60_hypotheses_met :
  signature_ok s_big x_args /\ objects_ok x_args (x_objs x_args) /\
  lone_reals_ok 8 None 0 x_args (places 8 None s_big x_args) /\ lone_reals_ok 8 (Some 3) 0 x_args (places 8 (Some 3) s_big x_args) /\
  places 8 None s_big x_args =
    [Words [XR 1]; InFX 0 2 4 4 4; Ref (XR 3); Words [XR 4; XR 5]; InFF 1 8 8 8; InF 3 8; Words [XR 6]; InXF 7 4 1 8 8;
     Words [ST 0]; Words [ST 8; ST 16]; Words [ST 32; ST 40]; Words [ST 48]] /\
  places 8 (Some 3) s_big x_args =
    [Words [XR 1]; InFX 0 2 4 4 4; Ref (XR 3); Words [XR 4; XR 5]; Words [XR 6; XR 7]; Words [ST 0]; Words [ST 8]; Words [ST 16; ST 24];
     Words [ST 32]; Words [ST 40; ST 48]; Words [ST 64; ST 72]; Words [ST 80]].
Proof.
  split; [exact x_signature|]. split; [exact x_args_objects|]. split; [apply x_lone; auto|]. split; [apply x_lone; auto|].
  split; [exact x_places|exact x_places_variadic].
Qed.

(** C61, in part: a closure called by any caller that follows the calling convention.  Missing:
    what C44 misses. *)
Theorem C61_closure_arguments_partial :
  forall fl fixed rt ts m frame sto slot objs ptrs res,
    fl_ok fl -> signature_ok rt ts -> objects_ok ts objs -> lone_reals_ok fl fixed 0 ts (places fl fixed rt ts) ->
    zlen (s_a m) = 64 -> zlen (s_fa m) = 8 * fl -> 0 <= s_sp m -> (16 | s_sp m) ->
    s_sp m + stack_used fl fixed rt ts + 32 < 2 ^ 64 -> reads_ok (s_read m) ->
    (forall i, zlen (sto i) = 16) -> zlen slot = 16 -> Forall (fun p => 0 <= p < 2 ^ 64) ptrs ->
    held fl (s_a m) (s_fa m) (s_sp m) (s_read m) ts (places fl fixed rt ts) objs ptrs ->
    (in_memory fl rt = true -> 0 <= res < 2 ^ 64 /\ get_range (s_a m) 0 8 = Some (le_enc 8 res)) ->
    exists l r, closure fl (prep fixed rt ts) m frame sto slot = Ok (l, s_fa m ++ s_a m ++ frame, r) /\
      received (s_read m) ts l objs /\
      (in_memory fl rt = true -> r = RCaller res) /\
      (in_memory fl rt = false -> r = RSlot (ty_size rt)).
Proof. exact closure_ok. Qed.
Print Assumptions C61_closure_arguments_partial.

(** A caller: a float with an int in fa0 and a0, and a long double in a1 and a2. *)
Example C61_hypotheses_met :
  let ts := [s_fi; ty_longdouble] in
  let objs := x_objs ts in
  let a := [5; 6; 7; 8; 9; 9; 9; 9] ++ [1; 2; 3; 4; 5; 6; 7; 8; 9; 10; 11; 12; 13; 14; 15; 16] ++ repeat 0 40 in
  let fa := [1; 2; 3; 4; 255; 255; 255; 255] ++ repeat 0 56 in
  signature_ok ty_sint64 ts /\ objects_ok ts objs /\ lone_reals_ok 8 None 0 ts (places 8 None ty_sint64 ts) /\
  places 8 None ty_sint64 ts = [InFX 0 0 4 4 4; Words [XR 1; XR 2]] /\ zlen a = 64 /\ zlen fa = 64 /\
  held 8 a fa 65536 (fun _ _ => None) ts (places 8 None ty_sint64 ts) objs [].
Proof.
  cbv zeta. assert (N : Forall natural [s_fi; ty_longdouble]) by (unfold s_fi; natural_tac).
  split. { split; [exact N|]. split; [repeat (apply Forall_cons || apply Forall_nil); unfold no_complex; vm_compute fields; repeat constructor; discriminate|].
    right. split; [natural_tac|]. unfold no_complex; vm_compute fields; repeat constructor; discriminate. }
  split. { apply x_objects; [exact N|]. repeat (apply Forall_cons || apply Forall_nil); vm_compute; discriminate. }
  assert (P : places 8 None ty_sint64 [s_fi; ty_longdouble] = [InFX 0 0 4 4 4; Words [XR 1; XR 2]]) by (vm_compute; reflexivity).
  split. { rewrite P. cbn [lone_reals_ok]. repeat split; intros _ S n H; vm_compute in S, H; discriminate. }
  split; [exact P|]. split; [reflexivity|]. split; [reflexivity|]. rewrite P.
  split. { exists [1; 2; 3; 4], [5; 6; 7; 8]. split; [reflexivity|]. split; [reflexivity|]. split; [vm_compute; reflexivity|].
    exists [5; 6; 7; 8; 9; 9; 9; 9]. split; [vm_compute; reflexivity|]. split; [repeat constructor; unfold byte_ok; lia|reflexivity]. }
  split; [|reflexivity]. exists [1; 2; 3; 4; 5; 6; 7; 8; 9; 10; 11; 12; 13; 14; 15; 16]. split; [vm_compute; reflexivity|].
  split; [repeat constructor; unfold byte_ok; lia|]. split; [vm_compute; reflexivity|]. intros H. discriminate H.
Qed.

(** C62, in part: the copies of arguments passed by reference are aligned as their types.
    Missing: alignments above 8, for which it is false (below), and what C44 misses. *)
Theorem C62_copies_aligned_partial :
  forall fl fixed rt ts rv objs gr chain base blk frame,
    let c := prep fixed rt ts in
    fl_ok fl -> signature_ok rt ts -> objects_ok ts objs -> A64Fits.total_size ts < 2 ^ 31 -> ty_size rt < 2 ^ 31 ->
    lone_reals_ok fl fixed 0 ts (places fl fixed rt ts) -> word_aligned ts (places fl fixed rt ts) ->
    zlen blk = alloc_size fl c rv -> zlen frame = 16 -> (forall i, zlen (gr i) = 16 /\ bytes_ok (gr i)) ->
    0 <= base -> (16 | base) -> base + alloc_size fl c rv < 2 ^ 64 -> (forall a, rv = Some a -> 0 <= a < 2 ^ 64) ->
    exists m r ptrs, call fl c rv objs gr chain base blk frame = Ok (m, r, in_memory fl rt) /\
      held fl (s_a m) (s_fa m) (s_sp m) (s_read m) ts (places fl fixed rt ts) objs ptrs /\
      copies_ok ty_align ts (places fl fixed rt ts) ptrs (base + stack_used fl fixed rt ts) (base + ctx_at c rv).
Proof. exact call_copies_aligned. Qed.
Print Assumptions C62_copies_aligned_partial.

Example C62_hypotheses_met :
  signature_ok s_big x_args /\ objects_ok x_args (x_objs x_args) /\
  lone_reals_ok 8 None 0 x_args (places 8 None s_big x_args) /\ word_aligned x_args (places 8 None s_big x_args) /\
  In (Ref (XR 3)) (places 8 None s_big x_args).
Proof.
  split; [exact x_signature|]. split; [exact x_args_objects|]. split; [apply x_lone; auto|]. rewrite x_places.
  split; [unfold word_aligned, x_args; repeat constructor; vm_compute; discriminate|cbn; tauto].
Qed.

(** C62 is false in general: the copy of a struct with a long double, after that of a 24-byte
    struct, is at a multiple of eight only. *)
Theorem C62_copies_aligned_refuted :
  exists ts objs gr base blk frame m r,
    signature_ok ty_void ts /\ objects_ok ts objs /\ A64Fits.total_size ts < 2 ^ 31 /\
    lone_reals_ok 8 None 0 ts (places 8 None ty_void ts) /\
    zlen blk = alloc_size 8 (prep None ty_void ts) None /\ zlen frame = 16 /\ (forall i, zlen (gr i) = 16 /\ bytes_ok (gr i)) /\
    0 <= base /\ (16 | base) /\ base + alloc_size 8 (prep None ty_void ts) None < 2 ^ 64 /\
    call 8 (prep None ty_void ts) None objs gr 0 base blk frame = Ok (m, r, false) /\
    forall ptrs lo hi, Forall (fun p => 0 <= p < 2 ^ 64) ptrs ->
      held 8 (s_a m) (s_fa m) (s_sp m) (s_read m) ts (places 8 None ty_void ts) objs ptrs ->
      ~ copies_ok ty_align ts (places 8 None ty_void ts) ptrs lo hi.
Proof. exact copies_refuted. Qed.
Print Assumptions C62_copies_aligned_refuted.

(** C63, in part: with a void result at most the first byte of the result buffer changes.
    Missing: that byte, for which it is false (below). *)
Theorem C63_void_result_partial :
  forall fl fixed ts rd r regs b, fl_ok fl -> zlen regs = ctx_size fl -> zlen (r_a r) = 16 -> zlen (r_fa r) = 2 * fl -> 1 <= zlen b ->
    exists b', finish fl (prep fixed ty_void ts) rd r regs (in_memory fl ty_void) (Some b) = Ok (Some b') /\ zlen b' = zlen b /\
      forall o n, 1 <= o -> 0 <= n -> get_range b' o n = get_range b o n.
Proof. exact void_result. Qed.
Print Assumptions C63_void_result_partial.

Example C63_hypotheses_met : fl_ok 8 /\ zlen (repeat 0 144) = ctx_size 8 /\ zlen (repeat 3 16) = 2 * 8 /\ 1 <= zlen [5; 6; 7; 8; 9].
Proof. repeat split; vm_compute; auto; discriminate. Qed.

(** C63 is false: the byte is the low one of a0. *)
Theorem C63_void_result_refuted :
  exists r regs b b',
    zlen regs = ctx_size 8 /\ zlen (r_a r) = 16 /\ zlen (r_fa r) = 16 /\ zlen b = 8 /\
    finish 8 (prep None ty_void []) (fun _ _ => None) r regs (in_memory 8 ty_void) (Some b) = Ok (Some b') /\ b' <> b.
Proof. exact void_refuted. Qed.
Print Assumptions C63_void_result_refuted.

(** C64, in part: the memory for a handler's result has the documented size.  Missing: narrow
    integers, for which it is false (below). *)
Theorem C64_result_room_partial :
  forall fl fixed rt ts m frame sto slot l regs n,
    closure fl (prep fixed rt ts) m frame sto slot = Ok (l, regs, RSlot n) -> narrow (ty_code rt) = false -> n = result_room rt.
Proof. exact slot_size. Qed.
Print Assumptions C64_result_room_partial.

Example C64_hypotheses_met :
  exists m, closure 8 (prep None s_fi [ty_sint64]) m (repeat 0 16) z16 (repeat 0 16) =
    Ok ([UData ([1; 2; 3; 4; 5; 6; 7; 8] ++ repeat 0 8)], repeat 0 64 ++ [1; 2; 3; 4; 5; 6; 7; 8] ++ repeat 0 72, RSlot 8) /\
    narrow (ty_code s_fi) = false /\ result_room s_fi = 8.
Proof.
  exists (RState ([1; 2; 3; 4; 5; 6; 7; 8] ++ repeat 0 56) (repeat 0 64) 0 65536 (fun _ _ => None)).
  split; [vm_compute; reflexivity|]. split; reflexivity.
Qed.

(** C64 is false: one byte is set aside for a result of type ffi_type_sint8. *)
Theorem C64_result_room_refuted :
  exists m frame sto slot l regs n,
    zlen (s_a m) = 64 /\ zlen (s_fa m) = 64 /\ zlen frame = 16 /\ (forall i, zlen (sto i) = 16) /\ zlen slot = 16 /\
    closure 8 (prep None ty_sint8 []) m frame sto slot = Ok (l, regs, RSlot n) /\ n < result_room ty_sint8.
Proof. exact slot_refuted. Qed.
Print Assumptions C64_result_room_refuted.

(** C65: a handler's result is returned in the registers of the calling convention, and ffi_call
    of the closure stores it. *)
Theorem C65_results :
  forall fl fixed rt ts d regs gr rd regs2 b, fl_ok fl -> natural rt -> in_memory fl rt = false -> reads_ok rd ->
    zlen d = ty_size rt -> bytes_ok d -> zlen regs = ctx_size fl -> zlen gr = 16 -> bytes_ok gr -> zlen regs2 = ctx_size fl ->
    ty_size rt <= zlen b -> (narrow (ty_code rt) = true -> 8 <= zlen b) ->
    exists r b', load_ret fl (prep fixed rt ts) regs d gr = Ok r /\ returned fl rt (r_a r) (r_fa r) d /\
      finish fl (prep fixed rt ts) rd r regs2 false (Some b) = Ok (Some b') /\ same_fields rt b' d.
Proof. exact result_round_trip. Qed.
Print Assumptions C65_results.

Example C65_hypotheses_met :
  natural s_fi /\ in_memory 8 s_fi = false /\ zlen [1; 2; 3; 4; 5; 6; 7; 8] = ty_size s_fi /\ bytes_ok [1; 2; 3; 4; 5; 6; 7; 8] /\
  load_ret 8 (prep None s_fi []) (repeat 0 144) [1; 2; 3; 4; 5; 6; 7; 8] (repeat 0 16) =
    Ok (RRet ([5; 6; 7; 8] ++ repeat 0 12) ([1; 2; 3; 4; 255; 255; 255; 255] ++ repeat 0 8)).
Proof.
  split; [unfold s_fi; natural_tac|]. split; [reflexivity|]. split; [reflexivity|].
  split; [repeat constructor; unfold byte_ok; lia|]. vm_compute. reflexivity.
Qed.

(** C66, in part: ffi_call does not access memory outside the block it allocated.  Missing: what
    C44 misses, for which it is false (below). *)
Theorem C66_block_partial :
  forall fl fixed rt ts rv objs gr chain base blk frame,
    let c := prep fixed rt ts in
    fl_ok fl -> signature_ok rt ts -> objects_ok ts objs -> A64Fits.total_size ts < 2 ^ 31 -> ty_size rt < 2 ^ 31 ->
    lone_reals_ok fl fixed 0 ts (places fl fixed rt ts) ->
    zlen blk = alloc_size fl c rv -> zlen frame = 16 -> (forall i, zlen (gr i) = 16 /\ bytes_ok (gr i)) ->
    0 <= base -> (16 | base) -> base + alloc_size fl c rv < 2 ^ 64 -> (forall a, rv = Some a -> 0 <= a < 2 ^ 64) ->
    call fl c rv objs gr chain base blk frame <> UB.
Proof. exact call_in_block. Qed.
Print Assumptions C66_block_partial.

Example C66_hypotheses_met :
  signature_ok s_big x_args /\ objects_ok x_args (x_objs x_args) /\ lone_reals_ok 8 None 0 x_args (places 8 None s_big x_args) /\
  zlen (repeat 0 496) = alloc_size 8 (prep None s_big x_args) None.
Proof.
  split; [exact x_signature|]. split; [exact x_args_objects|]. split; [apply x_lone; auto|]. vm_compute. reflexivity.
Qed.

(** C66 is false in general: nineteen structs of one double. *)
Theorem C66_block_refuted :
  exists ts objs gr base blk frame,
    signature_ok ty_void ts /\ objects_ok ts objs /\ A64Fits.total_size ts < 2 ^ 31 /\
    zlen blk = alloc_size 8 (prep None ty_void ts) None /\ zlen frame = 16 /\ (forall i, zlen (gr i) = 16 /\ bytes_ok (gr i)) /\
    0 <= base /\ (16 | base) /\ base + alloc_size 8 (prep None ty_void ts) None < 2 ^ 64 /\
    call 8 (prep None ty_void ts) None objs gr 0 base blk frame = UB.
Proof. exact block_refuted. Qed.
Print Assumptions C66_block_refuted.
