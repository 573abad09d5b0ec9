(** Properties C84-C91: the LoongArch backend. *)
From Coq Require Import ZifyBool ZifyNat.
From Verif Require Import Base BaseFacts Types LayoutSpec NaturalTypes NaturalFacts RvSpec RvFlat RvMain RvRet RvLemmas
  LaModel LaSpec LaFlat LaCall LaMain LaWhole LaClosure LaRet LaLemmas.
From Verif Require A64Fits.

(** C84, in part: what a closure's handler gets when the closure is called by ffi_call with the
    same signature.  Missing: signatures whose stack arguments and copies do not fit the area
    (C86), and those with a non-variadic struct of a single float or double for which no
    floating point register is left, for which it is false (below). *)
Theorem C84_round_trip_partial :
  forall fl fixed rt ts rv objs gr chain base blk frame frame2 sto slot,
    let c := prep fixed rt ts in
    la_fl fl -> signature_ok rt ts -> promoted fixed 0 ts -> objects_ok ts objs -> A64Fits.total_size ts < 2 ^ 31 -> ty_size rt < 2 ^ 31 ->
    lone_reals_ok fl fixed 0 ts (places fl fixed rt ts) ->
    stack_used fl fixed rt ts <= copies_end ts (places fl fixed rt ts) (arg_bytes c) ->
    zlen blk = alloc_size fl c rv -> zlen frame = 16 -> (forall i, zlen (gr i) = 16 /\ bytes_ok (gr i)) ->
    0 <= base -> (16 | base) -> base + alloc_size fl c rv < 2 ^ 64 -> (forall a, rv = Some a -> 0 <= a < 2 ^ 64) ->
    (forall i, zlen (sto i) = 16) -> zlen slot = 16 ->
    exists m r l r2, call fl c rv objs gr chain base blk frame = Ok (m, r, in_memory fl rt) /\ s_t2 m = chain /\
      closure fl c m frame2 sto slot = Ok (l, s_fa m ++ s_a m ++ frame2, r2) /\
      received (s_read m) ts l objs /\
      match r2 with RCaller a => in_memory fl rt = true /\ r = Some a | RSlot n => in_memory fl rt = false /\ n = ty_size rt end.
Proof. exact round_trip. Qed.
Print Assumptions C84_round_trip_partial.

Example C84_hypotheses_met :
  la_fl 8 /\ signature_ok s_big x_args /\ promoted None 0 x_args /\ promoted (Some 3) 0 x_args /\
  objects_ok x_args (x_objs x_args) /\ A64Fits.total_size x_args < 2 ^ 31 /\
  lone_reals_ok 8 None 0 x_args (places 8 None s_big x_args) /\ lone_reals_ok 8 (Some 3) 0 x_args (places 8 (Some 3) s_big x_args) /\
  stack_used 8 None s_big x_args <= copies_end x_args (places 8 None s_big x_args) (arg_bytes (prep None s_big x_args)) /\
  stack_used 8 (Some 3) s_big x_args <= copies_end x_args (places 8 (Some 3) s_big x_args) (arg_bytes (prep (Some 3) s_big x_args)) /\
  in_memory 8 s_big = true /\ alloc_size 8 (prep None s_big x_args) None = 344.
Proof.
  split; [right; reflexivity|]. split; [exact x_signature|]. split; [apply x_promoted|]. split; [apply x_promoted|].
  split; [exact x_args_objects|]. split; [vm_compute; reflexivity|].
  split; [apply x_lone; auto|]. split; [apply x_lone; auto|]. split; [apply x_fits; auto|]. split; [apply x_fits; auto|].
  split; vm_compute; reflexivity.
Qed.

(** C84 is false in general: with an int and nine structs of one double the ninth is stored in
    a0, over the int; nothing there is passed by reference. *)
Theorem C84_round_trip_refuted :
  exists ts objs gr base blk frame frame2 sto slot m r,
    signature_ok ty_void ts /\ objects_ok ts objs /\ A64Fits.total_size ts < 2 ^ 31 /\
    references (places 8 None ty_void ts) = 0 /\
    zlen blk = alloc_size 8 (prep None ty_void ts) None /\ zlen frame = 16 /\ (forall i, zlen (gr i) = 16 /\ bytes_ok (gr i)) /\
    0 <= base /\ (16 | base) /\ base + alloc_size 8 (prep None ty_void ts) None < 2 ^ 64 /\
    (forall i, zlen (sto i) = 16) /\ zlen slot = 16 /\
    call 8 (prep None ty_void ts) None objs gr 0 base blk frame = Ok (m, r, false) /\
    (forall l regs q, closure 8 (prep None ty_void ts) m frame2 sto slot = Ok (l, regs, q) -> ~ received (s_read m) ts l objs) /\
    (forall ptrs, ~ held 8 (s_a m) (s_fa m) (s_sp m) (s_read m) ts (places 8 None ty_void ts) objs ptrs).
Proof. exact round_trip_refuted. Qed.
Print Assumptions C84_round_trip_refuted.

(** C85, in part: at the call every argument is where the LoongArch calling convention has it,
    with or without floating point registers, variadic or not, and the copies of arguments
    passed by reference are disjoint, aligned as their types and apart from the stack arguments
    and the result.  Missing: what C84 misses. *)
Theorem C85_placement_partial :
  forall fl fixed rt ts rv objs gr chain base blk frame,
    let c := prep fixed rt ts in
    la_fl fl -> signature_ok rt ts -> promoted fixed 0 ts -> objects_ok ts objs -> A64Fits.total_size ts < 2 ^ 31 -> ty_size rt < 2 ^ 31 ->
    lone_reals_ok fl fixed 0 ts (places fl fixed rt ts) ->
    stack_used fl fixed rt ts <= copies_end ts (places fl fixed rt ts) (arg_bytes c) ->
    zlen blk = alloc_size fl c rv -> zlen frame = 16 -> (forall i, zlen (gr i) = 16 /\ bytes_ok (gr i)) ->
    0 <= base -> (16 | base) -> base + alloc_size fl c rv < 2 ^ 64 -> (forall a, rv = Some a -> 0 <= a < 2 ^ 64) ->
    exists m r ptrs, call fl c rv objs gr chain base blk frame = Ok (m, r, in_memory fl rt) /\
      s_sp m = base /\ s_t2 m = chain /\ zlen (s_a m) = 64 /\ zlen (s_fa m) = 8 * fl /\
      held fl (s_a m) (s_fa m) (s_sp m) (s_read m) ts (places fl fixed rt ts) objs ptrs /\
      copies_down ts (places fl fixed rt ts) ptrs (base + stack_used fl fixed rt ts) (base + arg_bytes c) /\
      (in_memory fl rt = true -> exists a, r = Some a /\ get_range (s_a m) 0 8 = Some (le_enc 8 a) /\
         (forall a', rv = Some a' -> a = a') /\
         (rv = None -> base + arg_bytes c <= a /\ a + ty_size rt <= base + ctx_at c rv)).
Proof. exact call_ok. Qed.
Print Assumptions C85_placement_partial.

Example C85_hypotheses_met :
  signature_ok s_big x_args /\ objects_ok x_args (x_objs x_args) /\ promoted (Some 3) 0 x_args /\
  lone_reals_ok 8 None 0 x_args (places 8 None s_big x_args) /\ lone_reals_ok 8 (Some 3) 0 x_args (places 8 (Some 3) s_big x_args) /\
  stack_used 8 (Some 3) s_big x_args <= copies_end x_args (places 8 (Some 3) s_big x_args) (arg_bytes (prep (Some 3) s_big x_args)) /\
  In (Ref (XR 3)) (places 8 (Some 3) s_big x_args) /\ In (Words [ST 64; ST 72]) (places 8 (Some 3) s_big x_args).
Proof.
  split; [exact x_signature|]. split; [exact x_args_objects|]. split; [apply x_promoted|]. split; [apply x_lone; auto|].
  split; [apply x_lone; auto|]. split; [apply x_fits; auto|]. rewrite x_places_variadic. cbn. tauto.
Qed.

(** C86, in part: the area of cif->bytes holds the stack arguments and the copies of the
    arguments passed by reference.  Missing: more than eight arguments passed by reference, and
    arguments passed by reference together with types of alignment 16, for both of which it is
    false (below and C88). *)
Theorem C86_area_partial :
  forall fl fixed rt ts, signature_ok rt ts -> A64Fits.total_size ts < 2 ^ 31 -> area_enough fl fixed rt ts ->
    stack_used fl fixed rt ts <= copies_end ts (places fl fixed rt ts) (arg_bytes (prep fixed rt ts)).
Proof. exact area_fits. Qed.
Print Assumptions C86_area_partial.

Example C86_hypotheses_met :
  signature_ok ty_sint32 y_less /\ area_enough 8 None ty_sint32 y_less /\ references (places 8 None ty_sint32 y_less) = 8 /\
  stack_used 8 None ty_sint32 y_less = 32 /\ arg_bytes (prep None ty_sint32 y_less) = 232 /\
  copies_end y_less (places 8 None ty_sint32 y_less) 232 = 40.
Proof.
  split; [exact y_signature|]. split; [apply y_enough|]. split; [apply y_enough|]. repeat split; vm_compute; reflexivity.
Qed.

(** C86 is false in general: of nine structs of three words the last is copied to the bottom of
    the area, and the pointer to it stored over the copy; the callee does not get it. *)
Theorem C86_area_refuted :
  exists ts objs gr base blk frame m r,
    signature_ok ty_void ts /\ objects_ok ts objs /\ A64Fits.total_size ts < 2 ^ 31 /\
    copies_end ts (places 8 None ty_void ts) (arg_bytes (prep None ty_void ts)) < stack_used 8 None ty_void ts /\
    zlen blk = alloc_size 8 (prep None ty_void ts) None /\ zlen frame = 16 /\ (forall i, zlen (gr i) = 16 /\ bytes_ok (gr i)) /\
    0 <= base /\ (16 | base) /\ base + alloc_size 8 (prep None ty_void ts) None < 2 ^ 64 /\
    call 8 (prep None ty_void ts) None objs gr 0 base blk frame = Ok (m, r, false) /\
    forall ptrs, Forall (fun p => 0 <= p < 2 ^ 64) ptrs ->
      ~ held 8 (s_a m) (s_fa m) (s_sp m) (s_read m) ts (places 8 None ty_void ts) objs ptrs.
Proof. exact area_refuted. Qed.
Print Assumptions C86_area_refuted.

(** C87, in part: a closure called by any caller that follows the calling convention.  Missing:
    a non-variadic struct of a single float or double for which no floating point register is
    left. *)
Theorem C87_closure_arguments_partial :
  forall fl fixed rt ts m frame sto slot objs ptrs res,
    la_fl fl -> signature_ok rt ts -> promoted fixed 0 ts -> objects_ok ts objs -> lone_reals_ok fl fixed 0 ts (places fl fixed rt ts) ->
    zlen (s_a m) = 64 -> zlen (s_fa m) = 8 * fl -> 0 <= s_sp m -> (16 | s_sp m) ->
    s_sp m + stack_used fl fixed rt ts + 32 < 2 ^ 64 -> reads_ok (s_read m) ->
    (forall i, zlen (sto i) = 16) -> zlen slot = 16 -> Forall (fun p => 0 <= p < 2 ^ 64) ptrs ->
    held fl (s_a m) (s_fa m) (s_sp m) (s_read m) ts (places fl fixed rt ts) objs ptrs ->
    (in_memory fl rt = true -> 0 <= res < 2 ^ 64 /\ get_range (s_a m) 0 8 = Some (le_enc 8 res)) ->
    exists l r, closure fl (prep fixed rt ts) m frame sto slot = Ok (l, s_fa m ++ s_a m ++ frame, r) /\
      received (s_read m) ts l objs /\
      (in_memory fl rt = true -> r = RCaller res) /\
      (in_memory fl rt = false -> r = RSlot (ty_size rt)).
Proof. exact closure_ok. Qed.
Print Assumptions C87_closure_arguments_partial.

(** A caller: a float with an int in fa0 and a0, the other half of fa0 being anything, and a
    long double in a1 and a2. *)
Example C87_hypotheses_met :
  let ts := [s_fi; ty_longdouble] in
  let objs := x_objs ts in
  let a := [5; 6; 7; 8; 9; 9; 9; 9] ++ [1; 2; 3; 4; 5; 6; 7; 8; 9; 10; 11; 12; 13; 14; 15; 16] ++ repeat 0 40 in
  let fa := [1; 2; 3; 4; 77; 78; 79; 80] ++ repeat 0 56 in
  signature_ok ty_sint64 ts /\ objects_ok ts objs /\ lone_reals_ok 8 None 0 ts (places 8 None ty_sint64 ts) /\
  places 8 None ty_sint64 ts = [InFX 0 0 4 4 4; Words [XR 1; XR 2]] /\ zlen a = 64 /\ zlen fa = 64 /\
  held 8 a fa 65536 (fun _ _ => None) ts (places 8 None ty_sint64 ts) objs [].
Proof.
  cbv zeta. assert (N : Forall natural [s_fi; ty_longdouble]) by (unfold s_fi; natural_tac).
  split. { split; [exact N|]. split; [repeat (apply Forall_cons || apply Forall_nil); unfold no_complex; vm_compute fields; repeat constructor; discriminate|].
    right. split; [natural_tac|]. unfold no_complex; vm_compute fields; repeat constructor; discriminate. }
  split. { apply x_objects; [exact N|]. repeat (apply Forall_cons || apply Forall_nil); vm_compute; discriminate. }
  assert (P : places 8 None ty_sint64 [s_fi; ty_longdouble] = [InFX 0 0 4 4 4; Words [XR 1; XR 2]]) by (vm_compute; reflexivity).
  split. { rewrite P. cbn [lone_reals_ok]. repeat split; intros _ S n H; vm_compute in S, H; discriminate. }
  split; [exact P|]. split; [reflexivity|]. split; [reflexivity|]. rewrite P.
  split. { exists [1; 2; 3; 4], [5; 6; 7; 8]. split; [reflexivity|]. split; [reflexivity|]. split; [split; [vm_compute; discriminate|vm_compute; reflexivity]|].
    exists [5; 6; 7; 8; 9; 9; 9; 9]. split; [vm_compute; reflexivity|]. split; [repeat constructor; unfold byte_ok; lia|reflexivity]. }
  split; [|reflexivity]. exists [1; 2; 3; 4; 5; 6; 7; 8; 9; 10; 11; 12; 13; 14; 15; 16]. split; [vm_compute; reflexivity|].
  split; [repeat constructor; unfold byte_ok; lia|]. split; [vm_compute; reflexivity|]. intros H. discriminate H.
Qed.

(** C88, in part: ffi_call does not access memory outside the block it allocated.  Missing: what
    C84 misses. *)
Theorem C88_block_partial :
  forall fl fixed rt ts rv objs gr chain base blk frame,
    let c := prep fixed rt ts in
    la_fl fl -> signature_ok rt ts -> promoted fixed 0 ts -> objects_ok ts objs -> A64Fits.total_size ts < 2 ^ 31 -> ty_size rt < 2 ^ 31 ->
    lone_reals_ok fl fixed 0 ts (places fl fixed rt ts) -> area_enough fl fixed rt ts ->
    zlen blk = alloc_size fl c rv -> zlen frame = 16 -> (forall i, zlen (gr i) = 16 /\ bytes_ok (gr i)) ->
    0 <= base -> (16 | base) -> base + alloc_size fl c rv < 2 ^ 64 -> (forall a, rv = Some a -> 0 <= a < 2 ^ 64) ->
    call fl c rv objs gr chain base blk frame <> UB.
Proof. exact call_in_block. Qed.
Print Assumptions C88_block_partial.

Example C88_hypotheses_met :
  signature_ok ty_sint32 y_less /\ area_enough 8 None ty_sint32 y_less /\ objects_ok y_less (x_objs y_less) /\
  lone_reals_ok 8 None 0 y_less (places 8 None ty_sint32 y_less) /\ promoted None 0 y_less /\
  alloc_size 8 (prep None ty_sint32 y_less) None = 376.
Proof.
  split; [exact y_signature|]. split; [apply y_enough|].
  split. { apply x_objects; [apply y_signature|]. unfold y_less; cbn [repeat app]. repeat (apply Forall_cons || apply Forall_nil); vm_compute; discriminate. }
  split. { unfold y_less; cbn [repeat app].
    match goal with |- lone_reals_ok _ _ _ _ ?p => let q := eval vm_compute in p in change p with q end.
    cbn [lone_reals_ok]. repeat split; intros _ S n H; vm_compute in S, H; discriminate. }
  split; [unfold y_less; cbn [repeat app promoted]; repeat split; intros H; discriminate H|]. vm_compute. reflexivity.
Qed.

(** C88 is false in general: f(struct of two long doubles, struct of three words): the second
    copy is below the block. *)
Theorem C88_block_refuted :
  exists ts objs gr base blk frame,
    signature_ok ty_void ts /\ objects_ok ts objs /\ A64Fits.total_size ts < 2 ^ 31 /\
    lone_reals_ok 8 None 0 ts (places 8 None ty_void ts) /\ stack_used 8 None ty_void ts = 0 /\
    zlen blk = alloc_size 8 (prep None ty_void ts) None /\ zlen frame = 16 /\ (forall i, zlen (gr i) = 16 /\ bytes_ok (gr i)) /\
    0 <= base /\ (16 | base) /\ base + alloc_size 8 (prep None ty_void ts) None < 2 ^ 64 /\
    call 8 (prep None ty_void ts) None objs gr 0 base blk frame = UB.
Proof. exact block_refuted. Qed.
Print Assumptions C88_block_refuted.

(** C89, in part: a narrow integer result is stored as a full word of the same value.  Missing:
    values of ffi_type_uint32 from 2^31 on, for which it is false (below). *)
Theorem C89_narrow_results_partial :
  forall fl fixed rt ts rd r regs b d, la_fl fl -> natural rt -> reads_ok rd -> narrow (ty_code rt) = true ->
    zlen regs = ctx_size fl -> zlen (r_a r) = 16 -> zlen (r_fa r) = 2 * fl -> zlen d = ty_size rt -> bytes_ok d -> 8 <= zlen b ->
    (ty_code rt = T_UINT32 -> le_dec d < 2 ^ 31) -> returned fl rt (r_a r) (r_fa r) d ->
    exists b', finish fl (prep fixed rt ts) rd r regs (in_memory fl rt) (Some b) = Ok (Some b') /\
      get_range b' 0 8 = Some (le_enc 8 (widened (ty_code rt) d)).
Proof. exact narrow_results. Qed.
Print Assumptions C89_narrow_results_partial.

Example C89_hypotheses_met :
  natural ty_sint16 /\ narrow (ty_code ty_sint16) = true /\ reads_ok (fun _ _ => None) /\ bytes_ok [254; 255] /\
  returned 8 ty_sint16 ([254; 255; 255; 255; 255; 255; 255; 255] ++ repeat 0 8) (repeat 0 16) [254; 255] /\
  widened T_SINT16 [254; 255] = 2 ^ 64 - 2.
Proof.
  split; [natural_tac|]. split; [reflexivity|]. split; [intros p n x H; discriminate H|].
  split; [repeat constructor; unfold byte_ok; lia|]. split; [|reflexivity].
  exists [254; 255; 255; 255; 255; 255; 255; 255]. split; [reflexivity|]. split; [repeat constructor; unfold byte_ok; lia|].
  split; [reflexivity|]. intros _. vm_compute. reflexivity.
Qed.

(** C89 is false in general: 0x80000000 of type ffi_type_uint32 is stored as 0xffffffff80000000. *)
Theorem C89_narrow_results_refuted :
  exists d r regs b b',
    zlen d = 4 /\ bytes_ok d /\ zlen regs = ctx_size 8 /\ zlen (r_a r) = 16 /\ zlen (r_fa r) = 16 /\ zlen b = 8 /\
    returned 8 ty_uint32 (r_a r) (r_fa r) d /\
    finish 8 (prep None ty_uint32 []) (fun _ _ => None) r regs (in_memory 8 ty_uint32) (Some b) = Ok (Some b') /\
    get_range b' 0 8 <> Some (le_enc 8 (widened T_UINT32 d)).
Proof. exact narrow_refuted. Qed.
Print Assumptions C89_narrow_results_refuted.

(** C90, in part: a handler's result is returned in the registers of the calling convention, and
    ffi_call of the closure stores it.  Missing: structs of a float or double and an integer,
    when the memory for the result ends less than eight bytes after the start of the integer
    (ubuf_ok), for which it is false (below). *)
Theorem C90_results_partial :
  forall fl fixed rt ts d regs gr rd regs2 b, la_fl fl -> natural rt -> in_memory fl rt = false -> reads_ok rd ->
    zlen d = ty_size rt -> bytes_ok d -> zlen regs = ctx_size fl -> zlen gr = 16 -> bytes_ok gr -> zlen regs2 = ctx_size fl ->
    ubuf_ok fl rt b ->
    exists r b', load_ret fl (prep fixed rt ts) regs d gr = Ok r /\ returned fl rt (r_a r) (r_fa r) d /\
      finish fl (prep fixed rt ts) rd r regs2 false (Some b) = Ok (Some b') /\ same_fields rt b' d.
Proof. exact result_round_trip. Qed.
Print Assumptions C90_results_partial.

Example C90_hypotheses_met :
  natural s_fi /\ in_memory 8 s_fi = false /\ zlen [1; 2; 3; 4; 5; 6; 7; 8] = ty_size s_fi /\ bytes_ok [1; 2; 3; 4; 5; 6; 7; 8] /\
  ubuf_ok 8 s_fi (repeat 0 12) /\
  load_ret 8 (prep None s_fi []) (repeat 0 144) [1; 2; 3; 4; 5; 6; 7; 8] (repeat 0 16) =
    Ok (RRet ([5; 6; 7; 8] ++ repeat 0 12) ([1; 2; 3; 4] ++ repeat 0 12)).
Proof.
  split; [unfold s_fi; natural_tac|]. split; [reflexivity|]. split; [reflexivity|].
  split; [repeat constructor; unfold byte_ok; lia|]. split; [|vm_compute; reflexivity].
  intros _. split; [vm_compute; discriminate|]. split; [discriminate|]. vm_compute. discriminate.
Qed.

(** C90 is false in general: the integer of struct { float; int; } is stored as eight bytes at
    offset 4 of an object of eight bytes. *)
Theorem C90_results_refuted :
  exists d r regs b,
    zlen d = ty_size s_fi /\ bytes_ok d /\ zlen regs = ctx_size 8 /\ zlen (r_a r) = 16 /\ zlen (r_fa r) = 16 /\ zlen b = ty_size s_fi /\
    in_memory 8 s_fi = false /\ returned 8 s_fi (r_a r) (r_fa r) d /\
    finish 8 (prep None s_fi []) (fun _ _ => None) r regs false (Some b) = UB.
Proof. exact result_refuted. Qed.
Print Assumptions C90_results_refuted.

(** C91, in part: with a void result at most the first byte of the result buffer changes, and
    the memory for a handler's result has the documented size unless the result is a narrow
    integer.  Missing: that byte and narrow integers, for which it is false (below). *)
Theorem C91_void_result_partial :
  forall fl fixed ts rd r regs b, la_fl fl -> zlen regs = ctx_size fl -> zlen (r_a r) = 16 -> zlen (r_fa r) = 2 * fl -> 1 <= zlen b ->
    exists b', finish fl (prep fixed ty_void ts) rd r regs (in_memory fl ty_void) (Some b) = Ok (Some b') /\ zlen b' = zlen b /\
      forall o n, 1 <= o -> 0 <= n -> get_range b' o n = get_range b o n.
Proof. exact void_result. Qed.
Print Assumptions C91_void_result_partial.

Theorem C91_result_room_partial :
  forall fl fixed rt ts m frame sto slot l regs n,
    closure fl (prep fixed rt ts) m frame sto slot = Ok (l, regs, RSlot n) -> narrow (ty_code rt) = false -> n = result_room rt.
Proof. exact slot_size. Qed.
Print Assumptions C91_result_room_partial.

Example C91_hypotheses_met :
  la_fl 8 /\ zlen (repeat 0 144) = ctx_size 8 /\ zlen (repeat 3 16) = 2 * 8 /\ 1 <= zlen [5; 6; 7; 8; 9] /\
  exists m, closure 8 (prep None s_fi [ty_sint64]) m (repeat 0 16) z16 (repeat 0 16) =
    Ok ([UData ([1; 2; 3; 4; 5; 6; 7; 8] ++ repeat 0 8)], repeat 0 64 ++ [1; 2; 3; 4; 5; 6; 7; 8] ++ repeat 0 72, RSlot 8) /\
    narrow (ty_code s_fi) = false /\ result_room s_fi = 8.
Proof.
  split; [right; reflexivity|]. split; [vm_compute; reflexivity|]. split; [vm_compute; reflexivity|]. split; [vm_compute; discriminate|].
  exists (RState ([1; 2; 3; 4; 5; 6; 7; 8] ++ repeat 0 56) (repeat 0 64) 0 65536 (fun _ _ => None)).
  split; [vm_compute; reflexivity|]. split; reflexivity.
Qed.

Theorem C91_void_result_refuted :
  exists r regs b b',
    zlen regs = ctx_size 8 /\ zlen (r_a r) = 16 /\ zlen (r_fa r) = 16 /\ zlen b = 8 /\
    finish 8 (prep None ty_void []) (fun _ _ => None) r regs (in_memory 8 ty_void) (Some b) = Ok (Some b') /\ b' <> b.
Proof. exact void_refuted. Qed.
Print Assumptions C91_void_result_refuted.

Theorem C91_result_room_refuted :
  exists m frame sto slot l regs n,
    zlen (s_a m) = 64 /\ zlen (s_fa m) = 64 /\ zlen frame = 16 /\ (forall i, zlen (sto i) = 16) /\ zlen slot = 16 /\
    closure 8 (prep None ty_sint8 []) m frame sto slot = Ok (l, regs, RSlot n) /\ n < result_room ty_sint8.
Proof. exact slot_refuted. Qed.
Print Assumptions C91_result_room_refuted.
