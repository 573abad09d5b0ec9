(** Properties C41-C43 and C54-C59: the AArch64 backend. *)
From Coq Require Import ZifyBool ZifyNat.
From Verif Require Import Base BaseFacts Types LayoutSpec NaturalTypes NaturalFacts A64Model A64Spec A64Hfa A64Facts A64Call
  A64Main A64Closure A64Ret A64Fits A64Lemmas.

(** C41: is_vfp_type recognises exactly the homogeneous floating aggregates of one to four
    members, of any nesting, and encodes their member type and number. *)
Theorem C41_hfa_recognition :
  forall p t, natural t -> quads_ok p t ->
    exists h, is_vfp p t = Ok h /\
      (forall c n, hfa t c n -> h = tcode_num c * 4 + (4 - Z.of_nat n) /\ h <> 0) /\
      (h <> 0 -> exists c n, hfa t c n).
Proof. exact hfa_recognition. Qed.
Print Assumptions C41_hfa_recognition.

Example C41_hypotheses_met :
  natural s_hfa /\ quads_ok Apple s_hfa /\ hfa s_hfa T_FLOAT 3 /\ is_vfp Apple s_hfa = Ok 9 /\
  natural s_mid /\ is_vfp Linux s_mid = Ok 0 /\
  is_vfp Linux (c_struct_of [ty_double; ty_double; ty_double; ty_double; ty_double]) = Ok 0 /\
  is_vfp Linux (c_struct_of [ty_longdouble; ty_longdouble]) = Ok 18.
Proof.
  split; [unfold s_hfa; natural_tac|]. split; [right; vm_compute; intuition discriminate|].
  split; [split; [reflexivity|split; [reflexivity|lia]]|]. split; [reflexivity|]. split; [unfold s_mid; natural_tac|].
  split; [reflexivity|]. split; reflexivity.
Qed.

(** C42, in part: the area suffices, the copies are aligned, disjoint, and above the stack
    arguments, when nothing is passed by reference, or alignments are at most 8 and at least as
    many words of arguments are in registers as pointers to copies are on the stack.  Missing:
    the other signatures, for which it is false (below). *)
Theorem C42_argument_area_partial :
  forall p abi fixed rt ts c rv objs chain base g_blk g_v frame,
    signature_ok p abi fixed rt ts -> prep p abi fixed rt ts = Ok c -> objects_ok ts objs ->
    zlen g_blk = call_size c rv -> zlen g_v = 128 -> zlen frame = 40 ->
    0 <= base -> (16 | base) -> base + call_size c rv < 2 ^ 64 ->
    total_size ts < 2 ^ 31 -> area_enough (is_apple p) fixed ts ->
    pointer_slots_ok (is_apple p) fixed 0 ts (places (is_apple p) fixed ts) ->
    stack_used (is_apple p) fixed ts <= k_bytes c /\
    exists m fl r ptrs, call p c rv objs chain base g_blk g_v frame = Ok (m, fl, r) /\
      held (s_x m) (s_v m) (s_sp m) (s_read m) ts (places (is_apple p) fixed ts) objs ptrs /\
      copies_ok ts ptrs (s_sp m + stack_used (is_apple p) fixed ts) (s_sp m + k_bytes c).
Proof. exact area_suffices. Qed.
Print Assumptions C42_argument_area_partial.

Example C42_hypotheses_met :
  signature_ok Linux A_SYSV None s_mid x_args_apple /\
  prep Linux A_SYSV None s_mid x_args_apple = Ok (cif_of Linux None A_SYSV s_mid x_args_apple) /\
  objects_ok x_args_apple (x_objs x_args_apple) /\
  total_size x_args_apple < 2 ^ 31 /\ area_enough false None x_args_apple /\
  pointer_slots_ok false None 0 x_args_apple (places false None x_args_apple) /\
  (exists t, In t x_args_apple /\ by_ref t = true) /\
  places false None x_args_apple =
    [Xregs 0; Vregs 0; Xregs 1; Vregs 3; Xregs 2; Xregs 3; Xregs 5; Vregs 4; Xregs 6; Xregs 7; Stack 0; Stack 16].
Proof. exact area_sample. Qed.

(** C42 is false in general: with nine 32-byte structs the ninth pointer is stored over the
    ninth copy. *)
Theorem C42_argument_area_refuted :
  exists rt ts c objs base g_blk g_v frame m fl r d o9,
    signature_ok Linux A_SYSV None rt ts /\ prep Linux A_SYSV None rt ts = Ok c /\ objects_ok ts objs /\
    zlen g_blk = call_size c None /\ zlen g_v = 128 /\ zlen frame = 40 /\ 0 <= base /\ (16 | base) /\
    call Linux c None objs 0 base g_blk g_v frame = Ok (m, fl, r) /\
    znth (places false None ts) 8 = Some (Stack 0) /\ (forall t, znth ts 8 = Some t -> by_ref t = true) /\
    znth objs 8 = Some o9 /\
    s_read m (s_sp m + 0) 8 = Some d /\ s_read m (le_dec d) 32 <> Some o9.
Proof. exact area_refuted. Qed.
Print Assumptions C42_argument_area_refuted.

(** C43, in part: a closure called through ffi_call with its own signature sees the argument
    objects, and the result address of a result in memory is the caller's.  Missing: signatures
    whose area is too small, and those where the slot of a pointer to a copy on the stack is
    not aligned like a pointer; for these it is false (below). *)
Theorem C43_round_trip_partial :
  forall p abi fixed rt ts c rv objs chain base g_blk g_v frame g_v2 slot,
    signature_ok p abi fixed rt ts -> prep p abi fixed rt ts = Ok c -> objects_ok ts objs ->
    zlen g_blk = call_size c rv -> zlen g_v = 128 -> zlen frame = 40 ->
    0 <= base -> (16 | base) -> base + call_size c rv < 2 ^ 64 ->
    fits p fixed c -> pointer_slots_ok (is_apple p) fixed 0 ts (places (is_apple p) fixed ts) ->
    zlen g_v2 = 128 -> zlen slot = 64 ->
    exists m fl r l blk q fl2, call p c rv objs chain base g_blk g_v frame = Ok (m, fl, r) /\
      closure p c m g_v2 slot = Ok (l, blk, q, fl2) /\ seen m blk ts l objs /\
      (forall a, rv = Some a -> q = if in_memory rt then RCaller a else RSlot).
Proof. exact round_trip. Qed.
Print Assumptions C43_round_trip_partial.

(** A signature with all kinds of arguments, two of them structs by reference, one of these
    with its pointer on the stack, next to a quad float. *)
Example C43_hypotheses_met :
  signature_ok Linux A_SYSV None s_big x_args /\
  prep Linux A_SYSV None s_big x_args = Ok (cif_of Linux None A_SYSV s_big x_args) /\
  objects_ok x_args (x_objs x_args) /\ call_size (cif_of Linux None A_SYSV s_big x_args) (Some 8192) = 440 /\
  fits Linux None (cif_of Linux None A_SYSV s_big x_args) /\
  pointer_slots_ok false None 0 x_args (places false None x_args) /\ in_memory s_big = true /\
  places false None x_args =
    [Xregs 0; Vregs 0; Xregs 1; Vregs 3; Xregs 2; Xregs 3; Xregs 5; Vregs 4; Xregs 6; Vregs 6; Xregs 7; Stack 0; Stack 16].
Proof. exact linux_sample. Qed.

(** C43 is false in general: nine ints and a struct with a long double. *)
Theorem C43_round_trip_refuted :
  exists ts c objs base g_blk g_v frame g_v2 slot m fl r,
    signature_ok Linux A_SYSV None ty_void ts /\ prep Linux A_SYSV None ty_void ts = Ok c /\ objects_ok ts objs /\
    zlen g_blk = call_size c None /\ zlen g_v = 128 /\ zlen frame = 40 /\ 0 <= base /\ (16 | base) /\
    base + call_size c None < 2 ^ 64 /\ zlen g_v2 = 128 /\ zlen slot = 64 /\
    call Linux c None objs 0 base g_blk g_v frame = Ok (m, fl, r) /\
    forall l blk q fl2, closure Linux c m g_v2 slot = Ok (l, blk, q, fl2) -> ~ seen m blk ts l objs.
Proof. exact quad_refuted. Qed.
Print Assumptions C43_round_trip_refuted.

(** The same on Apple systems with eight ints, a char and a struct of twenty chars. *)
Theorem C43_round_trip_apple_refuted :
  exists ts c objs base g_blk g_v frame g_v2 slot m fl r,
    signature_ok Apple A_SYSV None ty_void ts /\ prep Apple A_SYSV None ty_void ts = Ok c /\ objects_ok ts objs /\
    zlen g_blk = call_size c None /\ zlen g_v = 128 /\ zlen frame = 40 /\ 0 <= base /\ (16 | base) /\
    base + call_size c None < 2 ^ 64 /\ zlen g_v2 = 128 /\ zlen slot = 64 /\
    call Apple c None objs 0 base g_blk g_v frame = Ok (m, fl, r) /\
    forall l blk q fl2, closure Apple c m g_v2 slot = Ok (l, blk, q, fl2) -> ~ seen m blk ts l objs.
Proof. exact apple_refuted. Qed.
Print Assumptions C43_round_trip_apple_refuted.

(** C54, in part: at the call instruction every argument is where AAPCS64 (or the Apple
    variant) puts it, the static chain is in x18, the address of a result in memory in x8.
    Missing as for C43. *)
Theorem C54_call_placement_partial :
  forall p abi fixed rt ts c rv objs chain base g_blk g_v frame,
    signature_ok p abi fixed rt ts -> prep p abi fixed rt ts = Ok c -> objects_ok ts objs ->
    zlen g_blk = call_size c rv -> zlen g_v = 128 -> zlen frame = 40 ->
    0 <= base -> (16 | base) -> base + call_size c rv < 2 ^ 64 ->
    fits p fixed c -> pointer_slots_ok (is_apple p) fixed 0 ts (places (is_apple p) fixed ts) ->
    exists m fl r ptrs, call p c rv objs chain base g_blk g_v frame = Ok (m, fl, r) /\
      s_sp m = base + 192 /\ s_x18 m = chain /\ zlen (s_x m) = 64 /\ zlen (s_v m) = 128 /\
      held (s_x m) (s_v m) (s_sp m) (s_read m) ts (places (is_apple p) fixed ts) objs ptrs /\
      copies_ok ts ptrs (s_sp m + stack_used (is_apple p) fixed ts) (s_sp m + k_bytes c) /\
      (forall a, in_memory rt = true -> rv = Some a -> s_x8 m = a /\ r = Some a).
Proof. exact call_places. Qed.
Print Assumptions C54_call_placement_partial.

(** A variadic signature of an Apple system: the variadic arguments are on the stack. *)
Example C54_hypotheses_met :
  signature_ok Apple A_SYSV (Some 9) s_mid x_args_apple /\
  prep Apple A_SYSV (Some 9) s_mid x_args_apple = Ok (cif_of Apple (Some 9) A_SYSV s_mid x_args_apple) /\
  objects_ok x_args_apple (x_objs x_args_apple) /\
  fits Apple (Some 9) (cif_of Apple (Some 9) A_SYSV s_mid x_args_apple) /\
  pointer_slots_ok true (Some 9) 0 x_args_apple (places true (Some 9) x_args_apple) /\
  places true (Some 9) x_args_apple =
    [Xregs 0; Vregs 0; Xregs 1; Vregs 3; Xregs 2; Xregs 3; Xregs 5; Vregs 4; Xregs 6; Stack 0; Stack 8; Stack 24].
Proof. exact apple_sample. Qed.

(** C55: whoever calls a closure as AAPCS64 (or the Apple variant) says, the handler finds the
    arguments; storing a result to the slot does not change them; the result goes to the slot
    or to the caller's memory. *)
Theorem C55_closure_arguments :
  forall p abi fixed rt ts c m objs ptrs g_v slot,
    signature_ok p abi fixed rt ts -> prep p abi fixed rt ts = Ok c -> objects_ok ts objs ->
    zlen (s_x m) = 64 -> zlen (s_v m) = 128 -> zlen g_v = 128 -> zlen slot = 64 ->
    stack_used (is_apple p) fixed ts < 2 ^ 60 -> Forall (fun a => 0 <= a < 2 ^ 64) ptrs ->
    held (s_x m) (s_v m) (s_sp m) (s_read m) ts (places (is_apple p) fixed ts) objs ptrs ->
    exists l blk r fl, closure p c m g_v slot = Ok (l, blk, r, fl) /\ zlen blk = 256 /\
      (forall blk2, (forall o k, 0 <= o -> 0 <= k -> o + k <= 192 -> get_range blk2 o k = get_range blk o k) ->
         seen m blk2 ts l objs) /\
      r = (if in_memory rt then RCaller (s_x8 m) else RSlot) /\
      Z.land fl A_RET_MASK = Z.land (spec_flags rt) A_RET_MASK.
Proof. exact closure_args. Qed.
Print Assumptions C55_closure_arguments.

(** A caller with a float pair in v0 and v1, a struct by reference in x0, an int in x1. *)
Example C55_hypotheses_met :
  exists m, signature_ok Linux A_SYSV None ty_double [ty_complex_float; s_big; ty_sint32] /\
    places false None [ty_complex_float; s_big; ty_sint32] = [Vregs 0; Xregs 0; Xregs 1] /\
    held (s_x m) (s_v m) (s_sp m) (s_read m) [ty_complex_float; s_big; ty_sint32] [Vregs 0; Xregs 0; Xregs 1]
      (x_objs [ty_complex_float; s_big; ty_sint32]) [4096].
Proof. exact caller_sample. Qed.

(** C56: a call stores the result the callee returned in registers, an integer widened to a
    full word, and nothing else. *)
Theorem C56_call_result :
  forall p abi fixed rt ts c a objs chain base g_blk g_v frame m fl r,
    signature_ok p abi fixed rt ts -> prep p abi fixed rt ts = Ok c ->
    call p c (Some a) objs chain base g_blk g_v frame = Ok (m, fl, r) ->
    natural rt -> in_memory rt = false ->
    forall x v tmp buf d, zlen x = 16 -> bytes_ok x -> zlen v = 64 -> zlen tmp = 16 ->
    zlen d = ty_size rt -> returned rt x v d -> room rt <= zlen buf ->
    exists b, finish c fl (ARet x v) tmp buf = Ok b /\ stored rt d buf b.
Proof. exact call_result. Qed.
Print Assumptions C56_call_result.

(** A three byte struct comes in x0 and three bytes are stored. *)
Example C56_hypotheses_met :
  signature_ok Linux A_SYSV None s_three [ty_sint32] /\ natural s_three /\ in_memory s_three = false /\
  returned s_three [1; 2; 3; 4; 5; 6; 7; 8; 9; 10; 11; 12; 13; 14; 15; 16] (repeat 0 64) [1; 2; 3] /\ room s_three = 3 /\
  (let c := cif_of Linux None A_SYSV s_three [ty_sint32] in
   finish c (k_flags c) (ARet [1; 2; 3; 4; 5; 6; 7; 8; 9; 10; 11; 12; 13; 14; 15; 16] (repeat 0 64)) (repeat 0 16) [77; 77; 77; 77; 77]
     = Ok [1; 2; 3; 77; 77]).
Proof. exact three_sample. Qed.

(** Without a result, without a buffer, or with a result in memory the return code stores
    nothing. *)
Theorem C56_no_store :
  forall p abi fixed rt ts c rv objs chain base g_blk g_v frame m fl r,
    signature_ok p abi fixed rt ts -> prep p abi fixed rt ts = Ok c ->
    call p c rv objs chain base g_blk g_v frame = Ok (m, fl, r) ->
    rv = None \/ rt = ty_void \/ in_memory rt = true ->
    forall x tmp buf, finish c fl x tmp buf = Ok buf.
Proof. exact call_no_store. Qed.
Print Assumptions C56_no_store.

(** C57: the closure entry code puts the result the handler stored into the registers where
    the caller expects it, integers widened. *)
Theorem C57_closure_result :
  forall rt fl slot x v d p, natural rt -> quads_ok p rt -> in_memory rt = false ->
    Z.land fl A_RET_MASK = Z.land (spec_flags rt) A_RET_MASK ->
    zlen slot = 64 -> bytes_ok slot -> zlen x = 16 -> bytes_ok x -> zlen v = 64 ->
    get_range slot 0 (ty_size rt) = Some d ->
    exists x' v', load_ret fl slot (ARet x v) = Ok (ARet x' v') /\ zlen x' = 16 /\ bytes_ok x' /\ zlen v' = 64 /\
      returned rt x' v' d /\
      (integral (ty_code rt) = true -> get_range x' 0 8 = Some (le_enc 8 (widened (ty_code rt) d))).
Proof. exact load_result. Qed.
Print Assumptions C57_closure_result.

(** A signed char of -2. *)
Example C57_hypotheses_met :
  natural ty_sint8 /\ quads_ok Apple ty_sint8 /\ in_memory ty_sint8 = false /\
  get_range (254 :: repeat 7 63) 0 (ty_size ty_sint8) = Some [254] /\
  load_ret (spec_flags ty_sint8) (254 :: repeat 7 63) (ARet (repeat 9 16) (repeat 5 64)) =
    Ok (ARet ([254; 255; 255; 255; 255; 255; 255; 255] ++ repeat 9 8) (repeat 5 64)) /\
  widened T_SINT8 [254] = 2 ^ 64 - 2.
Proof. exact char_sample. Qed.

(** C58: results survive the way from the handler of a closure to the caller of ffi_call. *)
Theorem C58_result_round_trip :
  forall p abi fixed rt ts c a objs chain base g_blk g_v frame m fl r g_v2 slot l blk q fl2,
    signature_ok p abi fixed rt ts -> prep p abi fixed rt ts = Ok c -> objects_ok ts objs ->
    call p c (Some a) objs chain base g_blk g_v frame = Ok (m, fl, r) ->
    closure p c m g_v2 slot = Ok (l, blk, q, fl2) ->
    natural rt -> in_memory rt = false ->
    forall slot2 x v tmp buf d, zlen slot2 = 64 -> bytes_ok slot2 -> zlen x = 16 -> bytes_ok x -> zlen v = 64 ->
    zlen tmp = 16 -> get_range slot2 0 (ty_size rt) = Some d -> room rt <= zlen buf ->
    exists x' v' b, load_ret fl2 slot2 (ARet x v) = Ok (ARet x' v') /\
      finish c fl (ARet x' v') tmp buf = Ok b /\ stored rt d buf b.
Proof. exact result_round_trip. Qed.
Print Assumptions C58_result_round_trip.

(** The call and the closure of a signature returning three floats. *)
Example C58_hypotheses_met :
  signature_ok Linux A_SYSV None s_hfa [ty_double; ty_sint32] /\
  natural s_hfa /\ in_memory s_hfa = false /\ room s_hfa = 12 /\
  (let c := cif_of Linux None A_SYSV s_hfa [ty_double; ty_sint32] in
   match call Linux c (Some 8192) (x_objs [ty_double; ty_sint32]) 0 65536 (repeat 0 264) (repeat 0 128) (repeat 0 40) with
   | Ok (m, fl, _) => match closure Linux c m (repeat 0 128) (repeat 0 64) with
                      | Ok (l, _, RSlot, fl2) => l = [PFrame 0; PFrame 128] /\ fl2 = 137
                      | _ => False
                      end
   | _ => False
   end).
Proof. exact float_sample. Qed.

(** C59, in part: in variadic calls of the Windows ABI a float or double goes to the next
    general register.  Missing: homogeneous aggregates, for which it is false. *)
Theorem C59_windows_variadic_partial :
  forall base t obj blk st, t = ty_float \/ t = ty_double -> zlen obj = ty_size t ->
    zlen blk >= 208 -> 0 <= a_ngrn st < 8 ->
    exists b, put_arg Windows true base t obj blk st = Ok (b, with_ngrn (a_ngrn st + 1) st) /\ zlen b = zlen blk /\
      get_range b (128 + 8 * a_ngrn st) (ty_size t) = Some obj /\
      forall o k, 0 <= k -> o + k <= 128 + 8 * a_ngrn st -> get_range b o k = get_range blk o k.
Proof. exact win_scalar. Qed.
Print Assumptions C59_windows_variadic_partial.

Example C59_hypotheses_met :
  match put_arg Windows true 65536 ty_double [1; 2; 3; 4; 5; 6; 7; 8] (repeat 7 208) (with_ngrn 2 (arg_init 16)) with
  | Ok (b, st) => get_range b 136 24 = Some (repeat 7 8 ++ [1; 2; 3; 4; 5; 6; 7; 8] ++ repeat 0 8) /\ a_ngrn st = 3
  | _ => False
  end.
Proof. vm_compute. auto. Qed.

(** C59 is false for a struct of two doubles: the second one is not in the next register. *)
Theorem C59_windows_variadic_refuted :
  exists ts c objs base g_blk g_v frame m fl r o,
    Forall natural ts /\ prep Windows A_WIN64 (Some 1) ty_void ts = Ok c /\ objects_ok ts objs /\
    zlen g_blk = call_size c None /\ zlen g_v = 128 /\ zlen frame = 40 /\ (16 | base) /\
    call Windows c None objs 0 base g_blk g_v frame = Ok (m, fl, r) /\
    ts = [ty_sint32; s_dd] /\ znth objs 1 = Some o /\ get_range (s_x m) 8 16 <> Some o.
Proof. exact win_refuted. Qed.
Print Assumptions C59_windows_variadic_refuted.
