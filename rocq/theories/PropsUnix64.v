(** Properties C07-C18: the System V x86-64 backend. *)
From Coq Require Import ZifyBool ZifyNat Znumtheory.
From Verif Require Import Base BaseFacts Types LayoutSpec NaturalTypes NaturalFacts Unix64Model Unix64Spec Unix64Link
  PropsUnix64Lemmas.

(** C07: the code classifies every C type as the psABI does. *)
Theorem C07_classification :
  forall t in_return, natural t ->
    exists e, examine t in_return = Ok e /\ class_matches (passing_of t) in_return e.
Proof. exact classify_matches. Qed.
Print Assumptions C07_classification.

Example C07_hypotheses_met :
  natural ex_ret /\ passing_of ex_ret = PRegs [EInt; ESse] /\
  natural (c_struct_of [c_struct_of [ty_uint8; ty_float]; ty_float]) /\
  passing_of (c_struct_of [c_struct_of [ty_uint8; ty_float]; ty_float]) = PRegs [EInt; ESse] /\
  passing_of (c_struct_of [ty_longdouble]) = PX87 /\
  passing_of (c_struct_of [ty_uint64; ty_uint64; ty_uint64]) = PMemory.
Proof.
  split; [exact (proj1 ex_natural)|]. split; [reflexivity|]. split; [natural_tac|]. repeat split; reflexivity.
Qed.

(** C08: the class array of four entries suffices wherever the classification of a
    member starts (accesses outside are UB in the model). *)
Theorem C08_class_buffer :
  forall t off, natural t -> 0 <= off < 8 -> (Z.min 8 (ty_align t) | off) ->
    (ty_size t <= 32 -> off + ty_size t <= 32) ->
    exists cl, classify t off = Ok cl /\ zlen cl <= 4.
Proof. exact classify_bounded. Qed.
Print Assumptions C08_class_buffer.

Example C08_hypotheses_met :
  natural (c_struct_of [ty_uint8; ty_float]) /\ 0 <= 4 < 8 /\ (Z.min 8 (ty_align (c_struct_of [ty_uint8; ty_float])) | 4) /\
  4 + ty_size (c_struct_of [ty_uint8; ty_float]) <= 32 /\
  classify (c_struct_of [ty_uint8; ty_float]) 4 = Ok [INTEGER_CLASS; SSESF_CLASS].
Proof.
  split; [natural_tac|]. split; [lia|]. split; [exists 1; reflexivity|]. split; vm_compute; [discriminate|reflexivity].
Qed.

(** C09: at the call instruction every argument is at its psABI location, the hidden
    result pointer is in %rdi, the stack is aligned and %r10 is the static chain. *)
Theorem C09_call_places_arguments :
  forall rt ts vs b f c rv tmp closure base g_gpr g_sse g_area g_xmm frame,
    rt_ok rt -> Forall natural ts -> objects_ok ts vs -> stack_used rt ts + 64 < 2 ^ 32 ->
    machdep64 (TCif FFI_UNIX64 ts rt b f) = Ok (FFI_OK, c) ->
    env_ok (c_bytes c) base g_gpr g_sse g_area g_xmm frame ->
    exists m fl rv', call64 c (Some rv) tmp vs closure base g_gpr g_sse g_area g_xmm frame = Ok (m, fl, rv') /\
      args_passed rt ts vs (m_gpr m) (m_xmm m) (m_stack m) /\
      (hidden_pointer rt = true -> znth (m_gpr m) 0 = Some rv) /\
      (16 | m_sp m) /\ m_r10 m = closure.
Proof. exact call_places. Qed.
Print Assumptions C09_call_places_arguments.

(** The hypotheses of C09-C15 and C18 on a signature with nine arguments of all kinds. *)
Example C09_hypotheses_met :
  rt_ok ex_ret /\ Forall natural ex_args /\ objects_ok ex_args ex_vals /\ stack_used ex_ret ex_args + 64 < 2 ^ 32 /\
  machdep64 (TCif FFI_UNIX64 ex_args ex_ret 0 0) = Ok (FFI_OK, ex_cif) /\
  env_ok (c_bytes ex_cif) 4096 (repeat 77 6) (repeat (repeat 99 16) 8) (repeat 55 80) (repeat (repeat 11 16) 8) (repeat 0 32) /\
  vectors_used ex_ret ex_args = 5 /\ stack_used ex_ret ex_args = 48 /\
  exists m fl rv', call64 ex_cif (Some 8192) 0 ex_vals 7 4096 (repeat 77 6) (repeat (repeat 99 16) 8) (repeat 55 80)
    (repeat (repeat 11 16) 8) (repeat 0 32) = Ok (m, fl, rv') /\ m_gpr m <> repeat 77 6 /\ m_rax m = 5.
Proof.
  destruct ex_natural as [N1 N2]. destruct ex_prepared as (P & B & S & V & _).
  split; [left; exact N1|]. split; [exact N2|]. split; [exact ex_objects|]. split; [rewrite S; lia|].
  split; [exact P|]. split; [exact ex_env|]. split; [exact V|]. split; [exact S|]. exact ex_call.
Qed.

(** C10: for naturally laid out types the argument loop stays inside the cif->bytes
    reserved for it (a write outside [area] would be UB). *)
Theorem C10_inside_area_partial :
  forall rt ts vs b f c base gpr sse area,
    rt_ok rt -> Forall natural ts -> objects_ok ts vs -> stack_used rt ts + 64 < 2 ^ 32 ->
    machdep64 (TCif FFI_UNIX64 ts rt b f) = Ok (FFI_OK, c) ->
    (16 | base) -> 0 <= base -> base + c_bytes c + 64 < 2 ^ 64 ->
    zlen gpr = 6 -> zlen sse = 8 -> Forall (fun b => zlen b = 16) sse -> zlen area = c_bytes c ->
    exists f', fill_args base ts vs (Fill gpr sse area (first_gpr rt) 0 base) = Ok f' /\ zlen (f_area f') = c_bytes c.
Proof. exact call_inside. Qed.
Print Assumptions C10_inside_area_partial.

(** C10 fails for user-supplied alignments above 16: a 64 byte struct aligned to 64 is
    written past the end of the memory ffi_call_int allocated. *)
Theorem C10_inside_area_refuted :
  exists t c base vs g_gpr g_sse g_area g_xmm frame,
    ty_size t mod ty_align t = 0 /\ objects_ok [t] vs /\
    machdep64 (TCif FFI_UNIX64 [t] ty_void 0 0) = Ok (FFI_OK, c) /\
    env_ok (c_bytes c) base g_gpr g_sse g_area g_xmm frame /\
    call64 c (Some 0) 0 vs 0 base g_gpr g_sse g_area g_xmm frame = UB.
Proof. exact area_overflow. Qed.
Print Assumptions C10_inside_area_refuted.

(** The same with alignment 32: the argument is overwritten by the frame of
    ffi_call_unix64 and is nowhere on the stack. *)
Theorem C10_argument_lost_refuted :
  exists t c base vs g_gpr g_sse g_area g_xmm frame m fl rv,
    objects_ok [t] vs /\ machdep64 (TCif FFI_UNIX64 [t] ty_void 0 0) = Ok (FFI_OK, c) /\
    env_ok (c_bytes c) base g_gpr g_sse g_area g_xmm frame /\
    call64 c (Some 0) 0 vs 0 base g_gpr g_sse g_area g_xmm frame = Ok (m, fl, rv) /\
    forall o, get_range (m_stack m) o (ty_size t) <> Some (nth 0 vs []).
Proof. exact area_clobbered. Qed.
Print Assumptions C10_argument_lost_refuted.

(** C11: with objects of exactly their declared size the call succeeds (a read outside
    an object is UB), and whatever lies behind the objects in memory changes nothing. *)
Theorem C11_no_overread :
  forall rt ts vs ws b f c rv tmp closure base g_gpr g_sse g_area g_xmm frame,
    rt_ok rt -> Forall natural ts -> objects_ok ts vs -> stack_used rt ts + 64 < 2 ^ 32 ->
    machdep64 (TCif FFI_UNIX64 ts rt b f) = Ok (FFI_OK, c) ->
    env_ok (c_bytes c) base g_gpr g_sse g_area g_xmm frame ->
    Forall2 (fun v w => exists behind, w = v ++ behind) vs ws ->
    exists r, call64 c rv tmp vs closure base g_gpr g_sse g_area g_xmm frame = Ok r /\
      call64 c rv tmp ws closure base g_gpr g_sse g_area g_xmm frame = Ok r.
Proof. exact call_reads. Qed.
Print Assumptions C11_no_overread.

Example C11_hypotheses_met :
  objects_ok ex_args ex_vals /\
  Forall2 (fun v w => exists behind, w = v ++ behind) ex_vals (map (fun v => v ++ [1; 2; 3]) ex_vals).
Proof.
  split; [exact ex_objects|]. induction ex_vals; cbn [map]; constructor; eauto.
Qed.

(** C12: from any state holding the arguments per the psABI, and any garbage in the
    part of the frame that is not saved, the handler sees the argument values. *)
Theorem C12_closure_sees_arguments :
  forall rt ts vs b f c m g_sse g_tmp,
    rt_ok rt -> Forall natural ts -> Forall2 (fun t v => zlen v = ty_size t) ts vs ->
    machdep64 (TCif FFI_UNIX64 ts rt b f) = Ok (FFI_OK, c) ->
    state_ok m (stack_used rt ts) -> zlen g_sse = 8 -> Forall (fun b => zlen b = 16) g_sse -> zlen g_tmp = 16 ->
    args_passed rt ts vs (m_gpr m) (m_xmm m) (m_stack m) ->
    exists ps r fl, closure64 c m g_sse g_tmp = Ok (ps, r, fl) /\
      args_seen (closure_frame c m g_sse) m ps ts vs /\
      (hidden_pointer rt = true -> exists p, znth (m_gpr m) 0 = Some p /\ r = RCaller p) /\
      (hidden_pointer rt = false -> r = RSlot).
Proof. exact closure_sees. Qed.
Print Assumptions C12_closure_sees_arguments.

(** States meeting the hypotheses of C12: those produced by C09, for instance. *)
Example C12_hypotheses_met :
  exists m, state_ok m (stack_used ex_ret ex_args) /\ args_passed ex_ret ex_args ex_vals (m_gpr m) (m_xmm m) (m_stack m).
Proof.
  destruct C09_hypotheses_met as (R & N & O & S & P & E & _).
  destruct (C09_call_places_arguments _ _ _ _ _ _ 8192 0 7 _ _ _ _ _ _ R N O S P E) as (m & fl & rv' & C & A & _).
  exists m. split; [|exact A]. vm_compute in C. injection C as <- _ _.
  unfold state_ok. change (stack_used ex_ret ex_args) with 48. cbn [m_gpr m_xmm m_sp].
  split; [reflexivity|]. split; [reflexivity|]. split; [repeat constructor|]. split; [exists 256; reflexivity|]. lia.
Qed.

(** C13: ffi_call into a closure of the same signature. *)
Theorem C13_argument_round_trip :
  forall rt ts vs b f c rv tmp closure base g_gpr g_sse g_area g_xmm frame h_sse h_tmp,
    rt_ok rt -> Forall natural ts -> objects_ok ts vs -> stack_used rt ts + 64 < 2 ^ 32 ->
    machdep64 (TCif FFI_UNIX64 ts rt b f) = Ok (FFI_OK, c) ->
    env_ok (c_bytes c) base g_gpr g_sse g_area g_xmm frame ->
    zlen h_sse = 8 -> Forall (fun b => zlen b = 16) h_sse -> zlen h_tmp = 16 ->
    exists m fl rv' ps r cfl,
      call64 c (Some rv) tmp vs closure base g_gpr g_sse g_area g_xmm frame = Ok (m, fl, rv') /\
      closure64 c m h_sse h_tmp = Ok (ps, r, cfl) /\
      args_seen (closure_frame c m h_sse) m ps ts vs /\
      (hidden_pointer rt = true -> r = RCaller rv).
Proof. exact round_trip. Qed.
Print Assumptions C13_argument_round_trip.

(** C14: general registers hold sign-extended narrow integers, zero-filled words
    otherwise. *)
Theorem C14_arguments_extended :
  forall rt ts vs b f c rv tmp closure base g_gpr g_sse g_area g_xmm frame,
    rt_ok rt -> Forall natural ts -> objects_ok ts vs -> stack_used rt ts + 64 < 2 ^ 32 ->
    machdep64 (TCif FFI_UNIX64 ts rt b f) = Ok (FFI_OK, c) ->
    env_ok (c_bytes c) base g_gpr g_sse g_area g_xmm frame ->
    exists m fl rv', call64 c rv tmp vs closure base g_gpr g_sse g_area g_xmm frame = Ok (m, fl, rv') /\
      args_extended rt ts vs (m_gpr m).
Proof. exact call_extends. Qed.
Print Assumptions C14_arguments_extended.

Example C14_hypotheses_met :
  signed_narrow ty_sint8 = true /\ arg_word ty_sint8 (nth 0 ex_vals []) 0 = 2 ^ 64 - 56 /\
  args_extended ex_ret ex_args ex_vals
    (match call64 ex_cif (Some 8192) 0 ex_vals 7 4096 (repeat 77 6) (repeat (repeat 99 16) 8) (repeat 55 80)
       (repeat (repeat 11 16) 8) (repeat 0 32) with Ok (m, _, _) => m_gpr m | _ => [] end).
Proof.
  split; [reflexivity|]. split; [vm_compute; reflexivity|].
  destruct C09_hypotheses_met as (R & N & O & S & P & E & _).
  destruct (C14_arguments_extended _ _ _ _ _ _ (Some 8192) 0 7 _ _ _ _ _ _ R N O S P E) as (m & fl & rv' & C & A).
  rewrite C. exact A.
Qed.

(** C15: %al is the number of vector registers used, and the entry point that saves
    vector registers is used exactly for the closures that need it. *)
Theorem C15_vector_count :
  forall rt ts vs b f c rv tmp closure base g_gpr g_sse g_area g_xmm frame,
    rt_ok rt -> Forall natural ts -> objects_ok ts vs -> stack_used rt ts + 64 < 2 ^ 32 ->
    machdep64 (TCif FFI_UNIX64 ts rt b f) = Ok (FFI_OK, c) ->
    env_ok (c_bytes c) base g_gpr g_sse g_area g_xmm frame ->
    exists m fl rv', call64 c rv tmp vs closure base g_gpr g_sse g_area g_xmm frame = Ok (m, fl, rv') /\
      m_rax m mod 256 = vectors_used rt ts /\ 0 <= vectors_used rt ts <= 8 /\
      (saves_vectors c = true <-> 0 < vectors_used rt ts).
Proof. exact call_counts. Qed.
Print Assumptions C15_vector_count.

(** C16: a result returned in registers arrives in the buffer, widened when integral;
    bytes beyond it are unchanged.  Excluded: structs of one long double. *)
Theorem C16_return_stored_partial :
  forall rt ts b f c r v buf,
    natural rt -> Forall natural ts -> stack_used rt ts + 64 < 2 ^ 32 ->
    machdep64 (TCif FFI_UNIX64 ts rt b f) = Ok (FFI_OK, c) ->
    struct_x87 rt = false -> hidden_pointer rt = false ->
    zlen v = ty_size rt -> bytes_ok v -> rstate_ok r -> returns rt r v -> result_width rt <= zlen buf ->
    exists buf', store_ret (c_flags c) r buf = Ok buf' /\ result_holds rt v buf' /\ zlen buf' = zlen buf /\
      forall o n, result_width rt <= o -> get_range buf' o n = get_range buf o n.
Proof. exact return_stored. Qed.
Print Assumptions C16_return_stored_partial.

(** C16: results returned in memory were written by the callee through the hidden
    pointer of C09; nothing is stored afterwards, nor for void. *)
Theorem C16_return_untouched :
  forall rt ts b f c r buf,
    rt_ok rt -> Forall natural ts -> stack_used rt ts + 64 < 2 ^ 32 ->
    machdep64 (TCif FFI_UNIX64 ts rt b f) = Ok (FFI_OK, c) ->
    hidden_pointer rt = true \/ ty_code rt = T_VOID ->
    store_ret (c_flags c) r buf = Ok buf.
Proof. exact return_untouched. Qed.
Print Assumptions C16_return_untouched.

Example C16_hypotheses_met :
  struct_x87 ex_ret = false /\
  returns ex_ret (RState 5 0 (repeat 9 16) (repeat 0 16) (repeat 0 10) (repeat 0 10)) ([5; 0; 0; 0; 0; 0; 0; 0] ++ repeat 9 8) /\
  (exists buf', store_ret (c_flags ex_cif) (RState 5 0 (repeat 9 16) (repeat 0 16) (repeat 0 10) (repeat 0 10)) (repeat 1 24) = Ok buf' /\
     buf' = [5; 0; 0; 0; 0; 0; 0; 0] ++ repeat 9 8 ++ repeat 1 8) /\
  result_holds ex_ret ([5; 0; 0; 0; 0; 0; 0; 0] ++ repeat 9 8) ([5; 0; 0; 0; 0; 0; 0; 0] ++ repeat 9 8 ++ repeat 1 16).
Proof. exact ex_results. Qed.

(** C16 fails for struct { long double }: the result in st(0) is ignored. *)
Theorem C16_long_double_struct_refuted :
  exists rt c r v buf buf',
    natural rt /\ machdep64 (TCif FFI_UNIX64 [] rt 0 0) = Ok (FFI_OK, c) /\ hidden_pointer rt = false /\
    zlen v = ty_size rt /\ bytes_ok v /\ rstate_ok r /\ returns rt r v /\ result_width rt <= zlen buf /\
    store_ret (c_flags c) r buf = Ok buf' /\ ~ result_holds rt v buf'.
Proof. exact ld_return_lost. Qed.
Print Assumptions C16_long_double_struct_refuted.

(** C17: a result the handler left in the slot is returned to the caller per the
    psABI.  Excluded: structs of one long double. *)
Theorem C17_closure_return_partial :
  forall rt ts b f c slot r v,
    natural rt -> Forall natural ts -> stack_used rt ts + 64 < 2 ^ 32 ->
    machdep64 (TCif FFI_UNIX64 ts rt b f) = Ok (FFI_OK, c) ->
    struct_x87 rt = false -> hidden_pointer rt = false ->
    zlen v = ty_size rt -> bytes_ok v -> zlen slot = 32 -> bytes_ok slot -> result_holds rt v slot ->
    exists r', load_ret (c_flags c) slot r = Ok r' /\ returns rt r' v.
Proof. exact return_loaded. Qed.
Print Assumptions C17_closure_return_partial.

(** C17: for results in memory the handler writes through the caller's pointer, which
    is returned in %rax. *)
Theorem C17_closure_returns_pointer :
  forall rt ts vs b f c m g_sse g_tmp slot rs,
    natural rt -> Forall natural ts -> Forall2 (fun t v => zlen v = ty_size t) ts vs ->
    machdep64 (TCif FFI_UNIX64 ts rt b f) = Ok (FFI_OK, c) ->
    state_ok m (stack_used rt ts) -> zlen g_sse = 8 -> Forall (fun b => zlen b = 16) g_sse -> zlen g_tmp = 16 ->
    args_passed rt ts vs (m_gpr m) (m_xmm m) (m_stack m) ->
    hidden_pointer rt = true -> zlen slot = 32 ->
    forall p, znth (m_gpr m) 0 = Some p -> 0 <= p < 2 ^ 64 ->
    exists ps r fl slot' rs', closure64 c m g_sse g_tmp = Ok (ps, r, fl) /\ r = RCaller p /\
      closure_slot r slot = Ok slot' /\ load_ret fl slot' rs = Ok rs' /\ rs_rax rs' = p.
Proof. exact return_pointer. Qed.
Print Assumptions C17_closure_returns_pointer.

Example C17_hypotheses_met :
  natural (c_struct_of [ty_uint64; ty_uint64; ty_uint64]) /\
  hidden_pointer (c_struct_of [ty_uint64; ty_uint64; ty_uint64]) = true /\
  state_ok (MState [4096; 0; 0; 0; 0; 0] (repeat (repeat 0 16) 8) 0 0 8192 []) (stack_used (c_struct_of [ty_uint64; ty_uint64; ty_uint64]) []) /\
  args_passed (c_struct_of [ty_uint64; ty_uint64; ty_uint64]) [] [] [4096; 0; 0; 0; 0; 0] (repeat (repeat 0 16) 8) [].
Proof.
  split; [natural_tac|]. split; [reflexivity|]. split; [|constructor].
  unfold state_ok. cbn [m_gpr m_xmm m_sp]. change (stack_used _ _) with 0.
  split; [reflexivity|]. split; [reflexivity|]. split; [repeat constructor|]. split; [exists 512; reflexivity|]. lia.
Qed.

(** C16 and C17 composed: the result of a closure handler arrives in the buffer of the
    ffi_call that called it. *)
Theorem C17_result_round_trip_partial :
  forall rt ts b f c slot r0 v buf,
    natural rt -> Forall natural ts -> stack_used rt ts + 64 < 2 ^ 32 ->
    machdep64 (TCif FFI_UNIX64 ts rt b f) = Ok (FFI_OK, c) ->
    struct_x87 rt = false -> hidden_pointer rt = false ->
    zlen v = ty_size rt -> bytes_ok v -> zlen slot = 32 -> bytes_ok slot -> result_holds rt v slot ->
    rstate_ok r0 -> result_width rt <= zlen buf ->
    exists r' buf', load_ret (c_flags c) slot r0 = Ok r' /\ store_ret (c_flags c) r' buf = Ok buf' /\ result_holds rt v buf'.
Proof. exact result_round_trip. Qed.
Print Assumptions C17_result_round_trip_partial.

(** C17 fails for struct { long double }: nothing is put in st(0). *)
Theorem C17_long_double_struct_refuted :
  exists rt c slot r v r',
    natural rt /\ machdep64 (TCif FFI_UNIX64 [] rt 0 0) = Ok (FFI_OK, c) /\ hidden_pointer rt = false /\
    zlen v = ty_size rt /\ bytes_ok v /\ zlen slot = 32 /\ bytes_ok slot /\ result_holds rt v slot /\ rstate_ok r /\
    load_ret (c_flags c) slot r = Ok r' /\ ~ returns rt r' v.
Proof. exact ld_closure_lost. Qed.
Print Assumptions C17_long_double_struct_refuted.

(** C18: with a null result pointer the arguments are placed as before, results in
    memory go to a temporary, and nothing is stored after the call. *)
Theorem C18_discarded_result :
  forall rt ts vs b f c tmp closure base g_gpr g_sse g_area g_xmm frame,
    rt_ok rt -> Forall natural ts -> objects_ok ts vs -> stack_used rt ts + 64 < 2 ^ 32 ->
    machdep64 (TCif FFI_UNIX64 ts rt b f) = Ok (FFI_OK, c) ->
    env_ok (c_bytes c) base g_gpr g_sse g_area g_xmm frame ->
    exists m fl rv', call64 c None tmp vs closure base g_gpr g_sse g_area g_xmm frame = Ok (m, fl, rv') /\
      args_passed rt ts vs (m_gpr m) (m_xmm m) (m_stack m) /\
      (hidden_pointer rt = true -> rv' = Some tmp /\ znth (m_gpr m) 0 = Some tmp) /\
      (hidden_pointer rt = false -> rv' = None) /\
      forall r, store_ret fl r [] = Ok [].
Proof. exact call_discards. Qed.
Print Assumptions C18_discarded_result.
