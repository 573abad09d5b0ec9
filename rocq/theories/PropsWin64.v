(** Properties C19-C23: argument vectors, by-value structs and the Win64 ABIs of the
    x86-64 backend. *)
From Coq Require Import ZifyBool ZifyNat Znumtheory.
From Verif Require Import Base BaseFacts Types LayoutSpec NaturalTypes NaturalFacts Unix64Model Unix64Spec Unix64Link
  Win64Model Win64Spec Win64Link PropsUnix64Lemmas PropsWin64Lemmas.

(** C19, what holds: memory readable before the call reads the same afterwards (in
    particular the argument objects), and the argument array is unchanged when no struct
    argument is above the copying limit of the ABI. *)
Theorem C19_arguments_kept_partial :
  forall abi ts rt vs ps b f c rv tmp stk base g_gpr g_sse g_area g_xmm frame m,
    rt_ok rt -> Forall natural ts -> Forall (fun t => ty_size t < 2 ^ 31) ts ->
    machdep_x86 (TCif abi ts rt b f) = Ok (FFI_OK, c) ->
    args_at m ts ps vs -> allocas_ok (live m) (requests abi ts) stk ->
    call_env_ok abi rt ts c base g_gpr g_sse g_area g_xmm frame ->
    0 <= tmp < 2 ^ 64 -> (forall p, rv = Some p -> 0 <= p < 2 ^ 64) ->
    exists e fl rv' av m', ffi_call_x86 c rv tmp ps stk base g_gpr g_sse g_area g_xmm frame m = Ok (e, fl, rv', av, m') /\
      keeps m m' /\ (requests abi ts = [] -> av = ps).
Proof. exact vector_kept. Qed.
Print Assumptions C19_arguments_kept_partial.

(** C19 is false: ffi_call stores the addresses of its stack copies in the caller's
    array; once it has returned, calling again with the array reads dead memory. *)
Theorem C19_argument_vector_refuted :
  exists abi ts vs ps stk c m m' e fl rv' av base g_gpr g_sse g_area g_xmm frame,
    Forall natural ts /\ machdep_x86 (TCif abi ts ty_void 0 0) = Ok (FFI_OK, c) /\
    args_at m ts ps vs /\ allocas_ok (live m) (requests abi ts) stk /\
    call_env_ok abi ty_void ts c base g_gpr g_sse g_area g_xmm frame /\
    ffi_call_x86 c None 0 ps stk base g_gpr g_sse g_area g_xmm frame m = Ok (e, fl, rv', av, m') /\
    av <> ps /\ ffi_call_x86 c None 0 av stk base g_gpr g_sse g_area g_xmm frame m = UB.
Proof. exact vector_changed. Qed.
Print Assumptions C19_argument_vector_refuted.

(** C20, what holds: whatever the callee stores in the memory behind its struct
    parameters, the caller's memory is unchanged, under System V for all types and under
    the Win64 ABIs when no struct is smaller than 8 and of a size other than 1, 2, 4. *)
Theorem C20_struct_by_value_partial :
  forall abi ts rt vs ps b f c rv tmp stk base g_gpr g_sse g_area g_xmm frame m,
    rt_ok rt -> Forall natural ts -> Forall (fun t => ty_size t < 2 ^ 31) ts ->
    (win_abi abi -> Forall by_value ts) ->
    machdep_x86 (TCif abi ts rt b f) = Ok (FFI_OK, c) ->
    args_at m ts ps vs -> allocas_ok (live m) (requests abi ts) stk ->
    call_env_ok abi rt ts c base g_gpr g_sse g_area g_xmm frame ->
    0 <= tmp < 2 ^ 64 -> (forall p, rv = Some p -> 0 <= p < 2 ^ 64) ->
    exists e fl rv' av m', ffi_call_x86 c rv tmp ps stk base g_gpr g_sse g_area g_xmm frame m = Ok (e, fl, rv', av, m') /\
      forall m2, modifies (param_memory e ts rt) m' m2 -> keeps m m2 /\ args_at m2 ts ps vs.
Proof. exact struct_by_value. Qed.
Print Assumptions C20_struct_by_value_partial.

(** C20 is false for a struct of three bytes under FFI_WIN64: the callee is given the
    address of the caller's object. *)
Theorem C20_struct_by_value_refuted :
  exists ts vs ps c m m' e fl rv' av m2 base g_gpr g_sse g_area g_xmm frame,
    Forall natural ts /\ machdep_x86 (TCif FFI_WIN64 ts ty_void 0 0) = Ok (FFI_OK, c) /\
    args_at m ts ps vs /\
    call_env_ok FFI_WIN64 ty_void ts c base g_gpr g_sse g_area g_xmm frame /\
    ffi_call_x86 c None 0 ps [] base g_gpr g_sse g_area g_xmm frame m = Ok (e, fl, rv', av, m') /\
    modifies (param_memory e ts ty_void) m' m2 /\ ~ args_at m2 ts ps vs.
Proof. exact struct_modified. Qed.
Print Assumptions C20_struct_by_value_refuted.

(** Hypotheses of C19 and C20 on a call with two copies of a 24 byte struct, and a
    callee storing into the second. *)
Example C20_hypotheses_met :
  exists s fl rv' av m' m2,
    Forall by_value [s24; ty_uint8] /\
    machdep_x86 (TCif FFI_GNUW64 [s24; ty_uint8] ty_void 0 0) = Ok (FFI_OK, TCif FFI_GNUW64 [s24; ty_uint8] ty_void 32 0) /\
    call_env_ok FFI_GNUW64 ty_void [s24; ty_uint8] (TCif FFI_GNUW64 [s24; ty_uint8] ty_void 32 0) 4096 [] [] (repeat 55 32) [] [] /\
    ffi_call_x86 (TCif FFI_GNUW64 [s24; ty_uint8] ty_void 32 0) None 0 [1000; 1100] [5000; 6000] 4096 [] [] (repeat 55 32) [] []
      [Block 1000 (repeat 7 24); Block 1100 [8]] = Ok (EnterWin s, fl, rv', av, m') /\
    modifies (param_memory (EnterWin s) [s24; ty_uint8] ty_void) m' m2 /\ m2 <> m' /\
    args_at m2 [s24; ty_uint8] [1000; 1100] [repeat 7 24; [8]].
Proof.
  do 5 eexists. exists (Block 6000 (9 :: repeat 7 23) :: [Block 5000 (repeat 7 24); Block 1000 (repeat 7 24); Block 1100 [8]]).
  split. { constructor; [right; vm_compute; reflexivity|]. constructor; [discriminate|constructor]. }
  split; [vm_compute; reflexivity|].
  split. { right. split; [right; reflexivity|]. split; [left; reflexivity|]. split; [vm_compute; reflexivity|reflexivity]. }
  split; [vm_compute; reflexivity|]. split.
  { apply (modifies_store _ _ (Block 6000 (9 :: repeat 7 23) :: [Block 5000 (repeat 7 24); Block 1000 (repeat 7 24); Block 1100 [8]]) _ 6000 [9] 6000 24);
      [left; reflexivity|lia|vm_compute; discriminate|reflexivity|constructor]. }
  split; [vm_compute; discriminate|].
  constructor; [lia|reflexivity|repeat constructor; lia|]. constructor; [lia|reflexivity|repeat constructor; lia|constructor].
Qed.

(** C21: at the call instruction every argument is in its slot, the first four in both
    register files, the hidden result pointer in the first. *)
Theorem C21_win64_places_arguments :
  forall abi ts rt vs ps b f c rv tmp stk base g_gpr g_sse g_area g_xmm frame m,
    win_abi abi -> rt_ok rt -> win_ret_ok abi rt -> zlen ts < 2 ^ 28 -> Forall natural ts ->
    Forall (fun t => ty_size t < 2 ^ 31) ts ->
    machdep_x86 (TCif abi ts rt b f) = Ok (FFI_OK, c) ->
    args_at m ts ps vs -> allocas_ok (live m) (requests abi ts) stk -> zlen g_area = c_bytes c ->
    0 <= tmp < 2 ^ 64 -> 0 <= rv < 2 ^ 64 ->
    exists s fl av m', ffi_call_x86 c (Some rv) tmp ps stk base g_gpr g_sse g_area g_xmm frame m = Ok (EnterWin s, fl, Some rv, av, m') /\
      win_all (win_holds s m') ts vs (win_first rt) /\
      win_all (win_both (w_gpr s) (w_xmm s)) ts vs (win_first rt) /\
      (win_hidden rt = true -> znth (w_gpr s) 0 = Some rv) /\ w_sp s = base /\ 32 <= zlen (w_stack s).
Proof. exact win_places. Qed.
Print Assumptions C21_win64_places_arguments.

(** Hypotheses of C21-C23 on six arguments: by value, in a vector register, two by
    reference, two on the stack. *)
Example C21_hypotheses_met :
  win_abi FFI_GNUW64 /\ rt_ok wex_ret /\ win_ret_ok FFI_GNUW64 wex_ret /\ Forall natural wex_args /\
  Forall (fun t => ty_size t < 2 ^ 31) wex_args /\ machdep_x86 (TCif FFI_GNUW64 wex_args wex_ret 0 0) = Ok (FFI_OK, wex_cif) /\
  args_at wex_mem wex_args wex_ptrs wex_vals /\ allocas_ok (live wex_mem) (requests FFI_GNUW64 wex_args) [5000; 6000] /\
  win_hidden wex_ret = true.
Proof. exact wex_ok. Qed.

(** C22: a closure of the same signature sees the argument bytes, and the caller's
    result pointer when there is one, which it also returns. *)
Theorem C22_argument_round_trip :
  forall abi ts rt vs ps b f c rv tmp stk base g_gpr g_sse g_area g_xmm frame m slot,
    win_abi abi -> rt_ok rt -> win_ret_ok abi rt -> zlen ts < 2 ^ 28 -> Forall natural ts ->
    Forall (fun t => ty_size t < 2 ^ 31) ts ->
    machdep_x86 (TCif abi ts rt b f) = Ok (FFI_OK, c) ->
    args_at m ts ps vs -> allocas_ok (live m) (requests abi ts) stk -> zlen g_area = c_bytes c ->
    0 <= tmp < 2 ^ 64 -> 0 <= rv < 2 ^ 64 -> zlen slot = 16 ->
    exists s fl av m' args l rp slot',
      ffi_call_x86 c (Some rv) tmp ps stk base g_gpr g_sse g_area g_xmm frame m = Ok (EnterWin s, fl, Some rv, av, m') /\
      closure_win c s slot = Ok (l, rp, slot') /\ win_closure_args s = Ok args /\
      Forall2 (fun p tv => read_wptr args (win_closure_fargs s) m' p (ty_size (fst tv)) = Some (snd tv)) l (combine ts vs) /\
      rp = (if win_hidden rt then Some rv else None) /\
      (win_hidden rt = true -> forall r, exists r', win_load slot' r = Ok r' /\ rs_rax r' = rv).
Proof. exact win_args_round_trip. Qed.
Print Assumptions C22_argument_round_trip.

(** C22: the closure side alone, from any caller's state that follows the convention. *)
Theorem C22_closure_sees_arguments :
  forall abi ts vs rt b f c s m slot,
    win_abi abi -> rt_ok rt -> win_ret_ok abi rt -> zlen ts < 2 ^ 28 -> Forall natural ts -> Forall (fun t => ty_size t < 2 ^ 31) ts ->
    Forall2 (fun t v => zlen v = ty_size t) ts vs ->
    machdep_x86 (TCif abi ts rt b f) = Ok (FFI_OK, c) ->
    wstate_ok s (zlen ts + win_first rt) -> zlen slot = 16 ->
    win_all (win_holds s m) ts vs (win_first rt) ->
    exists args l rp slot', closure_win c s slot = Ok (l, rp, slot') /\ win_closure_args s = Ok args /\
      Forall2 (fun p tv => read_wptr args (win_closure_fargs s) m p (ty_size (fst tv)) = Some (snd tv)) l (combine ts vs) /\
      (win_hidden rt = true -> exists p, rp = Some (p mod 2 ^ 64) /\ znth (w_gpr s) 0 = Some p /\ get_range slot' 0 8 = Some (le_enc 8 p)) /\
      (win_hidden rt = false -> rp = None /\ slot' = slot).
Proof. exact Win64Main.closure_win_ok. Qed.
Print Assumptions C22_closure_sees_arguments.

(** C22: results.  The handler's result slot goes through the result registers into the
    caller's buffer; nothing behind the result is touched. *)
Theorem C22_result_round_trip :
  forall abi rt v slot r buf,
    natural rt -> win_hidden rt = false -> zlen v = ty_size rt -> bytes_ok v -> zlen slot = 16 -> bytes_ok slot ->
    win_result_holds rt v slot -> result_width rt <= zlen buf ->
    exists r' buf', win_load slot r = Ok r' /\ win_store (win_flags abi rt) r' buf = Ok buf' /\ win_result_holds rt v buf' /\
      zlen buf' = zlen buf /\ forall o n, result_width rt <= o -> get_range buf' o n = get_range buf o n.
Proof. exact win_result_round_trip. Qed.
Print Assumptions C22_result_round_trip.

(** C22: the call side alone, for a result in the registers the convention names. *)
Theorem C22_result_stored :
  forall abi rt v r buf,
    natural rt -> win_hidden rt = false -> zlen v = ty_size rt -> win_returned rt (rs_rax r) (rs_xmm0 r) v ->
    result_width rt <= zlen buf ->
    exists buf', win_store (win_flags abi rt) r buf = Ok buf' /\ win_result_holds rt v buf' /\
      zlen buf' = zlen buf /\ forall o n, result_width rt <= o -> get_range buf' o n = get_range buf o n.
Proof. exact win_result_stored. Qed.
Print Assumptions C22_result_stored.

Example C22_hypotheses_met :
  natural ty_sint16 /\ win_hidden ty_sint16 = false /\ win_result_holds ty_sint16 [254; 255] ([254; 255; 255; 255; 255; 255; 255; 255] ++ repeat 9 8) /\
  result_width ty_sint16 = 8 /\
  win_returned ty_sint16 65534 (repeat 0 16) [254; 255] /\
  natural ty_double /\ win_returned ty_double 77 (repeat 3 16) (repeat 3 8).
Proof.
  split; [natural_tac|]. split; [reflexivity|]. split; [vm_compute; reflexivity|]. split; [reflexivity|].
  split; [vm_compute; reflexivity|]. split; [natural_tac|]. vm_compute; reflexivity.
Qed.

(** C23, what holds: outside FFI_WIN64 functions returning long double, a prepared call
    reaches the target and its result is stored without aborting, also when the caller
    passes no result buffer. *)
Theorem C23_call_completes_partial :
  forall abi ts rt vs ps b f c rv tmp stk base g_gpr g_sse g_area g_xmm frame m,
    win_abi abi -> rt_ok rt -> win_ret_ok abi rt -> zlen ts < 2 ^ 28 -> Forall natural ts ->
    Forall (fun t => ty_size t < 2 ^ 31) ts ->
    machdep_x86 (TCif abi ts rt b f) = Ok (FFI_OK, c) ->
    args_at m ts ps vs -> allocas_ok (live m) (requests abi ts) stk -> zlen g_area = c_bytes c ->
    0 <= tmp < 2 ^ 64 -> (forall p, rv = Some p -> 0 <= p < 2 ^ 64) ->
    exists s fl rv' av m', ffi_call_x86 c rv tmp ps stk base g_gpr g_sse g_area g_xmm frame m = Ok (EnterWin s, fl, rv', av, m') /\
      forall r buf, rstate_ok r -> (rv <> None -> result_width rt <= zlen buf) -> exists buf', win_store fl r buf = Ok buf'.
Proof. exact win_completes. Qed.
Print Assumptions C23_call_completes_partial.

(** C23 is false for long double under FFI_WIN64: accepted, but storing the result
    aborts. *)
Theorem C23_long_double_refuted :
  exists c, machdep_x86 (TCif FFI_WIN64 [] ty_longdouble 0 0) = Ok (FFI_OK, c) /\
    exists s fl rv' av m', ffi_call_x86 c (Some 8192) 0 [] [] 4096 [] [] (repeat 55 32) [] [] [] = Ok (EnterWin s, fl, rv', av, m') /\
      forall r buf, win_store fl r buf = Abort.
Proof. exact long_double_aborts. Qed.
Print Assumptions C23_long_double_refuted.
