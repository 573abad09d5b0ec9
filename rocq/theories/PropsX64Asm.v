(** Properties C78-C83: the assembly code of the x86-64 backend (src/x86/unix64.S). *)
From Verif Require Import Base BaseFacts ByteMem Types LayoutSpec NaturalTypes Unix64Model Unix64Spec Unix64Link PropsUnix64Lemmas
  X64AsmModel X64AsmFacts X64AsmCall X64AsmRet X64AsmBlock X64AsmSpec X64AsmWhole X64AsmEnter X64AsmLeave X64AsmClo X64AsmExit X64AsmClosure X64AsmTop X64AsmSamples.
Local Open Scope Z_scope.

(** C78: with the block, flags and pointer that ffi_call_int hands over, ffi_call_unix64 gets to
    the function with every argument where the psABI wants it, integers extended to 32 bits, AL
    counting the vector registers, R10 holding the closure, the frame of the caller saved above
    the arguments, and nothing else changed. *)
Theorem C78_call_entry :
  forall rt ts vs b f c rv tmp closure base g_gpr g_sse g_area,
  rt_ok rt -> Forall natural ts -> objects_ok ts vs -> stack_used rt ts + 64 < 2 ^ 32 ->
  machdep64 (TCif FFI_UNIX64 ts rt b f) = Ok (FFI_OK, c) ->
  (16 | base) -> 0 <= base -> base + c_bytes c + 64 < 2 ^ 64 ->
  zlen g_gpr = 6 -> zlen g_sse = 8 -> Forall (fun b => zlen b = 16) g_sse -> zlen g_area = c_bytes c + 32 ->
  0 <= closure < 2 ^ 64 ->
  exists blk fl rv', call_int c rv tmp vs closure base g_gpr g_sse g_area = Ok (blk, fl, rv') /\
    forall k inner org X V F cf zf M fn ra,
      0 <= org -> org + 2048 <= 2 ^ 64 -> machine_ok X V F M -> called (c_bytes c) base (fl mod 2 ^ 32) rv' blk fn ra X M ->
      exists X1 V1 c1 z1 M1,
        reach inner (text k) org (St X V F cf zf org M) (St X1 V1 F c1 z1 fn M1) /\
        args_passed rt ts vs (gpr_args X1) (xmm_args V1) (rd M1 base (Z.to_nat (c_bytes c + 32))) /\
        args_extended rt ts vs (gpr_args X1) /\
        X1 RAX = vectors_used rt ts /\ X1 R10 = closure /\
        (hidden_pointer rt = true -> X1 RDI = low64 (match rv with Some p => p | None => tmp end)) /\
        X1 RSP = base - 8 /\ rd M1 (base - 8) 8 = le_enc 8 (at_label (src k) org 8) /\
        X1 RBP = base + c_bytes c /\ rd M1 (base + c_bytes c) 32 = saved X ra /\
        (forall i, i = 3 \/ 12 <= i -> X1 i = X i) /\
        (forall x, ~ (base + c_bytes c <= x < base + c_bytes c + 32) -> ~ (base - 8 <= x < base) -> M1 x = M x).
Proof. exact call_entered. Qed.
Print Assumptions C78_call_entry.

(** Nine arguments of all kinds, five of them in vector registers, 48 bytes on the stack. *)
Example C78_hypotheses_met :
  rt_ok ex_ret /\ Forall natural ex_args /\ objects_ok ex_args ex_vals /\ stack_used ex_ret ex_args + 64 < 2 ^ 32 /\
  machdep64 (TCif FFI_UNIX64 ex_args ex_ret 0 0) = Ok (FFI_OK, ex_cif) /\
  (16 | 65536) /\ c_bytes ex_cif = 48 /\
  call_int ex_cif (Some 8192) 0 ex_vals 7 65536 (repeat 77 6) (repeat (repeat 99 16) 8) (repeat 55 80) = Ok (s_blk, c_flags ex_cif, Some 8192) /\
  zlen s_blk = 192 + 80 /\ vectors_used ex_ret ex_args = 5 /\
  machine_ok s_regs t_vecs [] s_mem /\ called 48 65536 (c_flags ex_cif mod 2 ^ 32) (Some 8192) s_blk 50000 40000 s_regs s_mem.
Proof. exact s_call. Qed.

(** C79, in part: when the function returns, the result goes from the registers it was returned in
    to the caller's memory, the x87 stack is as before the call, ffi_call_int gets its stack and
    callee-saved registers back, and nothing else is written (but 16 bytes of the dead frame).
    Excluded: structs of one long double, see C79_struct_refuted. *)
Theorem C79_call_result_partial :
  forall rt ts b f c v k inner org X0 ra P p len X V F res cf zf M,
  natural rt -> Forall natural ts -> stack_used rt ts + 64 < 2 ^ 32 ->
  machdep64 (TCif FFI_UNIX64 ts rt b f) = Ok (FFI_OK, c) ->
  struct_x87 rt = false -> hidden_pointer rt = false -> zlen v = ty_size rt -> bytes_ok v ->
  0 <= org -> org + 2048 <= 2 ^ 64 -> (forall i, 0 <= X0 i < 2 ^ 64) -> 0 <= ra < 2 ^ 64 ->
  X0 RDX mod 2 ^ 32 = c_flags c mod 2 ^ 32 -> X0 RCX = p ->
  machine_ok X V (res ++ F) M -> zlen res = x87_results rt -> returns rt (result_regs X V (res ++ F)) v ->
  X RBP = P -> P + 32 < 2 ^ 64 -> rd M P 32 = saved X0 ra ->
  p + Z.of_nat len <= 2 ^ 64 -> p + Z.of_nat len <= P \/ P + 32 <= p -> result_width rt <= Z.of_nat len ->
  exists X1 c1 z1 M1,
    reach inner (text k) org (St X V (res ++ F) cf zf (at_label (src k) org 8) M) (St X1 V F c1 z1 ra M1) /\
    X1 RSP = P + 32 /\ X1 RBP = X0 RBP /\ (forall i, i = 3 \/ 12 <= i -> X1 i = X i) /\
    result_holds rt v (rd M1 p len) /\
    (forall x, ~ (p <= x < p + result_width rt) -> ~ (P + 4 <= x < P + 20) -> M1 x = M x).
Proof. exact call_result. Qed.
Print Assumptions C79_call_result_partial.

(** A struct of an integer and a double, with one value of the caller's on the x87 stack. *)
Example C79_hypotheses_met :
  natural ex_ret /\ struct_x87 ex_ret = false /\ hidden_pointer ex_ret = false /\ result_width ex_ret = 16 /\
  (forall i, 0 <= t_call (c_flags ex_cif) 8192 i < 2 ^ 64) /\
  machine_ok s_ret t_vecs ([] ++ [repeat 1 10]) (t_mem (c_flags ex_cif) 8192) /\ zlen ([] : list (list Z)) = x87_results ex_ret /\
  returns ex_ret (result_regs s_ret t_vecs ([] ++ [repeat 1 10])) ([5; 0; 0; 0; 0; 0; 0; 0] ++ repeat 9 8) /\
  rd (t_mem (c_flags ex_cif) 8192) 65536 32 = saved (t_call (c_flags ex_cif) 8192) 40000 /\
  t_call (c_flags ex_cif) 8192 RDX mod 2 ^ 32 = c_flags ex_cif mod 2 ^ 32 /\ t_call (c_flags ex_cif) 8192 RCX = 8192.
Proof. exact s_result. Qed.

(** C79: results in memory and void: nothing is stored by the return code. *)
Theorem C79_no_result :
  forall rt ts b f c k inner org X0 ra P X V F cf zf M,
  rt_ok rt -> Forall natural ts -> stack_used rt ts + 64 < 2 ^ 32 ->
  machdep64 (TCif FFI_UNIX64 ts rt b f) = Ok (FFI_OK, c) -> hidden_pointer rt = true \/ ty_code rt = T_VOID ->
  0 <= org -> org + 2048 <= 2 ^ 64 -> (forall i, 0 <= X0 i < 2 ^ 64) -> 0 <= ra < 2 ^ 64 ->
  X0 RDX mod 2 ^ 32 = c_flags c mod 2 ^ 32 -> X0 RCX <= P \/ P + 32 <= X0 RCX ->
  machine_ok X V F M -> X RBP = P -> P + 32 < 2 ^ 64 -> rd M P 32 = saved X0 ra ->
  exists X1 c1 z1 M1,
    reach inner (text k) org (St X V F cf zf (at_label (src k) org 8) M) (St X1 V F c1 z1 ra M1) /\
    X1 RSP = P + 32 /\ X1 RBP = X0 RBP /\ (forall i, i = 3 \/ 12 <= i -> X1 i = X i) /\
    (forall x, ~ (P + 4 <= x < P + 20) -> M1 x = M x).
Proof. exact call_unstored. Qed.
Print Assumptions C79_no_result.

(** C79 fails for a struct of one long double: the caller's memory does not get the value, and the
    value stays on the x87 stack for good. *)
Theorem C79_struct_refuted :
  exists rt c X0 ra P p X V F res M v,
    natural rt /\ machdep64 (TCif FFI_UNIX64 [] rt 0 0) = Ok (FFI_OK, c) /\ hidden_pointer rt = false /\ zlen v = ty_size rt /\ bytes_ok v /\
    (forall i, 0 <= X0 i < 2 ^ 64) /\ 0 <= ra < 2 ^ 64 /\ X0 RDX mod 2 ^ 32 = c_flags c mod 2 ^ 32 /\ X0 RCX = p /\
    machine_ok X V (res ++ F) M /\ zlen res = x87_results rt /\ returns rt (result_regs X V (res ++ F)) v /\
    X RBP = P /\ P + 32 < 2 ^ 64 /\ rd M P 32 = saved X0 ra /\ p + result_width rt <= P /\
    forall k inner cf zf, (exists s, reach inner (text k) 0 (St X V (res ++ F) cf zf (at_label (src k) 0 8) M) s /\ spc s = ra) /\
      (forall s, reach inner (text k) 0 (St X V (res ++ F) cf zf (at_label (src k) 0 8) M) s -> spc s = ra ->
         sf s <> F /\ ~ result_holds rt v (rd (sm s) p (Z.to_nat (result_width rt)))).
Proof. exact struct_long_double_kept. Qed.
Print Assumptions C79_struct_refuted.

(** C80, in part: with a null result pointer nothing is stored and everything is restored, for
    functions that return nothing on the x87 stack. *)
Theorem C80_discarded_partial :
  forall rt ts vs b f c tmp closure base g_gpr g_sse g_area,
  rt_ok rt -> x87_results rt = 0 -> Forall natural ts -> objects_ok ts vs -> stack_used rt ts + 64 < 2 ^ 32 ->
  machdep64 (TCif FFI_UNIX64 ts rt b f) = Ok (FFI_OK, c) ->
  (16 | base) -> 0 <= base -> base + c_bytes c + 64 < 2 ^ 64 ->
  zlen g_gpr = 6 -> zlen g_sse = 8 -> Forall (fun b => zlen b = 16) g_sse -> zlen g_area = c_bytes c + 32 ->
  0 <= closure < 2 ^ 64 ->
  exists blk fl rv', call_int c None tmp vs closure base g_gpr g_sse g_area = Ok (blk, fl, rv') /\
    forall k inner org X0 ra P X V F res cf zf M,
      0 <= org -> org + 2048 <= 2 ^ 64 -> (forall i, 0 <= X0 i < 2 ^ 64) -> 0 <= ra < 2 ^ 64 ->
      X0 RDX mod 2 ^ 32 = fl mod 2 ^ 32 -> X0 RCX = match rv' with Some p => p | None => 0 end -> X0 RCX <= P \/ P + 32 <= X0 RCX ->
      machine_ok X V (res ++ F) M -> zlen res = x87_results rt -> X RBP = P -> P + 32 < 2 ^ 64 -> rd M P 32 = saved X0 ra ->
      exists X1 c1 z1 M1,
        reach inner (text k) org (St X V (res ++ F) cf zf (at_label (src k) org 8) M) (St X1 V F c1 z1 ra M1) /\
        X1 RSP = P + 32 /\ X1 RBP = X0 RBP /\ (forall i, i = 3 \/ 12 <= i -> X1 i = X i) /\
        (forall x, ~ (P + 4 <= x < P + 20) -> M1 x = M x).
Proof. exact call_discarded_plain. Qed.
Print Assumptions C80_discarded_partial.

(** The nine-argument function with its result thrown away. *)
Example C80_hypotheses_met :
  rt_ok ex_ret /\ x87_results ex_ret = 0 /\ c_bytes ex_cif = 48 /\
  (exists blk, call_int ex_cif None 0 ex_vals 7 65536 (repeat 77 6) (repeat (repeat 99 16) 8) (repeat 55 80) = Ok (blk, RET_VOID, None)) /\
  machine_ok t_regs t_vecs ([] ++ [repeat 1 10]) (t_mem 0 0) /\ t_regs RBP = 65536 /\ rd (t_mem 0 0) 65536 32 = saved (t_call 0 0) 40000.
Proof.
  split; [left; apply ex_natural|]. split; [reflexivity|]. split; [reflexivity|]. split; [eexists; vm_compute; reflexivity|].
  split; [apply t_machine; [repeat constructor|vm_compute; discriminate]|]. split; [reflexivity|]. apply rd_wr_same. reflexivity.
Qed.

(** C80 fails for long double: ffi_call (&cif, fn, NULL, ...) leaves st(0) occupied. *)
Theorem C80_x87_refuted :
  exists rt c blk X0 ra P X V F res M v,
    natural rt /\ machdep64 (TCif FFI_UNIX64 [] rt 0 0) = Ok (FFI_OK, c) /\
    call_int c None 0 [] 0 4096 (repeat 0 6) (repeat (repeat 0 16) 8) (repeat 0 32) = Ok (blk, RET_VOID, None) /\
    (forall i, 0 <= X0 i < 2 ^ 64) /\ 0 <= ra < 2 ^ 64 /\ X0 RDX mod 2 ^ 32 = RET_VOID mod 2 ^ 32 /\ X0 RCX = 0 /\ X0 RCX <= P /\
    machine_ok X V (res ++ F) M /\ zlen res = x87_results rt /\ zlen v = ty_size rt /\ returns rt (result_regs X V (res ++ F)) v /\
    X RBP = P /\ P + 32 < 2 ^ 64 /\ rd M P 32 = saved X0 ra /\
    forall k inner cf zf, (exists s, reach inner (text k) 0 (St X V (res ++ F) cf zf (at_label (src k) 0 8) M) s /\ spc s = ra) /\
      (forall s, reach inner (text k) 0 (St X V (res ++ F) cf zf (at_label (src k) 0 8) M) s -> spc s = ra -> sf s <> F).
Proof. exact discarded_long_double. Qed.
Print Assumptions C80_x87_refuted.

(** C81: ffi_closure_unix64 (with vectors: ffi_closure_unix64_sse) calls ffi_closure_unix64_inner
    with the cif, function and user data of the closure and a register save area from which the
    handler gets every argument; the stack is aligned, nothing outside the frame is written. *)
Theorem C81_closure_entry :
  forall rt ts vs b fl c k inner org X V F cf zf M f cl n g_tmp,
  rt_ok rt -> Forall natural ts -> Forall2 (fun t v => zlen v = ty_size t) ts vs ->
  machdep64 (TCif FFI_UNIX64 ts rt b fl) = Ok (FFI_OK, c) -> zlen g_tmp = 16 ->
  0 <= org -> org + 2048 <= 2 ^ 64 -> machine_ok X V F M ->
  X RSP = f + 216 -> f mod 16 = 0 -> 8 <= f -> f + 224 + stack_used rt ts + 16 < 2 ^ 64 ->
  X R10 = cl -> cl + 56 <= 2 ^ 64 -> cl + 56 <= f \/ f + 176 <= cl ->
  args_passed rt ts vs (gpr_args X) (xmm_args V) (rd M (f + 224) n) ->
  exists X1 c1 z1 M1,
    reach inner (text k) org (St X V F cf zf (at_label (src k) org (entry_label false (saves_vectors c))) M) (St X1 V F c1 z1 inner M1) /\
    (X1 RDI, X1 RSI, X1 RDX) = closure_words false M cl /\ X1 RCX = f + 176 /\ X1 R8 = f /\ X1 R9 = f + 224 /\ X1 RSP = f - 8 /\
    (forall i, callee_saved i -> X1 i = X i) /\
    rd M1 (f - 8) 8 = le_enc 8 (at_label (src k) org 19) /\
    (forall x, ~ (f - 8 <= x < f + 176) -> M1 x = M x) /\
    rd M1 f 176 = closure_frame c (caller_state X V M (f + 224) n) (stale M f) /\
    exists ps r fl', closure64 c (caller_state X V M (f + 224) n) (stale M f) g_tmp = Ok (ps, r, fl') /\
      args_seen (rd M1 f 176) (caller_state X V M (f + 224) n) ps ts vs /\
      (hidden_pointer rt = true -> r = RCaller (X RDI) /\ fl' = RET_INT64) /\
      (hidden_pointer rt = false -> r = RSlot /\ fl' = c_flags c).
Proof. exact (closure_entered false). Qed.
Print Assumptions C81_closure_entry.

(** The nine arguments again, arriving at a closure at 4096. *)
Example C81_hypotheses_met :
  saves_vectors ex_cif = true /\ zlen (repeat 0 16) = 16 /\ machine_ok s_clo s_vec [] s_cmem /\ s_clo RSP = 65536 + 216 /\ 65536 mod 16 = 0 /\
  65536 + 224 + stack_used ex_ret ex_args + 16 < 2 ^ 64 /\ s_clo R10 = 4096 /\
  closure_words false s_cmem 4096 = (1, 2, 3) /\
  args_passed ex_ret ex_args ex_vals (gpr_args s_clo) (xmm_args s_vec) (rd s_cmem (65536 + 224) (length (m_stack s_m))).
Proof. exact s_entered. Qed.

(** C82, in part: what the handler left in the result slot is returned as the psABI asks, x87
    results are pushed and nothing else is, the stack and the callee-saved registers are as the
    caller had them, memory is not touched.  Excluded: structs of one long double. *)
Theorem C82_closure_result_partial :
  forall rt ts b fl c v k inner org X V F cf zf M f ra,
  natural rt -> Forall natural ts -> stack_used rt ts + 64 < 2 ^ 32 ->
  machdep64 (TCif FFI_UNIX64 ts rt b fl) = Ok (FFI_OK, c) ->
  struct_x87 rt = false -> hidden_pointer rt = false -> zlen v = ty_size rt -> bytes_ok v ->
  0 <= org -> org + 2048 <= 2 ^ 64 -> machine_ok X V F M -> x87_results rt + zlen F <= 8 ->
  X RSP = f -> f + 224 < 2 ^ 64 -> le_dec (rd M (f + 216) 8) = ra -> X RAX mod 2 ^ 32 = c_flags c mod 2 ^ 32 ->
  result_holds rt v (rd M (f + 176) 32) ->
  exists X1 V1 F1 c1 z1,
    reach inner (text k) org (St X V F cf zf (at_label (src k) org 19) M) (St X1 V1 (F1 ++ F) c1 z1 ra M) /\
    returns rt (result_regs X1 V1 (F1 ++ F)) v /\ zlen F1 = x87_results rt /\
    X1 RSP = f + 224 /\ (forall i, callee_saved i -> X1 i = X i).
Proof. exact closure_result. Qed.
Print Assumptions C82_closure_result_partial.

(** A struct of an integer and a double. *)
Example C82_hypotheses_met :
  let v := [5; 0; 0; 0; 0; 0; 0; 0] ++ repeat 9 8 in let M := s_dmem (v ++ repeat 1 16) in
  natural ex_ret /\ struct_x87 ex_ret = false /\ hidden_pointer ex_ret = false /\ zlen v = ty_size ex_ret /\ bytes_ok v /\
  machine_ok s_done t_vecs [repeat 2 10] M /\ x87_results ex_ret + zlen [repeat 2 10] <= 8 /\
  s_done RSP = 65536 /\ le_dec (rd M (65536 + 216) 8) = 40000 /\ s_done RAX mod 2 ^ 32 = c_flags ex_cif mod 2 ^ 32 /\
  result_holds ex_ret v (rd M (65536 + 176) 32).
Proof. exact s_left. Qed.

(** C82: results in memory; ffi_closure_unix64_inner has put the caller's pointer in the slot and
    returned RET_INT64 (C81, C17): the pointer is returned in RAX. *)
Theorem C82_closure_pointer :
  forall p k inner org X V F cf zf M f ra,
  0 <= org -> org + 2048 <= 2 ^ 64 -> machine_ok X V F M ->
  X RSP = f -> f + 224 < 2 ^ 64 -> le_dec (rd M (f + 216) 8) = ra -> X RAX mod 2 ^ 32 = RET_INT64 ->
  0 <= p < 2 ^ 64 -> rd M (f + 176) 8 = le_enc 8 p ->
  exists X1 V1 c1 z1,
    reach inner (text k) org (St X V F cf zf (at_label (src k) org 19) M) (St X1 V1 F c1 z1 ra M) /\
    X1 RAX = p /\ X1 RSP = f + 224 /\ (forall i, callee_saved i -> X1 i = X i).
Proof. exact closure_pointer. Qed.
Print Assumptions C82_closure_pointer.

(** C82: void. *)
Theorem C82_closure_void :
  forall k inner org X V F cf zf M f ra,
  0 <= org -> org + 2048 <= 2 ^ 64 -> machine_ok X V F M ->
  X RSP = f -> f + 224 < 2 ^ 64 -> le_dec (rd M (f + 216) 8) = ra -> X RAX mod 256 = RET_VOID ->
  exists X1 V1 c1 z1,
    reach inner (text k) org (St X V F cf zf (at_label (src k) org 19) M) (St X1 V1 F c1 z1 ra M) /\
    X1 RSP = f + 224 /\ (forall i, callee_saved i -> X1 i = X i).
Proof. exact closure_void. Qed.
Print Assumptions C82_closure_void.

(** C82 fails for a struct of one long double: the caller finds nothing on the x87 stack. *)
Theorem C82_struct_refuted :
  exists rt c X V F M f ra v,
    natural rt /\ machdep64 (TCif FFI_UNIX64 [] rt 0 0) = Ok (FFI_OK, c) /\ hidden_pointer rt = false /\ zlen v = ty_size rt /\ bytes_ok v /\
    machine_ok X V F M /\ x87_results rt + zlen F <= 8 /\ X RSP = f /\ f + 224 < 2 ^ 64 /\ le_dec (rd M (f + 216) 8) = ra /\
    X RAX mod 2 ^ 32 = c_flags c mod 2 ^ 32 /\ result_holds rt v (rd M (f + 176) 32) /\
    forall k inner cf zf, (exists s, reach inner (text k) 0 (St X V F cf zf (at_label (src k) 0 19) M) s /\ spc s = ra) /\
      (forall s, reach inner (text k) 0 (St X V F cf zf (at_label (src k) 0 19) M) s -> spc s = ra -> sf s = F /\ ~ returns rt (result_regs (sx s) (sv s) (sf s)) v).
Proof. exact struct_long_double_unreturned. Qed.
Print Assumptions C82_struct_refuted.

(** C83: the same entry for Go closures, whose cif and function follow the code pointer and whose
    user data is the closure itself. *)
Theorem C83_go_closure_entry :
  forall rt ts vs b fl c k inner org X V F cf zf M f cl n g_tmp,
  rt_ok rt -> Forall natural ts -> Forall2 (fun t v => zlen v = ty_size t) ts vs ->
  machdep64 (TCif FFI_UNIX64 ts rt b fl) = Ok (FFI_OK, c) -> zlen g_tmp = 16 ->
  0 <= org -> org + 2048 <= 2 ^ 64 -> machine_ok X V F M ->
  X RSP = f + 216 -> f mod 16 = 0 -> 8 <= f -> f + 224 + stack_used rt ts + 16 < 2 ^ 64 ->
  X R10 = cl -> cl + 56 <= 2 ^ 64 -> cl + 56 <= f \/ f + 176 <= cl ->
  args_passed rt ts vs (gpr_args X) (xmm_args V) (rd M (f + 224) n) ->
  exists X1 c1 z1 M1,
    reach inner (text k) org (St X V F cf zf (at_label (src k) org (entry_label true (saves_vectors c))) M) (St X1 V F c1 z1 inner M1) /\
    X1 RDI = le_dec (rd M (cl + 8) 8) /\ X1 RSI = le_dec (rd M (cl + 16) 8) /\ X1 RDX = cl /\
    X1 RCX = f + 176 /\ X1 R8 = f /\ X1 R9 = f + 224 /\ X1 RSP = f - 8 /\
    (forall i, callee_saved i -> X1 i = X i) /\
    rd M1 (f - 8) 8 = le_enc 8 (at_label (src k) org 19) /\
    (forall x, ~ (f - 8 <= x < f + 176) -> M1 x = M x) /\
    exists ps r fl', closure64 c (caller_state X V M (f + 224) n) (stale M f) g_tmp = Ok (ps, r, fl') /\
      args_seen (rd M1 f 176) (caller_state X V M (f + 224) n) ps ts vs /\
      (hidden_pointer rt = true -> r = RCaller (X RDI) /\ fl' = RET_INT64) /\
      (hidden_pointer rt = false -> r = RSlot /\ fl' = c_flags c).
Proof. exact go_closure_entered. Qed.
Print Assumptions C83_go_closure_entry.

(** The same registers and memory: words at 4096 + 8 and 4096 + 16. *)
Example C83_hypotheses_met :
  closure_words true s_cmem 4096 = (0, 0, 4096) /\ closure_words true (wr s_cmem 4104 (le_enc 8 11 ++ le_enc 8 12)) 4096 = (11, 12, 4096) /\
  entry_label true (saves_vectors ex_cif) = 21.
Proof. exact s_go. Qed.
