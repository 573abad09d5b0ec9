(** Properties C107-C116: the 32-bit ARM backend (src/arm/ffi.c, src/arm/sysv.S). *)
From Verif Require Import Base Types BaseFacts ByteMem ArmModel ArmSpec ArmHfa ArmFp ArmPrep ArmAsmModel ArmAsmFacts ArmJoin ArmWhole ArmTrip ArmSamples.
Local Open Scope Z_scope.

(** C107: vfp_type_p recognises homogeneous floating point aggregates exactly. *)
Theorem C107_homogeneous :
  forall t, ctype t ->
  exists h, vfp_type t = Ok h /\
    (forall c n, hfa t c n -> h = 256 * Z.of_nat n + tcode_num c /\ h <> 0) /\
    (h <> 0 -> exists c n, hfa t c n).
Proof. exact hfa_recognition. Qed.
Print Assumptions C107_homogeneous.
Example C107_hypotheses_met :
  ctype ty_pair /\ hfa ty_pair T_FLOAT 2 /\ vfp_type ty_pair = Ok 514 /\ ctype ty_mix /\ vfp_type ty_mix = Ok 0 /\ ctype ty_cdouble /\ hfa ty_cdouble T_DOUBLE 2.
Proof. exact s_types. Qed.

(** C108: with floating point registers, ffi_prep_cif_machdep gives the arguments the registers
    that the standard gives them, gaps filled, none after the first one on the stack. *)
Theorem C108_fp_registers :
  forall rt ts, Forall ctype ts -> rtype_ok rt -> total ts < 2 ^ 31 ->
  exists c, prep false VFP rt ts = Ok c /\ v_args (k_vfp c) = fp_regs (places true rt ts) /\
    (use_vfp c = true <-> exists t d n, In t ts /\ hfa t d n).
Proof. exact fp_allocation. Qed.
Print Assumptions C108_fp_registers.
(** The search in the specification finds the lowest free registers. *)
Theorem C108_lowest_free :
  forall u n al, match find_fp u n al with
  | Some f => 0 <= f < 16 /\ f mod al = 0 /\ f + n <= 16 /\ (forall k, f <= k < f + n -> ~ In k u) /\
      forall r, 0 <= r < f -> r mod al = 0 -> r + n <= 16 -> exists k, r <= k < r + n /\ In k u
  | None => forall r, 0 <= r < 16 -> r mod al = 0 -> r + n <= 16 -> exists k, r <= k < r + n /\ In k u
  end.
Proof. exact lowest_free. Qed.
Print Assumptions C108_lowest_free.
(** The second float goes into the gap before the double. *)
Example C108_hypotheses_met :
  Forall ctype s_ts /\ rtype_ok ty_pair /\ total s_ts < 2 ^ 31 /\ prep false VFP ty_pair s_ts = Ok s_cif /\ v_args (k_vfp s_cif) = [0; 2; 1; 4] /\
  places true ty_pair s_ts = [Fp 0; Fp 2; Fp 1; Core 0; Fp 4; Core 2; Stk 0; Stk 16].
Proof. exact s_alloc. Qed.

(** C109, in part: the block that ffi_call allocates has room for all arguments.  Missing: complex
    results in memory with arguments aligned to 8 bytes (false, below); with floating point
    registers, the signatures of C111_vfp_refuted. *)
Theorem C109_block_size_partial :
  forall var a rt ts, Forall ctype ts -> rtype_ok rt -> total ts < 2 ^ 31 -> tidy_call (hard_for var a) rt ts ->
  bad_result (hard_for var a) rt = false \/ Forall (fun t => ty_align t <> 8) ts ->
  exists c, prep var a rt ts = Ok c /\ (8 | k_bytes c) /\ 16 <= k_bytes c /\
    Forall2 (fun t l => arg_end t l <= k_bytes c) ts (places (hard_for var a) rt ts).
Proof. exact block_fits. Qed.
Print Assumptions C109_block_size_partial.
Example C109_hypotheses_met :
  Forall ctype s_ts /\ rtype_ok ty_pair /\ rtype_ok ty_mix /\ total s_ts < 2 ^ 31 /\ tidy_call (hard_for false VFP) ty_pair s_ts /\ bad_result (hard_for false VFP) ty_pair = false /\
  tidy_call (hard_for false SYSV) ty_mix s_ts /\ bad_result (hard_for false SYSV) ty_mix = false /\
  prep false VFP ty_pair s_ts = Ok s_cif /\ prep false SYSV ty_mix s_ts = Ok s_soft /\
  places false ty_mix s_ts = [Core 1; Core 2; Stk 0; Stk 4; Stk 8; Stk 16; Stk 24; Stk 40] /\ k_bytes s_soft = 64.
Proof. exact s_block. Qed.
(** The hidden pointer of a complex result is not counted. *)
Theorem C109_block_size_refuted :
  exists rt ts c, Forall ctype ts /\ rtype_ok rt /\ total ts < 2 ^ 31 /\ prep false SYSV rt ts = Ok c /\
  exists t l, In (t, l) (combine ts (places false rt ts)) /\ k_bytes c < arg_end t l.
Proof. exact block_too_small. Qed.
Print Assumptions C109_block_size_refuted.

(** C110, in part: under the base standard, also for variadic functions, ffi_call gets to the
    function with every argument where the standard wants it, widened, the stack pointer aligned,
    the address for the result in r0, the static chain in ip and the registers of the caller kept.
    Missing: complex results in memory with arguments aligned to 8 bytes (false, below). *)
Theorem C110_base_call_partial :
  forall var a rt ts c, Forall ctype ts -> rtype_ok rt -> total ts < 2 ^ 31 -> prep var a rt ts = Ok c ->
  bad_result (hard_for var a) rt = false \/ Forall (fun t => ty_align t <> 8) ts ->
  forall rv objs closure base m, objects_ok ts objs -> call_ok c rv closure base m -> hard_for var a = false ->
  exists m', call c rv objs closure base m = Ok m' /\
  forall e org X V le fn, text_ok org -> call_args c base fn X ->
  exists X1 V1 le1 M1, reach e text org (St X V le (org + call_label c) m') (St X1 V1 le1 fn M1) /\
    held (words_of X1 [0; 1; 2; 3]) V1 (X1 13) M1 ts (places false rt ts) objs /\ (8 | X1 13) /\
    (in_memory false rt = true -> hidden_ok c rt rv base (X1 0)) /\ X1 12 = closure /\ X1 14 = org + 44 /\
    (forall r, 4 <= r < 11 -> X1 r = X r) /\ (forall k, 64 <= k -> V1 k = V k) /\
    (forall x, x < base \/ base + alloc_size c rv <= x -> M1 x = m x).
Proof. exact call_base. Qed.
Print Assumptions C110_base_call_partial.
Theorem C110_base_refuted : misplaced false SYSV.
Proof. exact base_misplaced. Qed.
Print Assumptions C110_base_refuted.

(** C111, in part: the same with floating point registers.  Missing: signatures in which an
    argument for core registers goes to the stack, already in use, while core registers are left
    and another such argument follows (false, below). *)
Theorem C111_vfp_call_partial :
  forall rt ts c, Forall ctype ts -> rtype_ok rt -> total ts < 2 ^ 31 -> prep false VFP rt ts = Ok c ->
  bad_result true rt = false \/ Forall (fun t => ty_align t <> 8) ts ->
  forall rv objs closure base m, objects_ok ts objs -> call_ok c rv closure base m -> tidy_call true rt ts ->
  exists m', call c rv objs closure base m = Ok m' /\
  forall e org X V le fn, text_ok org -> call_args c base fn X ->
  exists X1 V1 le1 M1, reach e text org (St X V le (org + call_label c) m') (St X1 V1 le1 fn M1) /\
    held (words_of X1 [0; 1; 2; 3]) V1 (X1 13) M1 ts (places true rt ts) objs /\ (8 | X1 13) /\
    (in_memory true rt = true -> hidden_ok c rt rv base (X1 0)) /\ X1 12 = closure /\ X1 14 = org + 44 /\
    (forall r, 4 <= r < 11 -> X1 r = X r) /\ (forall k, 64 <= k -> V1 k = V k) /\
    (forall x, x < base \/ base + alloc_size c rv <= x -> M1 x = m x).
Proof. exact call_hard. Qed.
Print Assumptions C111_vfp_call_partial.
Theorem C111_vfp_refuted : misplaced false VFP.
Proof. exact vfp_misplaced. Qed.
Print Assumptions C111_vfp_refuted.
(** Eight arguments, with C109_hypotheses_met. *)
Example C110_C111_hypotheses_met :
  objects_ok s_ts s_objs /\ call_ok s_soft (Some 4096) 77 s_base (fun _ => 0) /\ call_ok s_cif None 77 s_base (fun _ => 0) /\ text_ok s_org /\
  call_args s_soft s_base s_fn (s_regs s_soft s_fn) /\ call_args s_cif s_base s_fn (s_regs s_cif s_fn) /\ use_vfp s_cif = true.
Proof. exact s_calls. Qed.

(** C112, in part: a closure called according to the standard gives its handler pointers to the
    arguments, the caller's address for a result in memory, cif and user data.  Missing: the
    signatures of C111_vfp_refuted (false, below). *)
Theorem C112_closure_arguments_partial :
  forall var a rt ts c, Forall ctype ts -> rtype_ok rt -> total ts < 2 ^ 31 -> prep var a rt ts = Ok c ->
  forall e org clo cif func user, text_ok org -> word cif -> word func -> word user ->
  forall X V le M objs, tidy_call (hard_for var a) rt ts -> stack_ok c (X 13) -> clear (X 13) clo 24 -> bmem M -> bytes_reg V -> word (X 0) ->
  X 12 = clo -> rd M (clo + 12) 12 = le_enc 4 cif ++ le_enc 4 func ++ le_enc 4 user ->
  held (words_of X [0; 1; 2; 3]) V (X 13) M ts (places (hard_for var a) rt ts) objs ->
  exists X1 M1, reach e text org (St X V le (org + closure_entry c false) M) (St X1 V le (e (use_vfp c)) M1) /\
    X1 0 = cif /\ X1 1 = func /\ X1 2 = user /\
    exists m2 rvalue ps, inner c (X1 3) M1 = Ok (m2, rvalue, ps) /\ seen m2 ts ps objs /\ (in_memory (hard_for var a) rt = true -> rvalue = X 0).
Proof. exact closure_sees. Qed.
Print Assumptions C112_closure_arguments_partial.
Theorem C112_closure_arguments_refuted :
  exists rt ts c objs e org clo X V le M X1 V1 le1 M1 m2 rvalue ps,
  Forall ctype ts /\ rtype_ok rt /\ total ts < 2 ^ 31 /\ prep false VFP rt ts = Ok c /\ text_ok org /\ stack_ok c (X 13) /\ clear (X 13) clo 24 /\ bmem M /\ bytes_reg V /\ word (X 0) /\
  X 12 = clo /\ rd M (clo + 12) 12 = le_enc 4 20000 ++ le_enc 4 30000 ++ le_enc 4 40000 /\
  held (words_of X [0; 1; 2; 3]) V (X 13) M ts (places true rt ts) objs /\
  reach e text org (St X V le (org + closure_entry c false) M) (St X1 V1 le1 (e (use_vfp c)) M1) /\
  inner c (X1 3) M1 = Ok (m2, rvalue, ps) /\ ~ seen m2 ts ps objs.
Proof. exact closure_sees_wrong. Qed.
Print Assumptions C112_closure_arguments_refuted.
(** Floating point registers, core registers and stack, with C109_hypotheses_met. *)
Example C112_C115_hypotheses_met :
  stack_ok s_cif (v_regs 13) /\ clear (v_regs 13) s_clo 24 /\ bmem v_mem /\ bytes_reg v_vregs /\ word (v_regs 0) /\ word (v_regs 14) /\
  v_regs 12 = s_clo /\ rd v_mem (s_clo + 12) 12 = le_enc 4 20000 ++ le_enc 4 30000 ++ le_enc 4 40000 /\
  held (words_of v_regs [0; 1; 2; 3]) v_vregs (v_regs 13) v_mem s_ts (places true ty_pair s_ts) s_objs.
Proof. exact s_closure. Qed.

(** C113, in part: ffi_call of a closure with the same cif, whatever the trampoline: the handler
    gets the arguments, its result arrives in the caller's memory.  Missing: complex results in
    memory with arguments aligned to 8 bytes (C110_base_refuted). *)
Theorem C113_dynamic_trip_partial :
  forall var a rt ts c, Forall ctype ts -> rtype_ok rt -> total ts < 2 ^ 31 -> prep var a rt ts = Ok c ->
  bad_result (hard_for var a) rt = false \/ Forall (fun t => ty_align t <> 8) ts ->
  forall rv objs closure base m, objects_ok ts objs -> call_ok c rv closure base m -> 120 <= base -> result_ok c rv base ->
  forall clo cif func user, word cif -> word func -> word user -> forall e org, text_ok org ->
  closure = 0 -> apart c rv base clo 24 -> forall m0, (forall x, clo + 8 <= x < clo + 24 -> m x = prep_dynamic c org clo cif func user m0 x) ->
  exists m', call c rv objs closure base m = Ok m' /\
  forall X V le, call_args c base clo X -> bytes_reg V -> word (X 11) -> word (X 14) ->
  exists s1 s2 X1 V1 le1 M1, reach e text org (St X V le (org + call_label c) m') s1 /\ reach e dynamic_text clo s1 s2 /\
    reach e text org s2 (St X1 V1 le1 (e (use_vfp c)) M1) /\ spc s1 = clo /\ trip_ok var a rt ts c rv objs base m cif func e org user X X1 M1.
Proof. exact trip_dynamic. Qed.
Print Assumptions C113_dynamic_trip_partial.
Theorem C113_static_trip_partial :
  forall var a rt ts c, Forall ctype ts -> rtype_ok rt -> total ts < 2 ^ 31 -> prep var a rt ts = Ok c ->
  bad_result (hard_for var a) rt = false \/ Forall (fun t => ty_align t <> 8) ts ->
  forall rv objs closure base m, objects_ok ts objs -> call_ok c rv closure base m -> 120 <= base -> result_ok c rv base ->
  forall clo cif func user, word cif -> word func -> word user -> forall e org, text_ok org ->
  forall tr, closure = 0 -> apart c rv base clo 24 -> apart c rv base (tr + 4096) 8 -> (4 | tr) -> 0 <= tr -> clo + 24 <= tr + 4096 \/ tr + 4104 <= clo + 12 ->
  forall m0, (forall x, clo + 12 <= x < clo + 24 \/ tr + 4096 <= x < tr + 4104 -> m x = prep_static c org clo (tr + 4096) cif func user m0 x) ->
  exists m', call c rv objs closure base m = Ok m' /\
  forall X V le, call_args c base tr X -> bytes_reg V -> word (X 11) -> word (X 14) ->
  exists s1 s2 X1 V1 le1 M1, reach e text org (St X V le (org + call_label c) m') s1 /\ reach e static_text tr s1 s2 /\
    reach e text org s2 (St X1 V1 le1 (e (use_vfp c)) M1) /\ spc s1 = tr /\ trip_ok var a rt ts c rv objs base m cif func e org user X X1 M1.
Proof. exact trip_static. Qed.
Print Assumptions C113_static_trip_partial.
Theorem C113_go_trip_partial :
  forall var a rt ts c, Forall ctype ts -> rtype_ok rt -> total ts < 2 ^ 31 -> prep var a rt ts = Ok c ->
  bad_result (hard_for var a) rt = false \/ Forall (fun t => ty_align t <> 8) ts ->
  forall rv objs closure base m, objects_ok ts objs -> call_ok c rv closure base m -> 120 <= base -> result_ok c rv base ->
  forall clo cif func, word cif -> word func -> forall e org, text_ok org ->
  closure = clo -> apart c rv base clo 12 -> forall m0, (forall x, clo <= x < clo + 12 -> m x = prep_go c org clo cif func m0 x) ->
  exists m', call c rv objs closure base m = Ok m' /\
  forall X V le, call_args c base (le_dec (rd m clo 4)) X -> bytes_reg V -> word (X 11) -> word (X 14) ->
  exists s1 X1 V1 le1 M1, reach e text org (St X V le (org + call_label c) m') s1 /\
    reach e text org s1 (St X1 V1 le1 (e (use_vfp c)) M1) /\ trip_ok var a rt ts c rv objs base m cif func e org clo X X1 M1.
Proof. exact trip_go. Qed.
Print Assumptions C113_go_trip_partial.
(** With C109_hypotheses_met and C110_C111_hypotheses_met. *)
Example C113_hypotheses_met :
  120 <= s_base /\ result_ok s_cif (Some 8192) s_base /\ word 20000 /\ word 30000 /\ word 40000 /\
  call_ok s_cif (Some 8192) 0 s_base d_mem /\ call_ok s_cif (Some 8192) 0 s_base t_mem /\ call_ok s_cif (Some 8192) s_clo s_base g_mem /\
  apart s_cif (Some 8192) s_base s_clo 24 /\ apart s_cif (Some 8192) s_base (65536 + 4096) 8 /\
  call_args s_cif s_base s_clo (s_regs s_cif s_clo) /\ call_args s_cif s_base 65536 (s_regs s_cif 65536) /\ word (s_regs s_cif s_clo 11) /\ word (s_regs s_cif s_clo 14).
Proof. exact s_trips. Qed.

(** C114, in part: when the function has returned, its result is in the caller's memory, the
    registers that a function has to keep have the caller's values but for the stack pointer, and
    nothing else is written.  Missing: the stack pointer, complex numbers of two bytes and the
    alignment of the memory for results that are not wanted (all false, below); complex results in
    memory with arguments aligned to 8 bytes. *)
Theorem C114_result_partial :
  forall var a rt ts c, Forall ctype ts -> rtype_ok rt -> total ts < 2 ^ 31 -> prep var a rt ts = Ok c ->
  bad_result (hard_for var a) rt = false \/ Forall (fun t => ty_align t <> 8) ts ->
  forall rv objs closure base m, objects_ok ts objs -> call_ok c rv closure base m ->
  result_ok c rv base -> (ty_code rt = T_COMPLEX -> 4 <= ty_size rt) ->
  exists m', call c rv objs closure base m = Ok m' /\
  forall e org X V le fn, text_ok org -> call_args c base fn X -> 0 <= X 11 < 2 ^ 32 -> 0 <= X 14 < 2 ^ 32 ->
  exists X1 V1 le1 M1, reach e text org (St X V le (org + call_label c) m') (St X1 V1 le1 fn M1) /\
    forall X2 V2 le2 M2, bmem M2 -> (forall r, 4 <= r < 12 -> X2 r = X1 r) ->
      (forall x, frame_at c base <= x < frame_at c base + 20 -> M2 x = M1 x) ->
      exists X3 M3, reach e text org (St X2 V2 le2 (X1 14) M2) (St X3 V2 le2 (X 14) M3) /\
        (forall r, 4 <= r < 12 -> X3 r = X r) /\ X3 13 = frame_at c base + 8 /\
        (forall p, rv = Some p -> ctype rt -> in_memory (hard_for var a) rt = false ->
           rd (copy_back c rv base M3) p (Z.to_nat (ty_size rt)) = result_bytes (hard_for var a) rt (words_of X2 [0; 1]) V2) /\
        (forall x, (forall p, rv = Some p -> ctype rt -> in_memory (hard_for var a) rt = false -> ~ (p <= x < p + result_room rt)) ->
           x < base \/ base + alloc_size c rv <= x -> copy_back c rv base M3 x = M2 x).
Proof. exact call_and_back. Qed.
Print Assumptions C114_result_partial.
Theorem C114_complex_char_refuted :
  exists rt ts c p base X X1 X2 M2 X3 M3 x, whole_call rt ts c (Some p) base X X1 X2 M2 X3 M3 /\ in_memory false rt = false /\
  ~ (p <= x < p + result_room rt) /\ (x < base \/ base + alloc_size c (Some p) <= x) /\ copy_back c (Some p) base M3 x <> M2 x.
Proof. exact complex_char_spills. Qed.
Print Assumptions C114_complex_char_refuted.
Theorem C114_null_result_refuted :
  exists rt ts c base X X1 X2 M2 X3 M3, whole_call rt ts c None base X X1 X2 M2 X3 M3 /\ in_memory false rt = true /\ X1 0 mod ty_align rt <> 0.
Proof. exact null_result_unaligned. Qed.
Print Assumptions C114_null_result_refuted.
Theorem C114_stack_pointer_refuted :
  exists rt ts c rv base X X1 X2 M2 X3 M3, whole_call rt ts c rv base X X1 X2 M2 X3 M3 /\ X 13 = base /\ X3 13 <> X 13.
Proof. exact sp_not_kept. Qed.
Print Assumptions C114_stack_pointer_refuted.
Example C114_hypotheses_met :
  result_ok s_cif (Some 8192) s_base /\ call_ok s_cif (Some 8192) 0 s_base d_mem /\ word (s_regs s_cif s_clo 11) /\ word (s_regs s_cif s_clo 14) /\
  in_memory true ty_pair = false /\ ty_code ty_pair <> T_COMPLEX.
Proof. exact s_result_hyps. Qed.

(** C115: when the handler has returned, the result it stored is in the registers of the standard,
    the closure returns to its caller with the stack pointer and the registers that a function has
    to keep as they were, and the code writes only its frame. *)
Theorem C115_closure_result :
  forall var a rt ts c, Forall ctype ts -> rtype_ok rt -> total ts < 2 ^ 31 -> prep var a rt ts = Ok c ->
  forall e org clo cif func user, text_ok org -> word cif -> word func -> word user ->
  forall X V le M, stack_ok c (X 13) -> clear (X 13) clo 24 -> bmem M -> bytes_reg V -> word (X 14) ->
  X 12 = clo -> rd M (clo + 12) 12 = le_enc 4 cif ++ le_enc 4 func ++ le_enc 4 user ->
  exists X1 M1, reach e text org (St X V le (org + closure_entry c false) M) (St X1 V le (e (use_vfp c)) M1) /\
    (forall x, x < X 13 - 120 \/ X 13 <= x -> M1 x = M x) /\ (8 | X1 13) /\
    exists m2 rvalue ps, inner c (X1 3) M1 = Ok (m2, rvalue, ps) /\
      (in_memory (hard_for var a) rt = false -> X1 13 + 8 <= rvalue /\ rvalue + 32 <= X 13) /\
      forall X2 V2 le2 M2, bmem M2 -> X2 0 = inner_code c -> X2 13 = X1 13 -> (forall r, 4 <= r < 12 -> X2 r = X1 r) ->
        (forall x, X1 13 <= x < X1 13 + 8 -> M2 x = m2 x) ->
        exists X3 V3, reach e text org (St X2 V2 le2 (X1 14) M2) (St X3 V3 le2 (X 14) M2) /\
          X3 13 = X 13 /\ (forall r, 4 <= r < 12 -> X3 r = X r) /\ (forall k, 64 <= k -> V3 k = V2 k) /\
          (ctype rt -> in_memory (hard_for var a) rt = false -> result_bytes (hard_for var a) rt (words_of X3 [0; 1]) V3 = rd M2 rvalue (Z.to_nat (ty_size rt))).
Proof. exact closure_back. Qed.
Print Assumptions C115_closure_result.

(** C116: a closure called through its trampoline, dynamic or static, and a go closure get to the
    inner function with cif, function and user data (the closure itself for go closures), the
    argument registers in the frame, nothing else changed. *)
Theorem C116_dynamic :
  forall var a rt ts c, Forall ctype ts -> rtype_ok rt -> total ts < 2 ^ 31 -> prep var a rt ts = Ok c ->
  forall e org clo cif func user X V le M m0, text_ok org -> word cif -> word func -> bmem M -> bytes_reg V -> stack_ok c (X 13) ->
  word user -> clear (X 13) clo 24 -> (forall x, clo + 8 <= x < clo + 24 -> M x = prep_dynamic c org clo cif func user m0 x) ->
  exists s1 X1 M1, reach e dynamic_text clo (St X V le clo M) s1 /\ reach e text org s1 (St X1 V le (e (use_vfp c)) M1) /\ came c cif func user X V M X1 M1.
Proof. exact enter_dynamic. Qed.
Print Assumptions C116_dynamic.
Theorem C116_static :
  forall var a rt ts c, Forall ctype ts -> rtype_ok rt -> total ts < 2 ^ 31 -> prep var a rt ts = Ok c ->
  forall e org clo cif func user X V le M m0, text_ok org -> word cif -> word func -> bmem M -> bytes_reg V -> stack_ok c (X 13) ->
  forall tr, word user -> clear (X 13) clo 24 -> clear (X 13) (tr + 4096) 8 -> (4 | tr) -> 0 <= tr -> clo + 24 <= tr + 4096 \/ tr + 4104 <= clo + 12 ->
  (forall x, clo + 12 <= x < clo + 24 \/ tr + 4096 <= x < tr + 4104 -> M x = prep_static c org clo (tr + 4096) cif func user m0 x) ->
  exists s1 X1 M1, reach e static_text tr (St X V le tr M) s1 /\ reach e text org s1 (St X1 V le (e (use_vfp c)) M1) /\ came c cif func user X V M X1 M1.
Proof. exact enter_static. Qed.
Print Assumptions C116_static.
Theorem C116_go :
  forall var a rt ts c, Forall ctype ts -> rtype_ok rt -> total ts < 2 ^ 31 -> prep var a rt ts = Ok c ->
  forall e org clo cif func X V le M m0, text_ok org -> word cif -> word func -> bmem M -> bytes_reg V -> stack_ok c (X 13) ->
  clear (X 13) clo 12 -> X 12 = clo -> (forall x, clo <= x < clo + 12 -> M x = prep_go c org clo cif func m0 x) ->
  exists X1 M1, reach e text org (St X V le (le_dec (rd M clo 4)) M) (St X1 V le (e (use_vfp c)) M1) /\ came c cif func clo X V M X1 M1.
Proof. exact enter_go. Qed.
Print Assumptions C116_go.
Example C116_hypotheses_met :
  bmem d_mem /\ bmem t_mem /\ bmem g_mem /\ bytes_reg v_vregs /\ stack_ok s_cif (v_regs 13) /\ v_regs 12 = s_clo /\
  clear (v_regs 13) s_clo 24 /\ clear (v_regs 13) s_clo 12 /\ clear (v_regs 13) (65536 + 4096) 8 /\ le_dec (rd g_mem s_clo 4) = s_org + 192.
Proof. exact s_ways. Qed.
