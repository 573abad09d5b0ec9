(** Properties C117-C122: the assembly code of the Win64 ABIs (src/x86/win64.S) together with
    src/x86/ffiw64.c. *)
From Verif Require Import Base ByteMem Types LayoutSpec NaturalTypes Unix64Model Unix64Spec Unix64Link
  Win64Model Win64Spec Win64Link PropsUnix64Lemmas PropsWin64Lemmas.
From Verif Require Import W64AsmModel W64AsmFacts W64AsmSpec W64AsmTop W64AsmEnd W64AsmSamples.
Local Open Scope Z_scope.

(** C117: ffi_call through ffi_call_win64 enters the function with every argument where the convention
    has it, in both register files for the first four slots, the result pointer first when there
    is one, the return address below the argument area; the caller's frame pointer and return address
    are kept in the frame, nothing else is written. *)
Theorem C117_call_entry :
  forall abi ts rt vs ps b f c rv tmp stk base g_gpr g_sse g_area g_xmm frame m,
  win_abi abi -> rt_ok rt -> win_ret_ok abi rt -> zlen ts < 2 ^ 28 -> Forall natural ts ->
  Forall (fun t => ty_size t < 2 ^ 31) ts ->
  machdep_x86 (TCif abi ts rt b f) = Ok (FFI_OK, c) ->
  args_at m ts ps vs -> allocas_ok (live m) (requests abi ts) stk -> zlen g_area = c_bytes c ->
  0 <= tmp < 2 ^ 64 -> (forall p, rv = Some p -> 0 <= p < 2 ^ 64) ->
  exists s fl rv' av m', ffi_call_x86 c rv tmp ps stk base g_gpr g_sse g_area g_xmm frame m = Ok (EnterWin s, fl, rv', av, m') /\
    forall g ib inner org X V cf zf k M fn ra,
      text_ok g ib org -> machine_ok X V M -> (k = true -> g_cet g = true) -> 0 <= fn < 2 ^ 64 ->
      called g base (base + c_bytes c) 0 (w_stack s) fn fl rv' ra X M ->
      memory_has M m' -> outside m' (base - 8) base -> outside m' (base + c_bytes c) (base + c_bytes c + 16) ->
      exists X1 V1 M1,
        reach ib inner (text g) org (St X V cf zf k (at_label (src g) org 1) M) (St X1 V1 cf zf ib fn M1) /\
        entry_done g org base (c_bytes c) 0 rt ts vs m' fl rv' (match rv with Some q => q | None => tmp end) ra X V M X1 V1 M1.
Proof. exact call_entered. Qed.
Print Assumptions C117_call_entry.

(** C117: ffi_call_go also passes the closure, in r10. *)
Theorem C117_go_call_entry :
  forall abi ts rt vs ps b f c rv tmp stk closure base g_area m,
  win_abi abi -> rt_ok rt -> win_ret_ok abi rt -> zlen ts < 2 ^ 28 -> Forall natural ts ->
  Forall (fun t => ty_size t < 2 ^ 31) ts ->
  machdep_x86 (TCif abi ts rt b f) = Ok (FFI_OK, c) ->
  args_at m ts ps vs -> allocas_ok (live m) (big 8 ts) stk -> zlen g_area = c_bytes c ->
  0 <= tmp < 2 ^ 64 -> (forall p, rv = Some p -> 0 <= p < 2 ^ 64) ->
  exists s fl rv' av m', call_win c rv tmp ps stk closure base g_area m = Ok (s, fl, rv', av, m') /\
    forall g ib inner org X V cf zf k M fn ra,
      text_ok g ib org -> machine_ok X V M -> (k = true -> g_cet g = true) -> 0 <= fn < 2 ^ 64 ->
      called g base (base + c_bytes c) closure (w_stack s) fn fl rv' ra X M ->
      memory_has M m' -> outside m' (base - 8) base -> outside m' (base + c_bytes c) (base + c_bytes c + 16) ->
      exists X1 V1 M1,
        reach ib inner (text g) org (St X V cf zf k (at_label (src g) org 1) M) (St X1 V1 cf zf ib fn M1) /\
        entry_done g org base (c_bytes c) closure rt ts vs m' fl rv' (match rv with Some q => q | None => tmp end) ra X V M X1 V1 M1.
Proof. exact go_call_entered. Qed.
Print Assumptions C117_go_call_entry.

(** Six arguments and a hidden result pointer, the arguments at 65536, the frame at 65592, called from a
    stack at 32768.  The hypotheses on types and arguments are those of C21_hypotheses_met. *)
Example C117_hypotheses_met :
  (exists av, v_call = Ok (EnterWin v_state, 13, Some 8192, av, v_mem')) /\ zlen (repeat 55 56) = c_bytes wex_cif /\
  text_ok v_cfg true 4096 /\ machine_ok v_regs v_vecs v_mem /\
  called v_cfg 65536 (65536 + c_bytes wex_cif) 0 (w_stack v_state) 50000 13 (Some 8192) 40000 v_regs v_mem /\
  memory_has v_mem v_mem' /\ outside v_mem' (65536 - 104) (65536 + 32) /\ outside v_mem' (65536 + c_bytes wex_cif) (65536 + c_bytes wex_cif + 16).
Proof. exact v_called. Qed.

(** C118, what holds: a result in registers is stored, widened if integral, nothing else is written,
    the caller's frame pointer and preserved registers are restored, the stack pointer is behind the frame. *)
Theorem C118_call_result_partial :
  forall abi rt v g ib inner org X V c z M P rbp ra p,
  natural rt -> win_hidden rt = false -> zlen v = ty_size rt ->
  text_ok g ib org -> 0 <= P -> zlen (V 0) = 16 -> X RBP = P -> P + 40 <= 2 ^ 64 ->
  frame_at M P rbp ra (win_flags abi rt) (Some p) -> 0 <= rbp < 2 ^ 64 -> 0 <= ra < 2 ^ 64 ->
  0 <= p -> p + result_width rt <= 2 ^ 64 -> p + result_width rt <= P \/ P + 16 <= p ->
  win_returned rt (X RAX) (V 0) v ->
  exists X1 c1 z1 M1,
    reach ib inner (text g) org (St X V c z false (at_label (src g) org 5) M) (St X1 V c1 z1 false ra M1) /\
    X1 RSP = P + 16 /\ X1 RBP = rbp /\ (forall i, i = 3 \/ i = RSI \/ i = RDI \/ 12 <= i -> X1 i = X i) /\
    win_result_holds rt v (rd M1 p (Z.to_nat (result_width rt))) /\ (forall x, ~ (p <= x < p + result_width rt) -> M1 x = M x).
Proof. exact result_stored. Qed.
Print Assumptions C118_call_result_partial.

(** A 16-bit integer with garbage above it in rax. *)
Example C118_hypotheses_met :
  natural ty_sint16 /\ win_hidden ty_sint16 = false /\ zlen [254; 255] = ty_size ty_sint16 /\ text_ok v_cfg true 4096 /\
  zlen (v_vecs 0) = 16 /\ v_ret RBP = 65592 /\ frame_at v_rmem 65592 33000 40000 (win_flags FFI_WIN64 ty_sint16) (Some 8192) /\
  8192 + result_width ty_sint16 <= 65592 /\ win_returned ty_sint16 (v_ret RAX) (v_vecs 0) [254; 255].
Proof. exact v_returned. Qed.

(** C118: without a result, with the result discarded, and with a result in memory the code stores nothing. *)
Theorem C118_no_result :
  forall abi rt g ib inner org X V c z M P rbp ra fl rv,
  rt_ok rt -> win_ret_ok abi rt ->
  text_ok g ib org -> 0 <= P -> zlen (V 0) = 16 -> X RBP = P -> P + 40 <= 2 ^ 64 ->
  (rv = None /\ fl = tcode_num T_VOID \/ (win_hidden rt = true \/ ty_code rt = T_VOID) /\ fl = win_flags abi rt) ->
  (forall p, rv = Some p -> 0 <= p < 2 ^ 64 /\ (p <= P \/ P + 16 <= p)) ->
  frame_at M P rbp ra fl rv -> 0 <= rbp < 2 ^ 64 -> 0 <= ra < 2 ^ 64 ->
  exists X1 c1 z1 M1,
    reach ib inner (text g) org (St X V c z false (at_label (src g) org 5) M) (St X1 V c1 z1 false ra M1) /\
    X1 RSP = P + 16 /\ X1 RBP = rbp /\ (forall i, i = 3 \/ i = RSI \/ i = RDI \/ 12 <= i -> X1 i = X i) /\ (forall x, M1 x = M x).
Proof. exact no_result_stored. Qed.
Print Assumptions C118_no_result.

(** A struct returned in memory. *)
Example C118_no_result_hypotheses_met :
  rt_ok wex_ret /\ win_ret_ok FFI_GNUW64 wex_ret /\ win_hidden wex_ret = true /\ 13 = win_flags FFI_GNUW64 wex_ret /\
  v_ret RBP = 65592 /\ frame_at v_vmem 65592 33000 40000 13 (Some 8192).
Proof. exact v_unstored. Qed.

(** C118 fails: with an odd number of slots above four ffi_call_win64 returns with a stack pointer that is
    not aligned to 16 bytes. *)
Theorem C118_stack_alignment_refuted :
  exists ts c, Forall natural ts /\ machdep_x86 (TCif FFI_WIN64 ts ty_void 0 0) = Ok (FFI_OK, c) /\
    forall base g ib inner org X V cf zf M rbp ra,
      base mod 16 = 0 -> 0 <= base -> base + c_bytes c + 40 <= 2 ^ 64 ->
      text_ok g ib org -> zlen (V 0) = 16 -> X RBP = base + c_bytes c ->
      frame_at M (base + c_bytes c) rbp ra (c_flags c) None -> 0 <= rbp < 2 ^ 64 -> 0 <= ra < 2 ^ 64 ->
      exists X1 c1 z1 M1, reach ib inner (text g) org (St X V cf zf false (at_label (src g) org 5) M) (St X1 V c1 z1 false ra M1) /\
        X1 RSP mod 16 = 8.
Proof. exact unaligned. Qed.
Print Assumptions C118_stack_alignment_refuted.

(** C118 fails: a long double result (16 bytes) of an FFI_WIN64 function ends in the call of abort. *)
Theorem C118_long_double_refuted :
  exists rt c, natural rt /\ machdep_x86 (TCif FFI_WIN64 [] rt 0 0) = Ok (FFI_OK, c) /\
    forall g ib inner org X V cf zf M P rbp ra rv,
      text_ok g ib org -> X RBP = P -> 0 <= P -> P + 40 <= 2 ^ 64 -> frame_at M P rbp ra (c_flags c) rv ->
      0 <= rbp < 2 ^ 64 -> 0 <= ra < 2 ^ 64 -> (forall p, rv = Some p -> 0 <= p < 2 ^ 64) ->
      exists s1, reach ib inner (text g) org (St X V cf zf false (at_label (src g) org 5) M) s1 /\ step ib inner (text g) org s1 = None.
Proof. exact long_double_aborts. Qed.
Print Assumptions C118_long_double_refuted.

(** C119, C121: the closure objects get cif, function and data where the code looks for them. *)
Theorem C119_prepared :
  forall go M cl cif func data entry tramp,
  zlen tramp = 24 -> 0 <= cif < 2 ^ 64 -> 0 <= func < 2 ^ 64 -> 0 <= data < 2 ^ 64 ->
  clo_holds go (if go then prep_go cl entry cif func M else prep_closure cl entry cif func data tramp M) cl cif func (if go then cl else data).
Proof. exact clo_prepared. Qed.
Print Assumptions C119_prepared.

(** C119: ffi_closure_win64 calls ffi_closure_win64_inner with the cif, function and user data of the
    closure and a frame from which the handler gets every argument; the caller's result pointer is put
    in the result slot; nothing outside of the frame and the caller's home area is written. *)
Theorem C119_closure_entry :
  forall abi ts vs rt b f c m g ib inner org X V cf zf k M sp cl cif func data n,
  win_abi abi -> rt_ok rt -> win_ret_ok abi rt -> zlen ts < 2 ^ 28 -> Forall natural ts -> Forall (fun t => ty_size t < 2 ^ 31) ts ->
  Forall2 (fun t v => zlen v = ty_size t) ts vs ->
  machdep_x86 (TCif abi ts rt b f) = Ok (FFI_OK, c) ->
  text_ok g ib org -> machine_ok X V M -> (k = true -> g_cet g = true) ->
  X RSP = sp -> 96 <= sp -> sp + 8 + n < 2 ^ 64 -> 32 <= n -> 8 * (zlen ts + win_first rt) <= n ->
  X R10 = cl -> clo_holds false M cl cif func data -> cl + clo_size false <= 2 ^ 64 ->
  cl + clo_size false <= sp + 8 \/ sp + 40 <= cl ->
  win_all (win_holds (wstate_of X V M (sp + 8) (Z.to_nat n)) m) ts vs (win_first rt) ->
  memory_has M m -> outside m (sp - 96) sp -> outside m (sp + 8) (sp + 40) ->
  exists X1 c1 z1 M1 l rp slot,
    reach ib inner (text g) org (St X V cf zf k (at_label (src g) org (clo_label false)) M) (St X1 V c1 z1 false inner M1) /\
    X1 RCX = cif /\ X1 RDX = func /\ X1 R8 = data /\ X1 R9 = sp - 48 /\ X1 RSP = sp - 96 /\
    rd M1 (sp - 96) 8 = le_enc 8 (at_label (src g) org 14) /\
    closure_win c (wstate_of X V M (sp + 8) (Z.to_nat n)) (rd M1 (X1 R9) 16) = Ok (l, rp, slot) /\
    Forall2 (fun p tv => rd M1 (ptr_addr (X1 R9 + 16) (X1 R9 + 56) p) (Z.to_nat (ty_size (fst tv))) = snd tv) l (combine ts vs) /\
    rp = (if win_hidden rt then Some (X RCX) else None) /\
    get_range slot 0 8 = Some (if win_hidden rt then le_enc 8 (X RCX) else rd M1 (X1 R9) 8) /\
    memory_has M1 m /\
    (forall i, win_saved i -> X1 i = X i) /\
    (forall x, ~ (sp - 96 <= x < sp - 88) -> ~ (sp - 32 <= x < sp) -> ~ (sp + 8 <= x < sp + 40) -> M1 x = M x).
Proof. exact (closure_entered false). Qed.
Print Assumptions C119_closure_entry.

(** C119: the entry for static trampolines, which have pushed the closure, leads there. *)
Theorem C119_alt_entry :
  forall g ib inner org X V cf zf k M sp cl,
  text_ok g ib org -> machine_ok X V M -> (k = true -> g_cet g = true) ->
  X RSP = sp - 16 -> 16 <= sp < 2 ^ 64 -> rd M (sp - 8) 8 = le_enc 8 cl -> 0 <= cl < 2 ^ 64 ->
  exists X1 c1 z1,
    reach ib inner (text g) org (St X V cf zf k (at_label (src g) org 13) M) (St X1 V c1 z1 false (at_label (src g) org 11) M) /\
    X1 R10 = cl /\ X1 RSP = sp /\ (forall i, i <> R10 -> i <> RSP -> X1 i = X i).
Proof. exact alt_entered. Qed.
Print Assumptions C119_alt_entry.

(** The state of the call above, for a closure at 4096 and for a Go closure there. *)
Example C119_hypotheses_met :
  forall go,
  text_ok v_cfg true 8192 /\ machine_ok v_clo v_cvec (v_cmem go) /\ v_clo RSP = 65528 /\ v_clo R10 = 4096 /\
  clo_holds go (v_cmem go) 4096 1 2 (if go then 4096 else 3) /\
  Forall2 (fun t v => zlen v = ty_size t) wex_args wex_vals /\
  win_all (win_holds (wstate_of v_clo v_cvec (v_cmem go) (65528 + 8) (Z.to_nat 56)) v_mem') wex_args wex_vals (win_first wex_ret) /\
  memory_has (v_cmem go) v_mem' /\ outside v_mem' (65528 - 96) 65528 /\ outside v_mem' (65528 + 8) (65528 + 40) /\ le_dec (rd (v_cmem go) 65528 8) = 40000.
Proof. exact v_entered. Qed.

(** C120: the handler's result is returned in the register of the convention; stack pointer, preserved
    registers and memory are as before. *)
Theorem C120_closure_result :
  forall rt v g ib inner org X V cf zf M sp ra,
  natural rt -> win_hidden rt = false -> zlen v = ty_size rt -> bytes_ok v ->
  text_ok g ib org -> machine_ok X V M -> X RSP = sp - 88 -> 88 <= sp -> sp + 8 < 2 ^ 64 ->
  rd M sp 8 = le_enc 8 ra -> 0 <= ra < 2 ^ 64 ->
  win_result_holds rt v (rd M (sp - 48) 16) ->
  exists X1 V1 c1 z1,
    reach ib inner (text g) org (St X V cf zf false (at_label (src g) org 14) M) (St X1 V1 c1 z1 false ra M) /\
    win_returned rt (X1 RAX) (V1 0) v /\ zlen (V1 0) = 16 /\ X1 RSP = sp + 8 /\
    (forall i, win_saved i -> X1 i = X i) /\ (forall i, 1 <= i -> V1 i = V i).
Proof. exact closure_returns. Qed.
Print Assumptions C120_closure_result.

(** C120: results in memory: the pointer the slot was given is returned in rax. *)
Theorem C120_closure_pointer :
  forall g ib inner org X V cf zf M sp ra p,
  text_ok g ib org -> machine_ok X V M -> X RSP = sp - 88 -> 88 <= sp -> sp + 8 < 2 ^ 64 ->
  rd M sp 8 = le_enc 8 ra -> 0 <= ra < 2 ^ 64 -> rd M (sp - 48) 8 = le_enc 8 p -> 0 <= p < 2 ^ 64 ->
  exists X1 V1 c1 z1,
    reach ib inner (text g) org (St X V cf zf false (at_label (src g) org 14) M) (St X1 V1 c1 z1 false ra M) /\
    X1 RAX = p /\ X1 RSP = sp + 8 /\ (forall i, win_saved i -> X1 i = X i) /\ (forall i, 1 <= i -> V1 i = V i).
Proof. exact closure_returns_hidden. Qed.
Print Assumptions C120_closure_pointer.

(** The handler has left a widened 16-bit integer; the closure was called by ffi_call_win64. *)
Example C120_hypotheses_met :
  let ra := at_label (src v_cfg) 4096 5 in
  natural ty_sint16 /\ win_hidden ty_sint16 = false /\ zlen [254; 255] = ty_size ty_sint16 /\ bytes_ok [254; 255] /\
  text_ok v_cfg true 4096 /\ machine_ok v_done v_vecs (v_dmem ra) /\ v_done RSP = 65528 - 88 /\ v_done RBP = 65536 + 56 /\
  rd (v_dmem ra) 65528 8 = le_enc 8 ra /\ frame_at (v_dmem ra) (65536 + 56) 33000 40000 (win_flags FFI_WIN64 ty_sint16) (Some 8192) /\
  win_result_holds ty_sint16 [254; 255] (rd (v_dmem ra) (65528 - 48) 16).
Proof. exact v_left. Qed.

(** C121: the same for Go closures, whose data is the closure itself. *)
Theorem C121_go_closure_entry :
  forall abi ts vs rt b f c m g ib inner org X V cf zf k M sp cl cif func data n,
  win_abi abi -> rt_ok rt -> win_ret_ok abi rt -> zlen ts < 2 ^ 28 -> Forall natural ts -> Forall (fun t => ty_size t < 2 ^ 31) ts ->
  Forall2 (fun t v => zlen v = ty_size t) ts vs ->
  machdep_x86 (TCif abi ts rt b f) = Ok (FFI_OK, c) ->
  text_ok g ib org -> machine_ok X V M -> (k = true -> g_cet g = true) ->
  X RSP = sp -> 96 <= sp -> sp + 8 + n < 2 ^ 64 -> 32 <= n -> 8 * (zlen ts + win_first rt) <= n ->
  X R10 = cl -> clo_holds true M cl cif func data -> cl + clo_size true <= 2 ^ 64 ->
  cl + clo_size true <= sp + 8 \/ sp + 40 <= cl ->
  win_all (win_holds (wstate_of X V M (sp + 8) (Z.to_nat n)) m) ts vs (win_first rt) ->
  memory_has M m -> outside m (sp - 96) sp -> outside m (sp + 8) (sp + 40) ->
  exists X1 c1 z1 M1 l rp slot,
    reach ib inner (text g) org (St X V cf zf k (at_label (src g) org (clo_label true)) M) (St X1 V c1 z1 false inner M1) /\
    X1 RCX = cif /\ X1 RDX = func /\ X1 R8 = data /\ X1 R9 = sp - 48 /\ X1 RSP = sp - 96 /\
    rd M1 (sp - 96) 8 = le_enc 8 (at_label (src g) org 14) /\
    closure_win c (wstate_of X V M (sp + 8) (Z.to_nat n)) (rd M1 (X1 R9) 16) = Ok (l, rp, slot) /\
    Forall2 (fun p tv => rd M1 (ptr_addr (X1 R9 + 16) (X1 R9 + 56) p) (Z.to_nat (ty_size (fst tv))) = snd tv) l (combine ts vs) /\
    rp = (if win_hidden rt then Some (X RCX) else None) /\
    get_range slot 0 8 = Some (if win_hidden rt then le_enc 8 (X RCX) else rd M1 (X1 R9) 8) /\
    memory_has M1 m /\
    (forall i, win_saved i -> X1 i = X i) /\
    (forall x, ~ (sp - 96 <= x < sp - 88) -> ~ (sp - 32 <= x < sp) -> ~ (sp + 8 <= x < sp + 40) -> M1 x = M x).
Proof. exact (closure_entered true). Qed.
Print Assumptions C121_go_closure_entry.

(** C122: a function called by ffi_call that is a closure of the same signature: once its trampoline has
    got to ffi_closure_win64 (C47, C50) the handler reads the very argument bytes and gets the result
    pointer; the frame of the call and the return address into ffi_call_win64 are intact. *)
Theorem C122_arguments_arrive :
  forall abi ts rt vs ps b f c rv tmp stk base g_gpr g_sse g_area g_xmm frame m,
  win_abi abi -> rt_ok rt -> win_ret_ok abi rt -> zlen ts < 2 ^ 28 -> Forall natural ts ->
  Forall (fun t => ty_size t < 2 ^ 31) ts ->
  machdep_x86 (TCif abi ts rt b f) = Ok (FFI_OK, c) ->
  args_at m ts ps vs -> allocas_ok (live m) (requests abi ts) stk -> zlen g_area = c_bytes c ->
  0 <= tmp < 2 ^ 64 -> (forall p, rv = Some p -> 0 <= p < 2 ^ 64) ->
  exists s fl rv' av m', ffi_call_x86 c rv tmp ps stk base g_gpr g_sse g_area g_xmm frame m = Ok (EnterWin s, fl, rv', av, m') /\
    forall g ib inner org X V cf zf k M fn ra,
      text_ok g ib org -> machine_ok X V M -> (k = true -> g_cet g = true) -> 0 <= fn < 2 ^ 64 ->
      called g base (base + c_bytes c) 0 (w_stack s) fn fl rv' ra X M -> 104 <= base ->
      memory_has M m' -> outside m' (base - 104) (base + 32) -> outside m' (base + c_bytes c) (base + c_bytes c + 16) ->
      exists X1 V1 M1,
        reach ib inner (text g) org (St X V cf zf k (at_label (src g) org 1) M) (St X1 V1 cf zf ib fn M1) /\
        forall X2 cf2 zf2 k2 cl cif func data,
          machine_ok X2 V1 M1 -> (k2 = true -> g_cet g = true) ->
          (forall i, i <> RAX -> i <> R10 -> i <> 11 -> X2 i = X1 i) -> X2 R10 = cl ->
          clo_holds false M1 cl cif func data -> cl + 56 <= 2 ^ 64 -> cl + 56 <= base \/ base + 32 <= cl ->
          exists X3 c3 z3 M3 l rp slot,
            reach ib inner (text g) org (St X2 V1 cf2 zf2 k2 (at_label (src g) org 11) M1) (St X3 V1 c3 z3 false inner M3) /\
            X3 RCX = cif /\ X3 RDX = func /\ X3 R8 = data /\ X3 R9 = base - 56 /\
            closure_win c (wstate_of X2 V1 M1 base (Z.to_nat (c_bytes c))) (rd M3 (X3 R9) 16) = Ok (l, rp, slot) /\
            Forall2 (fun p tv => rd M3 (ptr_addr (X3 R9 + 16) (X3 R9 + 56) p) (Z.to_nat (ty_size (fst tv))) = snd tv) l (combine ts vs) /\
            rp = (if win_hidden rt then Some (match rv with Some q => q | None => tmp end) else None) /\
            X3 RBP = base + c_bytes c /\ frame_at M3 (base + c_bytes c) (X RBP) ra fl rv' /\
            rd M3 (base - 8) 8 = le_enc 8 (at_label (src g) org 5).
Proof. exact trip_in. Qed.
Print Assumptions C122_arguments_arrive.

(** C122: and back: the handler's result gets into the caller's memory. *)
Theorem C122_result_arrives :
  forall abi rt v g ib inner org X V cf zf M base n rbp ra p,
  natural rt -> win_hidden rt = false -> zlen v = ty_size rt -> bytes_ok v ->
  text_ok g ib org -> machine_ok X V M -> 96 <= base -> 32 <= n -> base + n + 40 <= 2 ^ 64 ->
  X RSP = base - 96 -> X RBP = base + n -> rd M (base - 8) 8 = le_enc 8 (at_label (src g) org 5) ->
  frame_at M (base + n) rbp ra (win_flags abi rt) (Some p) -> 0 <= rbp < 2 ^ 64 -> 0 <= ra < 2 ^ 64 ->
  0 <= p -> p + result_width rt <= 2 ^ 64 -> p + result_width rt <= base + n \/ base + n + 16 <= p ->
  win_result_holds rt v (rd M (base - 56) 16) ->
  exists X1 V1 c1 z1 M1,
    reach ib inner (text g) org (St X V cf zf false (at_label (src g) org 14) M) (St X1 V1 c1 z1 false ra M1) /\
    X1 RSP = base + n + 16 /\ X1 RBP = rbp /\ (forall i, i = 3 \/ i = RSI \/ i = RDI \/ 12 <= i -> X1 i = X i) /\ (forall i, 6 <= i -> V1 i = V i) /\
    win_result_holds rt v (rd M1 p (Z.to_nat (result_width rt))) /\ (forall x, ~ (p <= x < p + result_width rt) -> M1 x = M x).
Proof. exact trip_out. Qed.
Print Assumptions C122_result_arrives.

(** The states of C117_hypotheses_met, C119_hypotheses_met and C120_hypotheses_met: the latter's return
    address is that of the call in ffi_call_win64, its frame that of the call. *)
Example C122_hypotheses_met :
  let ra := at_label (src v_cfg) 4096 5 in
  104 <= 65536 /\ 4096 + 56 <= 65536 /\ v_done RSP = 65536 - 96 /\ v_done RBP = 65536 + c_bytes wex_cif /\
  rd (v_dmem ra) (65536 - 8) 8 = le_enc 8 ra /\ win_result_holds ty_sint16 [254; 255] (rd (v_dmem ra) (65536 - 56) 16).
Proof. 
  split; [discriminate|]. split; [discriminate|]. split; [reflexivity|]. split; [reflexivity|]. split; [apply lz_eq; vm_compute; reflexivity|vm_compute; reflexivity]. Qed.
