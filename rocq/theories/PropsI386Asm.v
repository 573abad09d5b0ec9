(** Properties C100-C106: the assembly code of the 32-bit x86 backend (src/x86/sysv.S). *)
From Verif Require Import Base Types BaseFacts ByteMem X87Model X87Facts I386Model I386Spec I386RetSpec I386RawSpec I386Facts I386Call I386CallOk I386Closure I386Ret I386Raw I386Lemmas.
From Verif Require Import I386AsmModel I386AsmFacts I386AsmCall I386AsmClo I386AsmTramp I386AsmRet I386AsmRaw I386AsmEnter I386AsmBack I386AsmTop I386AsmExit I386AsmRawTop I386AsmWhole I386AsmSamples.
Local Open Scope Z_scope.

(** C100, in part: with the block that ffi_call_int builds, ffi_call_i386 gets to the function with
    every argument where the convention wants it, the static chain in its register, the frame of
    the caller saved behind the arguments, the registers of the caller kept and nothing else
    changed, whatever the assembly options and with branch tracking.  Missing: PASCAL and
    REGISTER (below), complex numbers of at most four bytes, 256 MiB of arguments (C67). *)
Theorem C100_call_entry_partial :
  forall o a rt ts c rv objs fn chain base blk ebp ra,
  last_lowest a = false -> Forall (ctype32 o) ts -> Forall passable ts -> (ctype32 o rt \/ ty_code rt = T_VOID) ->
  objects_ok ts objs -> total ts < 2 ^ 28 -> prep o a rt ts = Some c ->
  (16 | base) -> 4 <= base -> zlen blk = call_size c rv -> block_end base blk < 2 ^ 32 -> 0 <= fn < 2 ^ 32 -> 0 <= ra < 2 ^ 32 ->
  exists m b, call c rv objs fn chain base blk ebp ra = Ok (m, b) /\
    forall g e org X F k M,
      0 <= org -> org + 2048 <= 2 ^ 32 -> (k = true -> g_cet g = true) -> regs_ok X -> mem_ok M -> X EBP = ebp ->
      given base (base + stack_align (k_bytes c)) b ra X M ->
      exists X1 M1 hp,
        reach e (text g) org (St X F k (at_label (src g) org 1) M) (St X1 F (e_ibt e) fn M1) /\
        held (arg_regs X1) (X1 ESP + 4) (reader M1) (hidden o rt ++ ts) (places o a rt ts) (hidden_obj o rt hp ++ objs) /\
        match rv with Some p => hp = p | None => in_memory o rt = true -> base + stack_align (k_bytes c) <= hp /\ hp + ty_size rt <= block_end base blk end /\
        arg_regs X1 (chain_reg a) = chain mod 2 ^ 32 /\ entered_ok g org base c rv ra X M X1 M1.
Proof. exact call_whole. Qed.
Print Assumptions C100_call_entry_partial.

(** C100 for PASCAL and REGISTER, in part: the arguments are in order, above a gap.  Missing: that
    there is no gap, and results in memory (false: C67_placement_refuted,
    C24_struct_result_refuted). *)
Theorem C100_last_lowest_partial :
  forall o a rt ts c rv objs fn chain base blk ebp ra,
  last_lowest a = true -> in_memory o rt = false -> Forall (ctype32 o) ts -> Forall passable ts -> (ctype32 o rt \/ ty_code rt = T_VOID) ->
  objects_ok ts objs -> total ts < 2 ^ 28 -> prep o a rt ts = Some c ->
  4 <= base -> zlen blk = call_size c rv -> block_end base blk < 2 ^ 32 -> 0 <= fn < 2 ^ 32 -> 0 <= ra < 2 ^ 32 ->
  exists m b, call c rv objs fn chain base blk ebp ra = Ok (m, b) /\
    forall g e org X F k M,
      0 <= org -> org + 2048 <= 2 ^ 32 -> (k = true -> g_cet g = true) -> regs_ok X -> mem_ok M -> X EBP = ebp ->
      given base (base + stack_align (k_bytes c)) b ra X M ->
      exists X1 M1 gap,
        reach e (text g) org (St X F k (at_label (src g) org 1) M) (St X1 F (e_ibt e) fn M1) /\
        0 <= gap /\ gap = stack_align (k_bytes c) - stack_used o a rt ts /\
        held (arg_regs X1) (X1 ESP + 4 + gap) (reader M1) ts (places o a rt ts) objs /\
        (~ In (chain_reg a) (reg_params a) -> arg_regs X1 (chain_reg a) = chain mod 2 ^ 32) /\ entered_ok g org base c rv ra X M X1 M1.
Proof. exact call_whole_down. Qed.
Print Assumptions C100_last_lowest_partial.

(** C100 for ffi_raw_call, in part; what is missing is what C26 lacks. *)
Theorem C100_raw_call_partial :
  forall o a rt ts c rv raw objs fn low blk ebp ra,
  stack_abi a -> Forall (ctype32 o) ts -> Forall no_struct ts -> (ctype32 o rt \/ ty_code rt = T_VOID) -> total ts < 2 ^ 28 ->
  prep o a rt ts = Some c -> Z.testbit low 4 = false -> 4 <= low -> zlen blk = raw_size c rv -> low + zlen blk < 2 ^ 32 ->
  raw_has (get_range raw) 0 ts objs -> raw_need o c rt <= zlen raw -> 0 <= fn < 2 ^ 32 -> 0 <= ra < 2 ^ 32 ->
  exists m b, raw_call c rv raw fn low blk ebp ra = Ok (m, b) /\
    forall g e org X F k M,
      0 <= org -> org + 2048 <= 2 ^ 32 -> (k = true -> g_cet g = true) -> regs_ok X -> mem_ok M -> X EBP = ebp ->
      given low (low + stack_align (k_bytes c)) b ra X M ->
      exists X1 M1 hp,
        reach e (text g) org (St X F k (at_label (src g) org 1) M) (St X1 F (e_ibt e) fn M1) /\
        held (arg_regs X1) (X1 ESP + 4) (reader M1) (hidden o rt ++ ts) (places o a rt ts) (hidden_obj o rt hp ++ objs) /\
        match rv with Some p => hp = p | None => in_memory o rt = true -> low + stack_align (k_bytes c) <= hp /\ hp + ty_size rt <= low + zlen blk end /\
        entered_ok g org low c rv ra X M X1 M1.
Proof. exact raw_whole. Qed.
Print Assumptions C100_raw_call_partial.

(** Seven arguments, FASTCALL, a double as result. *)
Example C100_hypotheses_met :
  Forall (ctype32 Linux) x_flat /\ Forall passable x_flat /\ Forall (flat Linux FASTCALL) x_flat /\ ctype32 Linux (ty_dbl Linux) /\ x87_struct Linux (ty_dbl Linux) /\
  objects_ok x_flat s_objs /\ total x_flat < 2 ^ 27 /\ prep Linux FASTCALL (ty_dbl Linux) x_flat = Some s_cif /\ (16 | 65536) /\
  zlen (blk_of s_cif (Some 8192)) = call_size s_cif (Some 8192) /\ block_end 65536 (blk_of s_cif (Some 8192)) < 2 ^ 32 /\
  (exists m, call s_cif (Some 8192) s_objs 4096 7 65536 (blk_of s_cif (Some 8192)) 33000 40000 = Ok (m, s_blk)) /\
  tracked s_e s_g /\ regs_ok s_regs /\ mem_ok s_mem /\ given 65536 (65536 + stack_align (k_bytes s_cif)) s_blk 40000 s_regs s_mem /\
  rd s_mem 4096 14 = dyn_tramp (pushes (group_of FASTCALL)) (at_label (src s_g) s_org (entry_label (group_of FASTCALL))) 4096 /\
  places Linux FASTCALL (ty_dbl Linux) x_flat = [Reg 2; Reg 1; Stk 0; Stk 4; Stk 8; Stk 16; Stk 28].
Proof. exact s_call. Qed.

(** C101, in part: when the function has returned, its result goes to the caller's memory, the x87
    stack is as before the call (also when the result is not wanted), ffi_call_int gets its
    registers back, and nothing else is written but two words of the frame.  Missing: structs of
    one floating point number on Darwin, for which it is false (below). *)
Theorem C101_call_result_partial :
  forall o a rt ts c rv base d ebp ra g e org X F st0 M,
  let P := base + stack_align (k_bytes c) in
  (ctype32 o rt \/ ty_code rt = T_VOID) -> x87_struct o rt -> prep o a rt ts = Some c ->
  0 <= org -> org + 2048 <= 2 ^ 32 -> tracked e g -> regs_ok X -> mem_ok M ->
  X EBP = P -> 4 <= X ESP -> X ESP <= P -> P + 32 + call_rsize c rv <= 2 ^ 32 -> 0 <= ebp < 2 ^ 32 -> 0 <= ra < 2 ^ 32 ->
  frame_at M P ebp ra (ret_num (call_flags c rv)) (result_place c rv base) ->
  (in_memory o rt = false -> ty_code rt <> T_VOID -> zlen d = ty_size rt /\ returned o rt d (X EAX) (X EDX) st0) ->
  match rv with
  | Some p => 0 <= p < 2 ^ 32 /\
    (in_memory o rt = false -> ty_code rt <> T_VOID -> p + result_size rt <= 2 ^ 32 /\ (p + result_size rt <= X ESP - 4 \/ P + 32 <= p))
  | None => True
  end ->
  exists X1 M1,
    reach e (text g) org (St X (match in_x87 o rt with Some _ => st0 :: F | None => F end) false (at_label (src g) org 5) M) (St X1 F false ra M1) /\
    X1 ESP = P + 8 /\ X1 EBP = ebp /\ (forall i, i = EBX \/ 6 <= i -> X1 i = X i) /\
    match rv with
    | Some p => in_memory o rt = false -> ty_code rt <> T_VOID -> result_in rt d (rd M1 p (Z.to_nat (result_size rt)))
    | None => True
    end /\
    (forall x, ~ (P + 8 <= x < P + 12) -> ~ (X ESP - 4 <= x < X ESP) -> ~ result_bytes o rt c rv P x -> M1 x = M x).
Proof. exact call_left. Qed.
Print Assumptions C101_call_result_partial.

(** The double 2.5 is returned. *)
Example C101_hypotheses_met :
  regs_ok b_regs /\ mem_ok b_mem /\ b_regs EBP = 65536 + stack_align (k_bytes s_cif) /\ b_regs ESP <= b_regs EBP /\
  frame_at b_mem (65536 + stack_align (k_bytes s_cif)) 33000 40000 (ret_num (call_flags s_cif (Some 8192))) (result_place s_cif (Some 8192) 65536) /\
  in_memory Linux (ty_dbl Linux) = false /\ in_x87 Linux (ty_dbl Linux) = Some 8 /\ returned Linux (ty_dbl Linux) two_half (b_regs EAX) (b_regs EDX) (fld 8 two_half) /\
  result_size (ty_dbl Linux) = 8.
Proof. exact s_back. Qed.

(** C101 is false for struct (float) on Darwin: the caller's memory does not get the value, and the
    value stays on the x87 stack. *)
Theorem C101_struct_refuted :
  exists o a rt ts c p base d ebp ra X F st0 M,
    let P := base + stack_align (k_bytes c) in
    ctype32 o rt /\ prep o a rt ts = Some c /\ in_memory o rt = false /\ in_x87 o rt = Some 4 /\ regs_ok X /\ mem_ok M /\
    X EBP = P /\ 4 <= X ESP <= P /\ P + 32 + call_rsize c (Some p) <= 2 ^ 32 /\ 0 <= ebp < 2 ^ 32 /\ 0 <= ra < 2 ^ 32 /\
    frame_at M P ebp ra (ret_num (call_flags c (Some p))) (result_place c (Some p) base) /\
    zlen d = ty_size rt /\ returned o rt d (X EAX) (X EDX) st0 /\ 0 <= p /\ p + result_size rt <= X ESP - 4 /\
    forall g e, tracked e g ->
      exists X1 F1 M1, reach e (text g) s_org (St X (st0 :: F) false (at_label (src g) s_org 5) M) (St X1 F1 false ra M1) /\
        F1 <> F /\ ~ result_in rt d (rd M1 p (Z.to_nat (result_size rt))).
Proof. exact struct_float_kept. Qed.
Print Assumptions C101_struct_refuted.

(** C102, in part: from the first byte of a closure with a dynamic trampoline to ffi_closure_inner,
    which gets the closure's cif, function and data and finds every argument.  Missing: PASCAL
    (false: C68_closure_arguments_refuted) and REGISTER (false, below), and what C68 lacks. *)
Theorem C102_dynamic_closure_partial :
  forall o a rt ts c hp objs g e org clo sp X F k M,
  last_lowest a = false -> Forall (ctype32 o) ts -> Forall passable ts -> (ctype32 o rt \/ ty_code rt = T_VOID) ->
  objects_ok ts objs -> total ts < 2 ^ 28 -> prep o a rt ts = Some c ->
  (16 | sp + 48) -> 4 <= sp -> sp + 48 + stack_align (k_bytes c) < 2 ^ 32 ->
  0 <= org -> org + 2048 <= 2 ^ 32 -> 0 <= e_got e < 2 ^ 32 -> regs_ok X -> mem_ok M ->
  0 <= clo -> clo + 28 <= 2 ^ 32 -> X ESP = sp + 44 -> clo + 28 <= sp - 4 \/ sp + 48 <= clo ->
  rd M clo 14 = dyn_tramp (pushes (group_of a)) (at_label (src g) org (entry_label (group_of a))) clo ->
  held (arg_regs X) (sp + 48) (reader M) (hidden o rt ++ ts) (places o a rt ts) (hidden_obj o rt hp ++ objs) ->
  exists s X1 M1 vs n,
    dyn_steps 3 (St X F k clo M) = Some s /\ reach e (text g) org s (St X1 F false (e_inner e) M1) /\
    inner_ready g e org (plain_entry a) sp (rd M (clo + 16) 4) (rd M (clo + 20) 4) (rd M (clo + 24) 4) X M X1 M1 /\
    closure_args c (frame_regs M1 sp) (sp + 48) (reader M1) = Ok (vs, n, if in_memory o rt then RCaller (hp mod 2 ^ 32) else RTemp) /\
    seen (frame_regs M1 sp) (reader M1) ts vs objs.
Proof. exact closure_dynamic. Qed.
Print Assumptions C102_dynamic_closure_partial.

(** The same from a slot of the table of static trampolines. *)
Theorem C102_static_closure_partial :
  forall o a rt ts c hp objs g e org slot clo sp X F k M,
  last_lowest a = false -> Forall (ctype32 o) ts -> Forall passable ts -> (ctype32 o rt \/ ty_code rt = T_VOID) ->
  objects_ok ts objs -> total ts < 2 ^ 28 -> prep o a rt ts = Some c ->
  (16 | sp + 48) -> 4 <= sp -> sp + 48 + stack_align (k_bytes c) < 2 ^ 32 ->
  0 <= org -> org + 2048 <= 2 ^ 32 -> 0 <= e_got e < 2 ^ 32 -> tracked e g -> (k = true -> g_cet g = true) -> regs_ok X -> mem_ok M ->
  0 <= clo -> clo + 28 <= 2 ^ 32 -> X ESP = sp + 44 -> clo + 28 <= sp - 4 \/ sp + 48 <= clo ->
  0 <= slot -> slot + TRAMP_MAP + 8 <= 2 ^ 32 -> sp + 44 <= slot + TRAMP_MAP \/ slot + TRAMP_MAP + 8 <= sp - 4 ->
  rd M (slot + TRAMP_MAP) 4 = le_enc 4 clo -> rd M (slot + TRAMP_MAP + 4) 4 = le_enc 4 (at_label (src g) org (alt_label (group_of a))) ->
  held (arg_regs X) (sp + 48) (reader M) (hidden o rt ++ ts) (places o a rt ts) (hidden_obj o rt hp ++ objs) ->
  exists s X1 M1 vs n,
    reach e (tramp_text g) slot (St X F k slot M) s /\ reach e (text g) org s (St X1 F false (e_inner e) M1) /\
    inner_ready g e org (plain_entry a) sp (rd M (clo + 16) 4) (rd M (clo + 20) 4) (rd M (clo + 24) 4) X M X1 M1 /\
    closure_args c (frame_regs M1 sp) (sp + 48) (reader M1) = Ok (vs, n, if in_memory o rt then RCaller (hp mod 2 ^ 32) else RTemp) /\
    seen (frame_regs M1 sp) (reader M1) ts vs objs.
Proof. exact closure_static. Qed.
Print Assumptions C102_static_closure_partial.

(** A THISCALL closure with three arguments ... *)
Example C102_hypotheses_met :
  last_lowest THISCALL = false /\ Forall (ctype32 Linux) c_ts /\ Forall passable c_ts /\ objects_ok c_ts c_objs /\ total c_ts < 2 ^ 27 /\
  prep Linux THISCALL ty_void c_ts = Some c_cif /\ Forall (flat Linux THISCALL) c_ts /\ (16 | 65488 + 48) /\ regs_ok c_regs /\ mem_ok (c_mem THISCALL) /\ c_regs ESP = 65488 + 44 /\
  rd (c_mem THISCALL) 4096 14 = dyn_tramp (pushes (group_of THISCALL)) (at_label (src s_g) s_org (entry_label (group_of THISCALL))) 4096 /\
  held (arg_regs c_regs) 65536 (reader (c_mem THISCALL)) c_ts (places Linux THISCALL ty_void c_ts) c_objs /\ pops Linux THISCALL ty_void c_ts = 8.
Proof. exact s_closure. Qed.

(** ... and the words that a slot of the table reads for it. *)
Example C102_static_met :
  mem_ok t_mem /\ rd t_mem (16384 + TRAMP_MAP) 4 = le_enc 4 4096 /\
  rd t_mem (16384 + TRAMP_MAP + 4) 4 = le_enc 4 (at_label (src s_g) s_org (alt_label (group_of THISCALL))) /\
  held (arg_regs c_regs) 65536 (reader t_mem) c_ts (places Linux THISCALL ty_void c_ts) c_objs.
Proof. exact s_static. Qed.

(** C102 is false for REGISTER: cif and function are read from the code behind the call, and the
    closure will return into itself. *)
Theorem C102_register_refuted :
  exists o rt ts c objs g e org clo sp X F k M,
    Forall (ctype32 o) ts /\ Forall passable ts /\ ty_code rt = T_VOID /\ objects_ok ts objs /\ total ts < 2 ^ 28 /\ prep o REGISTER rt ts = Some c /\
    (16 | sp + 48) /\ 4 <= sp /\ sp + 48 + stack_align (k_bytes c) < 2 ^ 32 /\ 0 <= org /\ org + 2048 <= 2 ^ 32 /\ 0 <= e_got e < 2 ^ 32 /\ regs_ok X /\ mem_ok M /\
    0 <= clo /\ clo + 28 <= 2 ^ 32 /\ X ESP = sp + 44 /\ (clo + 28 <= sp - 4 \/ sp + 48 <= clo) /\
    rd M clo 14 = dyn_tramp (pushes (group_of REGISTER)) (at_label (src g) org (entry_label (group_of REGISTER))) clo /\
    held (arg_regs X) (sp + 48) (reader M) ts (places o REGISTER rt ts) objs /\
    exists s X1 M1, dyn_steps 3 (St X F k clo M) = Some s /\ reach e (text g) org s (St X1 F false (e_inner e) M1) /\
      rd M1 (sp + 28) 4 <> rd M (clo + 16) 4 /\ rd M1 (sp + 32) 4 <> rd M (clo + 20) 4 /\ rd M1 (sp + 44) 4 <> rd M (sp + 44) 4.
Proof. exact register_swapped. Qed.
Print Assumptions C102_register_refuted.

(** C103, in part: when ffi_closure_inner has returned, the closure's caller gets the result where
    the convention says, its stack with the arguments removed as the convention says, its
    registers, and nothing but the closure's part of the stack has changed.  Missing: the
    signatures for which C25 or C70 is false. *)
Theorem C103_closure_result_partial :
  forall o a rt ts c regs q vs n p d hp g e org sp X F M,
  (a = SYSV \/ a = MS_CDECL \/ ((a = STDCALL \/ a = THISCALL \/ a = FASTCALL) /\ Forall (flat o a) ts)) ->
  Forall (ctype32 o) ts -> Forall passable ts -> (ctype32 o rt \/ ty_code rt = T_VOID) -> x87_struct o rt -> total ts < 2 ^ 27 ->
  prep o a rt ts = Some c -> closure_args c regs (sp + 48) q = Ok (vs, n, p) ->
  0 <= org -> org + 2048 <= 2 ^ 32 -> 0 <= e_got e < 2 ^ 32 -> tracked e g -> mem_ok M ->
  X ESP = sp -> 4 <= sp -> sp + 60 + pops o a rt ts < 2 ^ 32 -> X EAX = inner_value c n -> (g_pic g = Plt -> X EBX = e_got e) -> zlen F < 8 ->
  result_left o rt d hp M sp ->
  exists X1 F1 M1,
    reach e (text g) org (St X F false (at_label (src g) org (back_label (plain_entry a))) M) (St X1 F1 false (le_dec (rd M (sp + 44) 4)) M1) /\
    result_out o rt d hp X1 F1 F /\ X1 ESP = sp + 48 + pops o a rt ts /\
    X1 EBX = (match g_pic g with Plt => le_dec (rd M (sp + 40) 4) | _ => X EBX end) /\ (forall i, 5 <= i -> X1 i = X i) /\
    (forall x, ~ (sp - 4 <= x < sp + 48 + pops o a rt ts) -> M1 x = M x).
Proof. exact closure_left. Qed.
Print Assumptions C103_closure_result_partial.

(** The double 2.5, seven arguments, FASTCALL. *)
Example C103_hypotheses_met :
  (exists vs, closure_args s_cif (fun r => r) 65536 (fun _ _ => None) = Ok (vs, 2, RTemp)) /\
  mem_ok x_mem /\ x_regs ESP = 65488 /\ x_regs EAX = inner_value s_cif 2 /\ x_regs EBX = e_got s_e /\
  result_left Linux (ty_dbl Linux) two_half 0 x_mem 65488 /\ rd x_mem (65488 + 44) 4 = le_enc 4 40000 /\ pops Linux FASTCALL (ty_dbl Linux) x_flat = 32.
Proof. exact s_exit. Qed.

(** C104, in part: Go closures, from the call to ffi_closure_inner ... Missing: PASCAL and
    REGISTER. *)
Theorem C104_go_closure_partial :
  forall o a rt ts c hp objs g e org clo sp X F k M pl,
  last_lowest a = false -> go_plain a = Some pl -> Forall (ctype32 o) ts -> Forall passable ts -> (ctype32 o rt \/ ty_code rt = T_VOID) ->
  objects_ok ts objs -> total ts < 2 ^ 28 -> prep o a rt ts = Some c ->
  (16 | sp + 48) -> 4 <= sp -> sp + 48 + stack_align (k_bytes c) < 2 ^ 32 ->
  0 <= org -> org + 2048 <= 2 ^ 32 -> 0 <= e_got e < 2 ^ 32 -> (k = true -> g_cet g = true) -> regs_ok X -> mem_ok M ->
  arg_regs X (go_reg a) = clo -> clo + 12 <= 2 ^ 32 -> X ESP = sp + 44 -> clo + 12 <= sp - 4 \/ sp + 48 <= clo ->
  held (arg_regs X) (sp + 48) (reader M) (hidden o rt ++ ts) (places o a rt ts) (hidden_obj o rt hp ++ objs) ->
  exists X1 M1 vs n,
    reach e (text g) org (St X F k (at_label (src g) org (go_start a pl)) M) (St X1 F false (e_inner e) M1) /\
    inner_ready g e org pl sp (rd M (clo + 4) 4) (rd M (clo + 8) 4) (le_enc 4 clo) X M X1 M1 /\
    closure_args c (frame_regs M1 sp) (sp + 48) (reader M1) = Ok (vs, n, if in_memory o rt then RCaller (hp mod 2 ^ 32) else RTemp) /\
    seen (frame_regs M1 sp) (reader M1) ts vs objs.
Proof. exact go_entered. Qed.
Print Assumptions C104_go_closure_partial.

(** ... and back.  Missing: THISCALL, FASTCALL (false: C71_go_closure_refuted) and PASCAL. *)
Theorem C104_go_result_partial :
  forall o a rt ts c regs q vs n p d hp g e org sp X F M pl,
  (a = SYSV \/ a = MS_CDECL \/ (a = STDCALL /\ Forall (flat o a) ts)) -> go_plain a = Some pl ->
  Forall (ctype32 o) ts -> Forall passable ts -> (ctype32 o rt \/ ty_code rt = T_VOID) -> x87_struct o rt -> total ts < 2 ^ 27 ->
  prep o a rt ts = Some c -> closure_args c regs (sp + 48) q = Ok (vs, n, p) ->
  0 <= org -> org + 2048 <= 2 ^ 32 -> 0 <= e_got e < 2 ^ 32 -> tracked e g -> mem_ok M ->
  X ESP = sp -> 4 <= sp -> sp + 60 + pops o a rt ts < 2 ^ 32 -> X EAX = inner_value c n -> (g_pic g = Plt -> X EBX = e_got e) -> zlen F < 8 ->
  result_left o rt d hp M sp ->
  exists X1 F1 M1,
    reach e (text g) org (St X F false (at_label (src g) org (back_label pl)) M) (St X1 F1 false (le_dec (rd M (sp + 44) 4)) M1) /\
    result_out o rt d hp X1 F1 F /\ X1 ESP = sp + 48 + pops o a rt ts /\
    X1 EBX = (match g_pic g with Plt => le_dec (rd M (sp + 40) 4) | _ => X EBX end) /\ (forall i, 5 <= i -> X1 i = X i) /\
    (forall x, ~ (sp - 4 <= x < sp + 48 + pops o a rt ts) -> M1 x = M x).
Proof. exact go_left. Qed.
Print Assumptions C104_go_result_partial.

(** A STDCALL Go closure with three arguments. *)
Example C104_hypotheses_met :
  go_plain STDCALL = Some false /\ Forall (flat Linux STDCALL) c_ts /\ prep Linux STDCALL ty_void c_ts = Some g_cif /\ regs_ok g_regs /\ mem_ok g_mem /\
  arg_regs g_regs (go_reg STDCALL) = 4096 /\ held (arg_regs g_regs) 65536 (reader g_mem) c_ts (places Linux STDCALL ty_void c_ts) c_objs /\
  pops Linux STDCALL ty_void c_ts = 12.
Proof. exact s_go. Qed.

(** C105, in part: from the first byte of a raw closure to its handler, which finds the arguments in
    raw form; on processors that do not track branches.  Missing: what C72 lacks. *)
Theorem C105_raw_closure_partial :
  forall o rt ts objs g e org clo sp X F M,
  Forall (ctype32 o) ts -> Forall no_struct ts -> in_memory o rt = false ->
  0 <= org -> org + 2048 <= 2 ^ 32 -> regs_ok X -> mem_ok M ->
  0 <= clo -> clo + 28 <= 2 ^ 32 -> X ESP = sp + 44 -> 4 <= sp -> sp + 48 < 2 ^ 32 -> clo + 28 <= sp - 4 \/ sp + 48 <= clo ->
  rd M clo 10 = raw_tramp (at_label (src g) org (raw_label false)) clo ->
  held (arg_regs X) (sp + 48) (reader M) ts (places o SYSV rt ts) objs ->
  exists s X1 M1,
    dyn_steps 2 (St X F false clo M) = Some s /\ reach e (text g) org s (St X1 F (e_ibt e) (le_dec (rd M (clo + 20) 4)) M1) /\
    handler_ready g org false sp (rd M (clo + 16) 4) (rd M (clo + 24) 4) (sp + 48) X M X1 M1 /\
    raw_has (fun off n => reader M1 (sp + 48 + off) n) 0 ts objs.
Proof. exact raw_sysv. Qed.
Print Assumptions C105_raw_closure_partial.

(** The same for THISCALL with a first argument in ecx. *)
Theorem C105_raw_closure_this_partial :
  forall o rt t ts d objs g e org clo sp X F M,
  small_int (ty_code t) = true -> Forall (ctype32 o) (t :: ts) -> Forall no_struct ts -> in_memory o rt = false -> zlen d = ty_size t -> bytes_ok d ->
  0 <= org -> org + 2048 <= 2 ^ 32 -> regs_ok X -> mem_ok M ->
  0 <= clo -> clo + 28 <= 2 ^ 32 -> X ESP = sp + 44 -> 4 <= sp -> sp + 48 < 2 ^ 32 -> clo + 28 <= sp - 4 \/ sp + 48 <= clo ->
  rd M clo 10 = raw_tramp (at_label (src g) org (raw_label true)) clo ->
  held (arg_regs X) (sp + 48) (reader M) (t :: ts) (places o THISCALL rt (t :: ts)) (d :: objs) ->
  exists s X1 M1,
    dyn_steps 2 (St X F false clo M) = Some s /\ reach e (text g) org s (St X1 F (e_ibt e) (le_dec (rd M (clo + 20) 4)) M1) /\
    handler_ready g org true sp (rd M (clo + 16) 4) (rd M (clo + 24) 4) (sp + 44) X M X1 M1 /\
    raw_has (fun off n => reader M1 (sp + 44 + off) n) 0 (t :: ts) (d :: objs).
Proof. exact raw_this. Qed.
Print Assumptions C105_raw_closure_this_partial.

(** The return of a raw closure, on processors that do not track branches.  Missing: that the
    arguments of THISCALL are removed (false: C72), and processors that track branches (false,
    below). *)
Theorem C105_raw_result_partial :
  forall o a rt ts c d hp g e org sp cf X F M,
  (a = SYSV \/ a = THISCALL) -> (ctype32 o rt \/ ty_code rt = T_VOID) -> x87_struct o rt -> prep o a rt ts = Some c ->
  0 <= org -> org + 2048 <= 2 ^ 32 -> e_ibt e = false -> mem_ok M ->
  X ESP = sp -> 4 <= sp -> sp + 60 < 2 ^ 32 -> X EBX = cf -> 0 <= cf -> cf + 24 <= 2 ^ 32 -> rd M (cf + 20) 4 = le_enc 4 (ret_num (k_flags c)) -> zlen F < 8 ->
  result_left o rt d hp M (sp + 16) ->
  exists X1 F1 M1,
    reach e (text g) org (St X F false (at_label (src g) org (raw_back (is_this a))) M)
      (St X1 F1 false (le_dec (rd M (if is_this a then sp + 40 else sp + 44) 4)) M1) /\
    result_out o rt d hp X1 F1 F /\ (a = SYSV -> X1 ESP = sp + 48 + pops o a rt ts) /\ (a = THISCALL -> X1 ESP = sp + 48) /\
    X1 EBX = le_dec (rd M (if is_this a then sp + 36 else sp + 40) 4) /\ (forall i, 5 <= i -> X1 i = X i) /\
    (forall x, ~ (sp - 4 <= x < sp) -> M1 x = M x).
Proof. exact raw_left. Qed.
Print Assumptions C105_raw_result_partial.

(** Three arguments for SYSV and THISCALL ... *)
Example C105_hypotheses_met :
  Forall no_struct c_ts /\ in_memory Linux (ty_dbl Linux) = false /\ mem_ok rs_mem /\ mem_ok rt_mem /\
  rd rs_mem 4096 10 = raw_tramp (at_label (src s_g) s_org (raw_label false)) 4096 /\ rd rt_mem 4096 10 = raw_tramp (at_label (src s_g) s_org (raw_label true)) 4096 /\
  held (arg_regs g_regs) 65536 (reader rs_mem) c_ts (places Linux SYSV (ty_dbl Linux) c_ts) c_objs /\
  small_int (ty_code ty_ptr) = true /\ held (arg_regs c_regs) 65536 (reader rt_mem) c_ts (places Linux THISCALL (ty_dbl Linux) c_ts) c_objs.
Proof. exact s_raw. Qed.

(** ... and the double 2.5 as result. *)
Example C105_result_met :
  forall a, a = SYSV \/ a = THISCALL ->
  prep Linux a (ty_dbl Linux) c_ts = Some (r_cif a) /\ mem_ok (rx_mem a) /\ rx_regs ESP = 65488 /\ rx_regs EBX = 12288 /\
  rd (rx_mem a) (12288 + 20) 4 = le_enc 4 (ret_num (k_flags (r_cif a))) /\ result_left Linux (ty_dbl Linux) two_half 0 (rx_mem a) (65488 + 16) /\
  rd (rx_mem a) (if is_this a then 65488 + 40 else 65488 + 44) 4 = le_enc 4 40000.
Proof. exact s_raw_exit. Qed.

(** C105 is false on processors that track branches, also when assembled with CET: the jump into the
    table of a raw closure has no NOTRACK prefix and the table no ENDBR32 ... *)
Theorem C105_tracking_refuted :
  exists o a rt ts c d g e org sp cf X F M,
    a = SYSV /\ ctype32 o rt /\ prep o a rt ts = Some c /\ 0 <= org /\ org + 2048 <= 2 ^ 32 /\ g_cet g = true /\ e_ibt e = true /\ mem_ok M /\
    X ESP = sp /\ 4 <= sp /\ sp + 60 < 2 ^ 32 /\ X EBX = cf /\ 0 <= cf /\ cf + 24 <= 2 ^ 32 /\ rd M (cf + 20) 4 = le_enc 4 (ret_num (k_flags c)) /\ zlen F < 8 /\
    result_left o rt d 0 M (sp + 16) /\
    exists s, reach e (text g) org (St X F false (at_label (src g) org (raw_back false)) M) s /\ step e (text g) org s = None.
Proof. exact raw_untracked. Qed.
Print Assumptions C105_tracking_refuted.

(** ... and the trampoline of a raw closure does not begin with ENDBR32, so that an indirect call of
    the closure faults at once. *)
Theorem C105_trampoline_refuted :
  exists g org clo X F M, g_cet g = true /\ mem_ok M /\ rd M clo 10 = raw_tramp (at_label (src g) org (raw_label false)) clo /\
    dyn_steps 2 (St X F false clo M) <> None /\ dyn_steps 2 (St X F true clo M) = None.
Proof. exact raw_no_endbr. Qed.
Print Assumptions C105_trampoline_refuted.

(** C106, in part: ffi_call calling a closure with the same signature: ffi_closure_inner finds the
    arguments given to ffi_call, and whatever result it then leaves is in the memory given to
    ffi_call when ffi_call_i386 returns, with all registers of ffi_call_int and the x87 stack as
    before.  Missing: the signatures for which C24, C25 or C70 is false. *)
Theorem C106_closure_trip_partial :
  forall o a rt ts c rv objs clo chain base blk ebp ra,
  (a = SYSV \/ a = MS_CDECL \/ ((a = STDCALL \/ a = THISCALL \/ a = FASTCALL) /\ Forall (flat o a) ts)) ->
  Forall (ctype32 o) ts -> Forall passable ts -> (ctype32 o rt \/ ty_code rt = T_VOID) -> x87_struct o rt ->
  objects_ok ts objs -> total ts < 2 ^ 27 -> prep o a rt ts = Some c ->
  (16 | base) -> 52 <= base -> zlen blk = call_size c rv -> block_end base blk < 2 ^ 32 -> 0 <= ra < 2 ^ 32 ->
  0 <= clo -> clo + 28 < 2 ^ 32 -> clo + 28 <= base - 52 \/ block_end base blk <= clo ->
  exists m b, call c rv objs clo chain base blk ebp ra = Ok (m, b) /\
    forall g e org X F k M,
      let P := base + stack_align (k_bytes c) in
      0 <= org -> org + 2048 <= 2 ^ 32 -> 0 <= e_got e < 2 ^ 32 -> tracked e g -> (k = true -> g_cet g = true) -> regs_ok X -> mem_ok M -> X EBP = ebp -> zlen F < 8 ->
      given base P b ra X M ->
      rd M clo 14 = dyn_tramp (pushes (group_of a)) (at_label (src g) org (entry_label (group_of a))) clo ->
      exists s1 s2 X2 M2 hp vs n,
        reach e (text g) org (St X F k (at_label (src g) org 1) M) s1 /\ spc s1 = clo /\ dyn_steps 3 s1 = Some s2 /\
        reach e (text g) org s2 (St X2 F false (e_inner e) M2) /\
        X2 ECX = base - 48 /\ X2 EDX = base /\ X2 ESP = base - 52 /\ rd M2 (base - 52) 4 = le_enc 4 (at_label (src g) org (back_label (plain_entry a))) /\
        rd M2 (base - 20) 4 = rd M (clo + 16) 4 /\ rd M2 (base - 16) 4 = rd M (clo + 20) 4 /\ rd M2 (base - 12) 4 = rd M (clo + 24) 4 /\
        closure_args c (frame_regs M2 (base - 48)) base (reader M2) = Ok (vs, n, if in_memory o rt then RCaller (hp mod 2 ^ 32) else RTemp) /\
        seen (frame_regs M2 (base - 48)) (reader M2) ts vs objs /\
        match rv with Some p => hp = p | None => in_memory o rt = true -> P <= hp /\ hp + ty_size rt <= block_end base blk end /\
        forall d X3 M3,
          inner_done o rt c n base P d (hp mod 2 ^ 32) X2 M2 X3 M3 ->
          match rv with
          | Some p => 0 <= p < 2 ^ 32 /\
            (in_memory o rt = false -> ty_code rt <> T_VOID -> p + result_size rt <= 2 ^ 32 /\ (p + result_size rt <= base - 52 \/ P + 32 <= p))
          | None => True
          end ->
          exists X4 M4,
            reach e (text g) org (St X3 F false (at_label (src g) org (back_label (plain_entry a))) M3) (St X4 F false ra M4) /\
            X4 ESP = P + 8 /\ X4 EBP = ebp /\ (forall i, i = EBX \/ 6 <= i -> X4 i = X i) /\
            match rv with
            | Some p => in_memory o rt = false -> ty_code rt <> T_VOID -> result_in rt d (rd M4 p (Z.to_nat (result_size rt)))
            | None => True
            end /\
            (forall x, ~ (base - 52 <= x < P + 12) -> ~ result_bytes o rt c rv P x -> M4 x = M3 x).
Proof. exact closure_trip. Qed.
Print Assumptions C106_closure_trip_partial.

(** The call of C100_hypotheses_met; what ffi_closure_inner may do. *)
Example C106_hypotheses_met :
  forall X2 M2 n hp, regs_ok X2 -> mem_ok M2 ->
  exists X3 M3, inner_done Linux (ty_dbl Linux) s_cif n 65536 (65536 + stack_align (k_bytes s_cif)) two_half hp X2 M2 X3 M3.
Proof. exact s_inner. Qed.
