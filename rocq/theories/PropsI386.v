(** Properties C24-C26 and C67-C72: the 32-bit x86 backend. *)
From Verif Require Import Base Types LayoutSpec BaseFacts NaturalTypes NaturalFacts.
From Verif Require Import X87Model X87Facts I386Model I386Spec I386RetSpec I386RawSpec I386Facts I386Call I386CallOk I386Closure I386Ret I386Raw I386Lemmas.
Local Open Scope Z_scope.

(** C24, in part: what a closure's handler gets when the closure is called by ffi_call with the
    same signature, and where its result goes; ffi_call stays in its block (the result is not
    [UB]).  Missing: PASCAL (below) and REGISTER, complex numbers of at most four bytes, 256 MiB
    of arguments.  For the first two it is false (below). *)
Theorem C24_round_trip_partial :
  forall o a rt ts c rv objs fn chain base blk ebp ra clo rad,
    last_lowest a = false -> Forall (ctype32 o) ts -> Forall passable ts -> (ctype32 o rt \/ ty_code rt = T_VOID) ->
    objects_ok ts objs -> total ts < 2 ^ 28 -> prep o a rt ts = Some c ->
    (16 | base) -> 0 <= base -> zlen blk = call_size c rv -> block_end base blk < 2 ^ 32 ->
    exists m b hp vs n regs, call c rv objs fn chain base blk ebp ra = Ok (m, b) /\ entry a clo rad (s_regs m) = (clo, rad, regs) /\
      closure_args c regs (s_sp m) (s_read m) = Ok (vs, n, if in_memory o rt then RCaller (hp mod 2 ^ 32) else RTemp) /\
      seen regs (s_read m) ts vs objs /\
      match rv with Some p => hp = p | None => in_memory o rt = true -> base + stack_align (k_bytes c) <= hp /\ hp + ty_size rt <= block_end base blk end.
Proof. exact round_up_trip. Qed.
Print Assumptions C24_round_trip_partial.

(** C24 for PASCAL, in part.  Missing: results in memory, for which it is false (below). *)
Theorem C24_pascal_partial :
  forall o rt ts c rv objs fn chain base blk ebp ra clo rad,
    in_memory o rt = false -> Forall (ctype32 o) ts -> Forall passable ts -> (ctype32 o rt \/ ty_code rt = T_VOID) ->
    objects_ok ts objs -> total ts < 2 ^ 28 -> prep o PASCAL rt ts = Some c ->
    0 <= base -> zlen blk = call_size c rv -> block_end base blk < 2 ^ 32 ->
    exists m b vs n regs, call c rv objs fn chain base blk ebp ra = Ok (m, b) /\ entry PASCAL clo rad (s_regs m) = (clo, rad, regs) /\
      closure_args c regs (s_sp m) (s_read m) = Ok (vs, n, RTemp) /\ seen regs (s_read m) ts vs objs.
Proof. exact pascal_trip. Qed.
Print Assumptions C24_pascal_partial.

Example C24_hypotheses_met :
  Forall (ctype32 Win32) (x_args Win32) /\ Forall passable (x_args Win32) /\ ctype32 Win32 s_12 /\ objects_ok (x_args Win32) (x_objs 1 (x_args Win32)) /\
  total (x_args Win32) < 2 ^ 28 /\ prep Win32 FASTCALL s_12 (x_args Win32) = Some (cif_of Win32 FASTCALL s_12 (x_args Win32)) /\
  in_memory Win32 s_12 = true /\ call_size (cif_of Win32 FASTCALL s_12 (x_args Win32)) None = 124 /\
  places Win32 FASTCALL s_12 (x_args Win32) = [Reg 2; Reg 1; Stk 0; Stk 4; Stk 16; Stk 20; Stk 28; Stk 32; Stk 40] /\
  places Linux PASCAL ty_void (x_args Linux) = [Stk 52; Stk 48; Stk 36; Stk 32; Stk 24; Stk 20; Stk 12; Stk 0].
Proof.
  split; [apply x_args_ok|]. split; [apply x_args_pass|]. split; [unfold s_12; c32_tac|]. split; [apply (x_objects Win32), x_args_ok|].
  repeat split; vm_compute; reflexivity.
Qed.

(** C24 is false for REGISTER: the entry code takes the return address for the closure and the
    closure for the return address. *)
Theorem C24_register_refuted :
  exists o rt ts c objs fn chain base blk ebp ra m b,
    Forall (ctype32 o) ts /\ Forall passable ts /\ (ctype32 o rt \/ ty_code rt = T_VOID) /\ objects_ok ts objs /\ total ts < 2 ^ 28 /\
    prep o REGISTER rt ts = Some c /\ (16 | base) /\ 0 <= base /\ zlen blk = call_size c None /\ block_end base blk < 2 ^ 32 /\
    call c None objs fn chain base blk ebp ra = Ok (m, b) /\ in_memory o rt = false /\
    forall clo rad, clo <> rad -> forall clo' rad' regs, entry REGISTER clo rad (s_regs m) = (clo', rad', regs) -> clo' <> clo /\ rad' <> rad.
Proof. exact register_refuted. Qed.
Print Assumptions C24_register_refuted.

(** C24 is false for PASCAL with a result in memory: the pointer is stored in the first word of
    ffi_call's frame, so is the first argument, and the word is then overwritten. *)
Theorem C24_struct_result_refuted :
  exists o rt ts c rv objs fn chain base blk ebp ra m b vs n q,
    Forall (ctype32 o) ts /\ Forall passable ts /\ (ctype32 o rt \/ ty_code rt = T_VOID) /\ objects_ok ts objs /\ total ts < 2 ^ 28 /\
    prep o PASCAL rt ts = Some c /\ (16 | base) /\ 0 <= base /\ zlen blk = call_size c (Some rv) /\ block_end base blk < 2 ^ 32 /\
    0 <= rv < 2 ^ 32 /\
    call c (Some rv) objs fn chain base blk ebp ra = Ok (m, b) /\ in_memory o rt = true /\
    closure_args c (s_regs m) (s_sp m) (s_read m) = Ok (vs, n, q) /\ q <> RCaller rv /\ ~ seen (s_regs m) (s_read m) ts vs objs.
Proof. exact struct_result_refuted. Qed.
Print Assumptions C24_struct_result_refuted.

(** C24 is false for a complex number of two chars: ffi_call aborts. *)
Theorem C24_complex_refuted :
  exists o a rt ts c objs fn chain base blk ebp ra,
    Forall (ctype32 o) ts /\ (ctype32 o rt \/ ty_code rt = T_VOID) /\ objects_ok ts objs /\ total ts < 2 ^ 28 /\
    prep o a rt ts = Some c /\ (16 | base) /\ 0 <= base /\ zlen blk = call_size c None /\ block_end base blk < 2 ^ 32 /\
    last_lowest a = false /\ call c None objs fn chain base blk ebp ra = Abort.
Proof. exact complex_refuted. Qed.
Print Assumptions C24_complex_refuted.

(** C25, in part: a closure removes from the stack what its convention says.  Missing: PASCAL
    and REGISTER; for STDCALL, THISCALL and FASTCALL, arguments aligned to more than a word
    (except STDCALL on Windows), and for the last two 64-bit integers and structs.  For these it
    is false (below). *)
Theorem C25_pops_partial :
  forall o a rt ts c regs sp rd vs n p tmp edx af,
    (a = SYSV \/ a = MS_CDECL \/ ((a = STDCALL \/ a = THISCALL \/ a = FASTCALL) /\ Forall (flat o a) ts)) ->
    Forall (ctype32 o) ts -> Forall passable ts -> (ctype32 o rt \/ ty_code rt = T_VOID) -> total ts < 2 ^ 27 ->
    prep o a rt ts = Some c -> closure_args c regs sp rd = Ok (vs, n, p) ->
    closure_ret (plain_entry a) c n tmp edx = Ok af -> r_pop af = pops o a rt ts.
Proof. exact closure_pops. Qed.
Print Assumptions C25_pops_partial.

Example C25_hypotheses_met :
  Forall (flat Linux FASTCALL) x_flat /\ Forall (ctype32 Linux) x_flat /\ Forall passable x_flat /\ total x_flat < 2 ^ 27 /\
  prep Linux FASTCALL s_12 x_flat = Some (cif_of Linux FASTCALL s_12 x_flat) /\
  (exists vs, closure_args (cif_of Linux FASTCALL s_12 x_flat) (fun r => r) 65536 (fun _ _ => None) = Ok (vs, 2, RCaller 2)) /\
  pops Linux FASTCALL s_12 x_flat = 36.
Proof.
  split; [apply x_flat_flat|]. split; [exact x_flat_ok|]. split; [exact x_flat_pass|]. split; [vm_compute; reflexivity|]. split; [vm_compute; reflexivity|].
  split; [eexists|]; vm_compute; reflexivity.
Qed.

(** C25 is false for: a 64-bit integer or a struct of four bytes with FASTCALL, an int with
    PASCAL, four ints with REGISTER, a double after the pointer of THISCALL on Windows, an int
    and a long double with STDCALL on Darwin. *)
Theorem C25_pops_refuted :
  pops_wrong (plain_entry FASTCALL) Linux FASTCALL [ty_s64 Linux] /\ pops_wrong (plain_entry FASTCALL) Linux FASTCALL [s_4] /\
  pops_wrong (plain_entry PASCAL) Linux PASCAL [ty_sint32] /\
  pops_wrong (plain_entry REGISTER) Linux REGISTER [ty_sint32; ty_sint32; ty_sint32; ty_sint32] /\
  pops_wrong (plain_entry THISCALL) Win32 THISCALL [ty_ptr; ty_dbl Win32] /\
  pops_wrong (plain_entry STDCALL) Darwin STDCALL [ty_sint32; ty_ldbl Darwin].
Proof. exact pops_refuted. Qed.
Print Assumptions C25_pops_refuted.

(** With the struct of four bytes the stack pointer is moved by almost 256 MiB. *)
Theorem C25_pops_huge_refuted :
  exists c vs n, prep Linux FASTCALL ty_void [s_4] = Some c /\
    closure_args c (fun _ => 0) 65536 (fun _ _ => None) = Ok (vs, n, RTemp) /\ pop_count c n = 2 ^ 28 - 4 /\ pops Linux FASTCALL ty_void [s_4] = 4.
Proof. exact pops_huge. Qed.
Print Assumptions C25_pops_huge_refuted.

(** C26, in part: raw calls for the conventions without parameter registers that have the first
    argument lowest.  Missing: the others, structs, memory from alloca whose address has bit 4
    set, and raw memory that ends before the last multiple of 16 bytes is reached.  For
    THISCALL and for the last two it is false (below). *)
Theorem C26_raw_call_partial :
  forall o a rt ts c rv raw objs fn low blk ebp ra,
    stack_abi a -> Forall (ctype32 o) ts -> Forall no_struct ts -> (ctype32 o rt \/ ty_code rt = T_VOID) -> total ts < 2 ^ 28 ->
    prep o a rt ts = Some c -> Z.testbit low 4 = false -> 0 <= low -> zlen blk = raw_size c rv -> low + zlen blk < 2 ^ 32 ->
    raw_has (get_range raw) 0 ts objs -> raw_need o c rt <= zlen raw ->
    exists m b hp, raw_call c rv raw fn low blk ebp ra = Ok (m, b) /\ zlen b = zlen blk /\ s_sp m = low /\
      held (s_regs m) (s_sp m) (s_read m) (hidden o rt ++ ts) (places o a rt ts) (hidden_obj o rt hp ++ objs) /\
      match rv with Some p => hp = p | None => in_memory o rt = true -> low + stack_align (k_bytes c) <= hp /\ hp + ty_size rt <= low + zlen blk end /\
      frame_kept c rv fn low b.
Proof. exact raw_ok. Qed.
Print Assumptions C26_raw_call_partial.

Example C26_hypotheses_met :
  let ts := [ty_ptr; ty_sint8; ty_float; ty_s64 Linux] in
  stack_abi STDCALL /\ Forall (ctype32 Linux) ts /\ Forall no_struct ts /\ ctype32 Linux s_12 /\ total ts < 2 ^ 28 /\
  prep Linux STDCALL s_12 ts = Some (cif_of Linux STDCALL s_12 ts) /\ Z.testbit 65536 4 = false /\
  raw_has (get_range x_raw) 0 ts [le_enc 4 4096; [254]; [0; 0; 128; 63]; [1; 2; 3; 4; 5; 6; 7; 8]] /\
  raw_need Linux (cif_of Linux STDCALL s_12 ts) s_12 = 28 /\ zlen x_raw = 36.
Proof.
  cbv zeta. split; [right; left; reflexivity|]. split; [c32_tac|]. split; [repeat (apply Forall_cons || apply Forall_nil); intros H; discriminate H|].
  split; [unfold s_12; c32_tac|]. split; [vm_compute; reflexivity|]. split; [vm_compute; reflexivity|]. split; [reflexivity|].
  split; [cbn [raw_has]; repeat split; try (intros H; discriminate H); vm_compute; reflexivity|]. split; vm_compute; reflexivity.
Qed.

(** C26 is false when alloca returns an address with bit 4 set, even one aligned to 16 bytes:
    memory below the block is written. *)
Theorem C26_address_refuted :
  exists o a rt ts c raw objs fn low blk ebp ra,
    stack_abi a /\ Forall (ctype32 o) ts /\ Forall no_struct ts /\ (ctype32 o rt \/ ty_code rt = T_VOID) /\ total ts < 2 ^ 28 /\
    prep o a rt ts = Some c /\ (16 | low) /\ 0 <= low /\ zlen blk = raw_size c None /\ low + zlen blk < 2 ^ 32 /\
    raw_has (get_range raw) 0 ts objs /\ raw_need o c rt <= zlen raw /\ raw_call c None raw fn low blk ebp ra = UB.
Proof. exact raw_bit_refuted. Qed.
Print Assumptions C26_address_refuted.

(** C26 is false when the raw memory holds the arguments and nothing more: it is read beyond its
    end. *)
Theorem C26_read_refuted :
  exists o a rt ts c raw objs fn low blk ebp ra,
    stack_abi a /\ Forall (ctype32 o) ts /\ Forall no_struct ts /\ (ctype32 o rt \/ ty_code rt = T_VOID) /\ total ts < 2 ^ 28 /\
    prep o a rt ts = Some c /\ Z.testbit low 4 = false /\ 0 <= low /\ zlen blk = raw_size c None /\ low + zlen blk < 2 ^ 32 /\
    raw_has (get_range raw) 0 ts objs /\ zlen raw = raw_bytes ts /\ raw_call c None raw fn low blk ebp ra = UB.
Proof. exact raw_read_refuted. Qed.
Print Assumptions C26_read_refuted.

(** C26 is false for THISCALL: after the argument in ecx four words are skipped. *)
Theorem C26_thiscall_refuted :
  exists o rt ts c raw objs fn low blk ebp ra m b,
    Forall (ctype32 o) ts /\ Forall no_struct ts /\ (ctype32 o rt \/ ty_code rt = T_VOID) /\ total ts < 2 ^ 28 /\
    prep o THISCALL rt ts = Some c /\ Z.testbit low 4 = false /\ 0 <= low /\ zlen blk = raw_size c None /\ low + zlen blk < 2 ^ 32 /\
    raw_has (get_range raw) 0 ts objs /\ raw_need o c rt <= zlen raw /\ raw_call c None raw fn low blk ebp ra = Ok (m, b) /\ in_memory o rt = false /\
    ~ held (s_regs m) (s_sp m) (s_read m) ts (places o THISCALL rt ts) objs.
Proof. exact raw_this_refuted. Qed.
Print Assumptions C26_thiscall_refuted.

(** C67, in part: ffi_call places arguments as the convention says, keeps its own frame, and
    passes the static chain.  Missing: PASCAL and REGISTER (below), complex numbers of at most
    four bytes (for which ffi_call aborts), 256 MiB of arguments. *)
Theorem C67_placement_partial :
  forall o a rt ts c rv objs fn chain base blk ebp ra,
    last_lowest a = false -> Forall (ctype32 o) ts -> Forall passable ts -> (ctype32 o rt \/ ty_code rt = T_VOID) ->
    objects_ok ts objs -> total ts < 2 ^ 28 -> prep o a rt ts = Some c ->
    (16 | base) -> 0 <= base -> zlen blk = call_size c rv -> block_end base blk < 2 ^ 32 ->
    exists m b hp, call c rv objs fn chain base blk ebp ra = Ok (m, b) /\ zlen b = zlen blk /\ s_sp m = base /\
      held (s_regs m) (s_sp m) (s_read m) (hidden o rt ++ ts) (places o a rt ts) (hidden_obj o rt hp ++ objs) /\
      match rv with Some p => hp = p | None => in_memory o rt = true -> base + stack_align (k_bytes c) <= hp /\ hp + ty_size rt <= block_end base blk end /\
      frame_kept c rv fn base b /\ s_regs m (chain_reg a) = chain mod 2 ^ 32.
Proof. exact call_up. Qed.
Print Assumptions C67_placement_partial.

(** C67 for PASCAL and REGISTER, in part: arguments are in order but above a gap.  Missing: that
    there is no gap, and results in memory; false (below, and C24_struct_result_refuted). *)
Theorem C67_last_lowest_partial :
  forall o a rt ts c rv objs fn chain base blk ebp ra,
    last_lowest a = true -> in_memory o rt = false -> Forall (ctype32 o) ts -> Forall passable ts -> (ctype32 o rt \/ ty_code rt = T_VOID) ->
    objects_ok ts objs -> total ts < 2 ^ 28 -> prep o a rt ts = Some c ->
    0 <= base -> zlen blk = call_size c rv -> block_end base blk < 2 ^ 32 ->
    exists m b gap, call c rv objs fn chain base blk ebp ra = Ok (m, b) /\ zlen b = zlen blk /\ s_sp m = base /\
      0 <= gap /\ gap = stack_align (k_bytes c) - stack_used o a rt ts /\
      held (s_regs m) (s_sp m + gap) (s_read m) ts (places o a rt ts) objs /\ frame_kept c rv fn base b /\
      (~ In (chain_reg a) (reg_params a) -> s_regs m (chain_reg a) = chain mod 2 ^ 32).
Proof. exact call_down. Qed.
Print Assumptions C67_last_lowest_partial.

Example C67_hypotheses_met :
  last_lowest REGISTER = true /\ in_memory Darwin ty_void = false /\ Forall (ctype32 Darwin) (x_args Darwin) /\ Forall passable (x_args Darwin) /\
  objects_ok (x_args Darwin) (x_objs 1 (x_args Darwin)) /\ total (x_args Darwin) < 2 ^ 28 /\
  prep Darwin REGISTER ty_void (x_args Darwin) = Some (cif_of Darwin REGISTER ty_void (x_args Darwin)) /\
  stack_used Darwin REGISTER ty_void (x_args Darwin) = 48.
Proof.
  split; [reflexivity|]. split; [reflexivity|]. split; [apply x_args_ok|]. split; [apply x_args_pass|]. split; [apply (x_objects Darwin), x_args_ok|].
  repeat split; vm_compute; reflexivity.
Qed.

(** C67 is false for PASCAL: an int is not where the function looks for it. *)
Theorem C67_placement_refuted :
  exists o a rt ts c objs fn chain base blk ebp ra m b,
    Forall (ctype32 o) ts /\ Forall passable ts /\ (ctype32 o rt \/ ty_code rt = T_VOID) /\ objects_ok ts objs /\ total ts < 2 ^ 28 /\
    prep o a rt ts = Some c /\ (16 | base) /\ 0 <= base /\ zlen blk = call_size c None /\ block_end base blk < 2 ^ 32 /\
    call c None objs fn chain base blk ebp ra = Ok (m, b) /\ in_memory o rt = false /\
    ~ held (s_regs m) (s_sp m) (s_read m) ts (places o a rt ts) objs.
Proof. exact call_refuted. Qed.
Print Assumptions C67_placement_refuted.

(** C68, in part: a closure's handler gets the arguments a caller following the convention
    placed, and the caller's pointer for a result in memory.  Missing: PASCAL (false, below) and
    REGISTER (C24_register_refuted). *)
Theorem C68_closure_arguments_partial :
  forall o a rt ts c hp objs regs regs' sp rd,
    last_lowest a = false -> Forall (ctype32 o) ts -> Forall passable ts -> (ctype32 o rt \/ ty_code rt = T_VOID) ->
    objects_ok ts objs -> total ts < 2 ^ 28 -> prep o a rt ts = Some c ->
    (16 | sp) -> 0 <= sp -> sp + stack_align (k_bytes c) < 2 ^ 32 ->
    (forall r, In r (reg_params a) -> regs' r = regs r) ->
    held regs sp rd (hidden o rt ++ ts) (places o a rt ts) (hidden_obj o rt hp ++ objs) ->
    exists vs n, closure_args c regs' sp rd = Ok (vs, n, if in_memory o rt then RCaller (hp mod 2 ^ 32) else RTemp) /\ seen regs' rd ts vs objs.
Proof. exact closure_up. Qed.
Print Assumptions C68_closure_arguments_partial.

Example C68_hypotheses_met :
  let rd p n := get_range ([1; 2; 3; 4] ++ [254; 255; 255; 255]) (p - 65536) n in
  last_lowest THISCALL = false /\ Forall (ctype32 Linux) [ty_ptr; ty_sint8; ty_float] /\
  held (fun _ => 9) 65536 rd [ty_ptr; ty_float; ty_sint8] (places Linux THISCALL ty_void [ty_ptr; ty_float; ty_sint8]) [le_enc 4 9; [1; 2; 3; 4]; [254]].
Proof.
  cbv zeta. split; [reflexivity|]. split; [c32_tac|]. change (places Linux THISCALL ty_void [ty_ptr; ty_float; ty_sint8]) with [Reg 2; Stk 0; Stk 4].
  cbn [held at_loc]. repeat split; try (intros H; discriminate H); vm_compute; reflexivity.
Qed.

(** C68 is false for PASCAL. *)
Theorem C68_closure_arguments_refuted :
  exists o a rt ts c objs regs sp rd vs n,
    Forall (ctype32 o) ts /\ Forall passable ts /\ (ctype32 o rt \/ ty_code rt = T_VOID) /\ objects_ok ts objs /\ total ts < 2 ^ 28 /\
    prep o a rt ts = Some c /\ (16 | sp) /\ 0 <= sp /\ in_memory o rt = false /\
    held regs sp rd ts (places o a rt ts) objs /\ closure_args c regs sp rd = Ok (vs, n, RTemp) /\ ~ seen regs rd ts vs objs.
Proof. exact closure_refuted. Qed.
Print Assumptions C68_closure_arguments_refuted.

(** C69, in part: ffi_call stores a result returned in registers, widened if it is a small
    integer, and nothing beyond the documented size.  Missing: structs of one floating point
    number on Darwin, for which it is false (below). *)
Theorem C69_call_result_partial :
  forall o a rt c ts d eax edx st0 buf,
    ctype32 o rt -> in_memory o rt = false -> x87_struct o rt -> prep o a rt ts = Some c -> zlen d = ty_size rt ->
    returned o rt d eax edx st0 -> result_size rt <= zlen buf ->
    exists b, call_ret (k_flags c) eax edx st0 buf = Ok b /\ zlen b = zlen buf /\ result_in rt d b /\
      forall q n, result_size rt <= q -> get_range b q n = get_range buf q n.
Proof. exact call_result. Qed.
Print Assumptions C69_call_result_partial.

Example C69_hypotheses_met :
  ctype32 Win32 s_4 /\ in_memory Win32 s_4 = false /\ x87_struct Win32 s_4 /\ prep Win32 STDCALL s_4 [] = Some (cif_of Win32 STDCALL s_4 []) /\
  returned Win32 s_4 [1; 2; 3; 4] 67305985 0 (Ext 0 0 0) /\ returned Win32 ty_sint8 [254] 510 0 (Ext 0 0 0) /\
  returned Linux (ty_dbl Linux) [0; 0; 0; 0; 0; 0; 240; 63] 0 0 (Ext 0 16383 (2 ^ 63)).
Proof.
  split; [unfold s_4; c32_tac|]. split; [reflexivity|]. split; [intros _; reflexivity|]. repeat split; vm_compute; reflexivity.
Qed.

(** C69 is false for struct (float) on Darwin. *)
Theorem C69_call_result_refuted :
  exists o a rt ts c d eax edx st0 buf b,
    ctype32 o rt /\ in_memory o rt = false /\ prep o a rt ts = Some c /\ zlen d = ty_size rt /\ bytes_ok d /\
    returned o rt d eax edx st0 /\ result_size rt <= zlen buf /\ call_ret (k_flags c) eax edx st0 buf = Ok b /\ ~ result_in rt d b.
Proof. exact call_result_refuted. Qed.
Print Assumptions C69_call_result_refuted.

(** C70, in part: a closure returns its handler's result where the convention says, small
    integers widened.  Missing: structs of one floating point number on Darwin and signalling
    NaNs, for which it is false (below). *)
Theorem C70_closure_result_partial :
  forall o a rt c ts d tmp edx narg pl,
    ctype32 o rt -> in_memory o rt = false -> x87_struct o rt -> prep o a rt ts = Some c -> zlen d = ty_size rt -> bytes_ok d ->
    16 <= zlen tmp -> bytes_ok tmp -> get_range tmp 0 (zlen (meaning rt d)) = Some (meaning rt d) ->
    (forall n, in_x87 o rt = Some n -> signalling n (meaning rt d) = false) ->
    exists af, closure_ret pl c narg tmp edx = Ok af /\ handed o rt d af.
Proof. exact closure_result. Qed.
Print Assumptions C70_closure_result_partial.

(** For results in memory the caller's pointer is returned. *)
Theorem C70_memory_result :
  forall o a rt c ts tmp p edx narg pl,
    (ctype32 o rt \/ ty_code rt = T_VOID) -> in_memory o rt = true -> prep o a rt ts = Some c -> get_range tmp 0 4 = Some (le_enc 4 p) ->
    exists af, closure_ret pl c narg tmp edx = Ok af /\ r_eax af = p mod 2 ^ 32 /\ r_st af = None.
Proof. exact closure_result_memory. Qed.
Print Assumptions C70_memory_result.

(** The result of a handler that ffi_call finally stores. *)
Theorem C70_result_trip_partial :
  forall o a rt ts c d tmp edx narg pl st buf,
    ctype32 o rt -> in_memory o rt = false -> x87_struct o rt -> prep o a rt ts = Some c -> zlen d = ty_size rt -> bytes_ok d ->
    16 <= zlen tmp -> bytes_ok tmp -> get_range tmp 0 (zlen (meaning rt d)) = Some (meaning rt d) ->
    (forall n, in_x87 o rt = Some n -> signalling n (meaning rt d) = false) -> result_size rt <= zlen buf ->
    exists af b, closure_ret pl c narg tmp edx = Ok af /\
      call_ret (k_flags c) (r_eax af) (r_edx af) (match r_st af with Some y => y | None => st end) buf = Ok b /\
      result_in rt d b /\ forall q n, result_size rt <= q -> get_range b q n = get_range buf q n.
Proof. exact result_trip. Qed.
Print Assumptions C70_result_trip_partial.

Example C70_hypotheses_met :
  ctype32 Linux ty_float /\ in_memory Linux ty_float = false /\ x87_struct Linux ty_float /\
  prep Linux FASTCALL ty_float [] = Some (cif_of Linux FASTCALL ty_float []) /\
  get_range ([0; 0; 192; 127] ++ repeat 7 12) 0 (zlen (meaning ty_float [0; 0; 192; 127])) = Some (meaning ty_float [0; 0; 192; 127]) /\
  (forall n, in_x87 Linux ty_float = Some n -> signalling n (meaning ty_float [0; 0; 192; 127]) = false) /\
  in_memory Linux s_12 = true.
Proof.
  split; [c32_tac|]. split; [reflexivity|]. split; [intros H; discriminate H|]. split; [reflexivity|]. split; [reflexivity|].
  split; [intros n H; injection H as <-; vm_compute; reflexivity|reflexivity].
Qed.

(** C70 is false for struct (float) on Darwin ... *)
Theorem C70_closure_result_refuted :
  exists o a rt ts c d tmp edx af,
    ctype32 o rt /\ in_memory o rt = false /\ prep o a rt ts = Some c /\ zlen d = ty_size rt /\ bytes_ok d /\
    zlen tmp = 16 /\ bytes_ok tmp /\ get_range tmp 0 (zlen (meaning rt d)) = Some (meaning rt d) /\
    (forall n, in_x87 o rt = Some n -> signalling n (meaning rt d) = false) /\
    closure_ret (plain_entry a) c 0 tmp edx = Ok af /\ ~ handed o rt d af.
Proof. exact closure_result_refuted. Qed.
Print Assumptions C70_closure_result_refuted.

(** ... and for a float that is a signalling NaN. *)
Theorem C70_nan_refuted :
  exists o a rt ts c d tmp edx af,
    ctype32 o rt /\ in_memory o rt = false /\ x87_struct o rt /\ prep o a rt ts = Some c /\ zlen d = ty_size rt /\ bytes_ok d /\
    zlen tmp = 16 /\ bytes_ok tmp /\ get_range tmp 0 (zlen (meaning rt d)) = Some (meaning rt d) /\
    closure_ret (plain_entry a) c 0 tmp edx = Ok af /\ ~ handed o rt d af.
Proof. exact snan_refuted. Qed.
Print Assumptions C70_nan_refuted.

(** C71, in part: a Go closure called by ffi_call_go is found in the register where its entry
    code looks for it ... *)
Theorem C71_chain_partial :
  forall o a rt ts c rv objs fn chain base blk ebp ra pl,
    go_plain a = Some pl -> (last_lowest a = true -> in_memory o rt = false) ->
    Forall (ctype32 o) ts -> Forall passable ts -> (ctype32 o rt \/ ty_code rt = T_VOID) ->
    objects_ok ts objs -> total ts < 2 ^ 28 -> prep o a rt ts = Some c ->
    (16 | base) -> 0 <= base -> zlen blk = call_size c rv -> block_end base blk < 2 ^ 32 ->
    exists m b, call c rv objs fn chain base blk ebp ra = Ok (m, b) /\ s_regs m (go_reg a) = chain mod 2 ^ 32.
Proof. exact go_chain. Qed.
Print Assumptions C71_chain_partial.

(** ... and removes from the stack what the convention says.  Missing: THISCALL, FASTCALL (false,
    below) and PASCAL. *)
Theorem C71_pops_partial :
  forall o a rt ts c regs sp rd vs n p tmp edx af pl,
    (a = SYSV \/ a = MS_CDECL \/ (a = STDCALL /\ Forall (flat o a) ts)) ->
    Forall (ctype32 o) ts -> Forall passable ts -> (ctype32 o rt \/ ty_code rt = T_VOID) -> total ts < 2 ^ 27 ->
    prep o a rt ts = Some c -> closure_args c regs sp rd = Ok (vs, n, p) -> go_plain a = Some pl ->
    closure_ret pl c n tmp edx = Ok af -> r_pop af = pops o a rt ts.
Proof. exact go_pops. Qed.
Print Assumptions C71_pops_partial.

Example C71_hypotheses_met :
  go_plain STDCALL = Some false /\ Forall (flat Linux STDCALL) x_flat /\ Forall (ctype32 Linux) x_flat /\
  prep Linux STDCALL ty_void x_flat = Some (cif_of Linux STDCALL ty_void x_flat) /\
  (exists vs, closure_args (cif_of Linux STDCALL ty_void x_flat) (fun r => r) 65536 (fun _ _ => None) = Ok (vs, 0, RTemp)) /\
  pops Linux STDCALL ty_void x_flat = 40.
Proof.
  split; [reflexivity|]. split; [apply x_flat_flat|]. split; [exact x_flat_ok|]. split; [vm_compute; reflexivity|].
  split; [eexists|]; vm_compute; reflexivity.
Qed.

(** C71 is false for THISCALL and FASTCALL: their Go closures remove nothing. *)
Theorem C71_go_closure_refuted :
  exists pl, go_plain THISCALL = Some pl /\ pops_wrong pl Linux THISCALL [ty_ptr; ty_sint32] /\
    pops_wrong pl Linux FASTCALL [ty_ptr; ty_ptr; ty_sint32] /\ go_plain FASTCALL = Some pl.
Proof. exact go_refuted. Qed.
Print Assumptions C71_go_closure_refuted.

(** C72, in part: the handler of a raw closure finds the arguments in raw form ... Missing:
    results in memory (false, below); THISCALL without a first argument in ecx. *)
Theorem C72_raw_closure_partial :
  forall o rt ts objs regs sp rd,
    Forall (ctype32 o) ts -> Forall no_struct ts -> in_memory o rt = false ->
    held regs sp rd ts (places o SYSV rt ts) objs -> raw_has (raw_view SYSV regs sp rd) 0 ts objs.
Proof. exact raw_closure_sysv. Qed.
Print Assumptions C72_raw_closure_partial.

Theorem C72_raw_closure_this_partial :
  forall o rt t ts d objs regs sp rd,
    small_int (ty_code t) = true -> Forall (ctype32 o) (t :: ts) -> Forall no_struct ts -> in_memory o rt = false -> zlen d = ty_size t -> bytes_ok d ->
    held regs sp rd (t :: ts) (places o THISCALL rt (t :: ts)) (d :: objs) -> raw_has (raw_view THISCALL regs sp rd) 0 (t :: ts) (d :: objs).
Proof. exact raw_closure_this. Qed.
Print Assumptions C72_raw_closure_this_partial.

(** ... and the closure removes from the stack what the convention says.  Missing: THISCALL
    (false, below). *)
Theorem C72_raw_closure_pops_partial :
  forall o rt ts c res edx af, (ctype32 o rt \/ ty_code rt = T_VOID) -> prep o SYSV rt ts = Some c ->
    raw_closure_ret c res edx = Ok af -> r_pop af = pops o SYSV rt ts.
Proof. exact raw_closure_pops. Qed.
Print Assumptions C72_raw_closure_pops_partial.

Example C72_hypotheses_met :
  let rd p n := get_range ([1; 2; 3; 4] ++ [254; 255; 255; 255]) (p - 65536) n in
  let ts := [ty_ptr; ty_float; ty_sint8] in
  small_int (ty_code ty_ptr) = true /\ Forall (ctype32 Linux) ts /\ Forall no_struct [ty_float; ty_sint8] /\
  held (fun _ => 9) 65536 rd ts (places Linux THISCALL ty_void ts) [le_enc 4 9; [1; 2; 3; 4]; [254]] /\
  raw_has (raw_view THISCALL (fun _ => 9) 65536 rd) 0 ts [le_enc 4 9; [1; 2; 3; 4]; [254]] /\
  raw_closure_ok (cif_of Linux THISCALL ty_void ts) = true.
Proof.
  cbv zeta. split; [reflexivity|]. split; [c32_tac|]. split; [repeat (apply Forall_cons || apply Forall_nil); intros H; discriminate H|].
  change (places Linux THISCALL ty_void [ty_ptr; ty_float; ty_sint8]) with [Reg 2; Stk 0; Stk 4].
  cbn [held at_loc raw_has]. repeat split; try (intros H; discriminate H); vm_compute; reflexivity.
Qed.

(** C72 is false for a result in memory: the handler finds the pointer in place of the first
    argument, and has 16 bytes for its result. *)
Theorem C72_raw_closure_refuted :
  exists o rt ts c objs hp regs sp rd,
    Forall (ctype32 o) ts /\ Forall no_struct ts /\ ctype32 o rt /\ prep o SYSV rt ts = Some c /\ raw_closure_ok c = true /\
    held regs sp rd (hidden o rt ++ ts) (places o SYSV rt ts) (hidden_obj o rt hp ++ objs) /\
    ~ raw_has (raw_view SYSV regs sp rd) 0 ts objs /\ raw_res_size < ty_size rt.
Proof. exact raw_closure_refuted. Qed.
Print Assumptions C72_raw_closure_refuted.

(** C72 is false for THISCALL: the arguments on the stack are left there. *)
Theorem C72_raw_closure_pops_refuted :
  exists o ts c res edx af,
    Forall (ctype32 o) ts /\ Forall no_struct ts /\ prep o THISCALL ty_void ts = Some c /\ raw_closure_ok c = true /\ zlen res = raw_res_size /\
    raw_closure_ret c res edx = Ok af /\ r_pop af <> pops o THISCALL ty_void ts.
Proof. exact raw_closure_pop_refuted. Qed.
Print Assumptions C72_raw_closure_pops_refuted.
