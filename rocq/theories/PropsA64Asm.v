(** Properties C73-C77: the assembly code of the AArch64 backend. *)
From Verif Require Import Base BaseFacts ByteMem Types LayoutSpec NaturalTypes NaturalFacts A64Spec A64AsmModel A64ClosureModel A64AsmFacts
  A64AsmCall A64AsmRet A64AsmCallAll A64AsmClo A64AsmExit A64AsmEnd A64AsmTop A64AsmSamples.
From Verif Require A64Model A64Hfa A64Main A64Ret A64Call A64Closure A64Lemmas.
Local Open Scope Z_scope.

(** C73, in part: ffi_call_SYSV, started with what ffi_call_int passes, gets to the function with
    every argument where AAPCS64 puts it; when the function returns, the result is stored where
    ffi_call was asked to (or, to be copied, in 16 bytes), and control is back in ffi_call_int with
    its stack and callee-saved registers.  Missing as for C43. *)
Theorem C73_call_code_partial :
  forall pl abi fixed rt ts c rv objs chain base g_blk blk s m fl r p go e org X V M,
  A64Main.signature_ok pl abi fixed rt ts -> A64Model.prep pl abi fixed rt ts = Ok c -> objects_ok ts objs ->
  zlen g_blk = A64Model.call_size c rv -> 0 <= base -> (16 | base) -> base + A64Model.call_size c rv < 2 ^ 64 ->
  A64Main.fits pl fixed c -> pointer_slots_ok (A64Call.is_apple pl) fixed 0 ts (places (A64Call.is_apple pl) fixed ts) ->
  A64Model.put_args pl (A64Model.win_variadic c) (A64Model.k_nfixed c) base 0 (A64Model.k_args c) objs g_blk
    (A64Model.arg_init (A64Model.k_bytes c)) = Ok (blk, s) -> zlen blk = zlen g_blk ->
  A64Model.call pl c rv objs chain base g_blk (vbytes V) (saved_frame p e X) = Ok (m, fl, r) ->
  0 <= org -> org + 4 * zlen (call_text p go) <= 2 ^ 64 -> pac_ok e (X LR) (X 1) -> (forall i, word (X i)) -> wide8 V ->
  (forall x, byte_ok (M x)) -> rd M base (length blk) = blk ->
  X 0 = base -> X 1 = base + 192 + A64Model.k_bytes c -> X 3 = match r with Some a => a | None => 0 end -> X 4 = fl -> X 5 = chain ->
  exists X1 V1 M1 ptrs,
    reach e (call_text p go) org (St X V org M) (St X1 V1 (fn_target p e (X 2)) M1) /\
    X1 SP = base + 192 /\ (go = true -> X1 18 = chain) /\
    held (xbytes X1) (vbytes V1) (X1 SP) (mem_read M1) ts (places (A64Call.is_apple pl) fixed ts) objs ptrs /\
    copies_ok ts ptrs (X1 SP + stack_used (A64Call.is_apple pl) fixed ts) (X1 SP + A64Model.k_bytes c) /\
    (forall a, in_memory rt = true -> rv = Some a -> X1 8 = a) /\
    (forall x, ~ (X 1 <= x < X 1 + 40) -> M1 x = M x) /\
    (forall i, 19 <= i < 29 -> X1 i = X i) /\ (forall i, 8 <= i -> V1 i = V i) /\
    (* the results *)
    forall a d n X2 V2 M2, rv = Some a -> natural rt -> in_memory rt = false ->
      (forall i, 19 <= i < 30 -> X2 i = X1 i) -> wide V2 -> (forall x, X 1 <= x < X 1 + 40 -> M2 x = M1 x) ->
      X 3 + Z.of_nat n <= 2 ^ 64 -> zlen d = ty_size rt -> A64Spec.returned rt (two X2) (regs4 V2) d ->
      (Z.land fl A64Model.A_NEED_COPY = 0 -> A64Ret.room rt <= Z.of_nat n) -> (Z.land fl A64Model.A_NEED_COPY <> 0 -> n = 16%nat) ->
      exists X3 M3,
        reach e (call_text p go) org (St X2 V2 (X1 LR) M2) (St X3 V2 (X LR) M3) /\
        X3 SP = X SP /\ (forall i, 19 <= i < 30 -> X3 i = X i) /\
        (forall x, ~ (X 3 <= x < X 3 + Z.of_nat n) -> M3 x = M2 x) /\
        (Z.land fl A64Model.A_NEED_COPY = 0 -> A64Ret.stored rt d (rd M2 (X 3) n) (rd M3 (X 3) n)) /\
        (Z.land fl A64Model.A_NEED_COPY <> 0 -> forall buf, A64Ret.room rt <= zlen buf ->
           exists b, set_range buf 0 (rd M3 (X 3) (Z.to_nat (ty_size rt))) = Some b /\ A64Ret.stored rt d buf b).
Proof. exact call_code. Qed.
Print Assumptions C73_call_code_partial.

(** A function of a double and an int returning three floats, with pointer authentication. *)
Example C73_hypotheses_met :
  exists s m fl r, let c := s_cif in
    A64Main.signature_ok A64Model.Linux A64Model.A_SYSV None A64Lemmas.s_hfa [ty_double; ty_sint32] /\
    A64Model.prep A64Model.Linux A64Model.A_SYSV None A64Lemmas.s_hfa [ty_double; ty_sint32] = Ok c /\
    objects_ok [ty_double; ty_sint32] s_objs /\ A64Model.call_size c (Some 8192) = 264 /\ (16 | 65536) /\
    A64Main.fits A64Model.Linux None c /\ pointer_slots_ok false None 0 [ty_double; ty_sint32] (places false None [ty_double; ty_sint32]) /\
    A64Model.put_args A64Model.Linux (A64Model.win_variadic c) (A64Model.k_nfixed c) 65536 0 (A64Model.k_args c) s_objs (repeat 0 264)
      (A64Model.arg_init (A64Model.k_bytes c)) = Ok (s_blk, s) /\ zlen s_blk = 264 /\
    A64Model.call A64Model.Linux c (Some 8192) s_objs 0 65536 (repeat 0 264) (vbytes s_v) (saved_frame (LinuxPac 0) toy s_x) = Ok (m, fl, r) /\
    16384 + 4 * zlen (call_text (LinuxPac 0) true) <= 2 ^ 64 /\ pac_ok toy (s_x LR) (s_x 1) /\ (forall i, word (s_x i)) /\ wide8 s_v /\
    (forall x, byte_ok (wr (fun _ => 0) 65536 s_blk x)) /\ rd (wr (fun _ => 0) 65536 s_blk) 65536 (length s_blk) = s_blk /\
    s_x 3 = match r with Some a => a | None => 0 end /\ s_x 4 = fl /\ Z.land fl A64Model.A_NEED_COPY = 0 /\
    natural A64Lemmas.s_hfa /\ in_memory A64Lemmas.s_hfa = false /\ A64Ret.room A64Lemmas.s_hfa = 12.
Proof. exact call_sample. Qed.

(** C74: whoever calls the address of a closure whose code is in the closure gets its handler:
    the trampoline ffi_prep_closure_loc wrote and the code of the library call
    ffi_closure_SYSV_inner with the closure's contents, a frame in which it finds the arguments,
    and hand its result back to the caller, whose stack and registers are restored.  The closure
    was written at [closure] and is executed at [codeloc]. *)
Theorem C74_dynamic_closure :
  forall p alt go e org X V M f abi flags closure cif fn ud codeloc m0 m1,
  0 <= org -> org + 4 * zlen (closure_text p false alt go) <= 2 ^ 64 -> pac_ok e (X LR) (X SP) -> wide8 V -> word (X 29) ->
  X SP = f + 272 -> 0 <= f -> f + 272 < 2 ^ 64 ->
  word cif -> word fn -> word ud -> 0 <= codeloc -> codeloc + 48 < 2 ^ 64 -> f + 272 <= codeloc \/ codeloc + 48 <= f ->
  prep_closure_loc (at_label (closure_src p false alt go) org) Dynamic abi flags closure cif fn ud codeloc m0 = (FFI_OK, m1) ->
  (forall k, 0 <= k < 48 -> M (codeloc + k) = m1 (closure + k)) ->
  exists s X1 M1,
    wsteps 3 (St X V codeloc M) = Some s /\ reach e (closure_text p false alt go) org s (St X1 V (inner e) M1) /\
    serves e (closure_text p false alt go) org f flags cif fn ud X V M X1 M1.
Proof. exact dynamic_top. Qed.
Print Assumptions C74_dynamic_closure.

(** A closure written at 32768 and executed at 49152, called with 7. *)
Example C74_hypotheses_met :
  exists m1 M, 16384 + 4 * zlen (closure_text (LinuxPac 1) false true true) <= 2 ^ 64 /\ pac_ok toy (c_x LR) (c_x SP) /\ wide8 s_v /\
    c_x SP = 65536 + 272 /\ 49152 + 48 <= 65536 /\
    prep_closure_loc (at_label (closure_src (LinuxPac 1) false true true) 16384) Dynamic A64Model.A_SYSV 129 32768 512 1024 2048 49152 (fun _ => 0) = (FFI_OK, m1) /\
    (forall k, 0 <= k < 48 -> M (49152 + k) = m1 (32768 + k)) /\
    held (xbytes c_x) (vbytes s_v) (c_x SP) (caller_read M 65536) [ty_sint32] (places false None [ty_sint32]) [[7; 0; 0; 0]] [].
Proof. exact dynamic_sample. Qed.

(** C75: the same for every slot of a static trampoline table mapped at [torg]. *)
Theorem C75_static_closure :
  forall p go e org torg i X V M f abi flags closure cif fn ud codeloc m0 m1,
  0 <= org -> org + 4 * zlen (closure_text p false true go) <= 2 ^ 64 -> pac_ok e (X LR) (X SP) -> wide8 V -> word (X 29) ->
  X SP = f + 272 -> 0 <= f -> f + 272 < 2 ^ 64 ->
  word cif -> word fn -> word ud -> 0 <= closure -> closure + 48 < 2 ^ 64 -> f + 272 <= closure \/ closure + 48 <= f ->
  0 <= torg -> torg + 32768 < 2 ^ 64 -> 0 <= i < 512 ->
  let parm := torg + 16384 + 32 * i in
  f + 272 <= parm \/ parm + 16 <= f -> closure + 48 <= parm \/ parm + 16 <= closure -> (forall a, byte_ok (M a)) ->
  prep_closure_loc (at_label (closure_src p false true go) org) (Static parm) abi flags closure cif fn ud codeloc m0 = (FFI_OK, m1) ->
  (forall a, parm <= a < parm + 16 \/ closure + 24 <= a < closure + 48 -> M a = m1 a) ->
  exists s X1 M1,
    reach e static_table torg (St X V (torg + 32 * i) M) s /\
    reach e (closure_text p false true go) org s (St X1 V (inner e) M1) /\
    serves e (closure_text p false true go) org f flags cif fn ud X V M X1 M1.
Proof. exact static_top. Qed.
Print Assumptions C75_static_closure.

(** The sixth slot, on arm64e. *)
Example C75_hypotheses_met :
  exists m1, 16384 + 4 * zlen (closure_text Arm64e false true false) <= 2 ^ 64 /\ pac_ok toy (c_x LR) (c_x SP) /\ wide8 s_v /\
    c_x SP = 65536 + 272 /\ 32768 + 48 <= 65536 /\ (forall a, byte_ok (m1 a)) /\
    prep_closure_loc (at_label (closure_src Arm64e false true false) 16384) (Static (131072 + 16384 + 32 * 5)) A64Model.A_SYSV 129 32768 512 1024 2048 (131072 + 32 * 5) (fun _ => 0) = (FFI_OK, m1) /\
    le_dec (rd m1 (131072 + 16384 + 160) 8) = 32768 /\
    le_dec (rd m1 (131072 + 16384 + 168) 8) = at_label (closure_src Arm64e false true false) 16384 203.
Proof. exact static_sample. Qed.

(** C76: the same for every entry of a Mach trampoline table with code at [page0]. *)
Theorem C76_mach_closure :
  forall p alt go e org page0 page i X V M f abi flags closure cif fn ud m0 m1,
  0 <= org -> org + 4 * zlen (closure_text p true alt go) <= 2 ^ 64 -> pac_ok e (X LR) (X SP) -> wide8 V -> word (X 29) ->
  X SP = f + 272 -> 0 <= f -> f + 272 < 2 ^ 64 ->
  word cif -> word fn -> word ud -> 0 <= closure -> closure + 48 < 2 ^ 64 -> f + 272 <= closure \/ closure + 48 <= f ->
  0 < page -> page <= page0 -> page0 + page < 2 ^ 64 -> (16 | page) -> page < 2 ^ 20 -> 0 <= i < page / 16 ->
  let codeloc := page0 + 16 * i in
  closure + 48 <= codeloc - page \/ codeloc - page + 16 <= closure ->
  prep_closure_loc (at_label (closure_src p true alt go) org) (MachTable page) abi flags closure cif fn ud codeloc m0 = (FFI_OK, m1) ->
  (forall a, codeloc - page <= a < codeloc - page + 16 \/ closure + 16 <= a < closure + 40 -> M a = m1 a) ->
  exists s X1 M1,
    reach e (mach_table page) page0 (St X V codeloc M) s /\
    reach e (closure_text p true alt go) org s (St X1 V (inner e) M1) /\
    serves e (closure_text p true alt go) org f flags cif fn ud X V M X1 M1.
Proof. exact mach_top. Qed.
Print Assumptions C76_mach_closure.

(** The sixth entry of a page of 16384 bytes. *)
Example C76_hypotheses_met :
  exists m1, 16384 + 4 * zlen (closure_text NoPac true false false) <= 2 ^ 64 /\ pac_ok toy (c_x LR) (c_x SP) /\ wide8 s_v /\
    c_x SP = 65536 + 272 /\ (16 | 16384) /\ 5 < 16384 / 16 /\
    prep_closure_loc (at_label (closure_src NoPac true false false) 16384) (MachTable 16384) A64Model.A_SYSV 1 32768 512 1024 2048 (131072 + 16 * 5) (fun _ => 0) = (FFI_OK, m1) /\
    le_dec (rd m1 (131072 + 80 - 16384) 8) = 32768 /\ le_dec (rd m1 (32768 + 24) 8) = 1024.
Proof. exact mach_sample. Qed.

(** C77, in part: the same for Go closures, called through their first word with their address
    in x18.  Missing: with pointer authentication, signatures with vector arguments (below), and
    arm64e, for which Go closures are not compiled. *)
Theorem C77_go_closure_partial :
  forall p alt e org X V M f abi flags closure cif fn m0 m1,
  p <> Arm64e -> p = NoPac \/ Z.land flags A64Model.A_ARG_V = 0 ->
  0 <= org -> org + 4 * zlen (closure_text p false alt true) <= 2 ^ 64 -> pac_ok e (X LR) (X SP) -> wide8 V -> word (X 29) ->
  X SP = f + 272 -> 0 <= f -> f + 272 < 2 ^ 64 ->
  word cif -> word fn -> 0 <= closure -> closure + 24 < 2 ^ 64 -> f + 272 <= closure \/ closure + 24 <= f ->
  prep_go_closure (at_label (closure_src p false alt true) org) abi flags closure cif fn m0 = (FFI_OK, m1) ->
  (forall a, closure <= a < closure + 24 -> M a = m1 a) -> X 18 = closure ->
  exists X1 M1,
    reach e (closure_text p false alt true) org (St X V (le_dec (rd M closure 8)) M) (St X1 V (inner e) M1) /\
    serves e (closure_text p false alt true) org f flags cif fn closure X V M X1 M1.
Proof. exact go_top. Qed.
Print Assumptions C77_go_closure_partial.

Example C77_hypotheses_met :
  exists m1, 16384 + 4 * zlen (closure_text (LinuxPac 0) false false true) <= 2 ^ 64 /\ pac_ok toy (c_x LR) (c_x SP) /\ wide8 s_v /\
    c_x SP = 65536 + 272 /\ c_x 18 = 32768 /\ Z.land 1 A64Model.A_ARG_V = 0 /\
    prep_go_closure (at_label (closure_src (LinuxPac 0) false false true) 16384) A64Model.A_SYSV 1 32768 512 1024 (fun _ => 0) = (FFI_OK, m1) /\
    le_dec (rd m1 32768 8) = at_label (closure_src (LinuxPac 0) false false true) 16384 206.
Proof. exact go_sample. Qed.

(** C77 is false with pointer authentication on Linux and vector arguments: the return address is
    authenticated without having been signed, so the closure does not return to its caller. *)
Theorem C77_go_closure_refuted :
  exists k e org X V M f abi flags closure cif fn m0 m1,
    0 <= org /\ org + 4 * zlen (closure_text (LinuxPac k) false false true) <= 2 ^ 64 /\ pac_ok e (X LR) (X SP) /\ wide8 V /\ word (X 29) /\
    X SP = f + 272 /\ 0 <= f /\ f + 272 < 2 ^ 64 /\
    word cif /\ word fn /\ 0 <= closure /\ closure + 24 < 2 ^ 64 /\ (f + 272 <= closure \/ closure + 24 <= f) /\
    prep_go_closure (at_label (closure_src (LinuxPac k) false false true) org) abi flags closure cif fn m0 = (FFI_OK, m1) /\
    (forall a, closure <= a < closure + 24 -> M a = m1 a) /\ X 18 = closure /\ v_of flags = true /\
    exists X1 M1 X2 V2 M2 X3 V3 t,
      reach e (closure_text (LinuxPac k) false false true) org (St X V (le_dec (rd M closure 8)) M) (St X1 V (inner e) M1) /\
      X2 SP = X1 SP /\ (forall i, 19 <= i < 29 -> X2 i = X1 i) /\ wide V2 /\ (forall a, byte_ok (M2 a)) /\ rd M2 f 16 = rd M1 f 16 /\
      reach e (closure_text (LinuxPac k) false false true) org (St X2 V2 (X1 LR) M2) (St X3 V3 t M2) /\ t <> X LR.
Proof. exact go_pac_refuted. Qed.
Print Assumptions C77_go_closure_refuted.
