(** Properties C131-C139: the or1k backend, src/or1k/ffi.c with src/or1k/sysv.S. *)
From Verif Require Import Base ByteMem Types S390Model.
From Verif Require Import Or1kModel Or1kSpec Or1kAsmModel Or1kAsmRun Or1kClo Or1kTop Or1kSamples.
Local Open Scope Z_scope.

(** C131: ffi_call enters the function with every argument where the ABI has it and a pointer to a struct
    result in %r3; nothing but the free stack and the copies is written. *)
Theorem C131_call_args :
  forall rt ts fixed rv args vs cps m bot sp top prep fn org,
  setup rt ts fixed rv args vs cps m bot sp top -> text_at org ->
  call_with (machdep_var rt fixed ts) rv args cps m bot sp prep fn org
    (fun X X3 M2 => passed rt fixed ts vs X3 M2 /\ (hidden rt = 1 -> X3 3 = rv) /\
       sp - 24 - call_size (machdep_var rt fixed ts) <= X3 1 /\ (forall x, ~ (bot <= x < top) -> M2 x = m x)).
Proof. exact call_args_ok. Qed.
Print Assumptions C131_call_args.

(** C131 for the cif of a function that is not variadic. *)
Theorem C131_call_args_plain :
  forall rt ts rv args vs cps m bot sp top prep fn org,
  setup rt ts (zlen ts) rv args vs cps m bot sp top -> text_at org ->
  call_with (machdep rt ts) rv args cps m bot sp prep fn org
    (fun X X3 M2 => passed rt (zlen ts) ts vs X3 M2 /\ (hidden rt = 1 -> X3 3 = rv)).
Proof. exact call_args_plain. Qed.
Print Assumptions C131_call_args_plain.

(** A call with structs and variadic arguments. *)
Example C131_hypotheses_met :
  setup ty_s12 a_ts 4 12000 a_args a_vs a_cps a_mem 12288 16384 16412.
Proof. exact a_setup. Qed.

(** The run of this call, up to its return. *)
Example C131_run :
  exists X X3 M3 X4 M4 X5 M5, whole_run (machdep_var ty_s12 4 a_ts) 12000 a_args a_cps a_mem 12288 16384 70000 80000 65536 X X3 M3 X4 M4 X5 M5 /\
  map X3 [3; 4; 5; 6; 7; 8] = [12000; 2 ^ 32 - 2; 16392; 1074266370; 50595078; 2 ^ 32 - 256] /\ rd M3 (X3 1) 12 = [63; 240; 0; 0; 0; 0; 0; 1; 0; 0; 64; 16] /\
  map X5 [1; 2; 14; 16; 18; 20] = map X [1; 2; 14; 16; 18; 20].
Proof. exact a_run. Qed.

(** A call that is not variadic. *)
Example C131_plain_hypotheses_met :
  setup ty_sint32 g_ts 6 8224 g_args g_vs g_cps g_mem 12288 16384 16384.
Proof. exact g_setup. Qed.

(** C132, what holds: ffi_prep_args stays in the space set aside unless a double word of a function that is
    not variadic comes when only %r8 is left. *)
Theorem C132_argument_space_partial :
  forall rt ts fixed rv args vs stack m hi,
  0 <= fixed -> 0 <= rv < 2 ^ 32 -> let c := machdep_var rt fixed ts in
  objects m stack hi ts args vs -> stack + call_size c <= hi -> gap (hidden rt) fixed ts = false \/ fixed <> zlen ts ->
  forall x, ~ (stack <= x < stack + call_size c) -> fst (prep_args c rv args stack m) x = m x.
Proof. exact room_ok. Qed.
Print Assumptions C132_argument_space_partial.

(** Variadic, or without such an argument. *)
Example C132_hypotheses_met :
  objects a_mem 12288 16384 a_ts a_args a_vs /\ 12288 + call_size (machdep_var ty_s12 4 a_ts) <= 16384 /\ 4 <> zlen a_ts /\
  objects v_mem 12288 16384 [ty_sint32] [8192] [[0; 0; 0; 1]] /\ gap (hidden ty_sint64) 1 [ty_sint32] = false.
Proof. exact r_in. Qed.

(** C132 fails: five words and a double word. *)
Theorem C132_argument_space_refuted :
  exists rt ts fixed rv args vs stack m hi,
  0 <= fixed /\ 0 <= rv < 2 ^ 32 /\ objects m stack hi ts args vs /\ stack + call_size (machdep_var rt fixed ts) <= hi /\
  exists x, ~ (stack <= x < stack + call_size (machdep_var rt fixed ts)) /\ fst (prep_args (machdep_var rt fixed ts) rv args stack m) x <> m x.
Proof. exact room_bad. Qed.
Print Assumptions C132_argument_space_refuted.

(** C133, what holds: with enough space, registers to be preserved are as before. *)
Theorem C133_saved_registers_partial :
  forall rt ts fixed rv args vs cps m bot sp top prep fn org,
  setup rt ts fixed rv args vs cps m bot sp top -> text_at org -> result_place rt rv sp ->
  gap (hidden rt) fixed ts = false \/ fixed <> zlen ts ->
  call_with (machdep_var rt fixed ts) rv args cps m bot sp prep fn org
    (fun X X3 M2 => forall X4 M4 f4, fn_done sp X3 M2 X4 M4 ->
       exists X5 f5 M5, reach org (St X4 (X3 9) (X3 9 + 4) f4 M4) (St X5 (X 9) (X 9 + 4) f5 M5) /\
         (forall r, saved r -> X5 r = X r)).
Proof. exact call_saved. Qed.
Print Assumptions C133_saved_registers_partial.

(** A call that returns a double word. *)
Example C133_hypotheses_met :
  setup ty_sint64 [ty_sint32] 1 8200 [8192] [[0; 0; 0; 1]] [0] v_mem 12288 16384 16384 /\ result_place ty_sint64 8200 16384 /\
  gap (hidden ty_sint64) 1 [ty_sint32] = false.
Proof. exact d_setup. Qed.

(** The run of this call. *)
Example C133_run :
  exists X X3 M3 X4 M4 X5 M5, whole_run (machdep_var ty_sint64 1 [ty_sint32]) 8200 [8192] [0] v_mem 12288 16384 70000 80000 65536 X X3 M3 X4 M4 X5 M5 /\
  returned ty_sint64 [1; 2; 3; 4; 5; 6; 7; 8] X4 /\ bytes_at M5 8200 8 = [1; 2; 3; 4; 5; 6; 7; 8] /\ X5 20 = X 20.
Proof. exact d_run. Qed.

(** C133 fails: five words and a double word. *)
Theorem C133_saved_registers_refuted :
  exists rt ts fixed rv args vs cps m bot sp top prep fn org,
  setup rt ts fixed rv args vs cps m bot sp top /\ text_at org /\ result_place rt rv sp /\
  exists X X3 M3 X4 M4 X5 M5, whole_run (machdep_var rt fixed ts) rv args cps m bot sp prep fn org X X3 M3 X4 M4 X5 M5 /\
    exists r, saved r /\ X5 r <> X r.
Proof. exact return_bad. Qed.
Print Assumptions C133_saved_registers_refuted.

(** This call leaves half of the double word in %r20. *)
Example C133_refuted_run :
  exists X X3 M3 X4 M4 X5 M5, whole_run (machdep_var ty_sint32 6 g_ts) 8224 g_args g_cps g_mem 12288 16384 70000 80000 65536 X X3 M3 X4 M4 X5 M5 /\
  X 20 = 2020 /\ X5 20 = 84281096.
Proof. exact g_run. Qed.

(** C134, what holds: a result that is not void is stored, and nothing else. *)
Theorem C134_call_result_partial :
  forall rt ts fixed rv args vs cps m bot sp top prep fn org,
  setup rt ts fixed rv args vs cps m bot sp top -> text_at org -> result_place rt rv sp ->
  gap (hidden rt) fixed ts = false \/ fixed <> zlen ts -> ty_code rt <> T_VOID ->
  call_with (machdep_var rt fixed ts) rv args cps m bot sp prep fn org
    (fun X X3 M2 => forall X4 M4 f4 v, fn_done sp X3 M2 X4 M4 -> is_value rt v -> returned rt v X4 ->
       exists X5 f5 M5, reach org (St X4 (X3 9) (X3 9 + 4) f4 M4) (St X5 (X 9) (X 9 + 4) f5 M5) /\
         bytes_at M5 rv (zlen (stored rt v)) = stored rt v /\
         (forall x, ~ (rv <= x < rv + zlen (stored rt v)) -> M5 x = M4 x)).
Proof. exact call_stores. Qed.
Print Assumptions C134_call_result_partial.

(** A call that returns a double word. *)
Example C134_hypotheses_met :
  setup ty_sint64 [ty_sint32] 1 8200 [8192] [[0; 0; 0; 1]] [0] v_mem 12288 16384 16384 /\ result_place ty_sint64 8200 16384 /\
  gap (hidden ty_sint64) 1 [ty_sint32] = false.
Proof. exact d_setup. Qed.

(** The result is in memory. *)
Example C134_run :
  exists X X3 M3 X4 M4 X5 M5, whole_run (machdep_var ty_sint64 1 [ty_sint32]) 8200 [8192] [0] v_mem 12288 16384 70000 80000 65536 X X3 M3 X4 M4 X5 M5 /\
  returned ty_sint64 [1; 2; 3; 4; 5; 6; 7; 8] X4 /\ bytes_at M5 8200 8 = [1; 2; 3; 4; 5; 6; 7; 8] /\ X5 20 = X 20.
Proof. exact d_run. Qed.

(** C134 fails: after a call of a void function with a null result pointer memory at 0 is changed. *)
Theorem C134_call_result_refuted :
  exists rt ts fixed rv args vs cps m bot sp top prep fn org,
  setup rt ts fixed rv args vs cps m bot sp top /\ text_at org /\ result_place rt rv sp /\ ty_code rt = T_VOID /\ rv = 0 /\
  exists X X3 M3 X4 M4 X5 M5, whole_run (machdep_var rt fixed ts) rv args cps m bot sp prep fn org X X3 M3 X4 M4 X5 M5 /\
    exists x, M5 x <> M4 x.
Proof. exact result_bad. Qed.
Print Assumptions C134_call_result_refuted.

(** C135: ffi_closure_SYSV hands pointers to the argument values to the handler, and the caller's pointer if
    the result is a struct; only register_args is written. *)
Theorem C135_closure_args :
  forall rt ts fixed flags vs X M ra buf,
  Forall otype ts -> 0 <= fixed -> Forall2 is_value ts vs -> bytes_in M -> ra + 24 <= X 1 ->
  passed rt fixed ts vs X M -> refs_outside X M ra (ra + 24) (places (hidden rt) 0 fixed ts) ts ->
  exists m1 avs, closure_args (OCif ts rt fixed flags) (arg_regs X) (X 1) ra buf M = (m1, if hidden rt =? 1 then X 3 else buf, avs) /\
    values_at m1 ts avs vs /\ (forall x, ~ (ra <= x < ra + 24) -> m1 x = M x).
Proof. exact closure_args_ok. Qed.
Print Assumptions C135_closure_args.

(** The call of C131_run seen by the closure. *)
Example C135_hypotheses_met :
  exists X M, Forall otype a_ts /\ Forall2 is_value a_ts a_vs /\ bytes_in M /\ 13000 + 24 <= X 1 /\ passed ty_s12 4 a_ts a_vs X M /\
  refs_outside X M 13000 13024 (places (hidden ty_s12) 0 4 a_ts) a_ts /\
  snd (closure_args (machdep_var ty_s12 4 a_ts) (arg_regs X) (X 1) 13000 99 M) = [13007; 16392; 13012; 13022; 16324; 16400].
Proof. exact c_in. Qed.

(** C136: what the handler leaves at rvalue is returned in %r11, %r12. *)
Theorem C136_closure_result :
  forall rt ts fixed flags v buf M X,
  rtype_ok rt -> (ty_code rt <> T_VOID -> is_value rt v) -> bytes_in M -> bytes_at M buf (zlen (stored rt v)) = stored rt v ->
  match closure_result (OCif ts rt fixed flags) buf M with
  | Some (a, b) => hidden rt = 0 /\ returned rt v (upd (upd X 11 a) 12 b)
  | None => hidden rt = 1
  end.
Proof. exact closure_result_ok. Qed.
Print Assumptions C136_closure_result.

(** A closure that returns -2 as a byte. *)
Example C136_hypotheses_met :
  let M := put [(4096, [255; 255; 255; 254])] in
  rtype_ok ty_sint8 /\ is_value ty_sint8 [254] /\ bytes_in M /\ bytes_at M 4096 (zlen (stored ty_sint8 [254])) = stored ty_sint8 [254] /\
  closure_result (machdep ty_sint8 []) 4096 M = Some (2 ^ 32 - 2, 0).
Proof. exact c_result. Qed.

(** C137: the code ffi_prep_closure_loc writes goes to ffi_closure_SYSV with the address of the code in %r13 and
    the stack pointer in %r17; cif, function and data are in the closure. *)
Theorem C137_trampoline :
  forall clo cif func data loc ent m m' M X f,
  prep_closure true clo cif func data loc ent m = Some m' -> 0 <= loc -> loc + 32 <= 2 ^ 32 -> 0 <= ent -> ent + 4 < 2 ^ 32 -> words_in X ->
  (forall k, 0 <= k < 24 -> M (loc + k) = m' (clo + k)) ->
  (exists X1, msteps 6 (St X loc (loc + 4) f M) = Some (St X1 ent (ent + 4) f M) /\ X1 13 = loc /\ X1 17 = X 1 /\
    (forall r, r <> 13 -> r <> 15 -> r <> 17 -> X1 r = X r)) /\
  be_dec (rd m' (clo + 24) 4) = cif mod 2 ^ 32 /\ be_dec (rd m' (clo + 28) 4) = func mod 2 ^ 32 /\ be_dec (rd m' (clo + 32) 4) = data mod 2 ^ 32 /\
  (forall x, ~ (clo <= x < clo + 36) -> m' x = m x).
Proof. exact trampoline_ok. Qed.
Print Assumptions C137_trampoline.

(** A closure at 20000, executed at 28192. *)
Example C137_hypotheses_met :
  exists m', prep_closure true 20000 111 222 333 28192 100000 (fun _ => 0) = Some m' /\
  rd m' 20000 36 = [25; 160; 0; 0; 169; 173; 110; 32; 25; 224; 0; 1; 169; 239; 134; 160; 68; 0; 120; 0; 170; 33; 0; 0; 0; 0; 0; 111; 0; 0; 0; 222; 0; 0; 1; 77].
Proof. exact t_in. Qed.

(** C138: a closure called by ffi_call with its own signature finds the values given to ffi_call. *)
Theorem C138_round_trip :
  forall rt ts fixed rv args vs cps m bot sp top prep loc org clo cif func data ent m0 m',
  setup rt ts fixed rv args vs cps m bot sp top -> text_at org ->
  prep_closure true clo cif func data loc ent m0 = Some m' -> loc + 32 <= 2 ^ 32 -> 0 <= ent -> ent + 4 < 2 ^ 32 ->
  0 <= loc -> (loc + 24 <= bot \/ top <= loc) -> (forall k, 0 <= k < 24 -> m (loc + k) = m' (clo + k)) ->
  call_with (machdep_var rt fixed ts) rv args cps m bot sp prep loc org
    (fun X X3 M2 => words_in X3 -> forall f ra buf, bot <= ra -> ra + 24 <= X3 1 -> X3 1 <= sp ->
       exists X5, msteps 6 (St X3 loc (loc + 4) f M2) = Some (St X5 ent (ent + 4) f M2) /\ X5 13 = loc /\
         exists m1 avs, closure_args (machdep_var rt fixed ts) (arg_regs X5) (X5 17) ra buf M2 = (m1, if hidden rt =? 1 then rv else buf, avs) /\
           values_at m1 ts avs vs).
Proof. exact round_trip_ok. Qed.
Print Assumptions C138_round_trip.

(** The call of C131_run to the closure of C137_hypotheses_met. *)
Example C138_hypotheses_met :
  setup ty_s12 a_ts 4 12000 a_args a_vs a_cps t_mem 12288 16384 16412 /\ text_at 65536 /\
  exists m', prep_closure true 20000 111 222 333 28192 100000 (fun _ => 0) = Some m' /\ (forall k, 0 <= k < 24 -> t_mem (28192 + k) = m' (20000 + k)).
Proof. exact t_round. Qed.

(** C139, what holds: without struct arguments ffi_call does not change avalue. *)
Theorem C139_avalue_partial :
  forall rt ts fixed args cps m,
  existsb aggregate ts = false -> length args = length ts -> length cps = length ts ->
  let '(m1, av, _, _) := call_prepare (machdep_var rt fixed ts) args cps m in av = args /\ m1 = m.
Proof. exact avalue_ok. Qed.
Print Assumptions C139_avalue_partial.

(** Five words and a double word. *)
Example C139_hypotheses_met :
  existsb aggregate g_ts = false /\ length g_args = length g_ts /\ length g_cps = length g_ts.
Proof. exact g_avalue. Qed.

(** C139 fails: elements for structs are changed to point to copies on the stack. *)
Theorem C139_avalue_refuted :
  exists rt ts fixed rv args vs cps m bot sp top,
  setup rt ts fixed rv args vs cps m bot sp top /\ let '(m1, av, _, _) := call_prepare (machdep_var rt fixed ts) args cps m in av <> args.
Proof. exact avalue_bad. Qed.
Print Assumptions C139_avalue_refuted.
