(** Properties C140-C144: the Blackfin backend, src/bfin/ffi.c with src/bfin/sysv.S. *)
From Verif Require Import Base ByteMem Types ArmModel.
From Verif Require Import BfinModel BfinSpec BfinAsm BfinTop BfinSamples.
Local Open Scope Z_scope.

(** C140, what holds: if every argument but the last one fills its words or fits in one, the function is
    entered with the arguments where the ABI has them. *)
Theorem C140_bfin_call_args_partial :
  forall c org rt ts args vs X M sp bot flags rv fd ga D ta,
  setup c org rt ts args vs X M sp bot flags rv fd ga D ta -> tidy ts = true ->
  exists X1 M1 m,
    reach c org (St X org M) (St X1 (ld M D) M1) /\ X1 1 = X 1 /\ X1 11 = ld M (D + 4) /\ prep_args ts args M1 (X1 0) = Some m /\
    forall X2 M2, prep_back bot X1 m X2 M2 -> exists X3,
      reach c org (St X2 (X1 16) M2) (St X3 (ld M fd) M2) /\ passed X3 M2 0 ts vs /\ X3 8 = rv /\ (forall x, ~ (bot <= x < sp + 12) -> M2 x = M x).
Proof. exact call_args. Qed.
Print Assumptions C140_bfin_call_args_partial.

(** A call with a byte, structs of 8, 3 and 6 bytes and a double word. *)
Example C140_hypotheses_met :
  setup (conf true) 4096 i64 a_ts a_args a_vs (rg (regs0 i64 a_ts)) (put (pieces 3 6300 a_objs)) 20000 10000 3 30000 6200 6008 6100 6012 /\
  tidy a_ts = true /\ plain_result true i64 = true /\ away 10000 20000 30000 (result_room i64) /\ ld (put (pieces 3 6300 a_objs)) (20000 + 24) = ld (put (pieces 3 6300 a_objs)) (6200 + 4).
Proof. exact a_setup. Qed.

(** The run of this call. *)
Example C140_run :
  let c := conf true in let M := put (pieces 3 6300 a_objs) in let X := rg (regs0 i64 a_ts) in
  exists X1 M1 m X3 X4 X5 M5,
    reach c 4096 (St X 4096 M) (St X1 (ld M 6100) M1) /\ prep_args a_ts a_args M1 (X1 0) = Some m /\ prep_back 10000 X1 m X1 m /\
    reach c 4096 (St X1 (X1 16) m) (St X3 (ld M 6200) m) /\ fn_back 4096 20000 6012 X3 m X4 m /\ is_value i64 a_v /\ returned i64 a_v X4 /\
    reach c 4096 (St X4 (X3 16) m) (St X5 (X 16) M5) /\
    X3 0 = 2 ^ 32 - 2 /\ bytes_at m (X3 14 + 12) 3 = [9; 10; 11] /\ bytes_at M5 30000 8 = a_v.
Proof. exact a_run. Qed.

(** C140 fails: a struct of six bytes followed by a word. *)
Theorem C140_bfin_call_args_refuted :
  exists c org rt ts args vs X M sp bot flags rv fd ga D ta X1 M1 m X2 M2 X3,
  setup c org rt ts args vs X M sp bot flags rv fd ga D ta /\
  reach c org (St X org M) (St X1 (ld M D) M1) /\ prep_args ts args M1 (X1 0) = Some m /\ prep_back bot X1 m X2 M2 /\
  reach c org (St X2 (X1 16) M2) (St X3 (ld M fd) M2) /\ ~ passed X3 M2 0 ts vs.
Proof. exact args_bad. Qed.
Print Assumptions C140_bfin_call_args_refuted.

(** C141: ffi_prep_args changes nothing outside the cif->bytes bytes made for it, ffi_call_SYSV nothing but
    its frame. *)
Theorem C141_bfin_argument_space :
  forall c org rt ts args vs X M sp bot flags rv fd ga D ta,
  setup c org rt ts args vs X M sp bot flags rv fd ga D ta ->
  exists X1 M1 m,
    reach c org (St X org M) (St X1 (ld M D) M1) /\ prep_args ts args M1 (X1 0) = Some m /\ X1 14 = X1 0 /\ X1 0 + X 0 <= sp - 28 /\
    (forall x, m x <> M1 x -> X1 0 <= x < X1 0 + X 0) /\ (forall x, M1 x <> M x -> sp - 28 <= x < sp + 12).
Proof. exact call_room. Qed.
Print Assumptions C141_bfin_argument_space.

(** The call of C140. *)
Example C141_hypotheses_met :
  setup (conf true) 4096 i64 a_ts a_args a_vs (rg (regs0 i64 a_ts)) (put (pieces 3 6300 a_objs)) 20000 10000 3 30000 6200 6008 6100 6012 /\
  tidy a_ts = true /\ plain_result true i64 = true /\ away 10000 20000 30000 (result_room i64) /\ ld (put (pieces 3 6300 a_objs)) (20000 + 24) = ld (put (pieces 3 6300 a_objs)) (6200 + 4).
Proof. exact a_setup. Qed.

(** C142, what holds: the result is stored, and nothing else, unless it is a struct of 1 to 3 or 5 to 7
    bytes or a half-word of the other signedness. *)
Theorem C142_bfin_call_result_partial :
  forall c org rt ts args vs X M sp bot flags rv fd ga D ta,
  setup c org rt ts args vs X M sp bot flags rv fd ga D ta -> (ty_code rt <> T_VOID -> away bot sp rv (result_room rt)) -> plain_result (g_sign c) rt = true ->
  exists X1 M1 m,
    reach c org (St X org M) (St X1 (ld M D) M1) /\ prep_args ts args M1 (X1 0) = Some m /\
    forall X2 M2, prep_back bot X1 m X2 M2 -> exists X3,
      reach c org (St X2 (X1 16) M2) (St X3 (ld M fd) M2) /\ (home_of rt = Memory -> X3 8 = rv) /\
      forall X4 M4 v, fn_back org sp ta X3 M2 X4 M4 -> (ty_code rt <> T_VOID -> is_value rt v) -> returned rt v X4 -> exists X5 M5,
        reach c org (St X4 (X3 16) M4) (St X5 (X 16) M5) /\ bytes_at M5 rv (zlen (stored rt v)) = stored rt v /\
        (forall x, ~ (rv <= x < rv + zlen (stored rt v)) -> ~ (sp - 28 <= x < sp) -> M5 x = M4 x).
Proof. exact call_result. Qed.
Print Assumptions C142_bfin_call_result_partial.

(** A double-word result. *)
Example C142_hypotheses_met :
  setup (conf true) 4096 i64 a_ts a_args a_vs (rg (regs0 i64 a_ts)) (put (pieces 3 6300 a_objs)) 20000 10000 3 30000 6200 6008 6100 6012 /\
  tidy a_ts = true /\ plain_result true i64 = true /\ away 10000 20000 30000 (result_room i64) /\ ld (put (pieces 3 6300 a_objs)) (20000 + 24) = ld (put (pieces 3 6300 a_objs)) (6200 + 4).
Proof. exact a_setup. Qed.

(** The result is in memory. *)
Example C142_run :
  let c := conf true in let M := put (pieces 3 6300 a_objs) in let X := rg (regs0 i64 a_ts) in
  exists X1 M1 m X3 X4 X5 M5,
    reach c 4096 (St X 4096 M) (St X1 (ld M 6100) M1) /\ prep_args a_ts a_args M1 (X1 0) = Some m /\ prep_back 10000 X1 m X1 m /\
    reach c 4096 (St X1 (X1 16) m) (St X3 (ld M 6200) m) /\ fn_back 4096 20000 6012 X3 m X4 m /\ is_value i64 a_v /\ returned i64 a_v X4 /\
    reach c 4096 (St X4 (X3 16) m) (St X5 (X 16) M5) /\
    X3 0 = 2 ^ 32 - 2 /\ bytes_at m (X3 14 + 12) 3 = [9; 10; 11] /\ bytes_at M5 30000 8 = a_v.
Proof. exact a_run. Qed.

(** C142 fails: a struct of six bytes is not stored. *)
Theorem C142_bfin_call_result_refuted :
  exists c org rt ts args vs X M sp bot flags rv fd ga D ta X1 M1 m X2 M2 X3 X4 M4 v X5 M5,
  setup c org rt ts args vs X M sp bot flags rv fd ga D ta /\ away bot sp rv (result_room rt) /\
  reach c org (St X org M) (St X1 (ld M D) M1) /\ prep_args ts args M1 (X1 0) = Some m /\ prep_back bot X1 m X2 M2 /\
  reach c org (St X2 (X1 16) M2) (St X3 (ld M fd) M2) /\ fn_back org sp ta X3 M2 X4 M4 /\ is_value rt v /\ returned rt v X4 /\
  reach c org (St X4 (X3 16) M4) (St X5 (X 16) M5) /\ bytes_at M5 rv (zlen (stored rt v)) <> stored rt v.
Proof. exact result_bad. Qed.
Print Assumptions C142_bfin_call_result_refuted.

(** C142 fails: after a struct of three bytes a fourth byte is changed. *)
Theorem C142_bfin_small_struct_refuted :
  exists c org rt ts args vs X M sp bot flags rv fd ga D ta X1 M1 m X2 M2 X3 X4 M4 v X5 M5,
  setup c org rt ts args vs X M sp bot flags rv fd ga D ta /\ away bot sp rv (result_room rt) /\
  reach c org (St X org M) (St X1 (ld M D) M1) /\ prep_args ts args M1 (X1 0) = Some m /\ prep_back bot X1 m X2 M2 /\
  reach c org (St X2 (X1 16) M2) (St X3 (ld M fd) M2) /\ fn_back org sp ta X3 M2 X4 M4 /\ is_value rt v /\ returned rt v X4 /\
  reach c org (St X4 (X3 16) M4) (St X5 (X 16) M5) /\ M5 (rv + ty_size rt) <> M4 (rv + ty_size rt).
Proof. exact result_over. Qed.
Print Assumptions C142_bfin_small_struct_refuted.

(** C142 fails: half-words of one signedness, whichever way R0 = R0.L extends. *)
Theorem C142_bfin_half_word_refuted :
  forall sign, exists c org rt ts args vs X M sp bot flags rv fd ga D ta X1 M1 m X2 M2 X3 X4 M4 v X5 M5,
  g_sign c = sign /\ (ty_code rt = T_UINT16 \/ ty_code rt = T_SINT16) /\
  setup c org rt ts args vs X M sp bot flags rv fd ga D ta /\ away bot sp rv (result_room rt) /\
  reach c org (St X org M) (St X1 (ld M D) M1) /\ prep_args ts args M1 (X1 0) = Some m /\ prep_back bot X1 m X2 M2 /\
  reach c org (St X2 (X1 16) M2) (St X3 (ld M fd) M2) /\ fn_back org sp ta X3 M2 X4 M4 /\ is_value rt v /\ returned rt v X4 /\
  reach c org (St X4 (X3 16) M4) (St X5 (X 16) M5) /\ bytes_at M5 rv (zlen (stored rt v)) <> stored rt v.
Proof. exact result_half. Qed.
Print Assumptions C142_bfin_half_word_refuted.

(** C143: ffi_call_SYSV returns to its caller with the registers to be preserved and P3 as they were. *)
Theorem C143_bfin_saved_registers :
  forall c org rt ts args vs X M sp bot flags rv fd ga D ta,
  setup c org rt ts args vs X M sp bot flags rv fd ga D ta -> (ty_code rt <> T_VOID -> away bot sp rv (result_room rt)) ->
  exists X1 M1 m,
    reach c org (St X org M) (St X1 (ld M D) M1) /\ prep_args ts args M1 (X1 0) = Some m /\
    forall X2 M2, prep_back bot X1 m X2 M2 -> exists X3,
      reach c org (St X2 (X1 16) M2) (St X3 (ld M fd) M2) /\
      forall X4 M4, fn_back org sp ta X3 M2 X4 M4 -> exists X5 M5,
        reach c org (St X4 (X3 16) M4) (St X5 (X 16) M5) /\ X5 11 = X 11 /\ (forall r, saved r -> X5 r = X r).
Proof. exact call_return. Qed.
Print Assumptions C143_bfin_saved_registers.

(** The call of C140. *)
Example C143_hypotheses_met :
  setup (conf true) 4096 i64 a_ts a_args a_vs (rg (regs0 i64 a_ts)) (put (pieces 3 6300 a_objs)) 20000 10000 3 30000 6200 6008 6100 6012 /\
  tidy a_ts = true /\ plain_result true i64 = true /\ away 10000 20000 30000 (result_room i64) /\ ld (put (pieces 3 6300 a_objs)) (20000 + 24) = ld (put (pieces 3 6300 a_objs)) (6200 + 4).
Proof. exact a_setup. Qed.

(** The run of this call. *)
Example C143_run :
  let c := conf true in let M := put (pieces 3 6300 a_objs) in let X := rg (regs0 i64 a_ts) in
  exists X1 M1 m X3 X4 X5 M5,
    reach c 4096 (St X 4096 M) (St X1 (ld M 6100) M1) /\ prep_args a_ts a_args M1 (X1 0) = Some m /\ prep_back 10000 X1 m X1 m /\
    reach c 4096 (St X1 (X1 16) m) (St X3 (ld M 6200) m) /\ fn_back 4096 20000 6012 X3 m X4 m /\ is_value i64 a_v /\ returned i64 a_v X4 /\
    reach c 4096 (St X4 (X3 16) m) (St X5 (X 16) M5) /\
    X3 0 = 2 ^ 32 - 2 /\ bytes_at m (X3 14 + 12) 3 = [9; 10; 11] /\ bytes_at M5 30000 8 = a_v.
Proof. exact a_run. Qed.

(** C144, what holds: if the caller's stack happens to hold it next to the descriptor's address, P3 is the
    function's global offset table. *)
Theorem C144_bfin_function_got_partial :
  forall c org rt ts args vs X M sp bot flags rv fd ga D ta,
  setup c org rt ts args vs X M sp bot flags rv fd ga D ta -> ld M (sp + 24) = ld M (fd + 4) ->
  exists X1 M1 m,
    reach c org (St X org M) (St X1 (ld M D) M1) /\ prep_args ts args M1 (X1 0) = Some m /\
    forall X2 M2, prep_back bot X1 m X2 M2 -> exists X3,
      reach c org (St X2 (X1 16) M2) (St X3 (ld M fd) M2) /\ X3 11 = ld M (fd + 4).
Proof. exact call_got. Qed.
Print Assumptions C144_bfin_function_got_partial.

(** The call of C140, where it does. *)
Example C144_hypotheses_met :
  setup (conf true) 4096 i64 a_ts a_args a_vs (rg (regs0 i64 a_ts)) (put (pieces 3 6300 a_objs)) 20000 10000 3 30000 6200 6008 6100 6012 /\
  tidy a_ts = true /\ plain_result true i64 = true /\ away 10000 20000 30000 (result_room i64) /\ ld (put (pieces 3 6300 a_objs)) (20000 + 24) = ld (put (pieces 3 6300 a_objs)) (6200 + 4).
Proof. exact a_setup. Qed.

(** C144 fails: P3 is what the caller's stack holds. *)
Theorem C144_bfin_function_got_refuted :
  exists c org rt ts args vs X M sp bot flags rv fd ga D ta X1 M1 m X2 M2 X3,
  setup c org rt ts args vs X M sp bot flags rv fd ga D ta /\
  reach c org (St X org M) (St X1 (ld M D) M1) /\ prep_args ts args M1 (X1 0) = Some m /\ prep_back bot X1 m X2 M2 /\
  reach c org (St X2 (X1 16) M2) (St X3 (ld M fd) M2) /\ X3 11 <> ld M (fd + 4).
Proof. exact got_bad. Qed.
Print Assumptions C144_bfin_function_got_refuted.
