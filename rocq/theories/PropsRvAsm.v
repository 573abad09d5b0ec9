(** Properties C92-C94: the assembly code of the RISC-V backend (src/riscv/sysv.S). *)
From Verif Require Import Base BaseFacts ByteMem Types LayoutSpec NaturalTypes RiscAsmModel RiscAsmFacts RiscAsmClo RiscAsmTop
  RvModel RvSpec RvFlat RvCall RvMain RvWhole RvClosure RvRet RvLemmas RvAsm RvAsmSamples.
From Verif Require A64Fits.
Local Open Scope Z_scope.

(** C92, in part: with the block and pointers ffi_call_int hands over, ffi_call_asm gets to the
    function with every argument where the psABI wants it, and after its return gives
    ffi_call_int back its registers, a stack pointer that is a multiple of 16 and a call_context
    from which the result is stored.  Missing: non-variadic structs of a single float or double
    for which no floating point register is left (C60), and sizes of 2 GiB and more. *)
Theorem C92_call_code_partial :
  forall fl fixed rt ts rv objs gr chain base blk m r e org X V M,
  let c := prep fixed rt ts in
  let ctx := base + ctx_at c rv in
  fl_ok fl -> signature_ok rt ts -> objects_ok ts objs -> A64Fits.total_size ts < 2 ^ 31 -> ty_size rt < 2 ^ 31 ->
  lone_reals_ok fl fixed 0 ts (places fl fixed rt ts) ->
  zlen blk = alloc_size fl c rv -> (forall i, zlen (gr i) = 16 /\ bytes_ok (gr i)) ->
  0 <= base -> (16 | base) -> base + alloc_size fl c rv < 2 ^ 64 -> (forall a, rv = Some a -> 0 <= a < 2 ^ 64) ->
  call fl c rv objs gr chain base blk (le_enc 8 (X (FP RV)) ++ le_enc 8 (X (RA RV))) = Ok (m, r, in_memory fl rt) ->
  0 <= org -> org + 4 * zlen (call_text RV fl) <= 2 ^ 64 -> (forall x, byte_ok (M x)) ->
  (forall p n d, s_read m p n = Some d -> p + n <= ctx + 8 * fl + 64 -> rd M p (Z.to_nat n) = d) ->
  X (AR RV 0) = base -> X (AR RV 1) = ctx -> X (AR RV 3) = chain ->
  0 <= X (FP RV) < 2 ^ 64 -> code_addr RV (X (RA RV)) -> code_addr RV (X (AR RV 2)) ->
  exists X1 V1 M1 ptrs,
    reach RV e (call_text RV fl) org (St X V org M) (St X1 V1 (X (AR RV 2)) M1) /\
    X1 (SP RV) = base /\ X1 (T2 RV) = chain /\
    held fl (abytes RV X1) (fbytes RV fl V1) base (mem_read M1) ts (places fl fixed rt ts) objs ptrs /\
    copies_ok (fun _ => 8) ts (places fl fixed rt ts) ptrs (base + stack_used fl fixed rt ts + rval_bytes c rv) ctx /\
    (in_memory fl rt = true -> exists a, r = Some a /\ X1 (AR RV 0) mod 2 ^ 64 = a /\ (forall a', rv = Some a' -> a = a')) /\
    (forall x, ~ (ctx + 8 * fl + 64 <= x < ctx + FRAME_LEN fl) -> M1 x = M x) /\
    (forall i, saved RV i = true -> i <> FP RV -> X1 i = X i) /\ (forall i, fsaved RV i = true -> V1 i = V i) /\
    (* the results *)
    forall X2 V2 M2,
      (forall i, saved RV i = true -> X2 i = X1 i) -> wide V2 ->
      (forall x, ctx + 8 * fl + 64 <= x < ctx + FRAME_LEN fl -> M2 x = M1 x) ->
      exists X3 M3,
        reach RV e (call_text RV fl) org (St X2 V2 (X1 (RA RV)) M2) (St X3 V2 (X (RA RV)) M3) /\
        X3 (SP RV) = ctx /\ (16 | ctx) /\ (forall i, saved RV i = true -> X3 i = X i) /\
        (forall x, ~ (ctx <= x < ctx + FRAME_LEN fl) -> M3 x = M2 x) /\
        back_in_context RV fl ctx X2 V2 M2 M3 /\
        forall d b, natural rt -> in_memory fl rt = false -> zlen d = ty_size rt -> returned fl rt (two RV X2) (ftwo RV fl V2) d ->
          ty_size rt <= zlen b -> (narrow (ty_code rt) = true -> 8 <= zlen b) ->
          exists b', finish fl c (mem_read M3) (RRet (two RV X2) (ftwo RV fl V2)) (rd M2 ctx (Z.to_nat (FRAME_LEN fl))) (in_memory fl rt) (Some b) = Ok (Some b') /\
            if narrow (ty_code rt) then get_range b' 0 8 = Some (le_enc 8 (extended (ty_code rt) d)) else same_fields rt b' d.
Proof. exact call_code. Qed.
Print Assumptions C92_call_code_partial.

(** A function of an int, a struct of two doubles and a struct of three words that returns a
    struct of a float and an int. *)
Example C92_hypotheses_met :
  exists m M,
    fl_ok 8 /\ signature_ok s_fi z_args /\ objects_ok z_args (x_objs z_args) /\ A64Fits.total_size z_args < 2 ^ 31 /\
    lone_reals_ok 8 None 0 z_args (places 8 None s_fi z_args) /\
    zlen z_blk = alloc_size 8 z_cif None /\ (forall i, zlen (z16 i) = 16 /\ bytes_ok (z16 i)) /\ (16 | 65536) /\
    call 8 z_cif None (x_objs z_args) z16 0 65536 z_blk (le_enc 8 (z_x (FP RV)) ++ le_enc 8 (z_x (RA RV))) = Ok (m, None, in_memory 8 s_fi) /\
    16384 + 4 * zlen (call_text RV 8) <= 2 ^ 64 /\ (forall x, byte_ok (M x)) /\
    (forall p n d, s_read m p n = Some d -> rd M p (Z.to_nat n) = d) /\
    z_x (AR RV 0) = 65536 /\ z_x (AR RV 1) = 65536 + ctx_at z_cif None /\ z_x (AR RV 3) = 0 /\
    0 <= z_x (FP RV) < 2 ^ 64 /\ code_addr RV (z_x (RA RV)) /\ code_addr RV (z_x (AR RV 2)) /\
    natural s_fi /\ in_memory 8 s_fi = false /\ places 8 None s_fi z_args = [Words [XR 0]; InFF 0 8 8 8; Ref (XR 1)].
Proof. exact call_sample. Qed.

(** C93: whoever calls the address of a closure gets its handler: the trampoline
    ffi_prep_closure_loc wrote and ffi_closure_asm call ffi_closure_inner with the closure's
    contents and a frame in which it finds the arguments, and hand the result to the caller, whose
    stack and registers are restored.  The closure was written at [closure] and is executed at
    [codeloc]. *)
Theorem C93_dynamic_closure :
  forall e fl org X V M f abi closure cif fn ud codeloc m0 m1,
  fl_ok fl -> code_addr RV org -> org + 4 * zlen (closure_text RV fl) <= 2 ^ 64 -> wide V ->
  X (SP RV) = f + FRAME_LEN fl -> 0 <= f -> f + FRAME_LEN fl < 2 ^ 64 -> 0 <= X (FP RV) < 2 ^ 64 -> code_addr RV (X (RA RV)) ->
  0 <= cif < 2 ^ 64 -> 0 <= fn < 2 ^ 64 -> 0 <= ud < 2 ^ 64 ->
  0 <= codeloc -> codeloc + 48 <= 2 ^ 64 -> f + FRAME_LEN fl <= codeloc \/ codeloc + 48 <= f ->
  prep_closure_loc RV org None abi closure cif fn ud m0 = (FFI_OK, m1) ->
  (forall k, 0 <= k < 48 -> M (codeloc + k) = m1 (closure + k)) ->
  exists s X1 M1,
    wsteps RV 3 (St X V codeloc M) = Some s /\ reach RV e (closure_text RV fl) org s (St X1 V e M1) /\
    serves e fl (closure_text RV fl) org f cif fn ud X V M X1 M1.
Proof. exact dynamic_top. Qed.
Print Assumptions C93_dynamic_closure.

(** A function of an int, a double and a signed char. *)
Example C93_hypotheses_met :
  exists m1 M, 16384 + 4 * zlen (closure_text RV 8) <= 2 ^ 64 /\ code_addr RV 16384 /\ wide c_v /\
    c_x (SP RV) = 65536 + FRAME_LEN 8 /\ (16 | c_x (SP RV)) /\ code_addr RV (c_x (RA RV)) /\ 49152 + 48 <= 65536 /\
    prep_closure_loc RV 16384 None 1 32768 512 1024 2048 (fun _ => 0) = (FFI_OK, m1) /\
    (forall k, 0 <= k < 48 -> M (49152 + k) = m1 (32768 + k)) /\ signature_ok s_fi c_args /\
    held 8 (abytes RV c_x) (fbytes RV 8 c_v) (c_x (SP RV)) (caller_read 8 M 65536) c_args (places 8 None s_fi c_args) c_objs [].
Proof. exact dynamic_sample. Qed.

(** C94: the same for Go closures, called through their first word with their address in t2. *)
Theorem C94_go_closure :
  forall e fl org X V M f abi closure cif fn m0 m1,
  fl_ok fl -> code_addr RV org -> org + 4 * zlen (go_text RV fl) <= 2 ^ 64 -> wide V ->
  X (SP RV) = f + FRAME_LEN fl -> 0 <= f -> f + FRAME_LEN fl < 2 ^ 64 -> 0 <= X (FP RV) < 2 ^ 64 -> code_addr RV (X (RA RV)) ->
  0 <= cif < 2 ^ 64 -> 0 <= fn < 2 ^ 64 ->
  0 <= closure -> closure + 24 <= 2 ^ 64 -> f + FRAME_LEN fl <= closure \/ closure + 24 <= f ->
  prep_go_closure RV org abi closure cif fn m0 = (FFI_OK, m1) ->
  (forall x, closure <= x < closure + 24 -> M x = m1 x) -> X (T2 RV) = closure ->
  exists X1 M1,
    reach RV e (go_text RV fl) org (St X V (le_dec (rd M closure 8)) M) (St X1 V e M1) /\
    serves e fl (go_text RV fl) org f cif fn closure X V M X1 M1.
Proof. exact go_top. Qed.
Print Assumptions C94_go_closure.

Example C94_hypotheses_met :
  exists m1, 16384 + 4 * zlen (go_text RV 4) <= 2 ^ 64 /\ code_addr RV 16384 /\ wide c_v /\
    c_x (SP RV) = 65568 + FRAME_LEN 4 /\ c_x (T2 RV) = 32768 /\
    prep_go_closure RV 16384 1 32768 512 1024 (fun _ => 0) = (FFI_OK, m1) /\
    le_dec (rd m1 32768 8) = 16384 /\ le_dec (rd m1 (32768 + 8) 8) = 512 /\ le_dec (rd m1 (32768 + 16) 8) = 1024.
Proof. exact go_sample. Qed.
