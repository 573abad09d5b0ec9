(** Properties C95-C99: the assembly code of the LoongArch backend (src/loongarch64/sysv.S). *)
From Verif Require Import Base BaseFacts ByteMem Types LayoutSpec NaturalTypes RiscAsmModel RiscAsmFacts RiscAsmClo RiscAsmTop
  RvSpec RvFlat RvMain RvRet RvLemmas LaModel LaSpec LaFlat LaCall LaMain LaWhole LaClosure LaRet LaLemmas LaAsm LaAsmSamples.
From Verif Require A64Fits.
Local Open Scope Z_scope.

(** C95, in part: with the block and pointers ffi_call_int hands over, ffi_call_asm gets to the
    function with every argument where the psABI wants it, and after its return gives
    ffi_call_int back its registers and a call_context from which the result is stored.  Missing:
    signatures whose stack arguments and copies do not fit the area (C86), non-variadic structs of
    a single float or double for which no floating point register is left (C84), and sizes of
    2 GiB and more. *)
Theorem C95_call_code_partial :
  forall fl fixed rt ts rv objs gr chain base blk m r e org X V M,
  let c := prep fixed rt ts in
  let ctx := base + ctx_at c rv in
  la_fl fl -> signature_ok rt ts -> promoted fixed 0 ts -> objects_ok ts objs -> A64Fits.total_size ts < 2 ^ 31 -> ty_size rt < 2 ^ 31 ->
  lone_reals_ok fl fixed 0 ts (places fl fixed rt ts) ->
  stack_used fl fixed rt ts <= copies_end ts (places fl fixed rt ts) (arg_bytes c) ->
  zlen blk = alloc_size fl c rv -> (forall i, zlen (gr i) = 16 /\ bytes_ok (gr i)) ->
  0 <= base -> (16 | base) -> base + alloc_size fl c rv < 2 ^ 64 -> (forall a, rv = Some a -> 0 <= a < 2 ^ 64) ->
  call fl c rv objs gr chain base blk (le_enc 8 (X (FP LA)) ++ le_enc 8 (X (RA LA))) = Ok (m, r, in_memory fl rt) ->
  0 <= org -> org + 4 * zlen (call_text LA fl) <= 2 ^ 64 -> (forall x, byte_ok (M x)) ->
  (forall p n d, s_read m p n = Some d -> p + n <= ctx + 8 * fl + 64 -> rd M p (Z.to_nat n) = d) ->
  X (AR LA 0) = base -> X (AR LA 1) = ctx -> X (AR LA 3) = chain ->
  0 <= X (FP LA) < 2 ^ 64 -> code_addr LA (X (RA LA)) -> code_addr LA (X (AR LA 2)) ->
  exists X1 V1 M1 ptrs,
    reach LA e (call_text LA fl) org (St X V org M) (St X1 V1 (X (AR LA 2)) M1) /\
    X1 (SP LA) = base /\ X1 (T2 LA) = chain /\
    held fl (abytes LA X1) (fbytes LA fl V1) base (mem_read M1) ts (places fl fixed rt ts) objs ptrs /\
    copies_down ts (places fl fixed rt ts) ptrs (base + stack_used fl fixed rt ts) (base + arg_bytes c) /\
    (in_memory fl rt = true -> exists a, r = Some a /\ X1 (AR LA 0) mod 2 ^ 64 = a /\ (forall a', rv = Some a' -> a = a')) /\
    (forall x, ~ (ctx + 8 * fl + 64 <= x < ctx + FRAME_LEN fl) -> M1 x = M x) /\
    (forall i, saved LA i = true -> i <> FP LA -> X1 i = X i) /\ (forall i, fsaved LA i = true -> V1 i = V i) /\
    (* the results *)
    forall X2 V2 M2,
      (forall i, saved LA i = true -> X2 i = X1 i) -> wide V2 ->
      (forall x, ctx + 8 * fl + 64 <= x < ctx + FRAME_LEN fl -> M2 x = M1 x) ->
      exists X3 M3,
        reach LA e (call_text LA fl) org (St X2 V2 (X1 (RA LA)) M2) (St X3 V2 (X (RA LA)) M3) /\
        X3 (SP LA) = ctx /\ (forall i, saved LA i = true -> X3 i = X i) /\
        (forall x, ~ (ctx <= x < ctx + FRAME_LEN fl) -> M3 x = M2 x) /\
        back_in_context LA fl ctx X2 V2 M2 M3 /\
        forall d b, natural rt -> in_memory fl rt = false -> zlen d = ty_size rt -> returned fl rt (two LA X2) (ftwo LA fl V2) d ->
          ubuf_ok fl rt b ->
          exists b', finish fl c (mem_read M3) (RRet (two LA X2) (ftwo LA fl V2)) (rd M2 ctx (Z.to_nat (FRAME_LEN fl))) (in_memory fl rt) (Some b) = Ok (Some b') /\
            same_fields rt b' d /\ (whole (ty_code rt) = true -> get_range b' 0 8 = Some (le_enc 8 (extended (ty_code rt) d))).
Proof. exact call_code. Qed.
Print Assumptions C95_call_code_partial.

(** A function of an int, a struct of two doubles and a struct of three words that returns a
    struct of a float and an int. *)
Example C95_hypotheses_met :
  exists m M,
    la_fl 8 /\ signature_ok s_fi z_args /\ promoted None 0 z_args /\ objects_ok z_args (x_objs z_args) /\ A64Fits.total_size z_args < 2 ^ 31 /\
    lone_reals_ok 8 None 0 z_args (places 8 None s_fi z_args) /\
    stack_used 8 None s_fi z_args <= copies_end z_args (places 8 None s_fi z_args) (arg_bytes z_cif) /\
    zlen z_blk = alloc_size 8 z_cif None /\ (forall i, zlen (z16 i) = 16 /\ bytes_ok (z16 i)) /\ (16 | 65536) /\
    call 8 z_cif None (x_objs z_args) z16 0 65536 z_blk (le_enc 8 (z_x (FP LA)) ++ le_enc 8 (z_x (RA LA))) = Ok (m, None, in_memory 8 s_fi) /\
    16384 + 4 * zlen (call_text LA 8) <= 2 ^ 64 /\ (forall x, byte_ok (M x)) /\
    (forall p n d, s_read m p n = Some d -> rd M p (Z.to_nat n) = d) /\
    z_x (AR LA 0) = 65536 /\ z_x (AR LA 1) = 65536 + ctx_at z_cif None /\ z_x (AR LA 3) = 0 /\
    0 <= z_x (FP LA) < 2 ^ 64 /\ code_addr LA (z_x (RA LA)) /\ code_addr LA (z_x (AR LA 2)) /\
    natural s_fi /\ in_memory 8 s_fi = false /\ places 8 None s_fi z_args = [Words [XR 0]; InFF 0 8 8 8; Ref (XR 1)].
Proof. exact call_sample. Qed.

(** C96: whoever calls the address of a closure whose code is in the closure gets its handler:
    the trampoline ffi_prep_closure_loc wrote and ffi_closure_asm call ffi_closure_inner with the
    closure's contents and a frame in which it finds the arguments, and hand the result to the
    caller, whose stack and registers are restored.  The closure was written at [closure] and is
    executed at [codeloc]. *)
Theorem C96_dynamic_closure :
  forall e fl org X V M f abi closure cif fn ud codeloc m0 m1,
  la_fl fl -> code_addr LA org -> org + 4 * zlen (closure_text LA fl) <= 2 ^ 64 -> wide V ->
  X (SP LA) = f + FRAME_LEN fl -> 0 <= f -> f + FRAME_LEN fl < 2 ^ 64 -> 0 <= X (FP LA) < 2 ^ 64 -> code_addr LA (X (RA LA)) ->
  0 <= cif < 2 ^ 64 -> 0 <= fn < 2 ^ 64 -> 0 <= ud < 2 ^ 64 ->
  0 <= codeloc -> codeloc + 48 <= 2 ^ 64 -> f + FRAME_LEN fl <= codeloc \/ codeloc + 48 <= f ->
  prep_closure_loc LA org None abi closure cif fn ud m0 = (FFI_OK, m1) ->
  (forall k, 0 <= k < 48 -> M (codeloc + k) = m1 (closure + k)) ->
  exists s X1 M1,
    wsteps LA 3 (St X V codeloc M) = Some s /\ reach LA e (closure_text LA fl) org s (St X1 V e M1) /\
    serves e fl (closure_text LA fl) org f cif fn ud X V M X1 M1.
Proof. exact dynamic_top. Qed.
Print Assumptions C96_dynamic_closure.

(** A function of an int, a double and a signed char. *)
Example C96_hypotheses_met :
  exists m1 M, 16384 + 4 * zlen (closure_text LA 8) <= 2 ^ 64 /\ code_addr LA 16384 /\ wide c_v /\
    c_x (SP LA) = 65536 + FRAME_LEN 8 /\ (16 | c_x (SP LA)) /\ code_addr LA (c_x (RA LA)) /\ 49152 + 48 <= 65536 /\
    prep_closure_loc LA 16384 None 1 32768 512 1024 2048 (fun _ => 0) = (FFI_OK, m1) /\
    (forall k, 0 <= k < 48 -> M (49152 + k) = m1 (32768 + k)) /\ signature_ok s_fi c_args /\
    held 8 (abytes LA c_x) (fbytes LA 8 c_v) (c_x (SP LA)) (caller_read 8 M 65536) c_args (places 8 None s_fi c_args) c_objs [].
Proof. exact dynamic_sample. Qed.

(** C97: the same for every slot of a static trampoline table mapped at [torg]. *)
Theorem C97_static_closure :
  forall e fl org torg i X V M f abi closure cif fn ud m0 m1,
  la_fl fl -> code_addr LA org -> org + 4 * zlen (closure_text LA fl) <= 2 ^ 64 -> wide V ->
  X (SP LA) = f + FRAME_LEN fl -> 0 <= f -> f + FRAME_LEN fl < 2 ^ 64 -> 0 <= X (FP LA) < 2 ^ 64 -> code_addr LA (X (RA LA)) ->
  0 <= cif < 2 ^ 64 -> 0 <= fn < 2 ^ 64 -> 0 <= ud < 2 ^ 64 ->
  0 <= closure -> closure + 48 <= 2 ^ 64 -> f + FRAME_LEN fl <= closure \/ closure + 48 <= f ->
  0 <= torg -> torg + 131072 < 2 ^ 64 -> 0 <= i < 4096 ->
  let parm := torg + 65536 + 16 * i in
  closure + 48 <= parm \/ parm + 16 <= closure ->
  prep_closure_loc LA org (Some parm) abi closure cif fn ud m0 = (FFI_OK, m1) ->
  (forall x, parm <= x < parm + 16 \/ closure + 24 <= x < closure + 48 -> M x = m1 x) ->
  exists s X1 M1,
    reach LA e static_table torg (St X V (torg + 16 * i) M) s /\ reach LA e (closure_text LA fl) org s (St X1 V e M1) /\
    serves e fl (closure_text LA fl) org f cif fn ud X V M X1 M1.
Proof. exact static_top. Qed.
Print Assumptions C97_static_closure.

Example C97_hypotheses_met :
  exists m1, 16384 + 4 * zlen (closure_text LA 8) <= 2 ^ 64 /\ code_addr LA 16384 /\ wide c_v /\
    c_x (SP LA) = 65536 + FRAME_LEN 8 /\ 32768 + 48 <= 65536 /\
    prep_closure_loc LA 16384 (Some (131072 + 65536 + 16 * 5)) 1 32768 512 1024 2048 (fun _ => 0) = (FFI_OK, m1) /\
    le_dec (rd m1 (131072 + 65536 + 80) 8) = 32768 /\ le_dec (rd m1 (131072 + 65536 + 88) 8) = 16384.
Proof. exact static_sample. Qed.

(** C98: the same for Go closures, called through their first word with their address in t2. *)
Theorem C98_go_closure :
  forall e fl org X V M f abi closure cif fn m0 m1,
  la_fl fl -> code_addr LA org -> org + 4 * zlen (go_text LA fl) <= 2 ^ 64 -> wide V ->
  X (SP LA) = f + FRAME_LEN fl -> 0 <= f -> f + FRAME_LEN fl < 2 ^ 64 -> 0 <= X (FP LA) < 2 ^ 64 -> code_addr LA (X (RA LA)) ->
  0 <= cif < 2 ^ 64 -> 0 <= fn < 2 ^ 64 ->
  0 <= closure -> closure + 24 <= 2 ^ 64 -> f + FRAME_LEN fl <= closure \/ closure + 24 <= f ->
  prep_go_closure LA org abi closure cif fn m0 = (FFI_OK, m1) ->
  (forall x, closure <= x < closure + 24 -> M x = m1 x) -> X (T2 LA) = closure ->
  exists X1 M1,
    reach LA e (go_text LA fl) org (St X V (le_dec (rd M closure 8)) M) (St X1 V e M1) /\
    serves e fl (go_text LA fl) org f cif fn closure X V M X1 M1.
Proof. exact go_top. Qed.
Print Assumptions C98_go_closure.

Example C98_hypotheses_met :
  exists m1, 16384 + 4 * zlen (go_text LA 0) <= 2 ^ 64 /\ code_addr LA 16384 /\ wide c_v /\
    c_x (SP LA) = 65600 + FRAME_LEN 0 /\ c_x (T2 LA) = 32768 /\
    prep_go_closure LA 16384 1 32768 512 1024 (fun _ => 0) = (FFI_OK, m1) /\
    le_dec (rd m1 32768 8) = 16384 /\ le_dec (rd m1 (32768 + 8) 8) = 512 /\ le_dec (rd m1 (32768 + 16) 8) = 1024.
Proof. exact go_sample. Qed.

(** C99, in part: the function is entered with a stack pointer that is a multiple of 16, and after
    ffi_call_asm has returned it is one exactly if cif->bytes is a multiple of 16.  Missing: that it
    always is, which is false (below). *)
Theorem C99_stack_pointer_partial :
  forall e fl fixed rt ts rv base org X V M,
  let c := prep fixed rt ts in
  la_fl fl -> 0 < ty_size rt < 2 ^ 31 -> (16 | base) -> 0 <= base -> base + alloc_size fl c rv < 2 ^ 64 -> 0 <= k_bytes c ->
  0 <= org -> org + 4 * zlen (call_text LA fl) <= 2 ^ 64 -> (forall x, byte_ok (M x)) ->
  X (AR LA 0) = base -> X (AR LA 1) = base + ctx_at c rv -> 0 <= X (FP LA) < 2 ^ 64 -> code_addr LA (X (RA LA)) -> code_addr LA (X (AR LA 2)) ->
  exists X1 V1 M1,
    reach LA e (call_text LA fl) org (St X V org M) (St X1 V1 (X (AR LA 2)) M1) /\ (16 | X1 (SP LA)) /\
    forall X2 V2 M2,
      (forall i, saved LA i = true -> X2 i = X1 i) -> wide V2 ->
      (forall x, X (AR LA 1) + 8 * fl + 64 <= x < X (AR LA 1) + FRAME_LEN fl -> M2 x = M1 x) ->
      exists X3 M3,
        reach LA e (call_text LA fl) org (St X2 V2 (X1 (RA LA)) M2) (St X3 V2 (X (RA LA)) M3) /\
        ((16 | X3 (SP LA)) <-> (16 | k_bytes c)).
Proof. exact stack_exact. Qed.
Print Assumptions C99_stack_pointer_partial.

(** cif->bytes of the sample above, and of a function of two longs. *)
Example C99_hypotheses_met :
  k_bytes z_cif = 56 /\ k_bytes (prep None ty_sint32 [ty_sint64; ty_sint64]) = 16 /\ alloc_size 8 (prep None ty_sint32 [ty_sint64; ty_sint64]) None = 160 /\
  code_addr LA (z_x (RA LA)) /\ code_addr LA (z_x (AR LA 2)) /\ 16384 + 4 * zlen (call_text LA 8) <= 2 ^ 64.
Proof.
  split; [vm_compute; reflexivity|]. split; [vm_compute; reflexivity|]. split; [vm_compute; reflexivity|].
  split; [split; [vm_compute; split; congruence|discriminate]|]. split; [split; [vm_compute; split; congruence|discriminate]|]. vm_compute. discriminate.
Qed.

(** C99 is false in general: after the call of the sample the stack pointer of ffi_call_int is
    not a multiple of 16. *)
Theorem C99_stack_pointer_refuted :
  exists e m X V M X1 V1 M1,
    let ctx := 65536 + ctx_at z_cif None in
    (16 | 65536) /\ zlen z_blk = alloc_size 8 z_cif None /\
    call 8 z_cif None (x_objs z_args) z16 0 65536 z_blk (le_enc 8 (X (FP LA)) ++ le_enc 8 (X (RA LA))) = Ok (m, None, false) /\
    (forall p n d, s_read m p n = Some d -> rd M p (Z.to_nat n) = d) /\
    X (AR LA 0) = 65536 /\ X (AR LA 1) = ctx /\
    reach LA e (call_text LA 8) 16384 (St X V 16384 M) (St X1 V1 (X (AR LA 2)) M1) /\ (16 | X1 (SP LA)) /\
    forall X2 V2 M2,
      (forall i, saved LA i = true -> X2 i = X1 i) -> wide V2 ->
      (forall x, ctx + 8 * 8 + 64 <= x < ctx + FRAME_LEN 8 -> M2 x = M1 x) ->
      exists X3 M3,
        reach LA e (call_text LA 8) 16384 (St X2 V2 (X1 (RA LA)) M2) (St X3 V2 (X (RA LA)) M3) /\ ~ (16 | X3 (SP LA)).
Proof. exact stack_misaligned. Qed.
Print Assumptions C99_stack_pointer_refuted.
