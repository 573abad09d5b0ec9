(** ffi_call_int of src/x86/ffi64.c up to the call of ffi_call_unix64, as the bytes it leaves
    in the block that becomes the stack of ffi_call_unix64. *)
From Verif Require Import Base Types Unix64Model.
Local Open Scope Z_scope.

(** src/x86/ffi64.c:63-70  struct register_args followed by the argument area. *)
Definition block_bytes (gpr : list Z) (sse : list (list Z)) (rax r10 : Z) (area : list Z) : list Z :=
  concat (map (le_enc 8) gpr) ++ concat sse ++ le_enc 8 rax ++ le_enc 8 r10 ++ area.

(** src/x86/ffi64.c:63-70  sizeof (struct register_args). *)
Definition REGS_SIZE : Z := 192.

(** src/x86/ffi64.c:562-678  ffi_call_int up to the call of ffi_call_unix64: the block, the
    flags and the result pointer it passes on.  [base] is the address of the argument area,
    [g_gpr g_sse g_area] are the contents of the alloca'd memory before, [rv] is the result
    pointer or [None] for NULL, [tmp] the address of the temporary of line 583. *)
Definition call_int (c : tcif) (rv : option Z) (tmp : Z) (avalue : list (list Z)) (closure : Z)
  (base : Z) (g_gpr : list Z) (g_sse : list (list Z)) (g_area : list Z) : res (list Z * Z * option Z) :=
  let in_mem := negb (Z.land (c_flags c) FLAG_RET_IN_MEM =? 0) in
  let '(flags, rvalue) :=
    match rv with
    | Some p => (c_flags c, Some p)
    | None => if in_mem then (c_flags c, Some tmp) else (RET_VOID, None)
    end in
  let* gpr0 :=
    (if negb (Z.land flags FLAG_RET_IN_MEM =? 0)
     then upd g_gpr 0 (match rvalue with Some p => p | None => 0 end) else Ok g_gpr) in
  let gc0 := if negb (Z.land flags FLAG_RET_IN_MEM =? 0) then 1 else 0 in
  let* f := fill_args base (c_args c) avalue (Fill gpr0 g_sse g_area gc0 0 base) in
  Ok (block_bytes (f_gpr f) (f_sse f) (f_sc f) closure (f_area f), flags, rvalue).
