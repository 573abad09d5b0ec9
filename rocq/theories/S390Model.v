(** src/s390/ffi.c: the backend for 64-bit z/Architecture (__s390x__), big-endian; the parts for
    31-bit ESA/390 are left out.  long double is the 16-byte type there
    (FFI_TYPE_LONGDOUBLE != FFI_TYPE_DOUBLE). *)
From Verif Require Import Base Types ByteMem.
Local Open Scope Z_scope.

(** Big-endian store of the low [n] bytes of [x] (stores of src/s390/ffi.c:363, 375, 411). *)
Definition be_enc (n : nat) (x : Z) : list Z := rev (le_enc n x).
(** Big-endian load of an unsigned value (loads of src/s390/ffi.c:389-418). *)
Definition be_dec (l : list Z) : Z := le_dec (rev l).

(** src/s390/internal.h:2 FFI390_RET_DOUBLE *)
Definition Z_DOUBLE := 0.
(** src/s390/internal.h:3 FFI390_RET_FLOAT *)
Definition Z_FLOAT := 1.
(** src/s390/internal.h:4 FFI390_RET_INT64 *)
Definition Z_INT64 := 2.
(** src/s390/internal.h:6 FFI390_RET_VOID *)
Definition Z_VOID := 4.
(** src/s390/internal.h:9, 11 FFI390_RET_STRUCT: FFI390_RET_VOID and FFI390_RET_IN_MEM *)
Definition Z_STRUCT := 12.
(** flags & FFI390_RET_IN_MEM (src/s390/internal.h:9) *)
Definition in_mem (fl : Z) : bool := Z.testbit fl 3.

(** src/s390/ffi.c:45 MAX_GPRARGS *)
Definition MAX_GPR := 5.
(** src/s390/ffi.c:49 MAX_FPRARGS *)
Definition MAX_FPR := 4.
(** src/s390/ffi.c:55 ROUND_SIZE, on size_t *)
Definition round_size (s : Z) : Z := Z.land (wrap64 (s + 15)) (wrap64 (Z.lnot 15)).

(** src/s390/ffi.c:97-99 down to the only element *)
Fixpoint innermost (t : ftype) : ftype :=
  match t with FT T_STRUCT _ _ [e] => innermost e | _ => t end.
(** src/s390/ffi.c:90-129 ffi_check_struct_type *)
Definition check_struct (t : ftype) : tcode :=
  let c := ty_code (innermost t) in
  if ty_size t =? 1 then T_UINT8
  else if ty_size t =? 2 then T_UINT16
  else if ty_size t =? 4 then match c with T_FLOAT => T_FLOAT | _ => T_UINT32 end
  else if ty_size t =? 8 then match c with T_DOUBLE => T_DOUBLE | _ => T_UINT64 end
  else T_POINTER.

(** ** Preparing a cif *)

(** The fields of ffi_cif that matter (include/ffi.h.in:239-248). *)
Record zcif : Type := ZCif { tc_args : list ftype; tc_rt : ftype; tc_bytes : Z; tc_flags : Z }.

(** src/s390/ffi.c:154-209 the switch on the return type: flags and registers taken.  [None]:
    FFI_ASSERT (0). *)
Definition ret_flags (rt : ftype) : option (Z * Z) :=
  match ty_code rt with
  | T_VOID => Some (Z_VOID, 0)
  | T_STRUCT | T_COMPLEX | T_LONGDOUBLE => Some (Z_STRUCT, 1)
  | T_FLOAT => Some (Z_FLOAT, 0)
  | T_DOUBLE => Some (Z_DOUBLE, 0)
  | T_UINT64 | T_SINT64 | T_POINTER | T_INT | T_UINT32 | T_SINT32 | T_UINT16 | T_SINT16 | T_UINT8 | T_SINT8 =>
    Some (Z_INT64, 0)
  end.

(** n_gpr, n_fpr, n_ov and struct_size (src/s390/ffi.c:144-147). *)
Record counts : Type := Cnt { k_gpr : Z; k_fpr : Z; k_ov : Z; k_size : Z }.

(** src/s390/ffi.c:217-237 (also 537-558): the type an argument is passed as, and whether it is a
    copy passed by pointer *)
Definition passed_as (t : ftype) : tcode * bool :=
  match ty_code t with
  | T_STRUCT | T_LONGDOUBLE => match check_struct t with T_POINTER => (T_POINTER, true) | c => (c, false) end
  | T_COMPLEX => (T_POINTER, true)
  | c => (c, false)
  end.
(** src/s390/ffi.c:213-286 one argument *)
Definition count_arg (t : ftype) (k : counts) : counts :=
  let (c, ref) := passed_as t in
  let size := if ref then wrap64 (k_size k + round_size (ty_size t)) else k_size k in
  match c with
  | T_DOUBLE | T_FLOAT =>
    if k_fpr k <? MAX_FPR then Cnt (k_gpr k) (k_fpr k + 1) (k_ov k) size else Cnt (k_gpr k) (k_fpr k) (k_ov k + 1) size
  | _ =>
    if k_gpr k <? MAX_GPR then Cnt (k_gpr k + 1) (k_fpr k) (k_ov k) size else Cnt (k_gpr k) (k_fpr k) (k_ov k + 1) size
  end.
(** src/s390/ffi.c:141-294 ffi_prep_cif_machdep *)
Definition machdep (rt : ftype) (ts : list ftype) : res zcif :=
  match ret_flags rt with
  | None => Abort
  | Some (fl, g) =>
    let k := fold_left (fun k t => count_arg t k) ts (Cnt g 0 0 0) in
    Ok (ZCif ts rt (wrap32 (wrap64 (round_size (wrap64 (k_ov k * 8)) + k_size k))) fl)
  end.

(** ** ffi_call_int *)

(** Offsets in struct call_frame: gpr_args (src/s390/ffi.c:68). *)
Definition O_GPR := 16.
(** src/s390/ffi.c:70 fpr_args *)
Definition O_FPR := 128.
(** sizeof (struct call_frame), src/s390/ffi.c:64-71 *)
Definition FRAME := 160.

(** Memory, n_gpr, n_fpr, n_ov and p_struct (src/s390/ffi.c:315-319). *)
Record cst : Type := CSt { c_m : Z -> Z; n_gpr : Z; n_fpr : Z; n_ov : Z; p_struct : Z }.

(** src/s390/ffi.c:410-412 do_int *)
Definition do_int (stack frame val : Z) (s : cst) : cst :=
  if n_gpr s <? MAX_GPR
  then CSt (wr (c_m s) (frame + O_GPR + 8 * n_gpr s) (be_enc 8 val)) (n_gpr s + 1) (n_fpr s) (n_ov s) (p_struct s)
  else CSt (wr (c_m s) (stack + 8 * n_ov s) (be_enc 8 val)) (n_gpr s) (n_fpr s) (n_ov s + 1) (p_struct s).
(** src/s390/ffi.c:431-451: a word for a floating point register, or another one for the
    overflow area *)
Definition do_fp (stack frame reg ov : Z) (s : cst) : cst :=
  if n_fpr s <? MAX_FPR
  then CSt (wr (c_m s) (frame + O_FPR + 8 * n_fpr s) (be_enc 8 reg)) (n_gpr s) (n_fpr s + 1) (n_ov s) (p_struct s)
  else CSt (wr (c_m s) (stack + 8 * n_ov s) (be_enc 8 ov)) (n_gpr s) (n_fpr s) (n_ov s + 1) (p_struct s).
(** src/s390/ffi.c:467-470 a copy passed by reference *)
Definition do_ref (stack frame : Z) (t : ftype) (arg : Z) (s : cst) : cst :=
  let p := wrap64 (p_struct s - round_size (ty_size t)) in
  do_int stack frame p (CSt (wr (c_m s) p (rd (c_m s) arg (Z.to_nat (ty_size t)))) (n_gpr s) (n_fpr s) (n_ov s) p).
(** src/s390/ffi.c:386-451 the cases of the switch below restart that do not depend on ty.
    [Abort]: FFI_ASSERT (0). *)
Definition do_scalar (stack frame : Z) (c : tcode) (arg : Z) (s : cst) : res cst :=
  let u n := be_dec (rd (c_m s) arg n) in
  let int v := Ok (do_int stack frame (wrap64 v) s) in
  match c with
  | T_SINT8 => int (to_signed 8 (u 1%nat))
  | T_UINT8 => int (u 1%nat)
  | T_SINT16 => int (to_signed 16 (u 2%nat))
  | T_UINT16 => int (u 2%nat)
  | T_INT | T_SINT32 => int (to_signed 32 (u 4%nat))
  | T_UINT32 => int (u 4%nat)
  | T_POINTER | T_UINT64 | T_SINT64 => int (u 8%nat)
  | T_DOUBLE => Ok (do_fp stack frame (u 8%nat) (u 8%nat) s)
  | T_FLOAT => Ok (do_fp stack frame (wrap64 (Z.shiftl (u 4%nat) 32)) (u 4%nat) s)
  | _ => Abort
  end.
(** src/s390/ffi.c:380-476 one argument *)
Definition call_arg (stack frame : Z) (t : ftype) (arg : Z) (s : cst) : res cst :=
  match ty_code t with
  | T_STRUCT => match check_struct t with T_POINTER => Ok (do_ref stack frame t arg s) | c => do_scalar stack frame c arg s end
  | T_LONGDOUBLE | T_COMPLEX => Ok (do_ref stack frame t arg s)
  | c => do_scalar stack frame c arg s
  end.
(** src/s390/ffi.c:379-476 the loop over the arguments *)
Fixpoint call_args (stack frame : Z) (ts : list ftype) (args : list Z) (s : cst) : res cst :=
  match ts, args with
  | [], _ => Ok s
  | t :: ts', a :: as' => let* s' := call_arg stack frame t a s in call_args stack frame ts' as' s'
  | _ :: _, [] => UB
  end.
(** src/s390/ffi.c:306-479 ffi_call_int: [stack] is what alloca returns, [back] the frame address
    of this function; memory, frame and the second and third argument of ffi_call_SYSV.  The
    pointer 0 is NULL. *)
Definition call_int (c : zcif) (rv : Z) (args : list Z) (stack back : Z) (m : Z -> Z) : res ((Z -> Z) * Z * Z * Z) :=
  let mem := in_mem (tc_flags c) in
  let ret_type := if (rv =? 0) && negb mem then Z_VOID else tc_flags c in
  let rsize := if (rv =? 0) && mem then ty_size (tc_rt c) else 0 in
  let frame := stack + tc_bytes c in
  let rvalue := if rsize =? 0 then rv else frame + FRAME in
  let m1 := wr m frame (be_enc 8 back) in
  let s := if mem then CSt (wr m1 (frame + O_GPR) (be_enc 8 rvalue)) 1 0 0 frame else CSt m1 0 0 0 frame in
  let* s' := call_args stack frame (tc_args c) args s in
  Ok (c_m s', frame, Z.land ret_type 7, rvalue).

(** ** Closures *)

(** src/s390/ffi.c:560-633 where an argument lies: slot of the general area or the overflow area
    at [k] bytes from the end, or slot of the floating point area *)
Definition arg_slot (gpr fpr ov : Z) (c : tcode) (k : counts) : res (Z * counts) :=
  let g off :=
    if k_gpr k <? MAX_GPR then Ok (gpr + 8 * k_gpr k + off, Cnt (k_gpr k + 1) (k_fpr k) (k_ov k) 0)
    else Ok (ov + 8 * k_ov k + off, Cnt (k_gpr k) (k_fpr k) (k_ov k + 1) 0) in
  let f off :=
    if k_fpr k <? MAX_FPR then Ok (fpr + 8 * k_fpr k, Cnt (k_gpr k) (k_fpr k + 1) (k_ov k) 0)
    else Ok (ov + 8 * k_ov k + off, Cnt (k_gpr k) (k_fpr k) (k_ov k + 1) 0) in
  match c with
  | T_DOUBLE => f 0
  | T_FLOAT => f (8 - 4)
  | T_POINTER | T_UINT64 | T_SINT64 => g 0
  | T_INT | T_UINT32 | T_SINT32 => g (8 - 4)
  | T_UINT16 | T_SINT16 => g (8 - 2)
  | T_UINT8 | T_SINT8 => g (8 - 1)
  | _ => Abort
  end.
(** src/s390/ffi.c:535-639 the loop over the arguments: the entries of avalue *)
Fixpoint closure_args (gpr fpr ov : Z) (m : Z -> Z) (ts : list ftype) (k : counts) : res (list Z) :=
  match ts with
  | [] => Ok []
  | t :: r =>
    let (c, ref) := passed_as t in
    let* (p, k') := arg_slot gpr fpr ov c k in
    let* l := closure_args gpr fpr ov m r k' in
    Ok ((if ref then be_dec (rd m p 8) else p) :: l)
  end.
(** src/s390/ffi.c:512-639 of ffi_closure_helper_SYSV: rvalue ([buf] is the address of
    ret_buffer) and avalue *)
Definition closure_values (c : zcif) (gpr fpr ov buf : Z) (m : Z -> Z) : res (Z * list Z) :=
  let mem := in_mem (tc_flags c) in
  let rvalue := if mem then be_dec (rd m gpr 8) else buf in
  let* l := closure_args gpr fpr ov m (tc_args c) (Cnt (if mem then 1 else 0) 0 0 0) in
  Ok (rvalue, l).
(** src/s390/ffi.c:645-695 the result, after the handler *)
Definition closure_result (rt : ftype) (rvalue gpr fpr : Z) (m : Z -> Z) : res (Z -> Z) :=
  match ty_code rt with
  | T_VOID | T_STRUCT | T_COMPLEX | T_LONGDOUBLE => Ok m
  | T_FLOAT => Ok (wr m fpr (be_enc 8 (Z.shiftl (be_dec (rd m rvalue 4)) 32)))
  | T_DOUBLE => Ok (wr m fpr (be_enc 8 (be_dec (rd m rvalue 8))))
  | _ => Ok (wr m gpr (be_enc 8 (be_dec (rd m rvalue 8))))
  end.
(** src/s390/ffi.c:504-696 ffi_closure_helper_SYSV; [h] is the handler: what it does to memory,
    given rvalue and avalue *)
Definition closure_helper (c : zcif) (h : Z -> list Z -> (Z -> Z) -> Z -> Z) (gpr fpr ov buf : Z) (m : Z -> Z) : res (Z -> Z) :=
  let* (rvalue, avalue) := closure_values c gpr fpr ov buf m in
  closure_result (tc_rt c) rvalue gpr fpr (h rvalue avalue m).

(** src/s390/ffi.c:715-723 template, as bytes *)
Definition template : list Z := [13; 16; 235; 1; 16; 14; 0; 4; 7; 241].
(** src/s390/ffi.c:708-753 ffi_prep_closure_loc without a static trampoline; [entry] is the
    address of ffi_closure_SYSV, [seen] tells that the abi is FFI_SYSV.  [None]: FFI_BAD_ABI. *)
Definition prep_closure (seen : bool) (closure cif func data codeloc entry : Z) (m : Z -> Z) : option (Z -> Z) :=
  if seen then
    let m1 := wr m closure template in
    let m2 := wr m1 (closure + 16) (be_enc 8 codeloc) in
    let m3 := wr m2 (closure + 24) (be_enc 8 entry) in
    let m4 := wr m3 (closure + 32) (be_enc 8 cif) in
    let m5 := wr m4 (closure + 40) (be_enc 8 func) in
    Some (wr m5 (closure + 48) (be_enc 8 data))
  else None.
(** src/s390/ffi.c:727-738, 746-752 the same with a static trampoline whose parameter block
    (data, then code: src/tramp.c:110-114) is at [parms] *)
Definition prep_closure_static (seen : bool) (closure cif func data parms entry : Z) (m : Z -> Z) : option (Z -> Z) :=
  if seen then
    let m1 := wr (wr m parms (be_enc 8 closure)) (parms + 8) (be_enc 8 entry) in
    Some (wr (wr (wr m1 (closure + 32) (be_enc 8 cif)) (closure + 40) (be_enc 8 func)) (closure + 48) (be_enc 8 data))
  else None.
(** src/s390/ffi.c:759-771 ffi_prep_go_closure *)
Definition prep_go (seen : bool) (closure cif func entry : Z) (m : Z -> Z) : option (Z -> Z) :=
  if seen then Some (wr (wr (wr m closure (be_enc 8 entry)) (closure + 8) (be_enc 8 cif)) (closure + 16) (be_enc 8 func)) else None.
