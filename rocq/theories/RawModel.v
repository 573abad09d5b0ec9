(** src/raw_api.c and src/java_raw_api.c: the raw argument forms. *)
From Verif Require Import Base Types Win64Model.

(** The build configuration the two files depend on: WORDS_BIGENDIAN, the size of pointers,
    FFI_SIZEOF_ARG and FFI_SIZEOF_JAVA_RAW (include/ffi.h.in:253-287). *)
Record rawcfg : Type := RawCfg {
  rc_be : bool;
  rc_ptr : Z;
  rc_arg : Z;
  rc_java : Z
}.

(** Stores and loads of integer objects in the byte order of the target
    (src/raw_api.c:65-133 distinguishes the two). *)
Definition enc (be : bool) (n : Z) (x : Z) : list Z :=
  if be then rev (le_enc (Z.to_nat n) x) else le_enc (Z.to_nat n) x.
(** src/raw_api.c:65-133, loads. *)
Definition dec (be : bool) (d : list Z) : Z := if be then le_dec (rev d) else le_dec d.

(** Width of size_t (include/ffi_common.h:118 casts to it). *)
Definition rc_width (g : rawcfg) : Z := 8 * rc_ptr g.

(** src/raw_api.c:34-53  ffi_raw_size.  The loop counts down an int; more than 2^31
    arguments are not modelled. *)
Fixpoint raw_size (g : rawcfg) (ts : list ftype) (result : Z) : Z :=
  match ts with
  | [] => result
  | t :: rest =>
    raw_size g rest
      (wrap (rc_width g)
         (result +
          ffi_align_w (rc_width g)
            (if tcode_eqb (ty_code t) T_STRUCT then rc_ptr g else ty_size t) (rc_arg g)))
  end.

(** A pointer made by ffi_raw_to_ptrarray: into the raw block at a byte offset, or loaded
    from it (src/raw_api.c:56-135). *)
Inductive rptr : Type :=
| InRaw (off : Z)
| AtAddr (addr : Z).

(** src/raw_api.c:88-95, 113-121: [*args = (raw++)->ptr]. *)
Definition raw_deref (g : rawcfg) (raw : list Z) (off : Z) : res (rptr * Z) :=
  let* d := of_option (get_range raw off (rc_ptr g)) in
  Ok (AtAddr (dec (rc_be g) d), off + rc_arg g).

(** src/raw_api.c:56-135  one argument of ffi_raw_to_ptrarray; the new position of [raw]
    (a pointer to words of FFI_SIZEOF_ARG bytes) as a byte offset. *)
Definition raw_ptr (g : rawcfg) (t : ftype) (raw : list Z) (off : Z) : res (rptr * Z) :=
  let arg := rc_arg g in
  if rc_be g then
    match ty_code t with
    | T_UINT8 | T_SINT8 => Ok (InRaw (off + arg - 1), off + arg)
    | T_UINT16 | T_SINT16 => Ok (InRaw (off + arg - 2), off + arg)
    | T_UINT32 | T_SINT32 => Ok (InRaw (off + arg - 4), off + arg)
    | T_STRUCT | T_COMPLEX => raw_deref g raw off
    | T_POINTER => Ok (InRaw off, off + arg)
    | _ => Ok (InRaw off, off + ffi_align_w (rc_width g) (ty_size t) arg / arg * arg)
    end
  else
    match ty_code t with
    | T_STRUCT | T_COMPLEX => raw_deref g raw off
    | _ => Ok (InRaw off, off + ffi_align_w (rc_width g) (ty_size t) (rc_ptr g) / rc_ptr g * arg)
    end.

(** src/raw_api.c:56-135  ffi_raw_to_ptrarray, from position [off] on. *)
Fixpoint raw_to_ptrarray (g : rawcfg) (ts : list ftype) (raw : list Z) (off : Z) : res (list rptr) :=
  match ts with
  | [] => Ok []
  | t :: rest =>
    let* r := raw_ptr g t raw off in
    let '(p, off') := r in
    let* ps := raw_to_ptrarray g rest raw off' in
    Ok (p :: ps)
  end.

(** src/raw_api.c:137-192  one argument of ffi_ptrarray_to_raw: the bytes stored at
    [raw] and the number of bytes [raw] advances; [p] is the argument pointer. *)
Definition raw_word (g : rawcfg) (m : mem) (t : ftype) (p : Z) : res (list Z * Z) :=
  let be := rc_be g in
  let arg := rc_arg g in
  let uint (n : Z) := let* d := of_option (mread m p n) in Ok (enc be arg (dec be d), arg) in
  let sint (n : Z) := let* d := of_option (mread m p n) in Ok (enc be arg (to_signed (8 * n) (dec be d)), arg) in
  match ty_code t with
  | T_UINT8 => uint 1
  | T_SINT8 => sint 1
  | T_UINT16 => uint 2
  | T_SINT16 => sint 2
  | T_UINT32 => uint 4
  | T_SINT32 => sint 4
  | T_STRUCT | T_COMPLEX => Ok (enc be (rc_ptr g) p, arg)
  | T_POINTER =>
    let* d := of_option (mread m p (rc_ptr g)) in Ok (enc be (rc_ptr g) (dec be d), arg)
  | _ =>
    let* d := of_option (mread m p (ty_size t)) in
    Ok (d, ffi_align_w (rc_width g) (ty_size t) arg / arg * arg)
  end.

(** src/raw_api.c:137-192  ffi_ptrarray_to_raw, from position [off] on; a store outside
    the raw block is UB. *)
Fixpoint ptrarray_to_raw (g : rawcfg) (m : mem) (ts : list ftype) (args : list Z) (raw : list Z) (off : Z)
  : res (list Z) :=
  match ts with
  | [] => Ok raw
  | t :: rest =>
    match args with
    | [] => UB
    | p :: ps =>
      let* w := raw_word g m t p in
      let '(d, adv) := w in
      let* raw' := of_option (set_range raw off d) in
      ptrarray_to_raw g m rest ps raw' (off + adv)
    end
  end.

(** What is read through a pointer made by ffi_raw_to_ptrarray (the argument loop of
    ffi_call, called at src/raw_api.c:208). *)
Definition read_rptr (raw : list Z) (m : mem) (p : rptr) (n : Z) : option (list Z) :=
  match p with
  | InRaw o => get_range raw o n
  | AtAddr a => mread m a n
  end.

(** ** Java variant *)

(** src/java_raw_api.c:44-72  ffi_java_raw_size. *)
Fixpoint java_size (g : rawcfg) (ts : list ftype) (result : Z) : res Z :=
  match ts with
  | [] => Ok result
  | t :: rest =>
    match ty_code t with
    | T_UINT64 | T_SINT64 | T_DOUBLE => java_size g rest (wrap (rc_width g) (result + 2 * rc_java g))
    | T_STRUCT | T_COMPLEX => Abort
    | _ => java_size g rest (wrap (rc_width g) (result + rc_java g))
    end
  end.

(** src/java_raw_api.c:75-154  one argument of ffi_java_raw_to_ptrarray: offset of the
    pointer into the raw block and the new position. *)
Definition java_ptr (g : rawcfg) (t : ftype) (off : Z) : res (Z * Z) :=
  let j := rc_java g in
  let default := Ok (off, off + ffi_align_w (rc_width g) (ty_size t) j / j * j) in
  if rc_be g then
    match ty_code t with
    | T_UINT8 | T_SINT8 => Ok (off + 3, off + j)
    | T_UINT16 | T_SINT16 => Ok (off + 2, off + j)
    | T_UINT64 | T_SINT64 | T_DOUBLE => if j =? 8 then Ok (off, off + 2 * j) else default
    | T_POINTER => Ok (off, off + j)
    | T_COMPLEX => Abort
    | _ => default
    end
  else if j =? 8 then
    match ty_code t with
    | T_UINT64 | T_SINT64 | T_DOUBLE => Ok (off, off + 2 * j)
    | T_COMPLEX => Abort
    | _ => Ok (off, off + j)
    end
  else default.

(** src/java_raw_api.c:75-154  ffi_java_raw_to_ptrarray. *)
Fixpoint java_to_ptrarray (g : rawcfg) (ts : list ftype) (off : Z) : res (list Z) :=
  match ts with
  | [] => Ok []
  | t :: rest =>
    let* r := java_ptr g t off in
    let '(p, off') := r in
    let* ps := java_to_ptrarray g rest off' in
    Ok (p :: ps)
  end.

(** src/java_raw_api.c:156-241  one argument of ffi_java_ptrarray_to_raw.  With 64-bit
    Java words an uncovered type fails an assertion that is empty in non-debug builds
    (line 233): nothing is stored and [raw] stays. *)
Definition java_word (g : rawcfg) (m : mem) (t : ftype) (p : Z) : res (list Z * Z) :=
  let be := rc_be g in
  let j := rc_java g in
  let n32 := if be then 4 else j in
  let uint (n : Z) := let* d := of_option (mread m p n) in Ok (enc be n32 (dec be d), j) in
  let sint (n : Z) := let* d := of_option (mread m p n) in Ok (enc be n32 (to_signed (8 * n) (dec be d)), j) in
  let default :=
    if j =? 8 then Ok ([], 0)
    else
      let* d := of_option (mread m p (ty_size t)) in
      Ok (d, ffi_align_w (rc_width g) (ty_size t) j / j * j) in
  match ty_code t with
  | T_UINT8 => uint 1
  | T_SINT8 => sint 1
  | T_UINT16 => uint 2
  | T_SINT16 => sint 2
  | T_UINT32 => uint 4
  | T_SINT32 => sint 4
  | T_FLOAT => let* d := of_option (mread m p 4) in Ok (d, j)
  | T_UINT64 | T_SINT64 | T_DOUBLE =>
    if j =? 8 then let* d := of_option (mread m p 8) in Ok (enc be 8 (dec be d), 2 * j)
    else default
  | T_POINTER =>
    let* d := of_option (mread m p (rc_ptr g)) in Ok (enc be (rc_ptr g) (dec be d), j)
  | _ => default
  end.

(** src/java_raw_api.c:156-241  ffi_java_ptrarray_to_raw. *)
Fixpoint java_to_raw (g : rawcfg) (m : mem) (ts : list ftype) (args : list Z) (raw : list Z) (off : Z)
  : res (list Z) :=
  match ts with
  | [] => Ok raw
  | t :: rest =>
    match args with
    | [] => UB
    | p :: ps =>
      let* w := java_word g m t p in
      let '(d, adv) := w in
      let* raw' := of_option (set_range raw off d) in
      java_to_raw g m rest ps raw' (off + adv)
    end
  end.

(** src/java_raw_api.c:245-275  ffi_java_rvalue_to_raw on the 64-bit word at rvalue.  The
    left shift of a negative value (lines 260-265) is taken to wrap. *)
Definition java_rvalue_to_raw (g : rawcfg) (rt : ftype) (v : Z) : res Z :=
  if rc_be g && (rc_arg g =? 8) then
    match ty_code rt with
    | T_UINT8 | T_UINT16 | T_UINT32 => Ok (wrap64 (v * 2 ^ 32))
    | T_SINT8 | T_SINT16 | T_SINT32 | T_INT => Ok (wrap64 (to_signed 64 v * 2 ^ 32))
    | T_POINTER => if rc_java g =? 4 then Ok (wrap64 (to_signed 64 v * 2 ^ 32)) else Ok v
    | T_COMPLEX => Abort
    | _ => Ok v
    end
  else Ok v.

(** src/java_raw_api.c:277-304  ffi_java_raw_to_rvalue. *)
Definition java_raw_to_rvalue (g : rawcfg) (rt : ftype) (v : Z) : res Z :=
  if rc_be g && (rc_arg g =? 8) then
    match ty_code rt with
    | T_UINT8 | T_UINT16 | T_UINT32 => Ok (v / 2 ^ 32)
    | T_SINT8 | T_SINT16 | T_SINT32 | T_INT => Ok (wrap64 (to_signed 64 v / 2 ^ 32))
    | T_COMPLEX => Abort
    | _ => Ok v
    end
  else Ok v.
