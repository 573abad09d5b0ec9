(** src/x86/ffi64.c and src/x86/unix64.S: the System V x86-64 backend (LP64). *)
From Verif Require Import Base Types.

(** src/x86/ffi64.c:86-99  enum x86_64_reg_class. *)
Inductive rclass : Type :=
| NO_CLASS | INTEGER_CLASS | INTEGERSI_CLASS | SSE_CLASS | SSESF_CLASS | SSEDF_CLASS
| SSEUP_CLASS | X87_CLASS | X87UP_CLASS | COMPLEX_X87_CLASS | MEMORY_CLASS.

(** Numeric values of the enumeration, for [==] and [>=] (src/x86/ffi64.c:86-99). *)
Definition rclass_num (c : rclass) : Z :=
  match c with
  | NO_CLASS => 0 | INTEGER_CLASS => 1 | INTEGERSI_CLASS => 2 | SSE_CLASS => 3
  | SSESF_CLASS => 4 | SSEDF_CLASS => 5 | SSEUP_CLASS => 6 | X87_CLASS => 7
  | X87UP_CLASS => 8 | COMPLEX_X87_CLASS => 9 | MEMORY_CLASS => 10
  end.
(** C [==] on classes (as src/x86/ffi64.c:112-116). *)
Definition rclass_eqb (a b : rclass) : bool := rclass_num a =? rclass_num b.

(** src/x86/ffi64.c:103  SSE_CLASS_P. *)
Definition sse_class_p (c : rclass) : bool := (3 <=? rclass_num c) && (rclass_num c <=? 6).

(** src/x86/ffi64.c:101  MAX_CLASSES. *)
Definition MAX_CLASSES : Z := 4.

(** src/x86/ffi64.c:112-150  merge_classes. *)
Definition merge_classes (c1 c2 : rclass) : rclass :=
  if rclass_eqb c1 c2 then c1
  else if rclass_eqb c1 NO_CLASS then c2
  else if rclass_eqb c2 NO_CLASS then c1
  else if rclass_eqb c1 MEMORY_CLASS || rclass_eqb c2 MEMORY_CLASS then MEMORY_CLASS
  else if (rclass_eqb c1 INTEGERSI_CLASS && rclass_eqb c2 SSESF_CLASS)
       || (rclass_eqb c2 INTEGERSI_CLASS && rclass_eqb c1 SSESF_CLASS) then INTEGERSI_CLASS
  else if rclass_eqb c1 INTEGER_CLASS || rclass_eqb c1 INTEGERSI_CLASS
       || rclass_eqb c2 INTEGER_CLASS || rclass_eqb c2 INTEGERSI_CLASS then INTEGER_CLASS
  else if rclass_eqb c1 X87_CLASS || rclass_eqb c1 X87UP_CLASS || rclass_eqb c1 COMPLEX_X87_CLASS
       || rclass_eqb c2 X87_CLASS || rclass_eqb c2 X87UP_CLASS || rclass_eqb c2 COMPLEX_X87_CLASS
  then MEMORY_CLASS
  else SSE_CLASS.

(** src/x86/ffi64.c:206-211  case FFI_TYPE_FLOAT. *)
Definition classify_float (off : Z) : list rclass :=
  if off mod 8 =? 0 then [SSESF_CLASS] else [SSE_CLASS].

(** src/x86/ffi64.c:175-205  label do_integer; [total] = byte_offset + type size.
    Past 16 bytes the FFI_ASSERT is empty and control falls through to the float case. *)
Definition classify_integer (total off : Z) : list rclass :=
  if total <=? 4 then [INTEGERSI_CLASS]
  else if total <=? 8 then [INTEGER_CLASS]
  else if total <=? 12 then [INTEGER_CLASS; INTEGERSI_CLASS]
  else if total <=? 16 then [INTEGER_CLASS; INTEGER_CLASS]
  else classify_float off.

(** src/x86/ffi64.c:256-262  merging the classes of a member into those of the
    struct from word [pos] on; the loop stops at the end of either array. *)
Fixpoint merge_at (pos : nat) (sub cl : list rclass) : list rclass :=
  match pos, cl with
  | _, [] => []
  | S p, c :: r => c :: merge_at p sub r
  | O, c :: r =>
    match sub with
    | [] => c :: r
    | s :: sr => merge_classes s c :: merge_at O sr r
    end
  end.

(** src/x86/ffi64.c:268-280  structs of more than two words. *)
Definition big_in_memory (cl : list rclass) : bool :=
  match cl with
  | c :: r => negb (rclass_eqb c SSE_CLASS) || existsb (fun x => negb (rclass_eqb x SSEUP_CLASS)) r
  | [] => false
  end.

(** src/x86/ffi64.c:282-309  final merger cleanup from index [i] on, with the
    (already cleaned) previous class; [None] = return 0 (memory). *)
Fixpoint cleanup (i : nat) (prev : rclass) (cl : list rclass) : option (list rclass) :=
  match cl with
  | [] => Some []
  | c :: r =>
    if rclass_eqb c MEMORY_CLASS then None
    else
      let c1 := if (1 <? Z.of_nat i) && rclass_eqb c SSEUP_CLASS
                   && negb (rclass_eqb prev SSE_CLASS) && negb (rclass_eqb prev SSEUP_CLASS)
                then SSE_CLASS else c in
      if (1 <? Z.of_nat i) && rclass_eqb c1 X87UP_CLASS && negb (rclass_eqb prev X87_CLASS)
      then None
      else match cleanup (S i) c1 r with Some r' => Some (c1 :: r') | None => None end
  end.

(** src/x86/ffi64.c:160-345  classify_argument.  The result lists the classes
    written, [nil] is the return value 0 (pass in memory).  Writing more than
    MAX_CLASSES entries (the arrays of all callers have that size) is UB, so is reading
    the element of a complex type without elements.  [type->size + byte_offset] is
    computed exactly: past the test of line 236 it is at most 39. *)
Fixpoint classify (t : ftype) (off : Z) {struct t} : res (list rclass) :=
  match t with
  | FT code size _ es =>
    match code with
    | T_UINT8 | T_SINT8 | T_UINT16 | T_SINT16 | T_UINT32 | T_SINT32 | T_UINT64 | T_SINT64
    | T_POINTER => Ok (classify_integer (wrap64 (off + size)) off)
    | T_FLOAT => Ok (classify_float off)
    | T_DOUBLE => Ok [SSEDF_CLASS]
    | T_LONGDOUBLE => Ok [X87_CLASS; X87UP_CLASS]
    | T_VOID => Ok [NO_CLASS]
    | T_INT => Abort
    | T_STRUCT =>
      if size >? 32 then Ok []
      else
        let words := (size + off + 8 - 1) / 8 in
        if words >? MAX_CLASSES then UB
        else if words =? 0 then Ok [NO_CLASS]
        else
          let* r :=
            (fix fields (l : list ftype) (boff : Z) (cl : list rclass) : res (list rclass) :=
               match l with
               | [] => Ok cl
               | e :: rest =>
                 let b := ffi_align boff (ty_align e) in
                 let* sub := classify e (b mod 8) in
                 match sub with
                 | [] => Ok []
                 | _ => fields rest (wrap64 (b + ty_size e)) (merge_at (Z.to_nat (b / 8)) sub cl)
                 end
               end) es off (repeat NO_CLASS (Z.to_nat words)) in
          match r with
          | [] => Ok []
          | _ =>
            if (words >? 2) && big_in_memory r then Ok []
            else match cleanup 0 NO_CLASS r with Some r' => Ok r' | None => Ok [] end
          end
    | T_COMPLEX =>
      match es with
      | [] => UB
      | inner :: _ =>
        match ty_code inner with
        | T_INT | T_UINT8 | T_SINT8 | T_UINT16 | T_SINT16 | T_UINT32 | T_SINT32
        | T_UINT64 | T_SINT64 => Ok (classify_integer (wrap64 (off + size)) off)
        | T_FLOAT => if off mod 8 =? 0 then Ok [SSE_CLASS] else Ok [SSE_CLASS; SSESF_CLASS]
        | T_DOUBLE => Ok [SSEDF_CLASS; SSEDF_CLASS]
        | T_LONGDOUBLE => Ok [COMPLEX_X87_CLASS]
        | _ => Abort
        end
      end
    end
  end.

(** Result of examine_argument: pass in memory (return value 0); in registers (the
    classes, number of general and of vector registers); or the early return with value
    1 at lines 381-382, which happens only for return values and leaves the register
    counts unset (src/x86/ffi64.c:351-391). *)
Inductive exam : Type :=
| EMem
| ERegs (classes : list rclass) (ngpr nsse : Z)
| EX87 (classes : list rclass).

(** src/x86/ffi64.c:364-386  counting loop. *)
Fixpoint count_classes (in_return : bool) (all cl : list rclass) (ngpr nsse : Z) : res exam :=
  match cl with
  | [] => Ok (ERegs all ngpr nsse)
  | c :: r =>
    match c with
    | INTEGER_CLASS | INTEGERSI_CLASS => count_classes in_return all r (ngpr + 1) nsse
    | SSE_CLASS | SSESF_CLASS | SSEDF_CLASS => count_classes in_return all r ngpr (nsse + 1)
    | NO_CLASS | SSEUP_CLASS => count_classes in_return all r ngpr nsse
    | X87_CLASS | X87UP_CLASS | COMPLEX_X87_CLASS => Ok (if in_return then EX87 all else EMem)
    | MEMORY_CLASS => Abort
    end
  end.

(** src/x86/ffi64.c:351-391  examine_argument. *)
Definition examine (t : ftype) (in_return : bool) : res exam :=
  let* cl := classify t 0 in
  match cl with
  | [] => Ok EMem
  | _ => count_classes in_return cl cl 0 0
  end.

(** src/x86/internal64.h:1-22  UNIX64_RET_* and flag bits. *)
Definition RET_VOID := 0.
(** src/x86/internal64.h:2 UNIX64_RET_UINT8 *)
Definition RET_UINT8 := 1.
(** src/x86/internal64.h:3 UNIX64_RET_UINT16 *)
Definition RET_UINT16 := 2.
(** src/x86/internal64.h:4 UNIX64_RET_UINT32 *)
Definition RET_UINT32 := 3.
(** src/x86/internal64.h:5 UNIX64_RET_SINT8 *)
Definition RET_SINT8 := 4.
(** src/x86/internal64.h:6 UNIX64_RET_SINT16 *)
Definition RET_SINT16 := 5.
(** src/x86/internal64.h:7 UNIX64_RET_SINT32 *)
Definition RET_SINT32 := 6.
(** src/x86/internal64.h:8 UNIX64_RET_INT64 *)
Definition RET_INT64 := 7.
(** src/x86/internal64.h:9 UNIX64_RET_XMM32 *)
Definition RET_XMM32 := 8.
(** src/x86/internal64.h:10 UNIX64_RET_XMM64 *)
Definition RET_XMM64 := 9.
(** src/x86/internal64.h:11 UNIX64_RET_X87 *)
Definition RET_X87 := 10.
(** src/x86/internal64.h:12 UNIX64_RET_X87_2 *)
Definition RET_X87_2 := 11.
(** src/x86/internal64.h:13 UNIX64_RET_ST_XMM0_RAX *)
Definition RET_ST_XMM0_RAX := 12.
(** src/x86/internal64.h:14 UNIX64_RET_ST_RAX_XMM0 *)
Definition RET_ST_RAX_XMM0 := 13.
(** src/x86/internal64.h:15 UNIX64_RET_ST_XMM0_XMM1 *)
Definition RET_ST_XMM0_XMM1 := 14.
(** src/x86/internal64.h:16 UNIX64_RET_ST_RAX_RDX *)
Definition RET_ST_RAX_RDX := 15.
(** src/x86/internal64.h:20 UNIX64_FLAG_RET_IN_MEM *)
Definition FLAG_RET_IN_MEM := 2 ^ 10.
(** src/x86/internal64.h:21 UNIX64_FLAG_XMM_ARGS *)
Definition FLAG_XMM_ARGS := 2 ^ 11.
(** src/x86/internal64.h:22 UNIX64_SIZE_SHIFT *)
Definition SIZE_SHIFT := 12.

(** src/x86/ffitarget.h:94-104  ABI numbers of the 64-bit Unix build. *)
Definition FFI_UNIX64 := 2.
(** src/x86/ffitarget.h:98 *)
Definition FFI_WIN64 := 3.
(** src/x86/ffitarget.h:100 *)
Definition FFI_GNUW64 := 4.

(** include/ffi.h.in:239-249  ffi_cif over the immutable view of types. *)
Record tcif : Type := TCif {
  c_abi : Z;
  c_args : list ftype;
  c_rtype : ftype;
  c_bytes : Z;
  c_flags : Z
}.

(** src/x86/ffi64.c:417-521  return flags and number of general registers taken by
    the hidden pointer; [None] = FFI_BAD_TYPEDEF. *)
Definition ret_flags (rt : ftype) : res (option (Z * Z)) :=
  let size := ty_size rt in
  match ty_code rt with
  | T_VOID => Ok (Some (RET_VOID, 0))
  | T_UINT8 => Ok (Some (RET_UINT8, 0))
  | T_SINT8 => Ok (Some (RET_SINT8, 0))
  | T_UINT16 => Ok (Some (RET_UINT16, 0))
  | T_SINT16 => Ok (Some (RET_SINT16, 0))
  | T_UINT32 => Ok (Some (RET_UINT32, 0))
  | T_INT | T_SINT32 => Ok (Some (RET_SINT32, 0))
  | T_UINT64 | T_SINT64 => Ok (Some (RET_INT64, 0))
  | T_POINTER => Ok (Some (RET_INT64, 0))
  | T_FLOAT => Ok (Some (RET_XMM32, 0))
  | T_DOUBLE => Ok (Some (RET_XMM64, 0))
  | T_LONGDOUBLE => Ok (Some (RET_X87, 0))
  | T_STRUCT =>
    let* e := examine rt true in
    match e with
    | EMem => Ok (Some (Z.lor RET_VOID FLAG_RET_IN_MEM, 1))
    | ERegs cl _ _ | EX87 cl =>
      (* n = 1 for the early return, else the number of classes *)
      let n := match e with EX87 _ => 1 | _ => zlen cl end in
      let sse0 := match cl with c :: _ => sse_class_p c | [] => false end in
      if (size =? 4) && sse0 then Ok (Some (RET_XMM32, 0))
      else if size =? 8 then Ok (Some (if sse0 then RET_XMM64 else RET_INT64, 0))
      else
        let sse1 := (n =? 2) && match cl with _ :: c :: _ => sse_class_p c | _ => false end in
        let f := if sse0 && sse1 then RET_ST_XMM0_XMM1
                 else if sse0 then RET_ST_XMM0_RAX
                 else if sse1 then RET_ST_RAX_XMM0
                 else RET_ST_RAX_RDX in
        Ok (Some (wrap32 (Z.lor f (Z.shiftl size SIZE_SHIFT)), 0))
    end
  | T_COMPLEX =>
    match ty_elems rt with
    | [] => UB
    | inner :: _ =>
      match ty_code inner with
      | T_UINT8 | T_SINT8 | T_UINT16 | T_SINT16 | T_INT | T_UINT32 | T_SINT32
      | T_UINT64 | T_SINT64 =>
        Ok (Some (wrap32 (Z.lor RET_ST_RAX_RDX (Z.shiftl (wrap32 size) SIZE_SHIFT)), 0))
      | T_FLOAT => Ok (Some (RET_XMM64, 0))
      | T_DOUBLE => Ok (Some (Z.lor RET_ST_XMM0_XMM1 (Z.shiftl 16 SIZE_SHIFT), 0))
      | T_LONGDOUBLE => Ok (Some (RET_X87_2, 0))
      | _ => Ok None
      end
    end
  end.

(** src/x86/ffi64.c:40-41. *)
Definition MAX_GPR := 6.
(** src/x86/ffi64.c:42 MAX_SSE_REGS *)
Definition MAX_SSE := 8.

(** Alignment of a stack argument (src/x86/ffi64.c:532-535, 609-613). *)
Definition stack_align (t : ftype) : Z := if ty_align t <? 8 then 8 else ty_align t.

(** src/x86/ffi64.c:526-549  the argument loop of ffi_prep_cif_machdep; yields the
    byte count and the number of vector registers. *)
Fixpoint machdep_args (args : list ftype) (gpr sse bytes : Z) : res (Z * Z) :=
  match args with
  | [] => Ok (bytes, sse)
  | t :: rest =>
    let* e := examine t false in
    match e with
    | ERegs _ ngpr nsse =>
      if (gpr + ngpr >? MAX_GPR) || (sse + nsse >? MAX_SSE)
      then machdep_args rest gpr sse (wrap64 (ffi_align bytes (stack_align t) + ty_size t))
      else machdep_args rest (gpr + ngpr) (sse + nsse) bytes
    | _ => machdep_args rest gpr sse (wrap64 (ffi_align bytes (stack_align t) + ty_size t))
    end
  end.

(** src/x86/ffi64.c:400-558  ffi_prep_cif_machdep for cif->abi other than EFI64 and
    GNUW64 (those are the Win64 model). *)
Definition machdep64 (c : tcif) : res (status * tcif) :=
  if negb (c_abi c =? FFI_UNIX64) then Ok (FFI_BAD_ABI, c)
  else
    let* r := ret_flags (c_rtype c) in
    match r with
    | None => Ok (FFI_BAD_TYPEDEF, c)
    | Some (flags, gpr) =>
      let* a := machdep_args (c_args c) gpr 0 0 in
      let '(bytes, sse) := a in
      let flags' := if sse =? 0 then flags else Z.lor flags FLAG_XMM_ARGS in
      Ok (FFI_OK, TCif (c_abi c) (c_args c) (c_rtype c) (wrap32 (ffi_align bytes 8)) flags')
    end.

(** src/x86/ffi64.c:63-70  struct register_args; general registers as 64-bit values,
    vector registers as 16 bytes each. *)
Record regs : Type := Regs {
  r_gpr : list Z;
  r_sse : list (list Z);
  r_rax : Z;
  r_r10 : Z
}.

(** Store to an array element; out of range is UB (as src/x86/ffi64.c:602, 647). *)
Definition upd {A} (l : list A) (i : Z) (v : A) : res (list A) :=
  of_option (set_range l i [v]).

(** src/x86/ffi64.c:634-650  value placed in a general register for the word of the
    argument starting at [a] (the bytes from there to the end of the argument object),
    [size] bytes remaining according to the type. *)
Definition gpr_value (code : tcode) (a : list Z) (size : Z) : res Z :=
  match code with
  | T_SINT8 => let* d := of_option (get_range a 0 1) in Ok (wrap64 (to_signed 8 (le_dec d)))
  | T_SINT16 => let* d := of_option (get_range a 0 2) in Ok (wrap64 (to_signed 16 (le_dec d)))
  | T_SINT32 => let* d := of_option (get_range a 0 4) in Ok (wrap64 (to_signed 32 (le_dec d)))
  | _ => let* d := of_option (get_range a 0 (if size <=? 8 then size else 8)) in Ok (le_dec d)
  end.

(** memcpy of [n] bytes into the low part of vector register [i] (lines 653-659)
    (src/x86/ffi64.c:653-667). *)
Definition sse_store (sse : list (list Z)) (i n : Z) (a : list Z) : res (list (list Z)) :=
  let* d := of_option (get_range a 0 n) in
  let* old := of_option (znth sse i) in
  let* new := of_option (set_range old 0 d) in
  upd sse i new.

(** src/x86/ffi64.c:619-664  an argument passed in registers.  [a] is the rest of the
    argument object, [size] the rest of the type's size (size_t, may wrap). *)
Fixpoint store_words (code : tcode) (cl : list rclass) (a : list Z) (size : Z)
  (gpr : list Z) (sse : list (list Z)) (gc sc : Z) : res (list Z * list (list Z) * Z * Z) :=
  match cl with
  | [] => Ok (gpr, sse, gc, sc)
  | c :: rest =>
    let next := skipn 8 a in
    let size' := wrap64 (size - 8) in
    match c with
    | NO_CLASS | SSEUP_CLASS => store_words code rest next size' gpr sse gc sc
    | INTEGER_CLASS | INTEGERSI_CLASS =>
      let* v := gpr_value code a size in
      let* gpr' := upd gpr gc v in
      store_words code rest next size' gpr' sse (gc + 1) sc
    | SSE_CLASS | SSEDF_CLASS =>
      let* sse' := sse_store sse sc 8 a in
      store_words code rest next size' gpr sse' gc (sc + 1)
    | SSESF_CLASS =>
      let* sse' := sse_store sse sc 4 a in
      store_words code rest next size' gpr sse' gc (sc + 1)
    | _ => Abort
    end
  end.

(** Memory being filled by ffi_call_int: registers, the stack area after the
    register block (cif->bytes plus 4 words), the counters and argp
    (src/x86/ffi64.c:63-71, 591-597). *)
Record fill : Type := Fill {
  f_gpr : list Z;
  f_sse : list (list Z);
  f_area : list Z;
  f_gc : Z;
  f_sc : Z;
  f_argp : Z
}.

(** src/x86/ffi64.c:598-666  the argument loop of ffi_call_int.  [base] is the
    address of the stack area, [avalue] the argument objects. *)
Fixpoint fill_args (base : Z) (args : list ftype) (avalue : list (list Z)) (f : fill) : res fill :=
  match args with
  | [] => Ok f
  | t :: rest =>
    match avalue with
    | [] => UB
    | obj :: objs =>
      let* e := examine t false in
      let in_memory :=
        let argp := ffi_align (f_argp f) (stack_align t) in
        let* d := of_option (get_range obj 0 (ty_size t)) in
        let* area := of_option (set_range (f_area f) (argp - base) d) in
        fill_args base rest objs
          (Fill (f_gpr f) (f_sse f) area (f_gc f) (f_sc f) (wrap64 (argp + ty_size t))) in
      match e with
      | ERegs cl ngpr nsse =>
        if (f_gc f + ngpr >? MAX_GPR) || (f_sc f + nsse >? MAX_SSE) then in_memory
        else
          let* r := store_words (ty_code t) cl obj (ty_size t) (f_gpr f) (f_sse f) (f_gc f) (f_sc f) in
          let '(gpr, sse, gc, sc) := r in
          fill_args base rest objs (Fill gpr sse (f_area f) gc sc (f_argp f))
      | _ => in_memory
      end
    end
  end.

(** Machine state seen by the called function: argument registers (vector registers as
    16 bytes), %rax, static chain %r10, and the memory above the return address, which
    starts at address [m_sp] (src/x86/unix64.S:77-113). *)
Record mstate : Type := MState {
  m_gpr : list Z;
  m_xmm : list (list Z);
  m_rax : Z;
  m_r10 : Z;
  m_sp : Z;
  m_stack : list Z
}.

(** Where the result goes: discard, the caller's buffer, or a temporary allocated by
    ffi_call_int (src/x86/ffi64.c:580-586). *)
Inductive rdest : Type := DNone | DUser | DTemp.

(** src/x86/ffi64.c:562-678  ffi_call_int up to and including the call instruction of
    ffi_call_unix64 (src/x86/unix64.S:62-112).
    [g_gpr g_sse g_rax g_area g_xmm]: initial content of the alloca'd memory and of the
    vector registers; [base]: address of the stack argument area; [rv]: the result
    pointer or [None] for NULL; [tmp]: address of the temporary of line 583.
    The frame of ffi_call_unix64 overwrites the four words after cif->bytes with
    [frame].  Result: state at entry of the function, effective flags, effective result
    pointer. *)
Definition call64 (c : tcif) (rv : option Z) (tmp : Z) (avalue : list (list Z)) (closure : Z)
  (base : Z) (g_gpr : list Z) (g_sse : list (list Z)) (g_area : list Z) (g_xmm : list (list Z))
  (frame : list Z) : res (mstate * Z * option Z) :=
  let in_mem := negb (Z.land (c_flags c) FLAG_RET_IN_MEM =? 0) in
  let '(flags, rvalue) :=
    match rv with
    | Some p => (c_flags c, Some p)
    | None => if in_mem then (c_flags c, Some tmp) else (RET_VOID, None)
    end in
  let* gpr0 :=
    (if negb (Z.land flags FLAG_RET_IN_MEM =? 0)
     then upd g_gpr 0 (match rvalue with Some p => p | None => 0 end) else Ok g_gpr) in
  let gc0 := if negb (Z.land flags FLAG_RET_IN_MEM =? 0) then 1 else 0 in
  let* f := fill_args base (c_args c) avalue (Fill gpr0 g_sse g_area gc0 0 base) in
  let rax := f_sc f in
  let xmm := if wrap32 rax =? 0 then g_xmm else f_sse f in
  let* stack := of_option (set_range (f_area f) (c_bytes c) frame) in
  Ok (MState (f_gpr f) xmm (wrap32 rax) closure base stack, flags, rvalue).

(** ** Closures *)

(** What an entry of the avalue array points to: an offset in the frame of the
    closure entry code, an address on the caller's stack, or a 16 byte temporary
    (src/x86/ffi64.c:863-890). *)
Inductive aptr : Type :=
| AFrame (off : Z)
| AStack (addr : Z)
| ACopy (bytes : list Z).

(** src/x86/ffi64.c:882-896  gathering the words of an argument that is not in
    consecutive registers, from word [j] on; [frame] is the saved register block,
    [tmp] the 16 byte temporary. *)
Fixpoint gather (frame : list Z) (cl : list rclass) (j gc sc : Z) (tmp : list Z)
  : res (list Z * Z * Z) :=
  match cl with
  | [] => Ok (tmp, gc, sc)
  | c :: rest =>
    if sse_class_p c then
      let* d := of_option (get_range frame (48 + 16 * sc) 8) in
      let* tmp' := of_option (set_range tmp (8 * j) d) in
      gather frame rest (j + 1) gc (sc + 1) tmp'
    else
      let* d := of_option (get_range frame (8 * gc) 8) in
      let* tmp' := of_option (set_range tmp (8 * j) d) in
      gather frame rest (j + 1) (gc + 1) sc tmp'
  end.

(** src/x86/ffi64.c:844-898  the argument loop of ffi_closure_unix64_inner.
    [g_tmp]: initial content of the temporaries. *)
Fixpoint closure_args (frame g_tmp : list Z) (args : list ftype) (gc sc argp : Z) : res (list aptr) :=
  match args with
  | [] => Ok []
  | t :: rest =>
    let* e := examine t false in
    let in_memory :=
      let a := ffi_align argp (stack_align t) in
      let* l := closure_args frame g_tmp rest gc sc (wrap64 (a + ty_size t)) in
      Ok (AStack a :: l) in
    match e with
    | ERegs cl ngpr nsse =>
      if (gc + ngpr >? MAX_GPR) || (sc + nsse >? MAX_SSE) then in_memory
      else
        let n := zlen cl in
        let sse0 := match cl with c :: _ => sse_class_p c | [] => false end in
        let sse1 := match cl with _ :: c :: _ => sse_class_p c | _ => false end in
        if (n =? 1) || ((n =? 2) && negb (sse0 || sse1)) then
          if sse0 then
            let* l := closure_args frame g_tmp rest gc (sc + n) argp in Ok (AFrame (48 + 16 * sc) :: l)
          else
            let* l := closure_args frame g_tmp rest (gc + n) sc argp in Ok (AFrame (8 * gc) :: l)
        else
          let* g := gather frame cl 0 gc sc g_tmp in
          let '(tmp, gc', sc') := g in
          let* l := closure_args frame g_tmp rest gc' sc' argp in
          Ok (ACopy tmp :: l)
    | _ => in_memory
    end
  end.

(** src/x86/ffi64.c:780-783, 796-803, 930-932  the entry point chosen when the closure
    is prepared: does it save the vector registers? *)
Definition saves_vectors (c : tcif) : bool := negb (Z.land (c_flags c) FLAG_XMM_ARGS =? 0).

(** src/x86/unix64.S:251-300 (and the go/alt variants 402-520)  the saved register
    block: 6 general registers, 8 vector registers (uninitialised [g_sse] when the
    entry point does not save them). *)
Definition closure_frame (c : tcif) (m : mstate) (g_sse : list (list Z)) : list Z :=
  concat (map (le_enc 8) (m_gpr m)) ++
  concat (if saves_vectors c then m_xmm m else g_sse).

(** Result pointer given to the handler: the 32 byte slot of the closure frame or the
    caller's memory (src/x86/ffi64.c:832-841). *)
Inductive rptr : Type := RSlot | RCaller (addr : Z).

(** src/x86/ffi64.c:815-906  ffi_closure_unix64_inner up to the call of the handler:
    argument pointers, result pointer, and the flags it will return. *)
Definition closure64 (c : tcif) (m : mstate) (g_sse : list (list Z)) (g_tmp : list Z)
  : res (list aptr * rptr * Z) :=
  let frame := closure_frame c m g_sse in
  if negb (Z.land (c_flags c) FLAG_RET_IN_MEM =? 0) then
    let* r := of_option (znth (m_gpr m) 0) in
    let* l := closure_args frame g_tmp (c_args c) 1 0 (m_sp m) in
    Ok (l, RCaller r, RET_INT64)
  else
    let* l := closure_args frame g_tmp (c_args c) 0 0 (m_sp m) in
    Ok (l, RSlot, c_flags c).

(** src/x86/ffi64.c:832-839  the result slot when the handler starts: a result returned
    in memory leaves the caller's pointer there, to be loaded into %rax on return. *)
Definition closure_slot (r : rptr) (slot : list Z) : res (list Z) :=
  match r with
  | RSlot => Ok slot
  | RCaller p => of_option (set_range slot 0 (le_enc 8 p))
  end.

(** What the handler reads through an argument pointer (src/x86/ffi64.c:863-902). *)
Definition read_aptr (frame : list Z) (m : mstate) (p : aptr) (n : Z) : option (list Z) :=
  match p with
  | AFrame off => get_range frame off n
  | AStack a => get_range (m_stack m) (a - m_sp m) n
  | ACopy b => get_range b 0 n
  end.

(** ** Return values *)

(** Registers that carry return values; the x87 registers as their 10 byte images
    (src/x86/unix64.S:123-230). *)
Record rstate : Type := RState {
  rs_rax : Z;
  rs_rdx : Z;
  rs_xmm0 : list Z;
  rs_xmm1 : list Z;
  rs_st0 : list Z;
  rs_st1 : list Z
}.

(** Instruction effects used by the two return tables (src/x86/unix64.S:140-170). *)
Definition zext (n x : Z) : Z := x mod 2 ^ n.
(** Sign extension to 64 bits (src/x86/unix64.S:155, 160, 165). *)
Definition sext (n x : Z) : Z := wrap64 (to_signed n x).
(** Sign extension to 32 bits (src/x86/unix64.S:343, 347). *)
Definition sext32 (n x : Z) : Z := wrap32 (to_signed n x).

(** src/x86/unix64.S:113-214  storing the result after the call; [buf] is the memory
    at raddr.  Stores outside it are UB, jump table indices above UNIX64_RET_LAST
    abort.  Struct results go through 16 bytes of scratch and [flags >> 12] bytes are
    copied. *)
Definition store_ret (flags : Z) (r : rstate) (buf : list Z) : res (list Z) :=
  let code := flags mod 256 in
  let st (d : list Z) := of_option (set_range buf 0 d) in
  let via (scratch : list Z) :=
    let* d := of_option (get_range scratch 0 (Z.shiftr (wrap32 flags) SIZE_SHIFT)) in st d in
  let lo (x : list Z) (n : nat) := firstn n x in
  if code =? RET_VOID then Ok buf
  else if code =? RET_UINT8 then st (le_enc 8 (zext 8 (rs_rax r)))
  else if code =? RET_UINT16 then st (le_enc 8 (zext 16 (rs_rax r)))
  else if code =? RET_UINT32 then st (le_enc 8 (zext 32 (rs_rax r)))
  else if code =? RET_SINT8 then st (le_enc 8 (sext 8 (rs_rax r)))
  else if code =? RET_SINT16 then st (le_enc 8 (sext 16 (rs_rax r)))
  else if code =? RET_SINT32 then st (le_enc 8 (sext 32 (rs_rax r)))
  else if code =? RET_INT64 then st (le_enc 8 (rs_rax r))
  else if code =? RET_XMM32 then st (lo (rs_xmm0 r) 4%nat)
  else if code =? RET_XMM64 then st (lo (rs_xmm0 r) 8%nat)
  else if code =? RET_X87 then st (rs_st0 r)
  else if code =? RET_X87_2 then
    let* b := st (rs_st0 r) in of_option (set_range b 16 (rs_st1 r))
  else if code =? RET_ST_XMM0_RAX then via (lo (rs_xmm0 r) 8%nat ++ le_enc 8 (rs_rax r))
  else if code =? RET_ST_RAX_XMM0 then via (le_enc 8 (rs_rax r) ++ lo (rs_xmm0 r) 8%nat)
  else if code =? RET_ST_XMM0_XMM1 then via (lo (rs_xmm0 r) 8%nat ++ lo (rs_xmm1 r) 8%nat)
  else if code =? RET_ST_RAX_RDX then via (le_enc 8 (rs_rax r) ++ le_enc 8 (rs_rdx r))
  else Abort.

(** src/x86/unix64.S:301-395  loading the result after the handler; [slot] is the 32
    byte result slot, [r] the registers before.  Moves to a vector register zero its
    upper part; 32-bit moves zero the upper half of %rax. *)
Definition load_ret (flags : Z) (slot : list Z) (r : rstate) : res rstate :=
  let code := flags mod 256 in
  let rd (off n : Z) (k : list Z -> rstate) :=
    let* d := of_option (get_range slot off n) in Ok (k d) in
  let rax (v : Z) := RState v (rs_rdx r) (rs_xmm0 r) (rs_xmm1 r) (rs_st0 r) (rs_st1 r) in
  let xmm (d : list Z) := d ++ repeat 0 (16 - length d) in
  if code =? RET_VOID then Ok r
  else if code =? RET_UINT8 then rd 0 1 (fun d => rax (zext 8 (le_dec d)))
  else if code =? RET_UINT16 then rd 0 2 (fun d => rax (zext 16 (le_dec d)))
  else if code =? RET_UINT32 then rd 0 4 (fun d => rax (zext 32 (le_dec d)))
  else if code =? RET_SINT8 then rd 0 1 (fun d => rax (sext32 8 (le_dec d)))
  else if code =? RET_SINT16 then rd 0 2 (fun d => rax (sext32 16 (le_dec d)))
  else if code =? RET_SINT32 then rd 0 4 (fun d => rax (zext 32 (le_dec d)))
  else if code =? RET_INT64 then rd 0 8 (fun d => rax (le_dec d))
  else if code =? RET_XMM32 then
    rd 0 4 (fun d => RState (rs_rax r) (rs_rdx r) (xmm d) (rs_xmm1 r) (rs_st0 r) (rs_st1 r))
  else if code =? RET_XMM64 then
    rd 0 8 (fun d => RState (rs_rax r) (rs_rdx r) (xmm d) (rs_xmm1 r) (rs_st0 r) (rs_st1 r))
  else if code =? RET_X87 then
    rd 0 10 (fun d => RState (rs_rax r) (rs_rdx r) (rs_xmm0 r) (rs_xmm1 r) d (rs_st0 r))
  else if code =? RET_X87_2 then
    let* d1 := of_option (get_range slot 16 10) in
    rd 0 10 (fun d => RState (rs_rax r) (rs_rdx r) (rs_xmm0 r) (rs_xmm1 r) d d1)
  else
    let* hi := of_option (get_range slot 8 8) in
    let* lo := of_option (get_range slot 0 8) in
    if code =? RET_ST_XMM0_RAX then
      Ok (RState (le_dec hi) (rs_rdx r) (xmm lo) (rs_xmm1 r) (rs_st0 r) (rs_st1 r))
    else if code =? RET_ST_RAX_XMM0 then
      Ok (RState (le_dec lo) (rs_rdx r) (xmm hi) (rs_xmm1 r) (rs_st0 r) (rs_st1 r))
    else if code =? RET_ST_XMM0_XMM1 then
      Ok (RState (rs_rax r) (rs_rdx r) (xmm lo) (xmm hi) (rs_st0 r) (rs_st1 r))
    else if code =? RET_ST_RAX_RDX then
      Ok (RState (le_dec lo) (le_dec hi) (rs_xmm0 r) (rs_xmm1 r) (rs_st0 r) (rs_st1 r))
    else Abort.
