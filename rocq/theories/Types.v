(** Type codes, statuses, and the immutable tree view of type descriptions. *)
From Verif Require Import Base.

(** include/ffi.h.in:60-79  FFI_TYPE_* codes (HAVE_LONG_DOUBLE = 1, so LONGDOUBLE
    is distinct from DOUBLE). *)
Inductive tcode : Type :=
| T_VOID | T_INT | T_FLOAT | T_DOUBLE | T_LONGDOUBLE
| T_UINT8 | T_SINT8 | T_UINT16 | T_SINT16 | T_UINT32 | T_SINT32 | T_UINT64 | T_SINT64
| T_STRUCT | T_POINTER | T_COMPLEX.

(** include/ffi.h.in:60-79  numeric values of the codes. *)
Definition tcode_num (c : tcode) : Z :=
  match c with
  | T_VOID => 0 | T_INT => 1 | T_FLOAT => 2 | T_DOUBLE => 3 | T_LONGDOUBLE => 4
  | T_UINT8 => 5 | T_SINT8 => 6 | T_UINT16 => 7 | T_SINT16 => 8
  | T_UINT32 => 9 | T_SINT32 => 10 | T_UINT64 => 11 | T_SINT64 => 12
  | T_STRUCT => 13 | T_POINTER => 14 | T_COMPLEX => 15
  end.

(** Decidable equality of codes (C [==] on the type field) (as src/prep_cif.c:146, 155). *)
Definition tcode_eqb (a b : tcode) : bool := tcode_num a =? tcode_num b.

(** include/ffi.h.in:232-237  ffi_status. *)
Inductive status : Type := FFI_OK | FFI_BAD_TYPEDEF | FFI_BAD_ABI | FFI_BAD_ARGTYPE.

(** include/ffi.h.in:129-135  ffi_type, as an immutable tree: code, size,
    alignment, elements (a NULL [elements] pointer and an empty array are both
    [nil] here; the mutable heap of type objects in TypeHeapModel distinguishes
    them).  The machine-dependent code of libffi only reads type descriptions, so
    it is modelled on this view. *)
Inductive ftype : Type :=
| FT (code : tcode) (size align : Z) (elems : list ftype).

(** include/ffi.h.in:133 type *)
Definition ty_code (t : ftype) : tcode := match t with FT c _ _ _ => c end.
(** include/ffi.h.in:131 size *)
Definition ty_size (t : ftype) : Z := match t with FT _ s _ _ => s end.
(** include/ffi.h.in:132 alignment *)
Definition ty_align (t : ftype) : Z := match t with FT _ _ a _ => a end.
(** include/ffi.h.in:134 elements *)
Definition ty_elems (t : ftype) : list ftype := match t with FT _ _ _ e => e end.

(** src/types.c:36-76  FFI_TYPEDEF of the integer types: size = alignment (the
    64-bit ones on 32-bit x86 are given separately). *)
Definition ty_uint8 := FT T_UINT8 1 1 [].
(** src/types.c:70 *)
Definition ty_sint8 := FT T_SINT8 1 1 [].
(** src/types.c:71 *)
Definition ty_uint16 := FT T_UINT16 2 2 [].
(** src/types.c:72 *)
Definition ty_sint16 := FT T_SINT16 2 2 [].
(** src/types.c:73 *)
Definition ty_uint32 := FT T_UINT32 4 4 [].
(** src/types.c:74 *)
Definition ty_sint32 := FT T_SINT32 4 4 [].
(** src/types.c:75 *)
Definition ty_uint64 := FT T_UINT64 8 8 [].
(** src/types.c:76 *)
Definition ty_sint64 := FT T_SINT64 8 8 [].
(** src/types.c:78-81  pointer, float, double on LP64 targets. *)
Definition ty_pointer := FT T_POINTER 8 8 [].
(** src/types.c:80 *)
Definition ty_float := FT T_FLOAT 4 4 [].
(** src/types.c:81 *)
Definition ty_double := FT T_DOUBLE 8 8 [].
(** src/types.c:99  long double on x86-64, AArch64, RISC-V 64 (16 bytes). *)
Definition ty_longdouble := FT T_LONGDOUBLE 16 16 [].
(** src/types.c:65-67  void has fake size and alignment 1. *)
Definition ty_void := FT T_VOID 1 1 [].
(** src/types.c:48-62,103-105  complex types. *)
Definition ty_complex_float := FT T_COMPLEX 8 4 [ty_float].
(** src/types.c:104 *)
Definition ty_complex_double := FT T_COMPLEX 16 8 [ty_double].
(** src/types.c:105 *)
Definition ty_complex_longdouble := FT T_COMPLEX 32 16 [ty_longdouble].

(** Induction principle with hypotheses on the elements (trees of include/ffi.h.in:129-135). *)
Fixpoint ftype_ind' (P : ftype -> Prop)
  (H : forall c s a es, Forall P es -> P (FT c s a es)) (t : ftype) : P t :=
  match t with
  | FT c s a es =>
    H c s a es
      ((fix go (l : list ftype) : Forall P l :=
          match l with
          | [] => Forall_nil P
          | x :: r => Forall_cons x (ftype_ind' P H x) (go r)
          end) es)
  end.
