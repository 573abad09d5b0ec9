(** Common vocabulary of all model files: outcomes of C code, machine words,
    byte lists, bounded memory areas, and the alignment macros. *)
From Coq Require Export List ZArith Lia Bool.
Export ListNotations.
Open Scope Z_scope.

(** Outcome of a piece of C code.  [UB] stands for undefined behaviour (access
    outside an object, use of a freed record, ...), [Abort] for a call of
    [abort()] or of a trapping instruction.  Not a piece of /repo; the two
    distinct error outcomes are ours
    (aborts: src/x86/ffi64.c:344, 384, 669, src/aarch64/ffi.c:376). *)
Inductive res (A : Type) : Type :=
| Ok (a : A)
| UB
| Abort.
Arguments Ok {A} a.
Arguments UB {A}.
Arguments Abort {A}.

(** Sequencing of C statements with outcomes (all functions of src/prep_cif.c:40-283 and others). *)
Definition bind {A B} (x : res A) (f : A -> res B) : res B :=
  match x with Ok a => f a | UB => UB | Abort => Abort end.
Notation "'let*' x ':=' e 'in' k" := (bind e (fun x => k))
  (at level 61, x pattern, e at next level, right associativity).

(** A possibly missing value; missing is undefined behaviour
    (array and object accesses, as src/x86/ffi64.c:621). *)
Definition of_option {A} (o : option A) : res A :=
  match o with Some a => Ok a | None => UB end.

(** Unsigned wrap-around of width [n] (C unsigned arithmetic) (as src/prep_cif.c:60-73, 185-238). *)
Definition wrap (n x : Z) : Z := x mod 2 ^ n.
(** Unsigned 64-bit arithmetic: size_t (src/prep_cif.c:60-73, include/ffi_common.h:118). *)
Definition wrap64 (x : Z) : Z := wrap 64 x.
(** Unsigned 32-bit arithmetic: unsigned bytes (src/prep_cif.c:186, include/ffi.h.in:244). *)
Definition wrap32 (x : Z) : Z := wrap 32 x.

(** Two's complement reading of the [n]-bit unsigned value [x]
    (C conversion to a signed type) (as src/x86/ffi64.c:647-653). *)
Definition to_signed (n x : Z) : Z :=
  if x mod 2 ^ n <? 2 ^ (n - 1) then x mod 2 ^ n else x mod 2 ^ n - 2 ^ n.

(** include/ffi_common.h:118  FFI_ALIGN(v,a) = ((((size_t)v)-1) | (a-1)) + 1,
    with [w] the width of size_t (64 on the 64-bit targets, 32 on i386).  [a] has
    type int or size_t in all uses; a-1 is converted to size_t before the [|]. *)
Definition ffi_align_w (w v a : Z) : Z :=
  wrap w (Z.lor (wrap w (v - 1)) (wrap w (a - 1)) + 1).
(** include/ffi_common.h:118 FFI_ALIGN with size_t of 64 bits *)
Definition ffi_align (v a : Z) : Z := ffi_align_w 64 v a.

(** include/ffi_common.h:120  FFI_ALIGN_DOWN(v,a) = ((size_t)v) & -a. *)
Definition ffi_align_down (v a : Z) : Z := Z.land (wrap64 v) (wrap64 (- a)).

(** Length of a list as an integer (nargs, include/ffi.h.in:241). *)
Definition zlen {A} (l : list A) : Z := Z.of_nat (length l).

(** Little-endian encoding of the low [n] bytes of [x] (store of an integer
    object on the little-endian targets x86, AArch64-LE, RISC-V) (as src/x86/ffi64.c:647). *)
Fixpoint le_enc (n : nat) (x : Z) : list Z :=
  match n with
  | O => []
  | S m => (x mod 256) :: le_enc m (x / 256)
  end.

(** Little-endian load: the unsigned value of a byte list (as src/x86/ffi64.c:656). *)
Fixpoint le_dec (l : list Z) : Z :=
  match l with
  | [] => 0
  | b :: r => b + 256 * le_dec r
  end.

(** Bytes are integers in 0..255 (memcpy, as src/x86/ffi64.c:621). *)
Definition byte_ok (b : Z) : Prop := 0 <= b < 256.
(** A memory object is a sequence of bytes (memcpy, src/x86/ffi64.c:621). *)
Definition bytes_ok (l : list Z) : Prop := Forall byte_ok l.

(** Reading [len] elements at offset [off] of an object; [None] when the access
    is not inside the object (memcpy from an object, as src/x86/ffi64.c:656). *)
Definition get_range {A} (m : list A) (off len : Z) : option (list A) :=
  if (0 <=? off) && (0 <=? len) && (off + len <=? zlen m)
  then Some (firstn (Z.to_nat len) (skipn (Z.to_nat off) m))
  else None.

(** Overwriting the elements at offset [off]; [None] when not inside
    (memcpy to an object, as src/x86/ffi64.c:621). *)
Definition set_range {A} (m : list A) (off : Z) (d : list A) : option (list A) :=
  if (0 <=? off) && (off + zlen d <=? zlen m)
  then Some (firstn (Z.to_nat off) m ++ d ++ skipn (Z.to_nat (off + zlen d)) m)
  else None.

(** Access of one array element, out of range = [None] (as src/prep_cif.c:186). *)
Definition znth {A} (l : list A) (i : Z) : option A :=
  if 0 <=? i then nth_error l (Z.to_nat i) else None.
