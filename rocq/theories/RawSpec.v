(** What the raw forms are, independently of the code that builds them. *)
From Coq Require Import Znumtheory.
From Verif Require Import Base Types Win64Model RawModel.

(** The configurations of the targets: words of four or eight bytes, pointers no wider
    than words, Java words as wide as words or, with four byte pointers, four bytes. *)
Definition cfg_ok (g : rawcfg) : Prop :=
  (rc_arg g = 4 \/ rc_arg g = 8) /\ (rc_ptr g = 4 \/ rc_ptr g = 8) /\ rc_ptr g <= rc_arg g /\
  (rc_java g = rc_arg g \/ rc_java g = 4 /\ rc_ptr g = 4).

(** Sizes of argument types. *)
Definition arg_type (g : rawcfg) (t : ftype) : Prop :=
  match ty_code t with
  | T_VOID => False
  | T_UINT8 | T_SINT8 => ty_size t = 1
  | T_UINT16 | T_SINT16 => ty_size t = 2
  | T_UINT32 | T_SINT32 | T_FLOAT => ty_size t = 4
  | T_UINT64 | T_SINT64 | T_DOUBLE => ty_size t = 8
  | T_POINTER => ty_size t = rc_ptr g
  | _ => 0 < ty_size t
  end.

(** Smallest number of whole words holding [n] bytes. *)
Definition words (arg n : Z) : Z := (n + arg - 1) / arg.

(** Bytes an argument takes in a raw block: structs and complex numbers are passed by
    reference, all others in as many words as they need. *)
Definition slot_bytes (g : rawcfg) (t : ftype) : Z :=
  match ty_code t with
  | T_STRUCT | T_COMPLEX => rc_arg g
  | _ => rc_arg g * words (rc_arg g) (ty_size t)
  end.

(** The number an integer object of a type holds. *)
Definition int_value (be : bool) (c : tcode) (d : list Z) : Z :=
  match c with
  | T_SINT8 | T_SINT16 | T_SINT32 => to_signed (8 * zlen d) (dec be d)
  | _ => dec be d
  end.

(** Integers of at most 32 bits are widened to the word. *)
Definition widened (c : tcode) : bool :=
  match c with
  | T_UINT8 | T_SINT8 | T_UINT16 | T_SINT16 | T_UINT32 | T_SINT32 => true
  | _ => false
  end.

(** At [off] the block has argument [t] with value [v], found at address [p]. *)
Definition raw_holds (g : rawcfg) (raw : list Z) (t : ftype) (off p : Z) (v : list Z) : Prop :=
  match ty_code t with
  | T_STRUCT | T_COMPLEX => get_range raw off (rc_ptr g) = Some (enc (rc_be g) (rc_ptr g) p)
  | c =>
    if widened c then get_range raw off (rc_arg g) = Some (enc (rc_be g) (rc_arg g) (int_value (rc_be g) c v))
    else get_range raw off (ty_size t) = Some v
  end.

(** An argument object: bytes at an address of the target. *)
Definition arg_object (g : rawcfg) (m : mem) (t : ftype) (p : Z) (v : list Z) : Prop :=
  0 <= p < 2 ^ (8 * rc_ptr g) /\ mread m p (ty_size t) = Some v /\ bytes_ok v.

(** Argument pointers [args] to objects with values [vs]. *)
Fixpoint args_at (g : rawcfg) (m : mem) (ts : list ftype) (args : list Z) (vs : list (list Z)) : Prop :=
  match ts, args, vs with
  | [], [], [] => True
  | t :: ts, p :: ps, v :: vs => arg_object g m t p v /\ args_at g m ts ps vs
  | _, _, _ => False
  end.

(** The raw form of the arguments: one after the other from byte [off] on. *)
Fixpoint raw_form (g : rawcfg) (raw : list Z) (ts : list ftype) (off : Z) (args : list Z) (vs : list (list Z)) : Prop :=
  match ts, args, vs with
  | [], [], [] => True
  | t :: ts, p :: ps, v :: vs => raw_holds g raw t off p v /\ raw_form g raw ts (off + slot_bytes g t) ps vs
  | _, _, _ => False
  end.

(** Reading the arguments through pointers gives the values. *)
Fixpoint reads_back (raw : list Z) (m : mem) (ts : list ftype) (ps : list rptr) (vs : list (list Z)) : Prop :=
  match ts, ps, vs with
  | [], [], [] => True
  | t :: ts, p :: ps, v :: vs => read_rptr raw m p (ty_size t) = Some v /\ reads_back raw m ts ps vs
  | _, _, _ => False
  end.

(** Either pointers are as wide as words, or the target is big-endian, or the argument
    takes a word at most. *)
Definition advance_agrees (g : rawcfg) (t : ftype) : Prop :=
  rc_be g = true \/ rc_ptr g = rc_arg g \/ ty_size t <= rc_ptr g \/ ty_code t = T_STRUCT \/ ty_code t = T_COMPLEX.

(** All sizes are representable. *)
Fixpoint total_size (g : rawcfg) (ts : list ftype) : Z :=
  match ts with
  | [] => 0
  | t :: rest => rc_arg g * (words (rc_arg g) (ty_size t) + 1) + total_size g rest
  end.
Definition sizes_small (g : rawcfg) (ts : list ftype) : Prop := total_size g ts < 2 ^ (8 * rc_ptr g).

(** Types a Java method can have (boolean, byte, char, short, int, long, float, double,
    references, and the unsigned variants). *)
Definition java_type (g : rawcfg) (t : ftype) : Prop :=
  arg_type g t /\
  match ty_code t with
  | T_INT | T_LONGDOUBLE | T_STRUCT | T_COMPLEX => False
  | _ => True
  end.

(** Java words an argument takes: longs and doubles take two. *)
Definition java_words (t : ftype) : Z :=
  match ty_code t with T_UINT64 | T_SINT64 | T_DOUBLE => 2 | _ => 1 end.

(** Bytes of a Java raw block. *)
Fixpoint java_total (ts : list ftype) : Z :=
  match ts with [] => 0 | t :: rest => java_words t + java_total rest end.

(** At [off] the Java block has the argument: the value in the first 32 bits of its word
    on big-endian targets, in the whole word on little-endian ones. *)
Definition java_holds (g : rawcfg) (raw : list Z) (t : ftype) (off : Z) (v : list Z) : Prop :=
  if widened (ty_code t) then
    let n := if rc_be g then 4 else rc_java g in
    get_range raw off n = Some (enc (rc_be g) n (int_value (rc_be g) (ty_code t) v))
  else get_range raw off (ty_size t) = Some v.

Fixpoint java_form (g : rawcfg) (raw : list Z) (ts : list ftype) (off : Z) (vs : list (list Z)) : Prop :=
  match ts, vs with
  | [], [] => True
  | t :: ts, v :: vs => java_holds g raw t off v /\ java_form g raw ts (off + rc_java g * java_words t) vs
  | _, _ => False
  end.

Fixpoint java_reads_back (raw : list Z) (ts : list ftype) (ps : list Z) (vs : list (list Z)) : Prop :=
  match ts, ps, vs with
  | [], [], [] => True
  | t :: ts, p :: ps, v :: vs => get_range raw p (ty_size t) = Some v /\ java_reads_back raw ts ps vs
  | _, _, _ => False
  end.

(** A 64-bit result word as ffi_call leaves it for a type: integers widened according to
    their signedness. *)
Definition widened_result (rt : ftype) (v : Z) : Prop :=
  match ty_code rt with
  | T_UINT8 | T_UINT16 | T_UINT32 => 0 <= v < 2 ^ (8 * ty_size rt)
  | T_SINT8 | T_SINT16 | T_SINT32 =>
    exists x, - 2 ^ (8 * ty_size rt - 1) <= x < 2 ^ (8 * ty_size rt - 1) /\ v = x mod 2 ^ 64
  | _ => 0 <= v < 2 ^ 64
  end.
