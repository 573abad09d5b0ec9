(** The 64-bit ELF ABI of z/Architecture ("ELF Application Binary Interface Supplement",
    parameter passing and return values), independent of the model. *)
From Verif Require Import Base Types LayoutSpec NaturalTypes.
Local Open Scope Z_scope.

(** 16-byte long double, aligned to 8 bytes. *)
Definition ty_quad : ftype := FT T_LONGDOUBLE 16 8 [].
(** The arithmetic types. *)
Definition numbers : list ftype := int_types ++ [ty_float; ty_double; ty_quad].
(** C types of the target: pointers, numbers, complex numbers, structs with the C layout. *)
Inductive ctype : ftype -> Prop :=
| ct_pointer : ctype ty_pointer
| ct_number : forall t, In t numbers -> ctype t
| ct_complex : forall t, In t numbers -> ctype (FT T_COMPLEX (2 * ty_size t) (ty_align t) [t])
| ct_struct : forall s a es offs,
    es <> [] -> Forall ctype es -> struct_layout (map lay es) offs s a -> ctype (FT T_STRUCT s a es).
(** Result types. *)
Definition rtype_ok (rt : ftype) : Prop := rt = ty_void \/ ctype rt.

(** ** Values as bytes *)

(** Big-endian value of a byte list. *)
Fixpoint value (l : list Z) : Z := match l with [] => 0 | b :: r => b * 2 ^ (8 * zlen r) + value r end.
(** The [n] bytes of a 64-bit word from the [i]th on; byte 0 is the most significant one. *)
Definition word_bytes (i n : nat) (w : Z) : list Z :=
  map (fun k => w / 2 ^ (8 * (7 - Z.of_nat k)) mod 256) (seq i n).

(** ** Classes *)

(** float and double, and structs whose only member is of such a type. *)
Fixpoint floating (t : ftype) : bool :=
  match t with
  | FT T_FLOAT _ _ _ | FT T_DOUBLE _ _ _ => true
  | FT T_STRUCT _ _ [e] => floating e
  | _ => false
  end.
(** Structs of 1, 2, 4 or 8 bytes are passed like integers; all other structs, long double and
    complex numbers by a pointer to a copy. *)
Definition by_ref (t : ftype) : bool :=
  match ty_code t with
  | T_LONGDOUBLE | T_COMPLEX => true
  | T_STRUCT => negb (existsb (Z.eqb (ty_size t)) [1; 2; 4; 8])
  | _ => false
  end.
(** Structs, long double and complex numbers are returned in memory whose address is passed as
    first integer argument. *)
Definition hidden (rt : ftype) : Z :=
  match ty_code rt with T_STRUCT | T_LONGDOUBLE | T_COMPLEX => 1 | _ => 0 end.

(** ** Where arguments are *)

(** A general register, a floating point register, an 8-byte slot of the parameter area. *)
Inductive loc : Type := LG (r : Z) | LF (r : Z) | LS (i : Z).
(** Number of list members with a property. *)
Definition count (f : ftype -> bool) (ts : list ftype) : Z := zlen (filter f ts).
(** Arguments that take up general and floating point registers, [h] for the result pointer. *)
Definition ints (h : Z) (ts : list ftype) : Z := h + count (fun t => negb (floating t)) ts.
Definition fps (ts : list ftype) : Z := count floating ts.
(** Slots used by arguments: those beyond the first five and the first four. *)
Definition slots (h : Z) (ts : list ftype) : Z := Z.max 0 (ints h ts - 5) + Z.max 0 (fps ts - 4).
(** The place of an argument after others: %r2 to %r6; %f0, %f2, %f4, %f6; parameter area. *)
Definition place (h : Z) (before : list ftype) (t : ftype) : loc :=
  if floating t
  then if fps before <? 4 then LF (2 * fps before) else LS (slots h before)
  else if ints h before <? 5 then LG (2 + ints h before) else LS (slots h before).

(** The 64-bit word in a place; the parameter area starts 160 bytes above the stack pointer. *)
Definition word (X F M : Z -> Z) (l : loc) : Z :=
  match l with LG r => X r | LF r => F r | LS i => value (map M (map (fun k => X 15 + 160 + 8 * i + Z.of_nat k) (seq 0 8))) end.

(** Integers are extended to 64 bits as their type says. *)
Definition extended (t : ftype) (v : list Z) : Z :=
  match ty_code t with
  | T_SINT8 | T_SINT16 | T_SINT32 | T_SINT64 => if value v <? 2 ^ (8 * ty_size t - 1) then value v else value v - 2 ^ (8 * ty_size t)
  | _ => value v
  end.
(** [n] bytes of memory. *)
Definition bytes_at (M : Z -> Z) (p n : Z) : list Z := map (fun k => M (p + Z.of_nat k)) (seq 0 (Z.to_nat n)).

(** The word [w] in place [l] stands for an argument of type [t] with bytes [v]:
    a pointer to them; the bytes, left-justified in a floating point register, right-justified in
    other places; or an extended integer. *)
Definition carries (M : Z -> Z) (t : ftype) (l : loc) (w : Z) (v : list Z) : Prop :=
  if by_ref t then bytes_at M w (ty_size t) = v
  else if floating t then
    match l with
    | LF _ => word_bytes 0 (Z.to_nat (ty_size t)) w = v
    | _ => word_bytes (Z.to_nat (8 - ty_size t)) (Z.to_nat (ty_size t)) w = v
    end
  else match ty_code t with
       | T_STRUCT => word_bytes (Z.to_nat (8 - ty_size t)) (Z.to_nat (ty_size t)) w = v
       | _ => w mod 2 ^ 64 = extended t v mod 2 ^ 64
       end.

(** All arguments are where they belong. *)
Definition passed (h : Z) (ts : list ftype) (vs : list (list Z)) (X F M : Z -> Z) : Prop :=
  forall i t v, nth_error ts i = Some t -> nth_error vs i = Some v ->
    carries M t (place h (firstn i ts) t) (word X F M (place h (firstn i ts) t)) v.

(** A value of a type is as many bytes as the type has. *)
Definition is_value (t : ftype) (v : list Z) : Prop := zlen v = ty_size t /\ Forall (fun b => 0 <= b < 256) v.

(** ** Results *)

(** The result [v] in registers as a function leaves it: floating point values in %f0, integers
    and pointers extended in %r2; none for void and results in memory. *)
Definition returned (rt : ftype) (v : list Z) (X F : Z -> Z) : Prop :=
  match ty_code rt with
  | T_VOID | T_STRUCT | T_LONGDOUBLE | T_COMPLEX => True
  | T_FLOAT | T_DOUBLE => word_bytes 0 (Z.to_nat (ty_size rt)) (F 0) = v
  | _ => X 2 mod 2 ^ 64 = extended rt v mod 2 ^ 64
  end.
(** What libffi promises to leave at the result pointer: floating point values as they are,
    integers and pointers as extended 64-bit integers (ffi_arg). *)
Definition stored (rt : ftype) (v : list Z) : list Z :=
  match ty_code rt with
  | T_VOID | T_STRUCT | T_LONGDOUBLE | T_COMPLEX => []
  | T_FLOAT | T_DOUBLE => v
  | _ => word_bytes 0 8 (extended rt v)
  end.

(** Registers a function has to preserve: %r6 to %r13, %r15, %f8 to %f15. *)
Definition saved_x (i : Z) : Prop := 6 <= i <= 13 \/ i = 15.
Definition saved_f (i : Z) : Prop := 8 <= i <= 15.

(** ** The caller's side *)

(** The objects at [args] hold the values [vs] of the types [ts]; none of them meets the bytes
    from [lo] to [hi]. *)
Fixpoint objects (M : Z -> Z) (lo hi : Z) (ts : list ftype) (args : list Z) (vs : list (list Z)) : Prop :=
  match ts, args, vs with
  | [], [], [] => True
  | t :: ts', a :: as', v :: vs' =>
    ctype t /\ is_value t v /\ bytes_at M a (ty_size t) = v /\ (a + ty_size t <= lo \/ hi <= a) /\ objects M lo hi ts' as' vs'
  | _, _, _ => False
  end.
(** Space for copies, in units of 16 bytes. *)
Fixpoint copies (ts : list ftype) : Z :=
  match ts with [] => 0 | t :: r => (if by_ref t then (ty_size t + 15) / 16 * 16 else 0) + copies r end.
(** Space for arguments that are not in registers and for copies. *)
Definition room (h : Z) (ts : list ftype) : Z := (8 * slots h ts + 15) / 16 * 16 + copies ts.
(** Memory and registers hold bytes and 64-bit words. *)
Definition bytes_in (M : Z -> Z) : Prop := forall x, 0 <= M x < 256.
Definition words_in (X : Z -> Z) : Prop := forall r, 0 <= X r < 2 ^ 64.
(** No object passed by reference meets the bytes from [lo] to [hi]. *)
Definition refs_outside (h : Z) (ts : list ftype) (X F M : Z -> Z) (lo hi : Z) : Prop :=
  forall i t, nth_error ts i = Some t -> by_ref t = true ->
    let w := word X F M (place h (firstn i ts) t) in w + ty_size t <= lo \/ hi <= w.
(** All of them are in the bytes from [lo] to [hi]. *)
Definition refs_within (h : Z) (ts : list ftype) (X F M : Z -> Z) (lo hi : Z) : Prop :=
  forall i t, nth_error ts i = Some t -> by_ref t = true ->
    let w := word X F M (place h (firstn i ts) t) in lo <= w /\ w + ty_size t <= hi.
