(** The procedure call standard for 64-bit ARM (AAPCS64) as far as argument and result
    passing is concerned, with the rules of Apple systems for stack arguments, written
    without reference to libffi's code. *)
From Verif Require Import Base Types LayoutSpec BaseFacts.

(** ** Homogeneous floating-point aggregates *)

(** Type codes of the scalar members of a type, in memory order; a complex number is a
    pair. *)
Fixpoint members (t : ftype) : list tcode :=
  match t with
  | FT T_STRUCT _ _ es =>
    (fix all (l : list ftype) : list tcode :=
       match l with [] => [] | e :: r => members e ++ all r end) es
  | FT T_COMPLEX _ _ (e :: _) => [ty_code e; ty_code e]
  | FT c _ _ _ => [c]
  end.

Definition floating (c : tcode) : bool :=
  match c with T_FLOAT | T_DOUBLE | T_LONGDOUBLE => true | _ => false end.

(** Bytes of a floating point number. *)
Definition fsize (c : tcode) : Z := match c with T_FLOAT => 4 | T_DOUBLE => 8 | _ => 16 end.

(** A floating scalar, or an aggregate of one to four floating members of the same type:
    the type and the number of the members. *)
Definition hfa (t : ftype) (c : tcode) (n : nat) : Prop :=
  members t = repeat c n /\ floating c = true /\ (1 <= n <= 4)%nat.

(** The same as a function. *)
Definition hfa_of (t : ftype) : option (tcode * nat) :=
  match members t with
  | c :: r =>
    if floating c && forallb (tcode_eqb c) r && (length r <=? 3)%nat then Some (c, S (length r)) else None
  | [] => None
  end.

(** No 128-bit floating point number anywhere in the type (systems where long double is
    double). *)
Definition no_quad (t : ftype) : Prop := ~ In T_LONGDOUBLE (members t).

(** Other types of more than 16 bytes are replaced by a pointer to a copy. *)
Definition by_ref (t : ftype) : bool :=
  match hfa_of t with Some _ => false | None => ty_size t >? 16 end.

(** ** Argument locations *)

Inductive place : Type :=
| Xregs (i : Z)      (* from general register i on *)
| Vregs (i : Z)      (* one member per vector register, from register i on *)
| Stack (off : Z).   (* at this distance from the stack pointer *)

(** Alignment of a stack argument.  The general standard rounds up to 8, Apple systems do
    so for variadic arguments only. *)
Definition stack_align (apple var : bool) (a : Z) : Z :=
  if apple && negb var then a else Z.max 8 a.

(** Bytes taken by a stack argument. *)
Definition stack_size (apple : bool) (s : Z) : Z := if apple then s else round_up s 8.

(** Place of one argument, given the next general and vector register and the next stack
    offset; also their new values.  [var]: a variadic argument on an Apple system, these
    always go to the stack. *)
Definition place_arg (apple var : bool) (t : ftype) (g v s : Z) : place * Z * Z * Z :=
  match hfa_of t with
  | Some (_, n) =>
    if negb var && (v + Z.of_nat n <=? 8) then (Vregs v, g, v + Z.of_nat n, s)
    else
      let o := round_up s (stack_align apple var (ty_align t)) in
      (Stack o, g, 8, o + stack_size apple (ty_size t))
  | None =>
    let sz := if by_ref t then 8 else ty_size t in
    let al := if by_ref t then 8 else ty_align t in
    let n := (sz + 7) / 8 in
    if negb var && (g + n <=? 8) then (Xregs g, g + n, v, s)
    else
      let o := round_up s (stack_align apple var al) in
      (Stack o, 8, v, o + stack_size apple sz)
  end.

(** Is argument [i] a variadic one on an Apple system? *)
Definition variadic (apple : bool) (fixed : option Z) (i : Z) : bool :=
  match fixed with Some n => apple && (n <=? i) | None => false end.

(** Places of the arguments from number [i] on, and the stack space used. *)
Fixpoint assign (apple : bool) (fixed : option Z) (i : Z) (ts : list ftype) (g v s : Z) : list place * Z :=
  match ts with
  | [] => ([], s)
  | t :: r =>
    let '(pl, g', v', s') := place_arg apple (variadic apple fixed i) t g v s in
    let '(l, e) := assign apple fixed (i + 1) r g' v' s' in
    (pl :: l, e)
  end.

Definition places (apple : bool) (fixed : option Z) (ts : list ftype) : list place :=
  fst (assign apple fixed 0 ts 0 0 0).
Definition stack_used (apple : bool) (fixed : option Z) (ts : list ftype) : Z :=
  snd (assign apple fixed 0 ts 0 0 0).

(** ** States that hold arguments *)

(** Member [k] of the aggregate [d] is in the low bytes of vector register [i + k]. *)
Definition in_vregs (v : list Z) (i unit : Z) (n : nat) (d : list Z) : Prop :=
  forall k, (k < n)%nat ->
    exists b, get_range d (unit * Z.of_nat k) unit = Some b /\
      get_range v (16 * (i + Z.of_nat k)) unit = Some b.

(** The bytes [d] of an argument of type [t] (or the pointer bytes that replace it) are at a
    place; [x], [v]: the general and vector registers as bytes, [rd]: memory. *)
Definition at_place (x v : list Z) (sp : Z) (rd : Z -> Z -> option (list Z)) (t : ftype) (pl : place) (d : list Z)
  : Prop :=
  match pl with
  | Xregs i => get_range x (8 * i) (zlen d) = Some d
  | Vregs i => exists c n, hfa_of t = Some (c, n) /\ in_vregs v i (fsize c) n d
  | Stack o => rd (sp + o) (zlen d) = Some d
  end.

(** All arguments [objs] are at their places; [ptrs]: where the copies of the arguments
    passed by reference are, in order. *)
Fixpoint held (x v : list Z) (sp : Z) (rd : Z -> Z -> option (list Z)) (ts : list ftype) (pls : list place)
  (objs : list (list Z)) (ptrs : list Z) : Prop :=
  match ts, pls, objs with
  | [], [], [] => ptrs = []
  | t :: ts', pl :: pls', o :: objs' =>
    if by_ref t then
      match ptrs with
      | a :: ptrs' =>
        at_place x v sp rd t pl (le_enc 8 a) /\ rd a (ty_size t) = Some o /\
        held x v sp rd ts' pls' objs' ptrs'
      | [] => False
      end
    else at_place x v sp rd t pl o /\ held x v sp rd ts' pls' objs' ptrs
  | _, _, _ => False
  end.

(** The copies are aligned, pairwise disjoint and lie in [lo, hi). *)
Fixpoint copies_ok (ts : list ftype) (ptrs : list Z) (lo hi : Z) : Prop :=
  match ts with
  | [] => True
  | t :: r =>
    if by_ref t then
      match ptrs with
      | a :: ps => lo <= a /\ a + ty_size t <= hi /\ (ty_align t | a) /\ copies_ok r ps lo a
      | [] => False
      end
    else copies_ok r ptrs lo hi
  end.

(** Lowest address of copies laid out downwards from [hi]. *)
Definition round_down (v a : Z) : Z := a * (v / a).
Fixpoint lowest_copy (ts : list ftype) (hi : Z) : Z :=
  match ts with
  | [] => hi
  | t :: r => lowest_copy r (if by_ref t then round_down (hi - ty_size t) (ty_align t) else hi)
  end.

(** The slot of a pointer to a copy, when it is on the stack, must be aligned like a
    pointer; this says that aligning it like the struct makes no difference. *)
Fixpoint pointer_slots_ok (apple : bool) (fixed : option Z) (i : Z) (ts : list ftype) (pls : list place) : Prop :=
  match ts, pls with
  | t :: r, pl :: l =>
    (by_ref t = true -> forall o, pl = Stack o -> stack_align apple (variadic apple fixed i) (ty_align t) = 8) /\
    pointer_slots_ok apple fixed (i + 1) r l
  | _, _ => True
  end.

(** Bytes of arguments passed directly in registers, rounded up to words. *)
Fixpoint register_bytes (ts : list ftype) (pls : list place) : Z :=
  match ts, pls with
  | t :: r, pl :: l =>
    (match pl with Stack _ => 0 | _ => if by_ref t then 0 else round_up (ty_size t) 8 end) + register_bytes r l
  | _, _ => 0
  end.

(** Pointers to copies that are on the stack. *)
Fixpoint stacked_pointers (ts : list ftype) (pls : list place) : Z :=
  match ts, pls with
  | t :: r, pl :: l =>
    (match pl with Stack _ => if by_ref t then 1 else 0 | _ => 0 end) + stacked_pointers r l
  | _, _ => 0
  end.

(** Argument objects of the right sizes. *)
Definition objects_ok (ts : list ftype) (objs : list (list Z)) : Prop :=
  Forall2 (fun t o => zlen o = ty_size t /\ bytes_ok o) ts objs.

(** ** Results *)

(** A value [d] of type [t] returned in registers: x0 and x1 as 16 bytes, v0 to v3 as 64. *)
Definition returned (t : ftype) (x v d : list Z) : Prop :=
  match hfa_of t with
  | Some (c, n) => in_vregs v 0 (fsize c) n d
  | None => get_range x 0 (zlen d) = Some d
  end.

(** Results that are neither floating aggregates nor of at most 16 bytes go to memory whose
    address is passed in x8. *)
Definition in_memory (t : ftype) : bool := by_ref t.

(** Integral scalars, and their value. *)
Definition integral (c : tcode) : bool :=
  match c with
  | T_UINT8 | T_SINT8 | T_UINT16 | T_SINT16 | T_UINT32 | T_SINT32 | T_UINT64 | T_SINT64 | T_POINTER => true
  | _ => false
  end.
Definition signed_code (c : tcode) : bool :=
  match c with T_SINT8 | T_SINT16 | T_SINT32 | T_SINT64 => true | _ => false end.

(** The 64-bit word with the same value as the integer object [d] of type code [c]. *)
Definition widened (c : tcode) (d : list Z) : Z :=
  (if signed_code c then to_signed (8 * zlen d) (le_dec d) else le_dec d) mod 2 ^ 64.
