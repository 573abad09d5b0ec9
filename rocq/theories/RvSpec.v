(** The RISC-V calling convention for 64-bit machines (LP64, LP64F, LP64D) as far as argument
    and result passing is concerned, written without reference to libffi's code. *)
From Verif Require Import Base Types LayoutSpec BaseFacts NaturalTypes.

(** ** Shapes of types *)

(** Scalar members of a type placed at an offset: type code, offset, size. *)
Fixpoint fields (t : ftype) (off : Z) : list (tcode * Z * Z) :=
  match t with
  | FT T_STRUCT _ _ es =>
    (fix all (l : list ftype) (o : Z) : list (tcode * Z * Z) :=
       match l with
       | [] => []
       | e :: r => let o' := round_up o (ty_align e) in fields e o' ++ all r (o' + ty_size e)
       end) es off
  | FT c s _ _ => [(c, off, s)]
  end.

(** Floating point numbers that fit a floating point register of [fl] bytes. *)
Definition real (fl : Z) (c : tcode) : bool :=
  match c with T_FLOAT => 4 <=? fl | T_DOUBLE => 8 <=? fl | _ => false end.

(** Integers; pointers do not count. *)
Definition whole (c : tcode) : bool :=
  match c with
  | T_UINT8 | T_SINT8 | T_UINT16 | T_SINT16 | T_UINT32 | T_SINT32 | T_UINT64 | T_SINT64 => true
  | _ => false
  end.

(** Candidates for floating point registers: a real number, alone or alone in a struct, and
    structs of two reals or of a real and an integer. *)
Inductive shape : Type :=
| OneReal (n : Z)
| TwoReals (n1 o2 n2 : Z)
| RealInt (n1 o2 n2 : Z)
| IntReal (n1 o2 n2 : Z)
| Other.
Definition shape_of (fl : Z) (t : ftype) : shape :=
  match fields t 0 with
  | [(c, _, n)] => if real fl c then OneReal n else Other
  | [(c1, _, n1); (c2, o2, n2)] =>
    if real fl c1 && real fl c2 then TwoReals n1 o2 n2
    else if real fl c1 && whole c2 then RealInt n1 o2 n2
    else if whole c1 && real fl c2 then IntReal n1 o2 n2
    else Other
  | _ => Other
  end.

(** ** Argument locations *)

(** Where one word is: an integer register or a stack slot. *)
Inductive wloc : Type := XR (i : Z) | ST (off : Z).

Inductive place : Type :=
| InF (f n : Z)
| InFF (f n1 o2 n2 : Z)
| InFX (f g n1 o2 n2 : Z)
| InXF (g f n1 o2 n2 : Z)
| Words (l : list wloc)
| Ref (w : wloc).

(** Location of the next word, with the next integer register and stack offset after it. *)
Definition word_at (g s : Z) : wloc * Z * Z := if g <? 8 then (XR g, g + 1, s) else (ST s, g, s + 8).

(** The integer calling convention.  Variadic arguments aligned to two words start at an even
    register; an argument all on the stack is aligned. *)
Definition place_words (var : bool) (t : ftype) (g s : Z) : place * Z * Z :=
  if ty_size t >? 16 then
    let '(w, g1, s1) := word_at g s in (Ref w, g1, s1)
  else
    let g0 := if var && (ty_align t >? 8) then round_up g 2 else g in
    let s0 := if (ty_align t >? 8) && (8 <=? g0) then round_up s 16 else s in
    let '(w, g1, s1) := word_at g0 s0 in
    if ty_size t >? 8 then let '(w2, g2, s2) := word_at g1 s1 in (Words [w; w2], g2, s2)
    else (Words [w], g1, s1).

(** Place of one argument, given the next integer and floating point register and the next
    stack offset; also their new values. *)
Definition place_arg (fl : Z) (var : bool) (t : ftype) (g f s : Z) : place * Z * Z * Z :=
  let int := let '(p, g1, s1) := place_words var t g s in (p, g1, f, s1) in
  if var then int
  else
    match shape_of fl t with
    | OneReal n => if f <? 8 then (InF f n, g, f + 1, s) else int
    | TwoReals n1 o2 n2 => if f <? 7 then (InFF f n1 o2 n2, g, f + 2, s) else int
    | RealInt n1 o2 n2 => if (f <? 8) && (g <? 8) then (InFX f g n1 o2 n2, g + 1, f + 1, s) else int
    | IntReal n1 o2 n2 => if (f <? 8) && (g <? 8) then (InXF g f n1 o2 n2, g + 1, f + 1, s) else int
    | Other => int
    end.

(** Is argument [i] a variadic one? *)
Definition variadic (fixed : option Z) (i : Z) : bool :=
  match fixed with Some n => n <=? i | None => false end.

(** Places of the arguments from number [i] on, and the stack space used. *)
Fixpoint assign (fl : Z) (fixed : option Z) (i : Z) (ts : list ftype) (g f s : Z) : list place * Z :=
  match ts with
  | [] => ([], s)
  | t :: r =>
    let '(pl, g', f', s') := place_arg fl (variadic fixed i) t g f s in
    let '(l, e) := assign fl fixed (i + 1) r g' f' s' in
    (pl :: l, e)
  end.

(** Results of more than two words that are not two fields for registers go to memory whose
    address is passed as a first argument. *)
Definition in_memory (fl : Z) (t : ftype) : bool :=
  match place_arg fl false t 0 0 0 with (Ref _, _, _, _) => true | _ => false end.

Definition first_reg (fl : Z) (rt : ftype) : Z := if in_memory fl rt then 1 else 0.
Definition places (fl : Z) (fixed : option Z) (rt : ftype) (ts : list ftype) : list place :=
  fst (assign fl fixed 0 ts (first_reg fl rt) 0 0).
Definition stack_used (fl : Z) (fixed : option Z) (rt : ftype) (ts : list ftype) : Z :=
  snd (assign fl fixed 0 ts (first_reg fl rt) 0 0).

(** ** States that hold arguments *)

(** Integers narrower than a word are widened by their sign to 32 bits, and then by the sign
    bit to 64. *)
Definition integral (c : tcode) : bool := match c with T_POINTER => true | _ => whole c end.
Definition by_sign (c : tcode) : bool :=
  match c with T_SINT8 | T_SINT16 | T_SINT32 | T_UINT32 | T_SINT64 => true | _ => false end.
Definition extended (c : tcode) (d : list Z) : Z :=
  (if by_sign c then to_signed (8 * zlen d) (le_dec d) else le_dec d) mod 2 ^ 64.

(** The number [d] is in floating point register [i] of the registers [fa]; a narrower number
    has ones above it. *)
Definition in_freg (fl : Z) (fa : list Z) (i : Z) (d : list Z) : Prop :=
  get_range fa (fl * i) fl = Some (d ++ repeat 255 (Z.to_nat (fl - zlen d))).

(** The eight bytes at a word location. *)
Definition word_of (a : list Z) (sp : Z) (rd : Z -> Z -> option (list Z)) (w : wloc) : option (list Z) :=
  match w with XR i => get_range a (8 * i) 8 | ST o => rd (sp + o) 8 end.

(** The first bytes of the words are [d]. *)
Fixpoint words_of (a : list Z) (sp : Z) (rd : Z -> Z -> option (list Z)) (l : list wloc) : option (list Z) :=
  match l with
  | [] => Some []
  | w :: r => match word_of a sp rd w, words_of a sp rd r with Some x, Some y => Some (x ++ y) | _, _ => None end
  end.

(** Two members of an argument [d], one for each of two predicates. *)
Definition pair_at (n1 o2 n2 : Z) (d : list Z) (P Q : list Z -> Prop) : Prop :=
  exists x y, get_range d 0 n1 = Some x /\ get_range d o2 n2 = Some y /\ P x /\ Q y.

(** An integer member in a register is not widened. *)
Definition low_in (a : list Z) (i : Z) (x : list Z) : Prop :=
  exists w, get_range a (8 * i) 8 = Some w /\ bytes_ok w /\ get_range w 0 (zlen x) = Some x.

(** The argument [d] of type [t] is at a place other than a reference. *)
Definition at_place (fl : Z) (a fa : list Z) (sp : Z) (rd : Z -> Z -> option (list Z)) (t : ftype) (pl : place)
  (d : list Z) : Prop :=
  match pl with
  | InF f n => in_freg fl fa f d
  | InFF f n1 o2 n2 => pair_at n1 o2 n2 d (in_freg fl fa f) (in_freg fl fa (f + 1))
  | InFX f g n1 o2 n2 => pair_at n1 o2 n2 d (in_freg fl fa f) (low_in a g)
  | InXF g f n1 o2 n2 => pair_at n1 o2 n2 d (low_in a g) (in_freg fl fa f)
  | Words l =>
    exists w, words_of a sp rd l = Some w /\ bytes_ok w /\ get_range w 0 (zlen d) = Some d /\
      (integral (ty_code t) = true -> w = le_enc 8 (extended (ty_code t) d))
  | Ref _ => False
  end.

(** All arguments [objs] are at their places; [ptrs]: where the copies of the arguments passed
    by reference are, in order. *)
Fixpoint held (fl : Z) (a fa : list Z) (sp : Z) (rd : Z -> Z -> option (list Z)) (ts : list ftype) (pls : list place)
  (objs : list (list Z)) (ptrs : list Z) : Prop :=
  match ts, pls, objs with
  | [], [], [] => ptrs = []
  | t :: ts', pl :: pls', o :: objs' =>
    match pl with
    | Ref w =>
      match ptrs with
      | p :: ptrs' =>
        word_of a sp rd w = Some (le_enc 8 p) /\ rd p (ty_size t) = Some o /\ held fl a fa sp rd ts' pls' objs' ptrs'
      | [] => False
      end
    | _ => at_place fl a fa sp rd t pl o /\ held fl a fa sp rd ts' pls' objs' ptrs
    end
  | _, _, _ => False
  end.

(** The copies are disjoint, in ascending order in [lo, hi), at multiples of [al t]. *)
Fixpoint copies_ok (al : ftype -> Z) (ts : list ftype) (pls : list place) (ptrs : list Z) (lo hi : Z) : Prop :=
  match ts, pls with
  | t :: r, Ref _ :: l =>
    match ptrs with
    | a :: ps => lo <= a /\ a + ty_size t <= hi /\ (al t | a) /\ copies_ok al r l ps (a + ty_size t) hi
    | [] => False
    end
  | _ :: r, _ :: l => copies_ok al r l ptrs lo hi
  | _, _ => True
  end.

(** Bytes of the copies of arguments passed by reference, each rounded up to words. *)
Fixpoint copy_space (ts : list ftype) (pls : list place) : Z :=
  match ts, pls with
  | t :: r, pl :: l => match pl with Ref _ => round_up (ty_size t) 8 | _ => 0 end + copy_space r l
  | _, _ => 0
  end.

(** Signatures of types laid out by the C rules, without complex numbers (the backend does not
    have them). *)
Definition no_complex (t : ftype) : Prop := Forall (fun x => fst (fst x) <> T_COMPLEX) (fields t 0).
Definition signature_ok (rt : ftype) (ts : list ftype) : Prop :=
  Forall natural ts /\ Forall no_complex ts /\ (rt = ty_void \/ natural rt /\ no_complex rt).

(** A struct whose only scalar is a real number, and that is not variadic, gets a floating
    point register. *)
Fixpoint lone_reals_ok (fl : Z) (fixed : option Z) (i : Z) (ts : list ftype) (pls : list place) : Prop :=
  match ts, pls with
  | t :: r, pl :: l =>
    (variadic fixed i = false -> ty_code t = T_STRUCT -> forall n, shape_of fl t = OneReal n -> exists f, pl = InF f n) /\
    lone_reals_ok fl fixed (i + 1) r l
  | _, _ => True
  end.

(** Argument objects of the right sizes. *)
Definition objects_ok (ts : list ftype) (objs : list (list Z)) : Prop :=
  Forall2 (fun t o => zlen o = ty_size t /\ bytes_ok o) ts objs.

(** Two objects agree on the scalar members of their type (the bytes between are padding). *)
Definition same_fields (t : ftype) (v w : list Z) : Prop :=
  Forall (fun x => match x with (_, o, n) => exists d, get_range v o n = Some d /\ get_range w o n = Some d end) (fields t 0).

(** ** Results *)

(** A value [d] of type [t] returned in a0, a1 and fa0, fa1: like a first argument. *)
Definition returned (fl : Z) (t : ftype) (a fa d : list Z) : Prop :=
  at_place fl a fa 0 (fun _ _ => None) t (let '(p, _, _, _) := place_arg fl false t 0 0 0 in p) d.

(** The word with the same value as an integer object. *)
Definition signed_code (c : tcode) : bool :=
  match c with T_SINT8 | T_SINT16 | T_SINT32 | T_SINT64 => true | _ => false end.
Definition widened (c : tcode) (d : list Z) : Z :=
  (if signed_code c then to_signed (8 * zlen d) (le_dec d) else le_dec d) mod 2 ^ 64.
