(** The LoongArch calling convention (LP64S and LP64D) as far as argument and result passing is
    concerned, written without reference to libffi's code.  Arguments and results get the
    locations they get on RISC-V (RvSpec: shape_of, place_arg, places, stack_used, in_memory);
    what differs is that the bits of a floating point register above a narrower number are not
    specified. *)
From Verif Require Import Base Types LayoutSpec BaseFacts NaturalTypes.
From Verif Require Import RvSpec.

(** The number [d] is in floating point register [i] of the registers [fa]. *)
Definition in_freg (fl : Z) (fa : list Z) (i : Z) (d : list Z) : Prop :=
  zlen d <= fl /\ get_range fa (fl * i) (zlen d) = Some d.

(** The argument [d] of type [t] is at a place other than a reference. *)
Definition at_place (fl : Z) (a fa : list Z) (sp : Z) (rd : Z -> Z -> option (list Z)) (t : ftype) (pl : place)
  (d : list Z) : Prop :=
  match pl with
  | InF f n => in_freg fl fa f d
  | InFF f n1 o2 n2 => pair_at n1 o2 n2 d (in_freg fl fa f) (in_freg fl fa (f + 1))
  | InFX f g n1 o2 n2 => pair_at n1 o2 n2 d (in_freg fl fa f) (low_in a g)
  | InXF g f n1 o2 n2 => pair_at n1 o2 n2 d (low_in a g) (in_freg fl fa f)
  | Words l =>
    exists w, words_of a sp rd l = Some w /\ bytes_ok w /\ get_range w 0 (zlen d) = Some d /\
      (integral (ty_code t) = true -> w = le_enc 8 (extended (ty_code t) d))
  | Ref _ => False
  end.

(** All arguments [objs] are at their places; [ptrs]: where the copies of the arguments passed
    by reference are, in order. *)
Fixpoint held (fl : Z) (a fa : list Z) (sp : Z) (rd : Z -> Z -> option (list Z)) (ts : list ftype) (pls : list place)
  (objs : list (list Z)) (ptrs : list Z) : Prop :=
  match ts, pls, objs with
  | [], [], [] => ptrs = []
  | t :: ts', pl :: pls', o :: objs' =>
    match pl with
    | Ref w =>
      match ptrs with
      | p :: ptrs' =>
        word_of a sp rd w = Some (le_enc 8 p) /\ rd p (ty_size t) = Some o /\ held fl a fa sp rd ts' pls' objs' ptrs'
      | [] => False
      end
    | _ => at_place fl a fa sp rd t pl o /\ held fl a fa sp rd ts' pls' objs' ptrs
    end
  | _, _, _ => False
  end.

(** The copies are disjoint, in descending order in [lo, hi), aligned as their types. *)
Fixpoint copies_down (ts : list ftype) (pls : list place) (ptrs : list Z) (lo hi : Z) : Prop :=
  match ts, pls with
  | t :: r, Ref _ :: l =>
    match ptrs with
    | a :: ps => lo <= a /\ a + ty_size t <= hi /\ (ty_align t | a) /\ copies_down r l ps lo a
    | [] => False
    end
  | _ :: r, _ :: l => copies_down r l ptrs lo hi
  | _, _ => True
  end.

(** Where aligned copies of the arguments passed by reference, put one below the other starting
    below [hi], end. *)
Definition round_down (v a : Z) : Z := v / a * a.
Fixpoint copies_end (ts : list ftype) (pls : list place) (hi : Z) : Z :=
  match ts, pls with
  | t :: r, Ref _ :: l => copies_end r l (round_down (hi - ty_size t) (ty_align t))
  | _ :: r, _ :: l => copies_end r l hi
  | _, _ => hi
  end.

(** Number of arguments passed by reference. *)
Fixpoint references (pls : list place) : Z :=
  match pls with
  | [] => 0
  | Ref _ :: l => 1 + references l
  | _ :: l => references l
  end.

(** No variadic argument is a float: the rules of C widen it to a double. *)
Fixpoint promoted (fixed : option Z) (i : Z) (ts : list ftype) : Prop :=
  match ts with
  | [] => True
  | t :: r => (variadic fixed i = true -> ty_code t <> T_FLOAT) /\ promoted fixed (i + 1) r
  end.

(** A value [d] of type [t] returned in a0, a1 and fa0, fa1: like a first argument. *)
Definition returned (fl : Z) (t : ftype) (a fa d : list Z) : Prop :=
  at_place fl a fa 0 (fun _ _ => None) t (let '(p, _, _, _) := place_arg fl false t 0 0 0 in p) d.

(** Widths of floating point registers. *)
Definition la_fl (fl : Z) : Prop := fl = 0 \/ fl = 8.
