(** The raw form of arguments for 32-bit x86, written without reference to libffi's code: every
    argument takes whole words, integers smaller than a word are widened to one. *)
From Verif Require Import Base Types I386Model I386Spec.
Local Open Scope Z_scope.

(** [rd off n]: the [n] bytes at offset [off] of the raw memory. *)
Fixpoint raw_has (rd : Z -> Z -> option (list Z)) (off : Z) (ts : list ftype) (objs : list (list Z)) : Prop :=
  match ts, objs with
  | [], [] => True
  | t :: ts', d :: objs' =>
    rd off (ty_size t) = Some d /\
    (small_int (ty_code t) = true -> rd off 4 = Some (le_enc 4 (word_value (ty_code t) d))) /\
    raw_has rd (off + words t) ts' objs'
  | _, _ => False
  end.

(** Bytes of the raw form. *)
Fixpoint raw_bytes (ts : list ftype) : Z := match ts with [] => 0 | t :: r => words t + raw_bytes r end.
