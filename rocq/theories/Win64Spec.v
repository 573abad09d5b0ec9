(** The Microsoft x64 calling convention (with the GNU extension for 16 byte long double),
    written without reference to libffi's code. *)
From Verif Require Import Base Types LayoutSpec.

(** Objects of these sizes are passed and returned by value. *)
Definition fits_slot (n : Z) : Prop := n = 1 \/ n = 2 \/ n = 4 \/ n = 8.

Definition is_fp (t : ftype) : bool :=
  match ty_code t with T_FLOAT | T_DOUBLE => true | _ => false end.

(** Results that do not fit are written by the callee through a pointer passed as first
    argument. *)
Definition win_hidden (rt : ftype) : bool :=
  match ty_code rt with
  | T_VOID => false
  | _ => negb ((ty_size rt =? 1) || (ty_size rt =? 2) || (ty_size rt =? 4) || (ty_size rt =? 8))
  end.
Definition win_first (rt : ftype) : Z := if win_hidden rt then 1 else 0.

(** The word of slot [s]: in general register [s] for the first four, else in the
    argument area. *)
Definition slot_word (gpr : list Z) (stack : list Z) (s : Z) : option (list Z) :=
  if s <? 4 then match znth gpr s with Some w => Some (le_enc 8 w) | None => None end
  else get_range stack (8 * s) 8.

(** Argument [v] of type [t] is in slot [s]. *)
Definition win_held (gpr : list Z) (xmm : list (list Z)) (stack : list Z) (read : Z -> Z -> option (list Z))
  (t : ftype) (s : Z) (v : list Z) : Prop :=
  (fits_slot (ty_size t) ->
     if is_fp t && (s <? 4) then exists b, znth xmm s = Some b /\ firstn (Z.to_nat (ty_size t)) b = v
     else exists w, slot_word gpr stack s = Some w /\ firstn (Z.to_nat (ty_size t)) w = v) /\
  (~ fits_slot (ty_size t) ->
     exists w, slot_word gpr stack s = Some w /\ read (le_dec w) (ty_size t) = Some v).

(** Both register copies of the first four slots hold the argument (what a variadic callee
    relies on). *)
Definition win_both (gpr : list Z) (xmm : list (list Z)) (t : ftype) (s : Z) (v : list Z) : Prop :=
  fits_slot (ty_size t) -> s < 4 ->
  (exists b, znth xmm s = Some b /\ firstn (Z.to_nat (ty_size t)) b = v) /\
  (exists w, znth gpr s = Some w /\ le_enc (Z.to_nat (ty_size t)) w = v).

(** All arguments, one slot each from [s] on. *)
Fixpoint win_all (P : ftype -> Z -> list Z -> Prop) (ts : list ftype) (vs : list (list Z)) (s : Z) : Prop :=
  match ts, vs with
  | [], [] => True
  | t :: ts', v :: vs' => P t s v /\ win_all P ts' vs' (s + 1)
  | _, _ => False
  end.

(** The result [v] is in the result registers. *)
Definition win_returned (rt : ftype) (rax : Z) (xmm0 v : list Z) : Prop :=
  if is_fp rt then firstn (Z.to_nat (ty_size rt)) xmm0 = v
  else le_enc (Z.to_nat (ty_size rt)) rax = v.
