(** What the C language (and every ABI modelled here) says about struct layout.
    Independent of the model. *)
From Coq Require Import List ZArith.
Import ListNotations.
Open Scope Z_scope.

(** [m] is the least multiple of [a] that is at least [v]. *)
Definition least_multiple (a v m : Z) : Prop :=
  (a | m) /\ v <= m /\ forall m', (a | m') -> v <= m' -> m <= m'.

(** Members placed one after the other from position [e] on; each member is a
    pair (size, alignment).  Yields their offsets and the end of the last one. *)
Inductive members_at : Z -> list (Z * Z) -> list Z -> Z -> Prop :=
| members_nil : forall e, members_at e [] [] e
| members_cons : forall e s a off rest offs e',
    least_multiple a e off ->
    members_at (off + s) rest offs e' ->
    members_at e ((s, a) :: rest) (off :: offs) e'.

(** Largest member alignment (1 for no members; such structs do not occur in C). *)
Definition max_align (ms : list (Z * Z)) : Z := fold_right (fun m r => Z.max (snd m) r) 1 ms.

(** Layout of a struct: member offsets, size, alignment. *)
Definition struct_layout (ms : list (Z * Z)) (offs : list Z) (size align : Z) : Prop :=
  exists e, members_at 0 ms offs e /\ align = max_align ms /\ least_multiple align e size.

(** C types as far as layout goes: a type whose size and alignment are known, or a
    struct of member types. *)
Inductive ctype : Type :=
| CKnown (size align : Z)
| CStruct (members : list ctype).

(** Size and alignment of a C type. *)
Inductive c_layout : ctype -> Z -> Z -> Prop :=
| c_known : forall s a, c_layout (CKnown s a) s a
| c_struct : forall members ms offs s a,
    c_layouts members ms ->
    struct_layout ms offs s a ->
    c_layout (CStruct members) s a
with c_layouts : list ctype -> list (Z * Z) -> Prop :=
| c_none : c_layouts [] []
| c_some : forall t ts s a ms, c_layout t s a -> c_layouts ts ms -> c_layouts (t :: ts) ((s, a) :: ms).
