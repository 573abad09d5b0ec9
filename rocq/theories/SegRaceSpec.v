(** What a thread looking for the segment of its closure should find. *)
From Verif Require Import Base SegRaceModel.
Local Open Scope Z_scope.

(** The list of records from [n] on. *)
Inductive chain (h : rheap) : nat -> list nat -> Prop :=
| chain_end n : r_next (h n) = None -> chain h n [n]
| chain_cons n k l : r_next (h n) = Some k -> chain h k l -> chain h n (n :: l).

Definition has_addr (h : rheap) (n : nat) (a : Z) : Prop := r_base (h n) <= a < r_base (h n) + r_size (h n).

(** The list of gm has the address in one record, [k]. *)
Definition located (h : rheap) (l : list nat) (k : nat) (a : Z) : Prop :=
  chain h 0 l /\ NoDup l /\ In k l /\ has_addr h k a /\ forall n, In n l -> n <> k -> ~ has_addr h n a.

(** The search finds that record, under every schedule. *)
Definition finds (h : rheap) (w : list store) (k : nat) (a : Z) : Prop :=
  forall sched o, snd (race a sched w h (RBase 0)) = RDone o -> o = Some k.

(** Several requests for memory, one after the other, each appended to a record. *)
Fixpoint appends (h : rheap) (q : list (nat * Z)) : list store :=
  match q with
  | [] => []
  | (n, t) :: r => append_stores h n t ++ appends (do_store (StSize n (r_size (h n) + t)) h) r
  end.

(** The memory appended was not in use: the address is not in it. *)
Fixpoint fresh_appends (h : rheap) (a : Z) (q : list (nat * Z)) : Prop :=
  match q with
  | [] => True
  | (n, t) :: r => 0 <= t /\ ~ (r_base (h n) + r_size (h n) <= a < r_base (h n) + r_size (h n) + t) /\
                   fresh_appends (do_store (StSize n (r_size (h n) + t)) h) a r
  end.
