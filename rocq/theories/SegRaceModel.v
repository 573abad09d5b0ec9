(** Two threads in the closure allocator: one in dlmalloc, holding its lock and adding memory,
    the other in ffi_closure_alloc, ffi_data_to_code_pointer or ffi_tramp_is_present, which walk
    over the segment records without the lock (src/closures.c:999, 1024, 1061). *)
From Verif Require Import Base.
Local Open Scope Z_scope.

(** src/dlmalloc.c:1945-1985 struct malloc_segment; records are named by numbers, 0 is the
    one inside gm (src/dlmalloc.c:2079-2122). *)
Record srec : Type := SRec { r_base : Z; r_size : Z; r_next : option nat; r_exo : Z }.

(** The records in memory (src/dlmalloc.c:1945-1985). *)
Definition rheap : Type := nat -> srec.

(** One store to a field (src/dlmalloc.c:3394-3398, 3585, 3598-3599). *)
Inductive store : Type :=
| StBase (n : nat) (v : Z) | StSize (n : nat) (v : Z) | StNext (n : nat) (v : option nat) | StExo (n : nat) (v : Z).

(** Memory after a store (src/dlmalloc.c:1945-1985). *)
Definition do_store (s : store) (h : rheap) : rheap :=
  match s with
  | StBase n v => fun k => if Nat.eqb k n then SRec v (r_size (h n)) (r_next (h n)) (r_exo (h n)) else h k
  | StSize n v => fun k => if Nat.eqb k n then SRec (r_base (h n)) v (r_next (h n)) (r_exo (h n)) else h k
  | StNext n v => fun k => if Nat.eqb k n then SRec (r_base (h n)) (r_size (h n)) v (r_exo (h n)) else h k
  | StExo n v => fun k => if Nat.eqb k n then SRec (r_base (h n)) (r_size (h n)) (r_next (h n)) v else h k
  end.

(** src/dlmalloc.c:3394-3398 add_segment: the stores to the records; [ss] is the new record.
    The order inside the structure assignment of line 3394 is that of the fields. *)
Definition add_segment_stores (h : rheap) (ss : nat) (tbase tsize exo : Z) : list store :=
  [StBase ss (r_base (h 0%nat)); StSize ss (r_size (h 0%nat)); StNext ss (r_next (h 0%nat)); StExo ss (r_exo (h 0%nat));
   StBase 0 tbase; StSize 0 tsize; StExo 0 exo; StNext 0 (Some ss)].

(** src/dlmalloc.c:3585 append to the record [n] *)
Definition append_stores (h : rheap) (n : nat) (tsize : Z) : list store := [StSize n (r_size (h n) + tsize)].

(** src/dlmalloc.c:3598-3599 prepend to the record [n] *)
Definition prepend_stores (h : rheap) (n : nat) (tbase tsize : Z) : list store :=
  [StBase n tbase; StSize n (r_size (h n) + tsize)].

(** Where the thread walking over the records is (src/dlmalloc.c:2165-2173 segment_holding):
    before the load of base, before the second load of base, before the load of size, before
    the load of next, at the end. *)
Inductive reader : Type :=
| RBase (n : nat) | RBase2 (n : nat) | RSize (n : nat) (b : Z) | RNext (n : nat) | RDone (o : option nat).

(** src/dlmalloc.c:2165-2173 one load of segment_holding and what follows from it *)
Definition read_step (addr : Z) (h : rheap) (r : reader) : reader :=
  match r with
  | RBase n => if r_base (h n) <=? addr then RBase2 n else RNext n
  | RBase2 n => RSize n (r_base (h n))
  | RSize n b => if addr <? b + r_size (h n) then RDone (Some n) else RNext n
  | RNext n => match r_next (h n) with None => RDone None | Some k => RBase k end
  | RDone o => RDone o
  end.

(** src/dlmalloc.c:2165-2173, 3394-3398: the two threads under a schedule; true is a step of
    the thread without the lock. *)
Fixpoint race (addr : Z) (sched : list bool) (w : list store) (h : rheap) (r : reader) : list store * rheap * reader :=
  match sched with
  | [] => (w, h, r)
  | true :: s => race addr s w h (read_step addr h r)
  | false :: s => match w with
                  | [] => race addr s [] h r
                  | x :: w' => race addr s w' (do_store x h) r
                  end
  end.

(** src/closures.c:999-1001: what ffi_closure_alloc makes of the result; a null record is
    dereferenced. *)
Definition code_of (h : rheap) (ptr : Z) (r : reader) : option (res Z) :=
  match r with
  | RDone (Some n) => Some (Ok (ptr + r_exo (h n)))
  | RDone None => Some UB
  | _ => None
  end.
