(** What the static trampoline allocator promises, in terms of the states of the system of
    threads: which trampolines are live, where they have to be, what a consistent state is. *)
From Verif Require Import Base TrampModel.

(** Trampolines that threads have in their hands while they are in a call: those a
    completed call is about to hand back, those given to a call that has not completed. *)
Definition held (x : tstate) : list entry :=
  match x with
  | Idle => []
  | Run cl _ (Ret v) => result cl v
  | Run _ own _ => own
  end.
Definition inuse (y : sys) : list entry := y_pool y ++ flat_map held (y_thr y).

(** Trampolines that have to keep working: not those being freed; while parameters are
    being set nothing is said about them. *)
Definition kept (x : tstate) : list entry :=
  match x with
  | Idle => []
  | Run cl _ (Ret v) => result cl v
  | Run (CSet a i _ _) _ _ => [Entry a i None]
  | Run _ _ _ => []
  end.
Definition live (y : sys) : list entry := y_pool y ++ flat_map kept (y_thr y).

(** Histories, with the peak of the number of trampolines in use. *)
Inductive runs (c : tcfg) : sys -> Z -> Prop :=
| runs_start y : start y -> runs c y 0
| runs_step y pk y' : runs c y pk -> ystep c y y' -> runs c y' (Z.max pk (zlen (inuse y'))).

(** Trampoline [(arr, i)] is slot [i] of a mapped code table at [b], its parameter block is
    block [i] of the parameter table right behind it. *)
Definition placed (c : tcfg) (s : st) (arr i b : Z) : Prop :=
  0 <= i /\ (i + 1) * tc_size c <= tc_map c /\ 0 < b /\ b + 2 * tc_map c <= 2 ^ 64 /\
  s_val s (A arr i ACode) = Addr (b + i * tc_size c) /\
  s_val s (A arr i AParm) = Addr (b + tc_map c + i * tc_size c) /\
  (forall x, b <= x < b + tc_map c -> s_perm s x = RX /\ s_mem s x = tc_code c (x - b)) /\
  (forall x, b + tc_map c <= x < b + 2 * tc_map c -> s_perm s x = RW).

(** Ranges of length [n]. *)
Definition disjoint (n a b : Z) : Prop := a + n <= b \/ b + n <= a.

(** A doubly linked list, from the value in its head to its end. *)
Inductive listed {X} (mk : X -> val) (nx pv : X -> val) : val -> val -> list X -> Prop :=
| listed_nil p : listed mk nx pv p Null []
| listed_cons p x l : pv x = p -> listed mk nx pv (mk x) (nx x) l -> listed mk nx pv p (mk x) (x :: l).

(** A table: its record, the array of its trampolines, its mapping, its free trampolines. *)
Record tview : Type := TV { tv_id : Z; tv_arr : Z; tv_base : Z; tv_free : list Z }.

(** The state between calls: nothing is there, or the records are those of tables at
    disjoint places, each with a well-formed list of free trampolines, those with free
    trampolines on a well-formed list; the trampolines not on a free list are those in use. *)
Definition consistent (c : tcfg) (s : st) (used : list (Z * Z)) : Prop :=
  s_val s (G GStatus) <> Num 1 /\ used = [] /\
    (forall id, s_tlive s id = false) /\ (forall arr, s_alive s arr = None) /\ (forall x, s_perm s x = Unmapped) \/
  s_val s (G GStatus) = Num 1 /\
  exists (n : Z) (ts : list tview) (fl : list Z),
    n = tc_map c / tc_size c /\
    NoDup (map tv_id ts) /\ NoDup (map tv_arr ts) /\
    ForallOrdPairs (fun t t' => disjoint (2 * tc_map c) (tv_base t) (tv_base t')) ts /\
    (forall id, s_tlive s id = true <-> In id (map tv_id ts)) /\
    (forall arr, s_alive s arr = if existsb (Z.eqb arr) (map tv_arr ts) then Some n else None) /\
    (forall x, s_perm s x <> Unmapped <-> exists t, In t ts /\ tv_base t <= x < tv_base t + 2 * tc_map c) /\
    listed PTab (fun id => s_val s (T id TNext)) (fun id => s_val s (T id TPrev)) Null (s_val s (G GFree)) fl /\
    NoDup fl /\ s_val s (G GNfree) = Num (zlen fl) /\
    (forall id, In id fl <-> exists t, In t ts /\ tv_id t = id /\ tv_free t <> []) /\
    (forall t, In t ts ->
      s_val s (T (tv_id t) TCode) = Addr (tv_base t) /\ s_val s (T (tv_id t) TParm) = Addr (tv_base t + tc_map c) /\
      s_val s (T (tv_id t) TArray) = PTr (tv_arr t) 0 /\
      s_val s (T (tv_id t) TNfree) = Num (zlen (tv_free t)) /\
      listed (PTr (tv_arr t)) (fun i => s_val s (A (tv_arr t) i ANext)) (fun i => s_val s (A (tv_arr t) i APrev)) Null
        (s_val s (T (tv_id t) TFree)) (tv_free t) /\
      NoDup (tv_free t) /\
      forall i, 0 <= i < n -> placed c s (tv_arr t) i (tv_base t) /\ s_val s (A (tv_arr t) i ATable) = PTab (tv_id t)) /\
    NoDup used /\
    (forall arr i, In (arr, i) used <-> exists t, In t ts /\ tv_arr t = arr /\ 0 <= i < n /\ ~ In i (tv_free t)) /\
    (forall t i, In t ts -> In i (tv_free t) -> 0 <= i < n).

(** The handle of an entry. *)
Definition handle (e : entry) : Z * Z := (e_arr e, e_i e).

(** Steps of thread [t] alone. *)
Inductive alone (c : tcfg) (t : nat) : sys -> sys -> Prop :=
| alone_refl y : alone c t y y
| alone_step y y' y'' : ystep c y y' ->
    (forall u, u <> t -> nth_error (y_thr y') u = nth_error (y_thr y) u) -> alone c t y' y'' -> alone c t y y''.
