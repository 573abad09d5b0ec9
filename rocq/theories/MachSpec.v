(** What the Mach trampoline tables should provide. *)
From Verif Require Import Base MachModel.
Local Open Scope Z_scope.

(** A closure handed out. *)
Record mlive : Type := MLive { ml_ptr : Z; ml_code : Z }.

(** The environment: malloc gives addresses that are not in use, vm_allocate pages that are
    not mapped, calloc records that are not in use (perhaps ones given back before). *)
Definition pages_apart (g : mcfg) (p q : Z) : Prop := p + 2 * mc_page g <= q \/ q + 2 * mc_page g <= p.
Definition env_ok (g : mcfg) (c : option Z) (a : tans) (st : mst) (ls : list mlive) : Prop :=
  match c with Some p => ~ In p (map ml_ptr ls) | None => True end /\
  match ta_page a with Some p => Forall (pages_apart g p) (m_pages st) | None => True end /\
  match ta_table a with Some t => m_tables st t = None | None => True end.

(** Memory does not run out in calloc. *)
Definition calloc_ok (a : tans) : Prop := ta_table a <> None /\ ta_pool a = true.

(** The slots of a page fit. *)
Definition mcfg_ok (g : mcfg) : Prop :=
  (0 < mc_count g)%nat /\ 0 < mc_size g /\ Z.of_nat (mc_count g) * mc_size g <= mc_page g.

(** Histories of allocations and frees, with the closures in use. *)
Inductive mach_history (g : mcfg) : mst -> list mlive -> Prop :=
| mh_start : mach_history g mst0 []
| mh_alloc st ls c a ptr code st' : mach_history g st ls -> env_ok g c a st ls ->
    mach_alloc g c a st = Ok (Some (ptr, code), st') -> mach_history g st' (MLive ptr code :: ls)
| mh_fail st ls c a st' : mach_history g st ls -> env_ok g c a st ls ->
    mach_alloc g c a st = Ok (None, st') -> mach_history g st' ls
| mh_free st l k m st' : mach_history g st (l ++ k :: m) ->
    mach_free g (ml_ptr k) st = Ok st' -> mach_history g st' (l ++ m).

(** The trampoline of a closure lies in a mapped table. *)
Definition in_table (g : mcfg) (st : mst) (l : mlive) : Prop :=
  exists p i, In p (m_pages st) /\ (i < mc_count g)%nat /\ ml_code l = p + mc_page g + Z.of_nat i * mc_size g.

(** The table of a closure, and how many of its slots are free once the closure is freed. *)
Definition given_back (st : mst) (ptr : Z) : option (nat * Z) :=
  match m_closures st ptr with
  | Some (t, _) => match m_tables st t with Some x => Some (t, tb_count x + 1) | None => None end
  | None => None
  end.

(** An empty table that will not be found again: not the first one. *)
Definition lost (g : mcfg) (st : mst) (t : nat) : Prop :=
  exists x, m_tables st t = Some x /\ tb_count x = Z.of_nat (mc_count g) /\ m_head st <> Some t.

(** Later states of a history. *)
Inductive later (g : mcfg) : mst -> list mlive -> mst -> list mlive -> Prop :=
| la_same st ls : later g st ls st ls
| la_alloc st ls s l c a ptr code s' : later g st ls s l -> env_ok g c a s l ->
    mach_alloc g c a s = Ok (Some (ptr, code), s') -> later g st ls s' (MLive ptr code :: l)
| la_fail st ls s l c a s' : later g st ls s l -> env_ok g c a s l ->
    mach_alloc g c a s = Ok (None, s') -> later g st ls s' l
| la_free st ls s l k m s' : later g st ls s (l ++ k :: m) -> mach_free g (ml_ptr k) s = Ok s' -> later g st ls s' (l ++ m).
