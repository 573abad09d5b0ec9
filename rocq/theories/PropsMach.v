(** C40 and C53: the trampoline tables of Mach systems. *)
From Verif Require Import Base MachModel MachSpec MachProofs MachMain.
From Coq Require Import Lia.
Local Open Scope Z_scope.

(** C40, over all histories of allocations and frees that got this far: closures in use have
    different addresses, different trampolines, and the trampolines are in mapped tables. *)
Theorem C40_distinct_partial g st ls : mcfg_ok g -> mach_history g st ls ->
  NoDup (map ml_ptr ls) /\ NoDup (map ml_code ls) /\ Forall (in_table g st) ls.
Proof. intros Hg. exact (C40_distinct g Hg st ls). Qed.
Print Assumptions C40_distinct_partial.

Example C40_distinct_example : mcfg_ok g2 /\ mach_history g2 ex_st ex_ls /\
  ex_ls = [MLive 5 0x3000020; MLive 3 0x2000020; MLive 1 0x1000020].
Proof. split; [exact g2_ok|]. split; [exact ex_history|]. vm_compute. reflexivity. Qed.

(** Allocation touches no table that was given back, if calloc gives memory. *)
Theorem C40_alloc_defined_partial g st ls c a : mcfg_ok g -> mach_history g st ls -> env_ok g c a st ls -> calloc_ok a ->
  exists o st', mach_alloc g c a st = Ok (o, st').
Proof. intros Hg. exact (C40_alloc g Hg st ls c a). Qed.
Print Assumptions C40_alloc_defined_partial.

Example C40_alloc_defined_example : mcfg_ok g2 /\ mach_history g2 ex_st ex_ls /\
  env_ok g2 (Some 6) (TAns None (Some 7%nat) true) ex_st ex_ls /\ calloc_ok (TAns None (Some 7%nat) true).
Proof.
  split; [exact g2_ok|]. split; [exact ex_history|]. split; [apply env_okb_ok; vm_compute; reflexivity|]. split; [discriminate|reflexivity].
Qed.

(** Without memory for the table record its null pointer is used. *)
Theorem C40_calloc_refuted : exists g c a, mcfg_ok g /\ env_ok g c a mst0 [] /\ mach_alloc g c a mst0 = UB.
Proof. exact C40_calloc_witness. Qed.
Print Assumptions C40_calloc_refuted.

(** Freeing a closure touches no table that was given back, unless it empties a table that is
    not the first one. *)
Theorem C40_free_defined_partial g st l k m : mcfg_ok g -> mach_history g st (l ++ k :: m) ->
  exists t c, given_back st (ml_ptr k) = Some (t, c) /\
    (c < Z.of_nat (mc_count g) \/ m_head st = Some t -> exists st', mach_free g (ml_ptr k) st = Ok st').
Proof. intros Hg. exact (C40_free g Hg st l k m). Qed.
Print Assumptions C40_free_defined_partial.

Example C40_free_defined_example : mcfg_ok g2 /\ mach_history g2 ex_st ([] ++ MLive 5 0x3000020 :: [MLive 3 0x2000020; MLive 1 0x1000020]) /\
  given_back ex_st 1 = Some (0%nat, 2) /\ m_head ex_st = Some 0%nat.
Proof.
  split; [exact g2_ok|]. split; [|split; vm_compute; reflexivity].
  pose proof ex_history as H. replace ex_ls with ([] ++ MLive 5 0x3000020 :: [MLive 3 0x2000020; MLive 1 0x1000020]) in H by (vm_compute; reflexivity).
  exact H.
Qed.

(** Moving a table to the front leaves the link that led to it in place, so a table later given
    back is still pointed to and then written: with nine closures and pages of four slots. *)
Theorem C40_freed_access_refuted : exists g st ls k, mcfg_ok g /\ mach_history g st ls /\ In k ls /\ mach_free g (ml_ptr k) st = UB.
Proof. exact C40_witness. Qed.
Print Assumptions C40_freed_access_refuted.

(** C53: a table that is not the first one is given back when it empties. *)
Theorem C53_emptied_partial g st l k m st' t : mcfg_ok g -> mach_history g st (l ++ k :: m) ->
  given_back st (ml_ptr k) = Some (t, Z.of_nat (mc_count g)) -> m_head st <> Some t ->
  mach_free g (ml_ptr k) st = Ok st' -> m_tables st' t = None.
Proof. intros Hg. exact (C53_emptied g Hg st l k m st' t). Qed.
Print Assumptions C53_emptied_partial.

Example C53_emptied_example : mcfg_ok g2 /\ mach_history g2 ex_st ([MLive 5 0x3000020] ++ MLive 3 0x2000020 :: [MLive 1 0x1000020]) /\
  given_back ex_st 3 = Some (1%nat, 2) /\ m_head ex_st = Some 0%nat /\
  match mach_free g2 3 ex_st with Ok _ => True | _ => False end.
Proof.
  split; [exact g2_ok|]. split; [|split; [vm_compute; reflexivity|split; [vm_compute; reflexivity|vm_compute; exact Logic.I]]].
  pose proof ex_history as H. replace ex_ls with ([MLive 5 0x3000020] ++ MLive 3 0x2000020 :: [MLive 1 0x1000020]) in H by (vm_compute; reflexivity).
  exact H.
Qed.

(** A first table that empties and is then replaced as the first one is lost. *)
Theorem C53_lost_refuted : exists g st ls t, mcfg_ok g /\ mach_history g st ls /\ lost g st t.
Proof. exact C53_witness. Qed.
Print Assumptions C53_lost_refuted.

(** Such a table is never used and never given back, whatever happens later. *)
Theorem C53_lost_for_good g st ls st' ls' t : mcfg_ok g -> mach_history g st ls -> lost g st t ->
  later g st ls st' ls' -> lost g st' t.
Proof. intros Hg. exact (lost_stays g Hg st ls st' ls' t). Qed.
Print Assumptions C53_lost_for_good.

Example C53_lost_for_good_example : mcfg_ok g2 /\ mach_history g2 lost2_st lost2_ls /\ lost g2 lost2_st 1%nat /\
  later g2 lost2_st lost2_ls lost2_st' lost2_ls' /\
  lost2_ls' = [MLive 4 0x3000020; MLive 3 0x1000020; MLive 2 0x1000030].
Proof.
  split; [exact g2_ok|]. split; [exact lost2_history|]. split; [exact lost2_is|]. split; [exact lost2_later|].
  vm_compute. reflexivity.
Qed.
