(** Properties C31-C35: the static trampoline allocator under any number of threads. *)
From Verif Require Import Base TrampModel TrampSpec TrampRun TrampMain.
From Verif Require Import TrampCodeModel TrampCodeSpec.

(** ** C31 *)
Theorem C31_live_trampolines_placed c y : 16 <= tc_size c <= tc_map c -> reach c y -> exists bs : Z -> Z,
  (forall e, In e (live y) -> placed c (y_st y) (e_arr e) (e_i e) (bs (e_arr e))) /\
  (forall e e', In e (live y) -> In e' (live y) -> e_arr e <> e_arr e' -> disjoint (2 * tc_map c) (bs (e_arr e)) (bs (e_arr e'))) /\
  NoDup (map handle (live y)).
Proof. exact (fun Hc => live_placed c Hc y). Qed.
Print Assumptions C31_live_trampolines_placed.

Theorem C31_live_trampolines_distinct c y j k e e' : 16 <= tc_size c <= tc_map c -> reach c y ->
  nth_error (live y) j = Some e -> nth_error (live y) k = Some e' -> j <> k ->
  exists p p' q q',
    s_val (y_st y) (A (e_arr e) (e_i e) ACode) = Addr p /\ s_val (y_st y) (A (e_arr e') (e_i e') ACode) = Addr p' /\
    s_val (y_st y) (A (e_arr e) (e_i e) AParm) = Addr q /\ s_val (y_st y) (A (e_arr e') (e_i e') AParm) = Addr q' /\
    disjoint (tc_size c) p p' /\ disjoint (tc_size c) q q' /\ disjoint (tc_size c) p q' /\ disjoint (tc_size c) q p'.
Proof. exact (fun Hc => live_distinct c Hc y j k e e'). Qed.
Print Assumptions C31_live_trampolines_distinct.

(** ffi_tramp_get_addr answers with the code address of its trampoline. *)
Theorem C31_get_addr c y t a i own v : 16 <= tc_size c <= tc_map c -> reach c y ->
  nth_error (y_thr y) t = Some (Run (CGet a i) own (Ret v)) ->
  (exists p, In (Entry a i p) (y_pool y)) /\ v = s_val (y_st y) (A a i ACode).
Proof. exact (fun Hc => get_result c Hc y t a i own v). Qed.
Print Assumptions C31_get_addr.

(** Tables of two trampolines.  Thread 0 starts an allocation and is interrupted after 30
    steps, thread 1 waits for the mutex; both then get trampolines of the first table, a
    third allocation maps a second table below it. *)
Definition small : tcfg := TCfg 16 32 (fun x => x mod 251).
Definition three : list (nat * ecmd) :=
  [(0%nat, ECall (CAlloc 0)); (1%nat, ECall (CAlloc 0)); (0%nat, ESteps 30 [16; 1; 3; 7; 9; 4096; 0]);
   (0%nat, ESteps 300 []); (1%nat, ESteps 300 []);
   (1%nat, ECall (CAlloc 0)); (1%nat, ESteps 300 [8; 10; 4032; 0]);
   (0%nat, ECall (CSet 9 0 70000 80000)); (0%nat, ESteps 300 []);
   (0%nat, ECall (CGet 10 1)); (0%nat, ESteps 4 [])].

Example C31_example :
  reach small (after_drive small 2 three) /\
  map (fun e => (handle e, s_val (y_st (after_drive small 2 three)) (A (e_arr e) (e_i e) ACode),
                 s_val (y_st (after_drive small 2 three)) (A (e_arr e) (e_i e) AParm))) (live (after_drive small 2 three)) =
    [((9, 0), Addr 4096, Addr 4128); ((10, 1), Addr 4048, Addr 4080); ((9, 1), Addr 4112, Addr 4144)].
Proof. split; [apply after_reach|]. vm_compute. reflexivity. Qed.

(** Just before thread 0 returns from ffi_tramp_get_addr. *)
Example C31_get_addr_example :
  let y := after_drive small 2 (removelast three ++ [(0%nat, ESteps 3 [])]) in
  reach small y /\ match nth_error (y_thr y) 0 with Some (Run (CGet 10 1) _ (Ret v)) => v = Addr 4048 | _ => False end.
Proof. split; [apply after_reach|]. vm_compute. reflexivity. Qed.

(** ** C32 *)
(** No thread ever accesses or frees a record that is not allocated, writes where nothing
    writable is mapped, maps over or unmaps what is not mapped, dereferences garbage, or
    releases a mutex it does not hold. *)
Theorem C32_no_undefined_behaviour c y : 16 <= tc_size c <= tc_map c -> reach c y -> ~ ybad y.
Proof. exact (fun Hc => no_bad c Hc y). Qed.
Print Assumptions C32_no_undefined_behaviour.

(** At any time, in the middle of any call of any thread, the code and parameter tables of
    every live trampoline are mapped, and the code is there. *)
Theorem C32_live_stay_mapped c y e : 16 <= tc_size c <= tc_map c -> reach c y -> In e (live y) ->
  exists b, placed c (y_st y) (e_arr e) (e_i e) b.
Proof. exact (fun Hc => live_mapped c Hc y e). Qed.
Print Assumptions C32_live_stay_mapped.

(** After [three], thread 1 frees both trampolines of the first table: with the second table
    still half free, the first one is unmapped and its records are freed; the trampoline of
    the second table is still there. *)
Definition freed : list (nat * ecmd) :=
  three ++ [(0%nat, ESteps 300 []); (1%nat, ECall (CFree 9 0)); (1%nat, ESteps 300 []); (1%nat, ECall (CFree 9 1)); (1%nat, ESteps 300 [])].
Example C32_example :
  let y := after_drive small 2 freed in
  reach small y /\ live y = [Entry 10 1 None] /\
  map (s_perm (y_st y)) [4096; 4128; 4159; 4032; 4064] = [Unmapped; Unmapped; Unmapped; RX; RW] /\
  (s_tlive (y_st y) 7, s_alive (y_st y) 9, s_tlive (y_st y) 8, s_alive (y_st y) 10) = (false, None, true, Some 2).
Proof. split; [apply after_reach|]. vm_compute. auto. Qed.

(** ** C33 *)
(** On x86-64: the processor at the code address of a live trampoline whose parameters were
    last set to [data] and [target] jumps to [target], with [data] on the stack. *)
Theorem C33_trampoline_runs c endbr y e data target s : 16 <= tc_size c <= tc_map c ->
  tc_size c = tramp_size endbr -> tc_map c = tramp_map_size ->
  (forall i k, 0 <= i < tc_map c / tc_size c -> 0 <= k < zlen (static_slot endbr false) ->
     tc_code c (i * tc_size c + k) = nth (Z.to_nat k) (static_slot endbr false) 0) ->
  reach c y -> In e (live y) -> e_parm e = Some (data, target) -> 0 <= data < 2 ^ 64 -> 0 <= target < 2 ^ 64 ->
  s_val (y_st y) (A (e_arr e) (e_i e) ACode) = Addr (m_rip s) ->
  (forall x, s_perm (y_st y) x <> Unmapped -> m_mem s x = s_mem (y_st y) x) ->
  16 <= m_reg s RSP < 2 ^ 64 -> (forall x, m_reg s RSP - 16 <= x < m_reg s RSP -> s_perm (y_st y) x = Unmapped) ->
  (forall x, byte_ok (m_mem s x)) ->
  exists n s', steps n s = Some s' /\ m_rip s' = target /\ load (m_mem s') (m_reg s' RSP + 8) 8 = data /\
    m_reg s' RSP = m_reg s RSP - 16 /\ load (m_mem s') (m_reg s' RSP) 8 = m_reg s R10 mod 2 ^ 64 /\
    keeps [R10; RSP] (m_reg s RSP - 16) 16 s s'.
Proof. exact (fun Hc Hs Hm Hk => executes c Hc endbr Hs Hm Hk y e data target s). Qed.
Print Assumptions C33_trampoline_runs.

(** With an alternate closure entry as target: the closure code behind it is reached with
    [data] in %r10 and everything else as it was. *)
Theorem C33_trampoline_arrives c endbr y e data target s endbr' short rel : 16 <= tc_size c <= tc_map c ->
  tc_size c = tramp_size endbr -> tc_map c = tramp_map_size ->
  (forall i k, 0 <= i < tc_map c / tc_size c -> 0 <= k < zlen (static_slot endbr false) ->
     tc_code c (i * tc_size c + k) = nth (Z.to_nat k) (static_slot endbr false) 0) ->
  reach c y -> In e (live y) -> e_parm e = Some (data, target) -> 0 <= data < 2 ^ 64 -> 0 <= target < 2 ^ 64 ->
  s_val (y_st y) (A (e_arr e) (e_i e) ACode) = Addr (m_rip s) ->
  (forall x, s_perm (y_st y) x <> Unmapped -> m_mem s x = s_mem (y_st y) x) ->
  16 <= m_reg s RSP < 2 ^ 64 -> (forall x, m_reg s RSP - 16 <= x < m_reg s RSP -> s_perm (y_st y) x = Unmapped) ->
  (forall x, byte_ok (m_mem s x)) ->
  target + zlen (alt_entry endbr' short rel) < 2 ^ 64 -> stack_apart s target (zlen (alt_entry endbr' short rel)) ->
  - 2 ^ (if short then 7 else 31) <= rel < 2 ^ (if short then 7 else 31) ->
  code_at (m_mem s) target (alt_entry endbr' short rel) ->
  arrives s (wrap64 (target + zlen (alt_entry endbr' short rel) + rel)) data.
Proof. exact (fun Hc Hs Hm Hk => executes_to c Hc endbr Hs Hm Hk y e data target s endbr' short rel). Qed.
Print Assumptions C33_trampoline_arrives.

(** The last slot of a table of 102 trampolines; another one is allocated, set and freed
    by a second thread after its parameters were set. *)
Definition x86 (endbr : bool) : tcfg :=
  TCfg (tramp_size endbr) tramp_map_size (fun x => nth (Z.to_nat (x mod tramp_size endbr)) (static_slot endbr false) 144).
Definition busy : list (nat * ecmd) :=
  [(0%nat, ECall (CAlloc 0)); (0%nat, ESteps (100 * 100) [4096; 1; 3; 7; 9; 65536; 0]);
   (0%nat, ECall (CSet 9 101 70000 80000)); (0%nat, ESteps 300 []);
   (1%nat, ECall (CAlloc 0)); (1%nat, ESteps 300 []);
   (1%nat, ECall (CSet 9 100 1 2)); (1%nat, ESteps 300 []); (1%nat, ECall (CFree 9 100)); (1%nat, ESteps 300 [])].
Example C33_example :
  let y := after_drive (x86 true) 2 busy in
  let s := Mach (fun r => if r =? RSP then 32768 else 5) 69576 (s_mem (y_st y)) in
  reach (x86 true) y /\ live y = [Entry 9 101 (Some (80000, 70000))] /\
  s_val (y_st y) (A 9 101 ACode) = Addr (m_rip s) /\ (forall x, byte_ok (m_mem s x)) /\
  (forall x, 32752 <= x < 32768 -> s_perm (y_st y) x = Unmapped) /\
  match steps 7 s with Some s' => m_rip s' = 70000 /\ load (m_mem s') (m_reg s' RSP + 8) 8 = 80000 /\ m_reg s' RSP = 32752 | None => False end.
Proof.
  split; [apply after_reach|]. split; [vm_compute; reflexivity|]. split; [vm_compute; reflexivity|]. split.
  - apply after_bytes. intros x. cbn [tc_code x86].
    assert (B : Forall (fun b => 0 <= b < 256) (static_slot true false)) by (vm_compute; repeat (apply Forall_cons; [split; congruence|]); apply Forall_nil).
    destruct (nth_in_or_default (Z.to_nat (x mod tramp_size true)) (static_slot true false) 144) as [I|E]; [|rewrite E; lia].
    rewrite Forall_forall in B. apply B, I.
  - split; [|vm_compute; auto]. intros x Hx. apply (all_unmapped_ok _ 16 32752); [vm_compute; reflexivity|lia].
Qed.

(** ** C34 *)
(** Whenever the mutex is free, the mapped memory is that of some number of tables, with as
    many table and array records; all but one of them were full when the number of
    trampolines in use was at its peak; with no trampoline in use there is at most one. *)
Theorem C34_table_bound c y pk : 16 <= tc_size c <= tc_map c -> runs c y pk -> y_owner y = None ->
  exists bases ids arrs : list Z,
    length ids = length bases /\ length arrs = length bases /\
    (forall x, s_perm (y_st y) x <> Unmapped <-> exists b, In b bases /\ b <= x < b + 2 * tc_map c) /\
    (forall id, s_tlive (y_st y) id = true <-> In id ids) /\ (forall arr, s_alive (y_st y) arr <> None <-> In arr arrs) /\
    (zlen bases <= 1 \/ (zlen bases - 1) * (tc_map c / tc_size c) < pk) /\
    (inuse y = [] -> zlen bases <= 1).
Proof. exact (fun Hc => table_bound c Hc y pk). Qed.
Print Assumptions C34_table_bound.

(** Five trampolines need three tables of two; when they are freed one table is left. *)
Definition five : list (nat * ecmd) :=
  flat_map (fun ds => [(0%nat, ECall (CAlloc 0)); (0%nat, ESteps 300 ds)])
    [[16; 1; 3; 7; 9; 4096; 0]; []; [8; 10; 8192; 0]; []; [11; 12; 16384; 0]].
Definition five_freed : list (nat * ecmd) :=
  five ++ flat_map (fun h => [(0%nat, ECall (CFree (fst h) (snd h))); (0%nat, ESteps 300 [])]) [(9, 0); (10, 1); (12, 1); (9, 1); (10, 0)].
Example C34_example :
  let y := after_drive small 1 five in let y' := after_drive small 1 five_freed in
  (runs small y (peak_drive small 1 five) /\ runs small y' (peak_drive small 1 five_freed)) /\
  (y_owner y = None /\ zlen (inuse y) = 5 /\ peak_drive small 1 five = 5 /\
    map (s_perm (y_st y)) [4096; 8192; 16384; 20000] = [RX; RX; RX; Unmapped]) /\
  (y_owner y' = None /\ inuse y' = [] /\ peak_drive small 1 five_freed = 5 /\
    map (s_perm (y_st y')) [4096; 8192; 16384] = [Unmapped; RX; Unmapped]).
Proof. split; [split; apply after_runs|]. vm_compute. auto 10. Qed.

(** ** C35 *)
(** Whenever no thread holds the mutex the state is consistent, and the trampolines that are
    not on a free list are those in use: each operation starts and ends in such a state. *)
Theorem C35_consistent c y : 16 <= tc_size c <= tc_map c -> reach c y -> y_owner y = None ->
  consistent c (y_st y) (map handle (inuse y)).
Proof. exact (fun Hc => between_calls c Hc y). Qed.
Print Assumptions C35_consistent.

(** No trampoline is in the hands of two threads. *)
Theorem C35_no_duplicates c y : 16 <= tc_size c <= tc_map c -> reach c y -> NoDup (map handle (inuse y)).
Proof. exact (fun Hc => no_duplicates c Hc y). Qed.
Print Assumptions C35_no_duplicates.

(** All accesses are made by the holder of the mutex. *)
Theorem C35_mutual_exclusion c y t cl own o k : 16 <= tc_size c <= tc_map c -> reach c y ->
  nth_error (y_thr y) t = Some (Run cl own (Do o k)) -> o <> Lock -> y_owner y = Some t.
Proof. exact (fun Hc => mutual_exclusion c Hc y t cl own o k). Qed.
Print Assumptions C35_mutual_exclusion.

(** The holder of the mutex, running alone, releases it and completes its call. *)
Theorem C35_lock_released c y t : 16 <= tc_size c <= tc_map c -> reach c y -> y_owner y = Some t ->
  exists y' cl own v, alone c t y y' /\ y_owner y' = None /\ nth_error (y_thr y') t = Some (Run cl own (Ret v)).
Proof. exact (fun Hc => finishes c Hc y t). Qed.
Print Assumptions C35_lock_released.

(** There is no deadlock. *)
Theorem C35_progress c y t cl own p : 16 <= tc_size c <= tc_map c -> reach c y ->
  nth_error (y_thr y) t = Some (Run cl own p) -> exists y', ystep c y y'.
Proof. exact (fun Hc => progress c Hc y t cl own p). Qed.
Print Assumptions C35_progress.

(** Thread 0 has the mutex in the middle of filling its first table, threads 1 and 2 wait
    for it; later all three have trampolines and no one holds the mutex. *)
Definition race : list (nat * ecmd) :=
  [(2%nat, ECall (CAlloc 0)); (1%nat, ECall CSupported); (0%nat, ECall (CAlloc 0)); (0%nat, ESteps 60 [16; 0; 3; 32; 7; 9; 4096; 0])].
Example C35_example :
  let y := after_drive small 3 race in
  let y' := after_drive small 3 (race ++ [(0%nat, ESteps 300 []); (2%nat, ESteps 300 []); (1%nat, ESteps 300 []);
                                         (1%nat, ECall (CAlloc 0)); (1%nat, ESteps 300 [8; 10; 4032; 0])]) in
  (reach small y /\ y_owner y = Some 0%nat /\
    match nth_error (y_thr y) 0, nth_error (y_thr y) 2 with
    | Some (Run _ _ (Do (Wr (A 9 1 ANext) (PTr 9 0)) _)), Some (Run _ _ (Do Lock _)) => True
    | _, _ => False
    end) /\
  reach small y' /\ y_owner y' = None /\ map handle (inuse y') = [(10, 1); (9, 0); (9, 1)].
Proof. split; [split; [apply after_reach|]|split; [apply after_reach|]]; vm_compute; auto. Qed.
