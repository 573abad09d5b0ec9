(** C37: data and code addresses of the closure memory.  C51: looking up a segment while
    another thread adds memory. *)
From Verif Require Import Base SegModel SegSpec SegMain SegRaceModel SegRaceSpec SegRaceProofs.
From Coq Require Import Lia.
Local Open Scope Z_scope.

(** C37, over all histories of growing, trimming, releasing and storing in which no munmap
    fails after the munmap of the executable half succeeded: every byte of a segment shows at
    its code address, and the two conversions are inverse. *)
Theorem C37_same_bytes_partial st sp a : seg_history true st -> in_segment st sp a ->
  same_byte st a (add_exo a sp) /\ segment_holding st a = Some sp /\
  segment_holding_code st (add_exo a sp) = Some sp /\ sub_exo (add_exo a sp) sp = a.
Proof. exact (C37_convert st sp a). Qed.
Print Assumptions C37_same_bytes_partial.

(** A code address belongs to one data address. *)
Theorem C37_code_unique_partial st sp sq a b : seg_history true st -> in_segment st sp a -> in_segment st sq b ->
  add_exo a sp = add_exo b sq -> a = b /\ sp = sq.
Proof. exact (C37_code_unique st sp sq a b). Qed.
Print Assumptions C37_code_unique_partial.

(** Growing never reads unmapped memory and never aborts on the word at the end. *)
Theorem C37_grow_defined_partial st len k top : seg_history true st -> 8 <= len -> lawful st len k ->
  exists b st', sys_alloc len k top st = Ok (b, st').
Proof. exact (C37_defined st len k top). Qed.
Print Assumptions C37_grow_defined_partial.

(** Neither does trimming. *)
Theorem C37_trim_defined_partial st top topsize pad unit linked ok1 ok2 : seg_history true st ->
  top_inside st top topsize pad -> 0 < unit -> (ok1 = true -> ok2 = true) ->
  exists st', sys_trim top topsize pad unit linked ok1 ok2 st = Ok st'.
Proof. exact (C37_trim_defined st top topsize pad unit linked ok1 ok2). Qed.
Print Assumptions C37_trim_defined_partial.

(** When the second munmap of dlmunmap fails alone, the segment keeps addresses whose code
    addresses are not mapped any more. *)
Theorem C37_same_bytes_refuted : exists st sp a, seg_history false st /\ in_segment st sp a /\
  vm st a <> None /\ vm st (add_exo a sp) = None.
Proof. exact C37_witness. Qed.
Print Assumptions C37_same_bytes_refuted.

(** A history with an append, a prepend, a new segment and a trim. *)
Example C37_example : seg_history true w5 /\
  segs w5 = [Seg 0x300000 0x1000 0; Seg 0x1f0000 0x40000 (-0x100000)] /\
  in_segment w5 (Seg 0x1f0000 0x40000 (-0x100000)) 0x22ffff /\
  vm w5 0x22ffff = Some (BFile 0 0x2ffff) /\ vm w5 0x12ffff = Some (BFile 0 0x2ffff) /\ vm w5 0x301000 = None.
Proof.
  split; [exact (w5_history true)|]. split; [exact w5_segs|]. split; [split; [rewrite w5_segs; right; left; reflexivity|cbn; lia]|].
  split; [vm_compute; reflexivity|]. split; vm_compute; reflexivity.
Qed.
(** A lawful answer in that state. *)
Example C37_lawful_example : lawful w1 0x10000 (KDual 0 0x20000 0x120000 0x220000).
Proof. split; [|split; [|lia]]; unfold free_range; rewrite vm_w1; ranges. Qed.
Example C37_top_example : top_inside w1 0x200100 0x1fe00 0x100.
Proof. exists (Seg 0x200000 0x20000 (-0x100000)). split; [vm_compute; auto|]. cbn. lia. Qed.

(** C51, when memory is only appended to segments: whatever the schedule, the search gives the
    segment of the address or has not ended. *)
Theorem C51_search_partial h l k a q : located h l k a -> fresh_appends h a q -> finds h (appends h q) k a.
Proof. exact (C51_appends h l k a q). Qed.
Print Assumptions C51_search_partial.

(** A search alone ends. *)
Theorem C51_search_ends h a l n : chain h n l -> exists o, snd (race a (repeat true (4 * length l)) [] h (RBase n)) = RDone o.
Proof. exact (search_ends h a l n). Qed.
Print Assumptions C51_search_ends.

(** While add_segment runs the search can miss the segment; ffi_closure_alloc then uses a null
    pointer. *)
Theorem C51_add_refuted : exists h l k a ss tbase tsize exo sched, located h l k a /\ ~ In ss l /\
  ~ (tbase <= a < tbase + tsize) /\
  (let '(_, h', r) := race a sched (add_segment_stores h ss tbase tsize exo) h (RBase 0) in code_of h' a r = Some UB).
Proof. exact C51_add_witness. Qed.
Print Assumptions C51_add_refuted.

(** The search can also end well and give a code address of another segment. *)
Theorem C51_stale_refuted : exists h l k a ss tbase tsize exo sched, located h l k a /\ ~ In ss l /\
  ~ (tbase <= a < tbase + tsize) /\
  (let '(_, h', r) := race a sched (add_segment_stores h ss tbase tsize exo) h (RBase 0) in
   exists c, code_of h' a r = Some (Ok c) /\ c <> a + r_exo (h k)).
Proof. exact C51_stale_witness. Qed.
Print Assumptions C51_stale_refuted.

(** The same while a segment grows downwards. *)
Theorem C51_prepend_refuted : exists h l k a n tbase tsize sched, located h l k a /\ In n l /\
  0 < tsize /\ tbase + tsize = r_base (h n) /\ ~ (tbase <= a < tbase + tsize) /\
  (let '(_, h', r) := race a sched (prepend_stores h n tbase tsize) h (RBase 0) in code_of h' a r = Some UB).
Proof. exact C51_prepend_witness. Qed.
Print Assumptions C51_prepend_refuted.

Example C51_example : located h0 [0; 1]%nat 1%nat 0x10f00 /\ fresh_appends h0 0x10f00 [(1%nat, 0x1000); (0%nat, 0x3000)] /\
  snd (race 0x10f00 (true :: true :: false :: repeat true 6) (appends h0 [(1%nat, 0x1000); (0%nat, 0x3000)]) h0 (RBase 0)) = RDone (Some 1%nat).
Proof.
  split; [apply h0_located; right; split; [reflexivity|lia]|]. split; [exact h0_appends|]. vm_compute. reflexivity.
Qed.
