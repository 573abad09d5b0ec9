(** C36: histories of ffi_closure_alloc and ffi_closure_free.  C52: freeing by the code
    address. *)
From Verif Require Import Base SegModel SegSpec ClosureAllocModel ClosureAllocSpec ClosureAllocProofs ClosureAllocMain.
From Coq Require Import Lia.
Local Open Scope Z_scope.

(** C36, over all histories in which no munmap fails after the munmap of the executable half
    succeeded: live closures do not overlap, and the blocks in use are exactly theirs. *)
Theorem C36_memory_partial g st ls : ca_history g true st ls ->
  ForallOrdPairs live_apart ls /\ c_blocks st = map (fun l => (lv_ptr l, lv_size l)) ls.
Proof. exact (C36_apart g st ls). Qed.
Print Assumptions C36_memory_partial.

(** With static trampolines, live closures have distinct code addresses and the trampolines in
    use are exactly theirs. *)
Theorem C36_trampolines_partial g st ls : ca_history g true st ls -> ca_sup g = true ->
  NoDup (map lv_code ls) /\ map (ca_addr g) (c_tramps st) = map lv_code ls.
Proof. exact (C36_tramps g st ls). Qed.
Print Assumptions C36_trampolines_partial.

(** Without, the code addresses do not overlap either and show the bytes of the closure. *)
Theorem C36_code_partial g st ls : ca_history g true st ls -> ca_sup g = false ->
  ForallOrdPairs code_apart ls /\
  forall l i, In l ls -> 0 <= i < lv_size l -> same_byte (c_sg st) (lv_ptr l + i) (lv_code l + i).
Proof. exact (C36_code_bytes g st ls). Qed.
Print Assumptions C36_code_partial.

(** ffi_data_to_code_pointer gives the code address at any later time. *)
Theorem C36_data_to_code_partial g st ls l : ca_history g true st ls -> In l ls -> data_to_code g st (lv_ptr l) = lv_code l.
Proof. exact (C36_data_to_code g st ls l). Qed.
Print Assumptions C36_data_to_code_partial.

(** An allocation is defined; it fails with the same closures in use or adds one. *)
Theorem C36_alloc_partial g st ls hascode m t f : ca_history g true st ls -> malloc_contract m st -> tramp_contract g t st ->
  (forall sg, extend_all (ma_ext m) (c_sg st) = Ok sg -> free_contract true f (c_blocks st) sg) ->
  exists o c st', closure_alloc g hascode m t f st = Ok (o, c, st') /\
    match o with
    | None => ca_history g true st' ls
    | Some p => exists n code, c = Some code /\ ca_history g true st' (Live p n code :: ls)
    end.
Proof. exact (C36_alloc g st ls hascode m t f). Qed.
Print Assumptions C36_alloc_partial.

(** A free is defined and removes the closure. *)
Theorem C36_free_partial g st a l b f : ca_history g true st (a ++ l :: b) ->
  free_contract true f (others (lv_ptr l) (c_blocks st)) (c_sg st) ->
  exists st', closure_free g f (lv_ptr l) st = Ok st' /\ ca_history g true st' (a ++ b).
Proof. exact (C36_free g st a l b f). Qed.
Print Assumptions C36_free_partial.

(** After a munmap that failed halfway two live closures can have the same code address. *)
Theorem C36_code_refuted : exists g st l k, ca_history g false st [l; k] /\ ca_sup g = false /\
  live_apart l k /\ lv_code l = lv_code k.
Proof. exact C36_witness. Qed.
Print Assumptions C36_code_refuted.

(** Two closures in dual mapped memory, one freed; two with static trampolines and a third
    allocation that fails. *)
Example C36_example : ca_history gd true d3 [Live 0x200060 64 0x100060] /\
  c_blocks d3 = [(0x200060, 64)] /\ data_to_code gd d3 0x200060 = 0x100060 /\ ca_sup gd = false.
Proof. split; [exact (d3_history true)|]. split; [vm_compute; reflexivity|]. split; vm_compute; reflexivity. Qed.
Example C36_static_example :
  ca_history gs true t3 [Live 0x200060 64 (0x700000 + 64 * 6); Live 0x200010 64 (0x700000 + 64 * 5)] /\
  ca_sup gs = true /\ c_blocks t3 = [(0x200060, 64); (0x200010, 64)] /\ c_tramps t3 = [6; 5].
Proof. split; [exact (t3_history true)|]. split; [reflexivity|]. split; vm_compute; reflexivity. Qed.

(** C52, without static trampolines: with FFI_CLOSURE_FREE_CODE the code address frees the
    closure as the data address does. *)
Theorem C52_free_by_code_partial g st a l b f : ca_history g true st (a ++ l :: b) -> ca_sup g = false -> ca_free_code g = true ->
  closure_free g f (lv_code l) st = closure_free g f (lv_ptr l) st.
Proof. exact (C52_free_code g st a l b f). Qed.
Print Assumptions C52_free_by_code_partial.

(** With them the code address is that of the trampoline, and freeing by it is undefined. *)
Theorem C52_free_by_code_refuted : exists g st l, ca_history g true st [l] /\ ca_free_code g = true /\
  (exists st', closure_free g nofree (lv_ptr l) st = Ok st') /\ closure_free g nofree (lv_code l) st = UB.
Proof. exact C52_witness. Qed.
Print Assumptions C52_free_by_code_refuted.

Example C52_example : ca_history gd true d2 [Live 0x200060 64 0x100060; Live 0x200010 64 0x100010] /\ ca_free_code gd = true /\
  ca_sup gd = false /\ exists st, closure_free gd nofree 0x100010 d2 = Ok st /\ c_blocks st = [(0x200060, 64)].
Proof.
  split; [exact (d2_history true)|]. split; [reflexivity|]. split; [reflexivity|].
  exists (okfst (closure_free gd nofree 0x100010 d2)). split; [apply okf_ok; vm_compute; reflexivity|vm_compute; reflexivity].
Qed.
