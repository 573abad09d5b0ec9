(** C30, C47, C48, C50: trampolines and closures on x86-64. *)
From Verif Require Import Base Types Unix64Model TrampCodeModel TrampCodeSpec TrampCodeProofs
  ClosurePrepModel ClosurePrepSpec ClosurePrepProofs ClosurePrepMain.

(** C47. Dynamic trampoline code jumps to the entry point with the code address of the
    closure in %r10; no other register and no memory changes. *)
Theorem C47_dynamic_trampoline s dest :
  0 <= m_rip s < 2 ^ 64 -> 0 <= dest < 2 ^ 64 ->
  code_at (m_mem s) (m_rip s) (dynamic_closure_code dest) ->
  exists n s', steps n s = Some s' /\ m_rip s' = dest /\ m_reg s' R10 = m_rip s /\ keeps [R10] 0 0 s s'.
Proof. exact (dynamic_ok s dest). Qed.
Print Assumptions C47_dynamic_trampoline.

(** Code at the very end of the address space. *)
Example C47_example :
  let code := dynamic_closure_code (2 ^ 63 + 5) in
  let s := Mach (fun r => r) (2 ^ 64 - 20) (fun x => nth (Z.to_nat ((x + 20) mod 2 ^ 64)) code 0) in
  (0 <= m_rip s < 2 ^ 64 /\ code_at (m_mem s) (m_rip s) code) /\
  option_map (fun s' => (m_rip s', m_reg s' R10, m_reg s' RSP)) (steps 3 s) = Some (2 ^ 63 + 5, 2 ^ 64 - 20, 4).
Proof. vm_compute. repeat split; congruence. Qed.

(** C48. Slot [i] of the static code table at any base address jumps to the target of
    parameter block [i] with its data on the stack above the saved %r10. *)
Theorem C48_static_trampoline endbr ilp32 base i s :
  0 <= i < tramp_map_size / tramp_size endbr -> 0 <= base -> base + 2 * tramp_map_size <= 2 ^ 64 ->
  m_rip s = base + i * tramp_size endbr -> stack_apart s base (2 * tramp_map_size) ->
  (forall x, byte_ok (m_mem s x)) ->
  code_at (m_mem s) (base + i * tramp_size endbr) (static_slot endbr ilp32) ->
  exists n s', steps n s = Some s' /\
    parm_at ilp32 (m_mem s) (base + tramp_map_size + i * tramp_size endbr) (load (m_mem s') (m_reg s' RSP + 8) 8) (m_rip s') /\
    m_reg s' RSP = m_reg s RSP - 16 /\
    load (m_mem s') (m_reg s' RSP) 8 = m_reg s R10 mod 2 ^ 64 /\
    keeps [R10; RSP] (m_reg s RSP - 16) 16 s s'.
Proof. exact (static_ok endbr ilp32 base i s). Qed.
Print Assumptions C48_static_trampoline.

(** With the alternate entry point as target: it is entered through with the data in %r10
    and the stack pointer restored. *)
Theorem C48_static_trampoline_to_entry endbr ilp32 endbr' short rel base i s data alt :
  0 <= i < tramp_map_size / tramp_size endbr -> 0 <= base -> base + 2 * tramp_map_size <= 2 ^ 64 ->
  m_rip s = base + i * tramp_size endbr -> stack_apart s base (2 * tramp_map_size) ->
  (forall x, byte_ok (m_mem s x)) ->
  code_at (m_mem s) (base + i * tramp_size endbr) (static_slot endbr ilp32) ->
  parm_at ilp32 (m_mem s) (base + tramp_map_size + i * tramp_size endbr) data alt ->
  0 <= alt -> alt + zlen (alt_entry endbr' short rel) < 2 ^ 64 ->
  stack_apart s alt (zlen (alt_entry endbr' short rel)) ->
  - 2 ^ (if short then 7 else 31) <= rel < 2 ^ (if short then 7 else 31) ->
  code_at (m_mem s) alt (alt_entry endbr' short rel) ->
  arrives s (wrap64 (alt + zlen (alt_entry endbr' short rel) + rel)) data.
Proof. exact (static_arrives endbr ilp32 endbr' short rel base i s data alt). Qed.
Print Assumptions C48_static_trampoline_to_entry.

(** Slot 7 of a table at 65536 whose parameters are a closure address and entry code. *)
Example C48_example :
  let m := view_of (fun x => x) (snd (prep_closure_loc (fun x => x) ex_mem ex_entries ex_static 2 0 11 22 33)) in
  let s := ex_machine m (65536 + 40 * 7) in
  (m_rip s = 65536 + 7 * tramp_size true /\ code_at m (65536 + 7 * tramp_size true) (static_slot true false) /\
   parm_at false m (65536 + tramp_map_size + 7 * tramp_size true) 200000 1000 /\ code_at m 1000 (alt_entry true false 500)) /\
  option_map (fun s' => (m_rip s', m_reg s' R10, m_reg s' RSP)) (steps 11 s) = Some (1518, 200000, 500000).
Proof. vm_compute. repeat split; congruence. Qed.

(** C50. A closure whose code address shows its own memory: preparing succeeds for the three
    ABIs, and calling the code address enters the right entry point, which finds the cif,
    handler and user data given. *)
Theorem C50_dynamic_closure phys pm en cl n abi flags cif fn ud entry :
  56 <= n -> dynamic_alloc phys cl n -> entry_ok en -> word_ok cif -> word_ok fn -> word_ok ud ->
  entry_for en abi flags false entry ->
  exists pm', prep_closure_loc phys pm en cl abi flags cif fn ud = (FFI_OK, pm') /\
    forall s, (forall x, m_mem s x = view_of phys pm' x) -> m_rip s = ca_code cl -> stack_apart s (ca_code cl) n ->
      invokes s entry cif fn ud.
Proof. exact (dynamic_closure phys pm en cl n abi flags cif fn ud entry). Qed.
Print Assumptions C50_dynamic_closure.

(** The same with a static trampoline. *)
Theorem C50_static_closure phys pm en cl n endbr base i abi flags cif fn ud entry alt e2 short rel :
  56 <= n -> static_alloc phys pm cl n endbr base i -> (forall x, byte_ok (pm x)) ->
  entry_ok en -> word_ok cif -> word_ok fn -> word_ok ud ->
  entry_for en abi flags true alt -> alt_code phys pm cl n alt entry e2 short rel ->
  exists pm', prep_closure_loc phys pm en cl abi flags cif fn ud = (FFI_OK, pm') /\
    forall s, (forall x, m_mem s x = view_of phys pm' x) -> m_rip s = ca_code cl ->
      static_stack s cl n base alt (zlen (alt_entry e2 short rel)) -> invokes s entry cif fn ud.
Proof. exact (static_closure phys pm en cl n endbr base i abi flags cif fn ud entry alt e2 short rel). Qed.
Print Assumptions C50_static_closure.

(** Any other ABI number is refused and nothing is written. *)
Theorem C50_bad_abi phys pm en cl abi flags cif fn ud :
  abi <> 2 -> abi <> 3 -> abi <> 4 -> prep_closure_loc phys pm en cl abi flags cif fn ud = (FFI_BAD_ABI, pm).
Proof. exact (bad_abi phys pm en cl abi flags cif fn ud). Qed.
Print Assumptions C50_bad_abi.

(** A dual-mapped closure, written at 200000 and executed at 300000, and one with slot 7. *)
Example C50_example :
  dynamic_alloc ex_phys ex_dynamic 72 /\ static_alloc (fun x => x) ex_mem ex_static 72 true 65536 7 /\
  alt_code (fun x => x) ex_mem ex_static 72 1000 1518 true false 500 /\ entry_ok ex_entries /\
  entry_for ex_entries 2 (2 ^ 11) false 2000 /\ entry_for ex_entries 2 0 true 1000.
Proof.
  split; [exact ex_dynamic_ok|]. split; [exact ex_static_ok|]. split; [exact ex_alt_ok|]. split; [exact ex_entries_ok|].
  split; [apply (entry_sse ex_entries); reflexivity|apply (entry_unix_alt ex_entries); reflexivity].
Qed.

Example C50_example_run :
  let m := view_of ex_phys (snd (prep_closure_loc ex_phys ex_mem ex_entries ex_dynamic 2 (2 ^ 11) 11 22 33)) in
  option_map (fun s' => (m_rip s', m_reg s' R10, m_reg s' RSP, closure_call (m_mem s') (m_reg s' R10))) (steps 3 (ex_machine m 300000))
    = Some (2000, 300000, 500000, (11, 22, 33)) /\
  prep_closure_loc ex_phys ex_mem ex_entries ex_dynamic 1 0 11 22 33 = (FFI_BAD_ABI, ex_mem).
Proof. split; [vm_compute; reflexivity|reflexivity]. Qed.

(** C30. A raw closure given its code address as location runs its handler when the code
    address shows the closure's own memory ... *)
Theorem C30_raw_dynamic_partial phys pm en tr cl n abi flags cif fn ud entry :
  72 <= n -> dynamic_alloc phys cl n -> entry_ok en -> word_ok tr -> word_ok cif -> word_ok fn -> word_ok ud ->
  entry_for en abi flags false entry ->
  exists pm', prep_raw_closure_loc phys pm en tr cl abi flags cif fn ud (ca_code cl) = (FFI_OK, pm') /\
    forall s, (forall x, m_mem s x = view_of phys pm' x) -> m_rip s = ca_code cl -> stack_apart s (ca_code cl) n ->
      invokes_raw s tr entry cif fn ud.
Proof. exact (raw_dynamic_closure phys pm en tr cl n abi flags cif fn ud entry). Qed.
Print Assumptions C30_raw_dynamic_partial.

(** ... and with a static trampoline when given the closure itself as location, which is
    what ffi_prep_raw_closure does. *)
Theorem C30_raw_static_partial phys pm en tr cl n endbr base i abi flags cif fn ud entry alt e2 short rel :
  72 <= n -> static_alloc phys pm cl n endbr base i -> (forall x, byte_ok (pm x)) ->
  entry_ok en -> word_ok tr -> word_ok cif -> word_ok fn -> word_ok ud ->
  entry_for en abi flags true alt -> alt_code phys pm cl n alt entry e2 short rel ->
  exists pm', prep_raw_closure_loc phys pm en tr cl abi flags cif fn ud (ca_ptr cl) = (FFI_OK, pm') /\
    forall s, (forall x, m_mem s x = view_of phys pm' x) -> m_rip s = ca_code cl ->
      static_stack s cl n base alt (zlen (alt_entry e2 short rel)) -> invokes_raw s tr entry cif fn ud.
Proof. exact (raw_static_closure phys pm en tr cl n endbr base i abi flags cif fn ud entry alt e2 short rel). Qed.
Print Assumptions C30_raw_static_partial.

(** With a static trampoline and the code address as location (the documented use) it does
    not: ffi_translate_args takes the handler from the bytes of the code table. *)
Theorem C30_raw_closure_refuted :
  exists phys pm en tr cl n endbr base i abi flags cif fn ud entry alt e2 short rel,
    72 <= n /\ static_alloc phys pm cl n endbr base i /\ (forall x, byte_ok (pm x)) /\
    entry_ok en /\ word_ok tr /\ word_ok cif /\ word_ok fn /\ word_ok ud /\
    entry_for en abi flags true alt /\ alt_code phys pm cl n alt entry e2 short rel /\
    exists pm' s, prep_raw_closure_loc phys pm en tr cl abi flags cif fn ud (ca_code cl) = (FFI_OK, pm') /\
      (forall x, m_mem s x = view_of phys pm' x) /\ m_rip s = ca_code cl /\
      static_stack s cl n base alt (zlen (alt_entry e2 short rel)) /\
      exists k s', steps k s = Some s' /\ m_rip s' = entry /\ m_reg s' R10 = ca_ptr cl /\
        exists fn' ud', handler_called (m_mem s') tr (ca_ptr cl) = (cif, fn', ud') /\ fn' <> fn /\ ud' <> ud.
Proof. exact raw_static_counterexample. Qed.
Print Assumptions C30_raw_closure_refuted.

Example C30_example :
  let m := view_of ex_phys (snd (prep_raw_closure_loc ex_phys ex_mem ex_entries 7777 ex_dynamic 3 0 11 22 33 300000)) in
  option_map (fun s' => (m_rip s', handler_called (m_mem s') 7777 (m_reg s' R10))) (steps 3 (ex_machine m 300000))
    = Some (3000, (11, 22, 33)) /\
  dynamic_alloc ex_phys ex_dynamic 72 /\ static_alloc (fun x => x) ex_mem ex_static 72 true 65536 7.
Proof. split; [vm_compute; reflexivity|]. split; [exact ex_dynamic_ok|exact ex_static_ok]. Qed.
