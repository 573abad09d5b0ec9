(** Property C04: the status of ffi_prep_cif on x86-64. *)
From Verif Require Import Base Types TypeHeapModel TypeHeapSpec NaturalTypes Unix64Model Win64Model
  PrepX86Model PrepX86Spec PrepX86Main.

(** C04: for signatures of C types the status is BAD_ABI exactly for the ABIs that do
    not exist or are not implemented, BAD_TYPEDEF exactly if some type has no layout,
    and FFI_OK otherwise. *)
Theorem C04_x86_64_status :
  forall rank fuel abi rt ats h,
    wf_theap rank h -> sizes_fit 64 h ->
    well_typed rank x86_64_target fuel h (abi, rt, ats) -> c_signature h rt ats ->
    exists st h' oc, prep_x86 fuel abi rt ats h = Ok (st, h', oc) /\
      (st = FFI_BAD_ABI <-> ~ (abi = FFI_UNIX64 \/ abi = FFI_WIN64 \/ abi = FFI_GNUW64)) /\
      (st = FFI_BAD_TYPEDEF <->
         (abi = FFI_UNIX64 \/ abi = FFI_WIN64 \/ abi = FFI_GNUW64) /\
         exists p, In p (rt :: ats) /\ undescribed h p) /\
      (st = FFI_OK <->
         (abi = FFI_UNIX64 \/ abi = FFI_WIN64 \/ abi = FFI_GNUW64) /\
         forall p, In p (rt :: ats) -> exists s a, eff_layout h p s a).
Proof. exact x86_status_only. Qed.
Print Assumptions C04_x86_64_status.

(** C04: a return type that is a complex number of something that is not a number is
    a bad type, although it has a layout. *)
Theorem C04_complex_return_rejected :
  forall fuel rt ats h h1 c s a e es ts,
    prep_core x86_64_target fuel FFI_UNIX64 rt ats h = Ok (FFI_OK, h1, Some c) ->
    view fuel h1 rt = Ok (FT T_COMPLEX s a (e :: es)) -> views fuel h1 ats = Ok ts ->
    ty_code e = T_VOID \/ ty_code e = T_STRUCT \/ ty_code e = T_POINTER \/ ty_code e = T_COMPLEX ->
    exists c', prep_x86 fuel FFI_UNIX64 rt ats h = Ok (FFI_BAD_TYPEDEF, h1, Some c').
Proof. exact complex_rejected. Qed.
Print Assumptions C04_complex_return_rejected.

(** What a successful preparation leaves behind: type trees of C types, and the stack
    size and flags of the machine dependent step on those trees.  This is what the
    theorems C07-C23 assume of a cif. *)
Theorem C04_prepared_signature :
  forall rank fuel abi rt ats h h' c,
    wf_theap rank h -> sizes_fit 64 h ->
    well_typed rank x86_64_target fuel h (abi, rt, ats) -> c_signature h rt ats ->
    prep_x86 fuel abi rt ats h = Ok (FFI_OK, h', Some c) ->
    exists tr ts c',
      view fuel h' rt = Ok tr /\ (tr = ty_void \/ natural tr) /\
      Forall2 (fun p t => view fuel h' p = Ok t) ats ts /\ Forall natural ts /\
      machdep_x86 (TCif abi ts tr 0 0) = Ok (FFI_OK, c') /\
      cif_bytes c = c_bytes c' /\ cif_flags c = c_flags c'.
Proof. exact prepared_signature. Qed.
Print Assumptions C04_prepared_signature.

Example C04_hypotheses_met :
  wf_theap px_rank px_heap /\ sizes_fit 64 px_heap /\
  well_typed px_rank x86_64_target 3 px_heap (2, 3%nat, [2; 1; 4; 5; 6]%nat) /\
  c_signature px_heap 3%nat [2; 1; 4; 5; 6]%nat /\
  well_typed px_rank x86_64_target 3 px_heap (2, 7%nat, [2; 8]%nat) /\
  c_signature px_heap 7%nat [2; 8]%nat /\ undescribed px_heap 8%nat /\
  (exists h' c, prep_x86 3 FFI_UNIX64 3%nat [2; 1; 4; 5; 6]%nat px_heap = Ok (FFI_OK, h', Some c)) /\
  (exists h', prep_x86 3 FFI_WIN64 7%nat [2; 8]%nat px_heap = Ok (FFI_BAD_TYPEDEF, h', None)) /\
  (exists h', prep_x86 3 1 7%nat [2; 8]%nat px_heap = Ok (FFI_BAD_ABI, h', None)).
Proof. exact ex_C04. Qed.

Example C04_complex_return_hypotheses_met :
  exists c, prep_core x86_64_target 2 FFI_UNIX64 1%nat [0%nat] pc_heap = Ok (FFI_OK, pc_heap, Some c) /\
    view 2 pc_heap 1%nat = Ok (FT T_COMPLEX 16 8 [ty_pointer]) /\ views 2 pc_heap [0%nat] = Ok [ty_pointer].
Proof. exact pc_runs. Qed.
