(** Properties C01-C03, C05, C06 and the generic part of C04: type layout and
    call preparation. *)
From Coq Require Import ZifyBool ZifyNat.
From Verif Require Import Base BaseFacts Types TypeHeapModel LayoutSpec TypeHeapSpec
  TypeHeapProofs TypeHeapProofs2 TypeHeapProofs3 TypeHeapProofs4 TypeHeapExamples PropsTypesLemmas.

(** C01: after a successful preparation every type of the signature has the size and
    alignment of the C type it described before. *)
Theorem C01_prep_records_c_layout :
  forall rank tg fuel r h h' c,
    16 <= tg_width tg -> wf_theap rank h -> sizes_fit (tg_width tg) h ->
    well_typed rank tg fuel h r ->
    prep_request tg fuel r h = Ok (FFI_OK, h', Some c) ->
    forall p, In p (sig_types r) ->
      exists o t s a, h p = Some o /\ describes h p t /\ c_layout t s a /\
        h' p = Some (TObj s a (o_code o) (o_elems o)).
Proof. exact prep_records_c_layout. Qed.
Print Assumptions C01_prep_records_c_layout.

(** C01: the offsets reported for a struct are those of the C layout rule, and its
    size and alignment are recorded; other objects are at most laid out. *)
Theorem C01_struct_offsets :
  forall rank tg fuel abi p h ms offs s a,
    16 <= tg_width tg -> wf_theap rank h -> sizes_fit (tg_width tg) h ->
    (rank p < fuel)%nat -> abi_in_range tg abi ->
    members_of h p ms -> struct_layout ms offs s a -> s < 2 ^ tg_width tg ->
    exists h' o, get_struct_offsets tg fuel abi p h = Ok (FFI_OK, h', offs) /\
      h p = Some o /\ h' p = Some (TObj s a (o_code o) (o_elems o)) /\
      forall q, q <> p -> h' q = h q \/
        exists oq sq aq, h q = Some oq /\ o_size oq = 0 /\ eff_layout h q sq aq /\
          h' q = Some (TObj sq aq (o_code oq) (o_elems oq)).
Proof. exact struct_offsets_ok. Qed.
Print Assumptions C01_struct_offsets.

(** The C layout of a member list exists and is unique, so the two theorems above
    determine the result completely. *)
Theorem C01_layout_determined :
  forall ms offs s a offs' s' a',
    (forall m, In m ms -> 0 < snd m) ->
    struct_layout ms offs s a -> struct_layout ms offs' s' a' ->
    offs = offs' /\ s = s' /\ a = a'.
Proof. exact struct_layout_unique. Qed.
Print Assumptions C01_layout_determined.

Example C01_hypotheses_met :
  wf_theap ex_rank ex_heap /\ sizes_fit 64 ex_heap /\
  well_typed ex_rank x86_64_target 3 ex_heap (2, 3%nat, [2; 1; 4; 5]%nat) /\
  (exists h' c, prep_request x86_64_target 3 (2, 3%nat, [2; 1; 4; 5]%nat) ex_heap = Ok (FFI_OK, h', Some c) /\
     h' 3%nat = Some (TObj 40 8 T_STRUCT (Some [2; 0; 2]%nat)) /\
     h' 2%nat = Some (TObj 16 8 T_STRUCT (Some [0; 1]%nat))) /\
  members_of ex_heap 3%nat [(16, 8); (1, 1); (16, 8)] /\
  struct_layout [(16, 8); (1, 1); (16, 8)] [0; 16; 24] 40 8 /\
  (exists h', get_struct_offsets x86_64_target 3 2 3%nat ex_heap = Ok (FFI_OK, h', [0; 16; 24])).
Proof. exact ex_C01. Qed.

(** C02: a successful preparation, or any sequence of them, changes no type object
    except to record its own effective layout, and leaves all effective layouts as
    they were. *)
Theorem C02_history_preserves_layouts :
  forall rank tg fuel rs h h',
    16 <= tg_width tg -> wf_theap rank h -> sizes_fit (tg_width tg) h ->
    (forall r, In r rs -> well_typed rank tg fuel h r) ->
    prep_history tg fuel rs h = Some h' ->
    only_laid_out h h' /\ forall q s a, eff_layout h q s a <-> eff_layout h' q s a.
Proof. exact history_preserves. Qed.
Print Assumptions C02_history_preserves_layouts.

(** C02: what a preparation yields does not depend on the preparations made before. *)
Theorem C02_history_independent :
  forall rank tg fuel rs r h h' h1 c,
    16 <= tg_width tg -> wf_theap rank h -> sizes_fit (tg_width tg) h ->
    (forall r, In r rs -> well_typed rank tg fuel h r) -> well_typed rank tg fuel h r ->
    prep_history tg fuel rs h = Some h' ->
    prep_request tg fuel r h = Ok (FFI_OK, h1, Some c) ->
    exists h2, prep_request tg fuel r h' = Ok (FFI_OK, h2, Some c).
Proof. exact history_independent. Qed.
Print Assumptions C02_history_independent.

Example C02_hypotheses_met :
  exists h', prep_history x86_64_target 3 [(2, 2%nat, [0]%nat); (2, 3%nat, [2; 1; 4; 5]%nat)] ex_heap = Some h' /\
             h' 3%nat <> ex_heap 3%nat.
Proof. exact ex_C02. Qed.

(** C03 is false: a rejected struct can be accepted, unchanged, the second time. *)
Theorem C03_rejection_sticky_refuted :
  exists r h h1 h2 c,
    prep_request x86_64_target 5 r h = Ok (FFI_BAD_TYPEDEF, h1, None) /\
    prep_request x86_64_target 5 r h1 = Ok (FFI_OK, h2, Some c).
Proof. exact rejection_sticky_refuted. Qed.
Print Assumptions C03_rejection_sticky_refuted.

(** C03, what holds: if the first invalid type of the signature is invalid along its
    first members, every retry is rejected.  Missing: all other invalid types (for
    which the claim is false by the theorem above). *)
Theorem C03_rejection_sticky_partial :
  forall rank tg fuel abi rt ats n h l1 p l2,
    16 <= tg_width tg -> wf_theap rank h -> sizes_fit (tg_width tg) h -> abi_in_range tg abi ->
    well_typed rank tg fuel h (abi, rt, ats) ->
    rt :: ats = l1 ++ p :: l2 ->
    (forall q, In q l1 -> exists s a, eff_layout h q s a) -> left_undescribed h p ->
    prep_retry tg fuel (abi, rt, ats) n h = repeat (Some FFI_BAD_TYPEDEF) n.
Proof. exact rejection_sticky_left. Qed.
Print Assumptions C03_rejection_sticky_partial.

Example C03_hypotheses_met :
  left_undescribed bad_heap 3%nat /\
  prep_retry x86_64_target 5 (2, 0%nat, [0; 3]%nat) 3 bad_heap = repeat (Some FFI_BAD_TYPEDEF) 3.
Proof. exact ex_C03. Qed.

(** C04, generic part: the status before the machine dependent code runs. *)
Theorem C04_generic_status :
  forall rank tg fuel r h,
    16 <= tg_width tg -> wf_theap rank h -> sizes_fit (tg_width tg) h ->
    well_typed rank tg fuel h r ->
    exists st h' oc, prep_request tg fuel r h = Ok (st, h', oc) /\
      (st = FFI_BAD_ABI <-> ~ abi_in_range tg (fst (fst r))) /\
      (st = FFI_BAD_TYPEDEF <->
         abi_in_range tg (fst (fst r)) /\ exists p, In p (sig_types r) /\ undescribed h p) /\
      (st = FFI_OK <->
         abi_in_range tg (fst (fst r)) /\ forall p, In p (sig_types r) -> exists s a, eff_layout h p s a).
Proof. exact generic_status. Qed.
Print Assumptions C04_generic_status.

Example C04_generic_hypotheses_met :
  well_typed ex_rank x86_64_target 3 ex_heap (2, 3%nat, [2; 1; 4; 5]%nat).
Proof. exact ex_typed. Qed.

(** C05: with the predefined float object the only type object of code FLOAT among the
    variadic arguments, the status is BAD_ARGTYPE exactly for an unpromoted variadic
    argument.  [fixed] arguments play no role. *)
Theorem C05_variadic_status_partial :
  forall tg fuel machdep float_obj int_size abi rt fixed variadic h h1 c,
    prep_cif tg fuel machdep abi rt (fixed ++ variadic) h = Ok (FFI_OK, h1, c) ->
    (forall p, In p variadic -> h1 p <> None) ->
    (forall p o, In p variadic -> h1 p = Some o -> (p = float_obj <-> o_code o = T_FLOAT)) ->
    exists st, prep_cif_var tg fuel machdep float_obj int_size abi (length fixed) rt (fixed ++ variadic) h
                 = Ok (st, h1, c) /\
      (st = FFI_BAD_ARGTYPE <-> exists p, In p variadic /\ unpromoted h1 int_size p) /\
      (st = FFI_OK <-> forall p, In p variadic -> ~ unpromoted h1 int_size p).
Proof. exact variadic_status. Qed.
Print Assumptions C05_variadic_status_partial.

(** C05 without that condition is false: a private type object describing float is
    not recognised, because the code compares addresses. *)
Theorem C05_private_float_refuted :
  exists h float_obj rt p h1 c,
    unpromoted h 4 p /\
    prep_cif_var x86_64_target 2 (fun _ c => Ok (FFI_OK, c)) float_obj 4 2 0 rt [p] h = Ok (FFI_OK, h1, Some c).
Proof. exact private_float_refuted. Qed.
Print Assumptions C05_private_float_refuted.

Example C05_hypotheses_met :
  (exists h1 c, prep_cif_var x86_64_target 3 (fun _ c => Ok (FFI_OK, c)) 4%nat 4 2 1 1%nat [0; 5; 4]%nat ex_heap
     = Ok (FFI_BAD_ARGTYPE, h1, Some c)) /\
  (exists h1 c, prep_cif_var x86_64_target 3 (fun _ c => Ok (FFI_OK, c)) 4%nat 4 2 1 1%nat [0; 5; 1; 3]%nat ex_heap
     = Ok (FFI_OK, h1, Some c)).
Proof. exact ex_C05. Qed.

(** C06: on every acyclic, closed type graph (any sizes, any alignments, even
    overflowing) the preparation terminates within a stack depth given by the height
    of the graph, reads no missing object, and writes only the layout fields of
    objects without size reachable from the signature. *)
Theorem C06_terminates :
  forall rank tg fuel abi rt ats h,
    acyclic rank h ->
    (forall p, In p (rt :: ats) -> h p <> None /\ (rank p < fuel)%nat) ->
    tg_complex tg = true ->
    exists st h' c, prep_core tg fuel abi rt ats h = Ok (st, h', c) /\
      forall q, h' q = h q \/
        exists o s a p, In p (rt :: ats) /\ reaches h p q /\ h q = Some o /\ o_size o = 0 /\
          h' q = Some (TObj s a (o_code o) (o_elems o)).
Proof. exact terminates. Qed.
Print Assumptions C06_terminates.

Example C06_hypotheses_met :
  acyclic ex_rank ex_heap /\ (forall p, In p [3; 2]%nat -> ex_heap p <> None /\ (ex_rank p < 3)%nat).
Proof. exact ex_C06. Qed.
