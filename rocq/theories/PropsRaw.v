(** C27-C29, C49: the raw and Java raw argument forms. *)
From Verif Require Import Base Types Win64Model RawModel RawSpec RawMain.

(** C27: the raw form has every argument at its place. *)
Theorem C27_raw_form :
  forall g m ts args vs raw,
    cfg_ok g -> Forall (arg_type g) ts -> sizes_small g ts ->
    args_at g m ts args vs -> zlen raw = raw_size g ts 0 ->
    exists raw', ptrarray_to_raw g m ts args raw 0 = Ok raw' /\ zlen raw' = zlen raw /\
      raw_form g raw' ts 0 args vs.
Proof. exact raw_form_ok. Qed.
Print Assumptions C27_raw_form.

(** C27: translating back gives pointers to the original values. *)
Theorem C27_round_trip :
  forall g m ts args vs raw,
    cfg_ok g -> rc_ptr g = rc_arg g -> Forall (arg_type g) ts -> sizes_small g ts ->
    args_at g m ts args vs -> zlen raw = raw_size g ts 0 ->
    exists raw' ps, ptrarray_to_raw g m ts args raw 0 = Ok raw' /\
      raw_to_ptrarray g ts raw' 0 = Ok ps /\ reads_back raw' m ts ps vs.
Proof. exact raw_back. Qed.
Print Assumptions C27_round_trip.

Example C27_hypotheses_met :
  forall g, g = g_le64 \/ g = g_be64 \/ g = g_be32 ->
  cfg_ok g /\ rc_ptr g = rc_arg g /\ Forall (arg_type g) (rx_types (rc_ptr g)) /\ sizes_small g (rx_types (rc_ptr g)) /\
  args_at g rx_mem (rx_types (rc_ptr g)) rx_args (rx_vals g) /\
  raw_size g (rx_types (rc_ptr g)) 0 = (if rc_arg g =? 8 then 56 else 40).
Proof. exact rx_ok. Qed.

(** C28: on any contents of a block of ffi_raw_size bytes, the pointers into the block
    point at objects inside it.  That the translation to raw form stays inside is part of
    C27_raw_form: a store outside the block is UB there. *)
Theorem C28_reads_inside :
  forall g ts raw,
    cfg_ok g -> rc_ptr g = rc_arg g -> Forall (arg_type g) ts -> sizes_small g ts ->
    zlen raw = raw_size g ts 0 ->
    exists ps, raw_to_ptrarray g ts raw 0 = Ok ps /\
      Forall2 (fun t q => forall o, q = InRaw o -> 0 <= o /\ o + ty_size t <= zlen raw) ts ps.
Proof. exact raw_inside. Qed.
Print Assumptions C28_reads_inside.

Example C28_hypotheses_met :
  cfg_ok g_be32 /\ rc_ptr g_be32 = rc_arg g_be32 /\ Forall (arg_type g_be32) (rx_types 4) /\ sizes_small g_be32 (rx_types 4) /\
  args_at g_be32 rx_mem (rx_types 4) rx_args (rx_vals g_be32) /\ raw_size g_be32 (rx_types 4) 0 = 40.
Proof. exact (rx_ok g_be32 (or_intror (or_intror eq_refl))). Qed.

(** C29: the Java raw form has every argument at its place, longs and doubles in two
    words, within ffi_java_raw_size bytes, and translates back. *)
Theorem C29_java_round_trip :
  forall g, cfg_ok g -> forall m ts args vs raw n,
    Forall (java_type g) ts -> rc_java g * java_total ts < 2 ^ rc_width g ->
    args_at g m ts args vs -> java_size g ts 0 = Ok n -> zlen raw = n ->
    exists raw' ps, java_to_raw g m ts args raw 0 = Ok raw' /\ zlen raw' = zlen raw /\
      java_form g raw' ts 0 vs /\
      java_to_ptrarray g ts 0 = Ok ps /\ java_reads_back raw' ts ps vs.
Proof. exact RawJava.java_round_trip. Qed.
Print Assumptions C29_java_round_trip.

(** C29: a result converted to Java form and back is the same, and in Java form it is a
    32-bit value in the first word.  Missing: pointers on big-endian targets with 8-byte
    words and 4-byte Java words. *)
Theorem C29_java_result_partial :
  forall g rt v,
    ty_code rt = T_VOID \/ java_type g rt ->
    (ty_code rt = T_POINTER -> rc_java g = 8 \/ rc_be g = false \/ rc_arg g = 4) ->
    widened_result rt v ->
    exists w, java_rvalue_to_raw g rt v = Ok w /\ java_raw_to_rvalue g rt w = Ok v /\
      (rc_be g = true -> rc_arg g = 8 -> widened (ty_code rt) = true -> firstn 4 (enc true 8 w) = enc true 4 v).
Proof. exact java_result_ok. Qed.
Print Assumptions C29_java_result_partial.

(** C29: there a pointer result does not come back (MIPS N32, big-endian): the word the
    caller of a Java raw closure gets has zeros in its low half. *)
Theorem C29_java_result_refuted :
  exists v w, widened_result (FT T_POINTER 4 4 []) v /\ 0 <= v < 2 ^ 31 /\
    java_rvalue_to_raw g_n32 (FT T_POINTER 4 4 []) v = Ok w /\
    exists v', java_raw_to_rvalue g_n32 (FT T_POINTER 4 4 []) w = Ok v' /\ v' <> v /\ v' mod 2 ^ 32 = 0.
Proof. exact java_pointer_lost. Qed.
Print Assumptions C29_java_result_refuted.

Example C29_hypotheses_met :
  forall g, g = g_le64 \/ g = g_be64 \/ g = g_be32 \/ g = g_x32 \/ g = g_n32 ->
  cfg_ok g /\ Forall (java_type g) (jx_types (rc_ptr g)) /\
  args_at g rx_mem (jx_types (rc_ptr g)) jx_args (jx_vals g) /\
  java_size g (jx_types (rc_ptr g)) 0 = Ok (7 * rc_java g).
Proof. exact jx_ok. Qed.

Example C29_result_hypotheses_met :
  java_type g_be64 (FT T_SINT32 4 4 []) /\ widened_result (FT T_SINT32 4 4 []) (2 ^ 64 - 5) /\
  java_rvalue_to_raw g_be64 (FT T_SINT32 4 4 []) (2 ^ 64 - 5) = Ok (2 ^ 64 - 5 * 2 ^ 32).
Proof. split; [cbv; auto|]. split; [exists (-5); cbv; intuition congruence|reflexivity]. Qed.

(** C49: where pointers are narrower than argument words (x32, MIPS N32) the round trip
    holds if, on little-endian targets, no argument but structs and complex numbers is
    wider than a pointer.  Missing: the others. *)
Theorem C49_narrow_pointers_partial :
  forall g m ts args vs raw,
    cfg_ok g -> Forall (advance_agrees g) ts -> Forall (arg_type g) ts -> sizes_small g ts ->
    args_at g m ts args vs -> zlen raw = raw_size g ts 0 ->
    exists raw' ps, ptrarray_to_raw g m ts args raw 0 = Ok raw' /\
      raw_to_ptrarray g ts raw' 0 = Ok ps /\ reads_back raw' m ts ps vs.
Proof. exact raw_back_narrow. Qed.
Print Assumptions C49_narrow_pointers_partial.

(** C49: on x32 the argument after a double is looked for behind the raw block. *)
Theorem C49_narrow_pointers_refuted :
  exists m ts args vs,
    cfg_ok g_x32 /\ Forall (arg_type g_x32) ts /\ sizes_small g_x32 ts /\ args_at g_x32 m ts args vs /\
    forall raw, zlen raw = raw_size g_x32 ts 0 ->
      exists raw' ps, ptrarray_to_raw g_x32 m ts args raw 0 = Ok raw' /\ raw_to_ptrarray g_x32 ts raw' 0 = Ok ps /\
        ~ reads_back raw' m ts ps vs /\
        nth 1 ps (AtAddr 0) = InRaw (zlen raw).
Proof. exact x32_shifted. Qed.
Print Assumptions C49_narrow_pointers_refuted.

Example C49_hypotheses_met :
  Forall (advance_agrees g_x32) [FT T_SINT32 4 4 []; FT T_UINT8 1 1 []; FT T_POINTER 4 4 []; FT T_STRUCT 24 8 [ty_double; ty_double; ty_double]] /\
  Forall (arg_type g_x32) [FT T_SINT32 4 4 []; FT T_UINT8 1 1 []; FT T_POINTER 4 4 []; FT T_STRUCT 24 8 [ty_double; ty_double; ty_double]] /\
  sizes_small g_x32 [FT T_SINT32 4 4 []; FT T_UINT8 1 1 []; FT T_POINTER 4 4 []; FT T_STRUCT 24 8 [ty_double; ty_double; ty_double]].
Proof. exact x32_agree. Qed.
