(** The raw form theorems and their examples. *)
From Verif Require Import Base BaseFacts Types Win64Model RawModel RawSpec RawProofs RawJava.

Lemma raw_form_ok g m ts args vs raw : cfg_ok g -> Forall (arg_type g) ts -> sizes_small g ts ->
  args_at g m ts args vs -> zlen raw = raw_size g ts 0 ->
  exists raw', ptrarray_to_raw g m ts args raw 0 = Ok raw' /\ zlen raw' = zlen raw /\ raw_form g raw' ts 0 args vs.
Proof.
  intros C F B At L. pose proof (raw_size_slots g C ts F B).
  destruct (to_raw_ok g C m ts args vs raw 0 F B At ltac:(lia) ltac:(lia)) as (raw' & P & L' & Fm & _). eauto.
Qed.

Lemma same_width g ts : rc_ptr g = rc_arg g -> Forall (advance_agrees g) ts.
Proof. intros E. apply Forall_forall. intros t _. right. left. exact E. Qed.

Lemma raw_back g m ts args vs raw : cfg_ok g -> rc_ptr g = rc_arg g -> Forall (arg_type g) ts -> sizes_small g ts ->
  args_at g m ts args vs -> zlen raw = raw_size g ts 0 ->
  exists raw' ps, ptrarray_to_raw g m ts args raw 0 = Ok raw' /\
    raw_to_ptrarray g ts raw' 0 = Ok ps /\ reads_back raw' m ts ps vs.
Proof.
  intros C E F B At L.
  destruct (raw_round_trip g C m ts args vs raw F (same_width g ts E) B At L) as (raw' & ps & H1 & _ & H2 & H3). eauto.
Qed.

Lemma raw_inside g ts raw : cfg_ok g -> rc_ptr g = rc_arg g -> Forall (arg_type g) ts -> sizes_small g ts ->
  zlen raw = raw_size g ts 0 ->
  exists ps, raw_to_ptrarray g ts raw 0 = Ok ps /\
    Forall2 (fun t q => forall o, q = InRaw o -> 0 <= o /\ o + ty_size t <= zlen raw) ts ps.
Proof.
  intros C E F B L. pose proof (raw_size_slots g C ts F B).
  destruct (from_raw_inside g C ts raw 0 F (same_width g ts E) B ltac:(lia) ltac:(lia)) as (ps & H1 & H2).
  exists ps. split; [exact H1|]. eapply Forall2_weaken; [|exact H2]. cbn beta. intros t q H' o Eo. specialize (H' o Eo). lia.
Qed.

Lemma raw_back_narrow g m ts args vs raw : cfg_ok g -> Forall (advance_agrees g) ts -> Forall (arg_type g) ts -> sizes_small g ts ->
  args_at g m ts args vs -> zlen raw = raw_size g ts 0 ->
  exists raw' ps, ptrarray_to_raw g m ts args raw 0 = Ok raw' /\
    raw_to_ptrarray g ts raw' 0 = Ok ps /\ reads_back raw' m ts ps vs.
Proof.
  intros C E F B At L.
  destruct (raw_round_trip g C m ts args vs raw F E B At L) as (raw' & ps & H1 & _ & H2 & H3). eauto.
Qed.

(** ** Examples *)

(** A 64-bit little-endian and a 64-bit big-endian target; a 32-bit one; x32; MIPS N32. *)
Definition g_le64 := RawCfg false 8 8 8.
Definition g_be64 := RawCfg true 8 8 8.
Definition g_be32 := RawCfg true 4 4 4.
Definition g_x32 := RawCfg false 4 8 4.
Definition g_n32 := RawCfg true 4 8 4.

Definition rx_types (p : Z) : list ftype :=
  [FT T_SINT16 2 2 []; FT T_DOUBLE 8 8 []; FT T_UINT8 1 1 []; FT T_LONGDOUBLE 16 16 [];
   FT T_STRUCT 24 8 [ty_double; ty_double; ty_double]; FT T_POINTER p p []].
Definition rx_mem : mem := [Block 4096 (map (fun i => (Z.of_nat i * 37 + 200) mod 256) (seq 0 64))].
Definition rx_args : list Z := [4096; 4104; 4100; 4112; 4128; 4152].

Definition rx_vals (g : rawcfg) : list (list Z) :=
  map (fun x => match mread rx_mem (snd x) (ty_size (fst x)) with Some d => d | None => [] end)
      (combine (rx_types (rc_ptr g)) rx_args).

Lemma rx_ok g : g = g_le64 \/ g = g_be64 \/ g = g_be32 ->
  cfg_ok g /\ rc_ptr g = rc_arg g /\ Forall (arg_type g) (rx_types (rc_ptr g)) /\ sizes_small g (rx_types (rc_ptr g)) /\
  args_at g rx_mem (rx_types (rc_ptr g)) rx_args (rx_vals g) /\
  raw_size g (rx_types (rc_ptr g)) 0 = (if rc_arg g =? 8 then 56 else 40).
Proof.
  intros H. destruct H as [->|[->| ->]].
  all: split; [cbv -[Z.le]; intuition lia|]; split; [reflexivity|]; split; [repeat (apply Forall_cons; [cbv; reflexivity|]); apply Forall_nil|];
    split; [cbv; reflexivity|]; split; [|reflexivity].
  all: cbn [args_at rx_types rx_args rc_ptr rx_vals map combine fst snd ty_size].
  all: repeat (split; [split; [cbn; lia|]; split; [vm_compute; reflexivity|]|]); try exact I.
  all: vm_compute; repeat (apply Forall_cons; [split; [discriminate|reflexivity]|]); apply Forall_nil.
Qed.

(** x32: a double followed by an int; the second pointer is one word too far. *)
Lemma x32_shifted : exists m ts args vs,
  cfg_ok g_x32 /\ Forall (arg_type g_x32) ts /\ sizes_small g_x32 ts /\ args_at g_x32 m ts args vs /\
  forall raw, zlen raw = raw_size g_x32 ts 0 ->
    exists raw' ps, ptrarray_to_raw g_x32 m ts args raw 0 = Ok raw' /\ raw_to_ptrarray g_x32 ts raw' 0 = Ok ps /\
      ~ reads_back raw' m ts ps vs /\
      nth 1 ps (AtAddr 0) = InRaw (zlen raw).
Proof.
  exists [Block 4096 [1;2;3;4;5;6;7;8;9;10;11;12]], [FT T_DOUBLE 8 8 []; FT T_SINT32 4 4 []], [4096; 4104],
    [[1;2;3;4;5;6;7;8]; [9;10;11;12]].
  assert (C : cfg_ok g_x32) by (cbv -[Z.le]; intuition lia).
  assert (F : Forall (arg_type g_x32) [FT T_DOUBLE 8 8 []; FT T_SINT32 4 4 []])
    by (repeat (apply Forall_cons; [cbv; reflexivity|]); apply Forall_nil).
  assert (S : sizes_small g_x32 [FT T_DOUBLE 8 8 []; FT T_SINT32 4 4 []]) by (cbv; reflexivity).
  assert (At : args_at g_x32 [Block 4096 [1;2;3;4;5;6;7;8;9;10;11;12]] [FT T_DOUBLE 8 8 []; FT T_SINT32 4 4 []] [4096; 4104]
     [[1;2;3;4;5;6;7;8]; [9;10;11;12]]).
  { cbn [args_at]. repeat (split; [split; [cbn; lia|]; split; [vm_compute; reflexivity|]|]); try exact I;
    repeat (apply Forall_cons; [split; [discriminate|reflexivity]|]); apply Forall_nil. }
  split; [exact C|]. split; [exact F|]. split; [exact S|]. split; [exact At|].
  intros raw L. destruct (raw_form_ok _ _ _ _ _ raw C F S At L) as (raw' & P & L' & Fm).
  exists raw', [InRaw 0; InRaw 16]. split; [exact P|]. split; [reflexivity|].
  change (raw_size g_x32 [FT T_DOUBLE 8 8 []; FT T_SINT32 4 4 []] 0) with 16 in L. split.
  - intros (_ & H & _). cbn [read_rptr ty_size] in H. apply get_range_inv in H as (H1 & H2 & H3 & H4). lia.
  - cbn [nth]. rewrite L. reflexivity.
Qed.

Lemma x32_agree :
  Forall (advance_agrees g_x32) [FT T_SINT32 4 4 []; FT T_UINT8 1 1 []; FT T_POINTER 4 4 []; FT T_STRUCT 24 8 [ty_double; ty_double; ty_double]] /\
  Forall (arg_type g_x32) [FT T_SINT32 4 4 []; FT T_UINT8 1 1 []; FT T_POINTER 4 4 []; FT T_STRUCT 24 8 [ty_double; ty_double; ty_double]] /\
  sizes_small g_x32 [FT T_SINT32 4 4 []; FT T_UINT8 1 1 []; FT T_POINTER 4 4 []; FT T_STRUCT 24 8 [ty_double; ty_double; ty_double]].
Proof.
  split; [|split; [|cbv; reflexivity]].
  - unfold advance_agrees. cbn. repeat (apply Forall_cons; [cbn; first [right; right; left; lia | auto]|]). apply Forall_nil.
  - repeat (apply Forall_cons; [cbv; reflexivity|]). apply Forall_nil.
Qed.

(** Java: an int, a long, a reference, a double, a byte, on every kind of target. *)
Definition jx_types (p : Z) : list ftype :=
  [FT T_SINT32 4 4 []; FT T_SINT64 8 8 []; FT T_POINTER p p []; FT T_DOUBLE 8 8 []; FT T_SINT8 1 1 []].
Definition jx_args : list Z := [4096; 4104; 4112; 4120; 4103].
Definition jx_vals (g : rawcfg) : list (list Z) :=
  map (fun x => match mread rx_mem (snd x) (ty_size (fst x)) with Some d => d | None => [] end)
      (combine (jx_types (rc_ptr g)) jx_args).

Lemma jx_ok g : g = g_le64 \/ g = g_be64 \/ g = g_be32 \/ g = g_x32 \/ g = g_n32 ->
  cfg_ok g /\ Forall (java_type g) (jx_types (rc_ptr g)) /\
  args_at g rx_mem (jx_types (rc_ptr g)) jx_args (jx_vals g) /\
  java_size g (jx_types (rc_ptr g)) 0 = Ok (7 * rc_java g).
Proof.
  intros H. destruct H as [->|[->|[->|[->| ->]]]].
  all: split; [cbv -[Z.le]; intuition lia|]; split; [repeat (apply Forall_cons; [split; cbv; auto|]); apply Forall_nil|];
    split; [|reflexivity].
  all: cbn [args_at jx_types jx_args rc_ptr jx_vals map combine fst snd ty_size].
  all: repeat (split; [split; [cbn; lia|]; split; [vm_compute; reflexivity|]|]); try exact I.
  all: vm_compute; repeat (apply Forall_cons; [split; [discriminate|reflexivity]|]); apply Forall_nil.
Qed.

Lemma java_result_ok g rt v : ty_code rt = T_VOID \/ java_type g rt ->
  (ty_code rt = T_POINTER -> rc_java g = 8 \/ rc_be g = false \/ rc_arg g = 4) -> widened_result rt v ->
  exists w, java_rvalue_to_raw g rt v = Ok w /\ java_raw_to_rvalue g rt w = Ok v /\
    (rc_be g = true -> rc_arg g = 8 -> widened (ty_code rt) = true -> firstn 4 (enc true 8 w) = enc true 4 v).
Proof.
  intros H Np W. destruct H as [H|[H J]].
  - apply java_result; auto; try (rewrite H; discriminate).
  - apply java_result; auto; intros E; rewrite E in J; contradiction.
Qed.

Lemma java_pointer_lost : exists v w, widened_result (FT T_POINTER 4 4 []) v /\ 0 <= v < 2 ^ 31 /\
  java_rvalue_to_raw g_n32 (FT T_POINTER 4 4 []) v = Ok w /\
  exists v', java_raw_to_rvalue g_n32 (FT T_POINTER 4 4 []) w = Ok v' /\ v' <> v /\ v' mod 2 ^ 32 = 0.
Proof.
  exists 4096, (4096 * 2 ^ 32). split; [cbv; split; [discriminate|reflexivity]|]. split; [lia|]. split; [reflexivity|].
  eexists. split; [reflexivity|]. split; [discriminate|reflexivity].
Qed.
