(** Last steps towards the statements of PropsUnix64.v. *)
From Coq Require Import ZifyBool ZifyNat Znumtheory.
From Verif Require Import Base BaseFacts Types LayoutSpec NaturalTypes NaturalFacts Unix64Model Unix64Spec Unix64Link
  Unix64Classify Unix64Call Unix64Fill Unix64Closure Unix64Ret Unix64Main Unix64Ret2.
Local Arguments Z.mul : simpl never.
Local Arguments Z.add : simpl never.
Local Arguments Z.sub : simpl never.
Local Arguments Z.pow : simpl never.
Local Arguments Z.div : simpl never.
Local Arguments Z.modulo : simpl never.
Local Arguments le_enc : simpl never.

Lemma classify_matches t b : natural t -> exists e, examine t b = Ok e /\ class_matches (passing_of t) b e.
Proof.
  intros N. destruct (examine_ok t b N) as (e & E & O). exists e. split; [auto|].
  unfold exam_ok in O. unfold class_matches. destruct (passing_of t) as [|l| |].
  - subst e. exact I.
  - destruct O as (cl & -> & O1 & O2 & O3 & O4 & O5 & O6). split; [|auto].
    pose proof (words_not_none t N O5) as NN. rewrite <- O4, <- O1 in NN. rewrite <- O1. clear - O2 NN.
    induction cl as [|c cl IH]; cbn [map] in *; [constructor|].
    cbn [forallb] in O2. apply andb_prop in O2 as [P O2]. inversion NN as [|? ? N1 N2]; subst.
    constructor; [|auto]. destruct c; cbn in *; try discriminate; try congruence; auto.
  - subst e. destruct b; auto.
  - subst e. destruct b; auto.
Qed.

Lemma classify_bounded t off : natural t -> 0 <= off < 8 -> (Z.min 8 (ty_align t) | off) ->
  (ty_size t <= 32 -> off + ty_size t <= 32) ->
  exists cl, classify t off = Ok cl /\ zlen cl <= 4.
Proof.
  intros N Ho D Hs. destruct (classify_safe t N off Ho D Hs) as (cl & E & L & _). eauto.
Qed.

Lemma call_places rt ts vs b f c rv tmp closure base g_gpr g_sse g_area g_xmm frame :
  rt_ok rt -> Forall natural ts -> objects_ok ts vs -> stack_used rt ts + 64 < 2 ^ 32 ->
  machdep64 (TCif FFI_UNIX64 ts rt b f) = Ok (FFI_OK, c) ->
  env_ok (c_bytes c) base g_gpr g_sse g_area g_xmm frame ->
  exists m fl rv', call64 c (Some rv) tmp vs closure base g_gpr g_sse g_area g_xmm frame = Ok (m, fl, rv') /\
    args_passed rt ts vs (m_gpr m) (m_xmm m) (m_stack m) /\
    (hidden_pointer rt = true -> znth (m_gpr m) 0 = Some rv) /\
    (16 | m_sp m) /\ m_r10 m = closure.
Proof.
  intros R N [L B] S P E. pose proof E as (E1 & _).
  destruct (call64_ok rt ts vs b f c (Some rv) tmp closure base g_gpr g_sse g_area g_xmm frame R N L B S P E)
    as (m & fl & rv' & C & A1 & A2 & A3 & A4 & A5 & A6 & A7 & A8 & A9 & A10 & A11).
  exists m, fl, rv'. rewrite A5. auto.
Qed.

Lemma call_extends rt ts vs b f c rv tmp closure base g_gpr g_sse g_area g_xmm frame :
  rt_ok rt -> Forall natural ts -> objects_ok ts vs -> stack_used rt ts + 64 < 2 ^ 32 ->
  machdep64 (TCif FFI_UNIX64 ts rt b f) = Ok (FFI_OK, c) ->
  env_ok (c_bytes c) base g_gpr g_sse g_area g_xmm frame ->
  exists m fl rv', call64 c rv tmp vs closure base g_gpr g_sse g_area g_xmm frame = Ok (m, fl, rv') /\
    args_extended rt ts vs (m_gpr m).
Proof.
  intros R N [L B] S P E.
  destruct (call64_ok rt ts vs b f c rv tmp closure base g_gpr g_sse g_area g_xmm frame R N L B S P E)
    as (m & fl & rv' & C & A1 & A2 & _). eauto.
Qed.

Lemma vectors_range rt ts : Forall natural ts -> 0 <= vectors_used rt ts <= 8.
Proof.
  intros N. unfold vectors_used. destruct (assign ts (first_gpr rt) 0 0) as [[[l g'] x'] s'] eqn:As.
  pose proof (assign_mono _ N _ _ 0 _ _ _ _ (Z.le_refl 0) As). lia.
Qed.

Lemma call_counts rt ts vs b f c rv tmp closure base g_gpr g_sse g_area g_xmm frame :
  rt_ok rt -> Forall natural ts -> objects_ok ts vs -> stack_used rt ts + 64 < 2 ^ 32 ->
  machdep64 (TCif FFI_UNIX64 ts rt b f) = Ok (FFI_OK, c) ->
  env_ok (c_bytes c) base g_gpr g_sse g_area g_xmm frame ->
  exists m fl rv', call64 c rv tmp vs closure base g_gpr g_sse g_area g_xmm frame = Ok (m, fl, rv') /\
    m_rax m mod 256 = vectors_used rt ts /\ 0 <= vectors_used rt ts <= 8 /\
    (saves_vectors c = true <-> 0 < vectors_used rt ts).
Proof.
  intros R N [L B] S P E.
  destruct (call64_ok rt ts vs b f c rv tmp closure base g_gpr g_sse g_area g_xmm frame R N L B S P E)
    as (m & fl & rv' & C & A1 & A2 & A3 & _). exists m, fl, rv'. split; [auto|].
  pose proof (vectors_range rt ts N) as V. rewrite A3.
  split; [apply Z.mod_small; lia|]. split; [auto|].
  destruct (machdep64_ok rt ts b f R N ltac:(lia)) as (c' & P' & _ & _ & _ & _ & Cf). rewrite P in P'. injection P' as <-.
  unfold saves_vectors. rewrite (flags_xmm _ _ _ Cf). destruct (Z.eqb_spec (vectors_used rt ts) 0); cbn; split; intros; try discriminate; lia.
Qed.

Lemma call_discards rt ts vs b f c tmp closure base g_gpr g_sse g_area g_xmm frame :
  rt_ok rt -> Forall natural ts -> objects_ok ts vs -> stack_used rt ts + 64 < 2 ^ 32 ->
  machdep64 (TCif FFI_UNIX64 ts rt b f) = Ok (FFI_OK, c) ->
  env_ok (c_bytes c) base g_gpr g_sse g_area g_xmm frame ->
  exists m fl rv', call64 c None tmp vs closure base g_gpr g_sse g_area g_xmm frame = Ok (m, fl, rv') /\
    args_passed rt ts vs (m_gpr m) (m_xmm m) (m_stack m) /\
    (hidden_pointer rt = true -> rv' = Some tmp /\ znth (m_gpr m) 0 = Some tmp) /\
    (hidden_pointer rt = false -> rv' = None) /\
    forall r, store_ret fl r [] = Ok [].
Proof.
  intros R N [L B] S P E.
  destruct (call64_ok rt ts vs b f c None tmp closure base g_gpr g_sse g_area g_xmm frame R N L B S P E)
    as (m & fl & rv' & C & A1 & A2 & A3 & A4 & A5 & A6 & A7 & A8 & A9 & A10 & A11).
  exists m, fl, rv'. split; [auto|]. split; [auto|]. split; [|split].
  - intros H. rewrite A10, H. auto.
  - intros H. rewrite A10, H. auto.
  - intros r. rewrite A11. destruct (hidden_pointer rt) eqn:H; [|reflexivity].
    destruct (machdep64_ok rt ts b f R N ltac:(lia)) as (c' & P' & _ & _ & _ & _ & Cf). rewrite P in P'. injection P' as <-.
    eapply store_ret_hidden; eauto.
Qed.

Lemma closure_sees rt ts vs b f c m g_sse g_tmp :
  rt_ok rt -> Forall natural ts -> Forall2 (fun t v => zlen v = ty_size t) ts vs ->
  machdep64 (TCif FFI_UNIX64 ts rt b f) = Ok (FFI_OK, c) ->
  state_ok m (stack_used rt ts) -> zlen g_sse = 8 -> Forall (fun b => zlen b = 16) g_sse -> zlen g_tmp = 16 ->
  args_passed rt ts vs (m_gpr m) (m_xmm m) (m_stack m) ->
  exists ps r fl, closure64 c m g_sse g_tmp = Ok (ps, r, fl) /\
    args_seen (closure_frame c m g_sse) m ps ts vs /\
    (hidden_pointer rt = true -> exists p, znth (m_gpr m) 0 = Some p /\ r = RCaller p) /\
    (hidden_pointer rt = false -> r = RSlot).
Proof.
  intros R N L P (G1 & G2 & G3 & D & P0 & Bd) G4 G5 G6 AP.
  destruct (closure64_ok rt ts vs b f c m g_sse g_tmp R N L P G1 G2 G3 G4 G5 G6 D P0 Bd AP) as (ps & r & fl & C & F & H).
  exists ps, r, fl. split; [auto|]. split; [split; [auto|]|].
  { clear -L. induction L; cbn; auto. }
  destruct (hidden_pointer rt); split; intros E; try discriminate.
  - destruct H as (p & H1 & H2 & _). eauto.
  - destruct H. auto.
Qed.

Lemma round_trip rt ts vs b f c rv tmp closure base g_gpr g_sse g_area g_xmm frame h_sse h_tmp :
  rt_ok rt -> Forall natural ts -> objects_ok ts vs -> stack_used rt ts + 64 < 2 ^ 32 ->
  machdep64 (TCif FFI_UNIX64 ts rt b f) = Ok (FFI_OK, c) ->
  env_ok (c_bytes c) base g_gpr g_sse g_area g_xmm frame ->
  zlen h_sse = 8 -> Forall (fun b => zlen b = 16) h_sse -> zlen h_tmp = 16 ->
  exists m fl rv' ps r cfl,
    call64 c (Some rv) tmp vs closure base g_gpr g_sse g_area g_xmm frame = Ok (m, fl, rv') /\
    closure64 c m h_sse h_tmp = Ok (ps, r, cfl) /\
    args_seen (closure_frame c m h_sse) m ps ts vs /\
    (hidden_pointer rt = true -> r = RCaller rv).
Proof.
  intros R N OB S P E H1 H2 H3. pose proof OB as [L B]. pose proof E as (E1 & E2 & E3 & _).
  destruct (call64_ok rt ts vs b f c (Some rv) tmp closure base g_gpr g_sse g_area g_xmm frame R N L B S P E)
    as (m & fl & rv' & C & A1 & A2 & A3 & A4 & A5 & A6 & A7 & A8 & A9 & A10 & A11).
  assert (Su : 0 <= stack_used rt ts <= c_bytes c).
  { destruct (machdep64_ok rt ts b f R N ltac:(lia)) as (c' & P' & _ & _ & _ & Cb & _). rewrite P in P'. injection P' as <-.
    assert (0 <= stack_used rt ts).
    { unfold stack_used. destruct (assign ts (first_gpr rt) 0 0) as [[[l g'] x'] s'] eqn:As.
      pose proof (assign_mono _ N _ _ 0 _ _ _ _ (Z.le_refl 0) As). lia. }
    pose proof (round_up_le (stack_used rt ts) 8 ltac:(lia)). pose proof (round_up_lt (stack_used rt ts) 8 ltac:(lia)).
    rewrite Cb. unfold wrap32, wrap. rewrite Z.mod_small by lia. lia. }
  assert (SO : state_ok m (stack_used rt ts)).
  { unfold state_ok. rewrite A5. repeat (split; [auto|]). lia. }
  destruct (closure_sees rt ts vs b f c m h_sse h_tmp R N L P SO H1 H2 H3 A1) as (ps & r & cfl & D & D1 & D2 & D3).
  exists m, fl, rv', ps, r, cfl. repeat (split; [auto|]).
  intros H. destruct (D2 H) as (p & Ep & ->). rewrite (A9 H) in Ep. injection Ep as <-. reflexivity.
Qed.

Lemma return_stored rt ts b f c r v buf :
  natural rt -> Forall natural ts -> stack_used rt ts + 64 < 2 ^ 32 ->
  machdep64 (TCif FFI_UNIX64 ts rt b f) = Ok (FFI_OK, c) ->
  struct_x87 rt = false -> hidden_pointer rt = false ->
  zlen v = ty_size rt -> bytes_ok v -> rstate_ok r -> returns rt r v -> result_width rt <= zlen buf ->
  exists buf', store_ret (c_flags c) r buf = Ok buf' /\ result_holds rt v buf' /\ zlen buf' = zlen buf /\
    forall o n, result_width rt <= o -> get_range buf' o n = get_range buf o n.
Proof.
  intros N Ns S P X H L B Rk Rt W.
  destruct (machdep64_ok rt ts b f (or_introl N) Ns ltac:(lia)) as (c' & P' & _ & _ & _ & _ & Cf). rewrite P in P'. injection P' as <-.
  eapply store_ret_ok; eauto.
Qed.

Lemma return_untouched rt ts b f c r buf :
  rt_ok rt -> Forall natural ts -> stack_used rt ts + 64 < 2 ^ 32 ->
  machdep64 (TCif FFI_UNIX64 ts rt b f) = Ok (FFI_OK, c) ->
  hidden_pointer rt = true \/ ty_code rt = T_VOID ->
  store_ret (c_flags c) r buf = Ok buf.
Proof.
  intros N Ns S P H.
  destruct (machdep64_ok rt ts b f N Ns ltac:(lia)) as (c' & P' & _ & _ & _ & _ & Cf). rewrite P in P'. injection P' as <-.
  destruct H as [H|H]; [eapply store_ret_hidden|eapply store_ret_void]; eauto.
Qed.

Lemma return_loaded rt ts b f c slot r v :
  natural rt -> Forall natural ts -> stack_used rt ts + 64 < 2 ^ 32 ->
  machdep64 (TCif FFI_UNIX64 ts rt b f) = Ok (FFI_OK, c) ->
  struct_x87 rt = false -> hidden_pointer rt = false ->
  zlen v = ty_size rt -> bytes_ok v -> zlen slot = 32 -> bytes_ok slot -> result_holds rt v slot ->
  exists r', load_ret (c_flags c) slot r = Ok r' /\ returns rt r' v.
Proof.
  intros N Ns S P X H L B Ls Bs Rh.
  destruct (machdep64_ok rt ts b f (or_introl N) Ns ltac:(lia)) as (c' & P' & _ & _ & _ & _ & Cf). rewrite P in P'. injection P' as <-.
  destruct (result_holds_bytes rt v slot N L B Rh) as (w & Gw & SV).
  eapply load_ret_ok; eauto.
Qed.

Lemma return_pointer rt ts vs b f c m g_sse g_tmp slot rs :
  natural rt -> Forall natural ts -> Forall2 (fun t v => zlen v = ty_size t) ts vs ->
  machdep64 (TCif FFI_UNIX64 ts rt b f) = Ok (FFI_OK, c) ->
  state_ok m (stack_used rt ts) -> zlen g_sse = 8 -> Forall (fun b => zlen b = 16) g_sse -> zlen g_tmp = 16 ->
  args_passed rt ts vs (m_gpr m) (m_xmm m) (m_stack m) ->
  hidden_pointer rt = true -> zlen slot = 32 ->
  forall p, znth (m_gpr m) 0 = Some p -> 0 <= p < 2 ^ 64 ->
  exists ps r fl slot' rs', closure64 c m g_sse g_tmp = Ok (ps, r, fl) /\ r = RCaller p /\
    closure_slot r slot = Ok slot' /\ load_ret fl slot' rs = Ok rs' /\ rs_rax rs' = p.
Proof.
  intros N Ns L P (G1 & G2 & G3 & D & P0 & Bd) G4 G5 G6 AP H Ls p Ep Hp.
  destruct (closure64_ok rt ts vs b f c m g_sse g_tmp (or_introl N) Ns L P G1 G2 G3 G4 G5 G6 D P0 Bd AP) as (ps & r & fl & C & F & HH).
  rewrite H in HH. destruct HH as (p' & Ep' & -> & ->). rewrite Ep in Ep'. injection Ep' as <-.
  destruct (set_range_ok slot 0 (le_enc 8 p)) as (slot' & S1 & S2); [lia|rewrite le_enc_zlen; lia|].
  pose proof (get_set_same _ _ _ _ S1) as G. rewrite le_enc_zlen in G. change (Z.of_nat 8) with 8 in G.
  exists ps, (RCaller p), RET_INT64, slot'. eexists. split; [exact C|]. split; [reflexivity|].
  cbn [closure_slot]. rewrite S1. split; [reflexivity|].
  unfold load_ret. cbv zeta. known. rewrite G. cbn [of_option bind]. split; [reflexivity|]. cbn [rs_rax].
  rewrite le_dec_enc. apply Z.mod_small. exact Hp.
Qed.

(** Loading keeps registers in range. *)
Lemma load_ret_state fl slot r r' : bytes_ok slot -> rstate_ok r -> load_ret fl slot r = Ok r' -> rstate_ok r'.
Proof.
  intros B (R1 & R2 & R3 & R4 & R5 & R6).
  assert (Gl : forall o n d, get_range slot o n = Some d -> zlen d = n /\ (n <= 8 -> 0 <= le_dec d < 2 ^ 64)).
  { intros o n d G. pose proof (get_range_inv _ _ _ _ G) as (_ & _ & _ & _ & L). split; [auto|]. intros Hn.
    pose proof (le_dec_bound d (bytes_ok_get_range _ _ _ _ B G)) as Bd. rewrite L in Bd.
    assert (2 ^ (8 * n) <= 2 ^ 64) by (apply Z.pow_le_mono_r; lia). lia. }
  assert (Z64 : forall n x, 0 <= n <= 64 -> 0 <= zext n x < 2 ^ 64).
  { intros n x Hn. unfold zext. pose proof (Z.mod_pos_bound x (2 ^ n) ltac:(apply Z.pow_pos_nonneg; lia)).
    assert (2 ^ n <= 2 ^ 64) by (apply Z.pow_le_mono_r; lia). lia. }
  assert (S64 : forall n x, 0 <= sext32 n x < 2 ^ 64).
  { intros n x. unfold sext32, wrap32, wrap. pose proof (Z.mod_pos_bound (to_signed n x) (2 ^ 32) ltac:(lia)). lia. }
  assert (X16 : forall (d : list Z), zlen d <= 16 -> zlen (d ++ repeat 0 (16 - length d)) = 16).
  { intros d Hd. rewrite zlen_app, zlen_repeat. unfold zlen in *. lia. }
  unfold load_ret. cbv zeta. intros H.
  repeat match type of H with
  | context [if ?b then _ else _] => destruct b
  | Ok _ = Ok _ => injection H as <-
  | bind (of_option (get_range slot ?o ?n)) _ = _ =>
      let d := fresh "d" in let G := fresh "G" in
      destruct (get_range slot o n) as [d|] eqn:G; [|discriminate H]; cbn [of_option bind] in H; apply Gl in G as [? ?]
  end; try discriminate H; unfold rstate_ok; cbn [rs_rax rs_rdx rs_xmm0 rs_xmm1 rs_st0 rs_st1];
  repeat match goal with |- _ /\ _ => split end; auto; try (apply Z64; lia); try (apply S64); try (apply X16; lia);
  try (match goal with H : ?n <= 8 -> 0 <= le_dec ?d < _ |- _ <= le_dec ?d => apply H; lia | H : ?n <= 8 -> 0 <= le_dec ?d < _ |- le_dec ?d < _ => apply H; lia end); try lia.
Qed.

(** Call, closure and return composed: the result the handler produced arrives in the
    buffer of ffi_call. *)
Lemma result_round_trip rt ts b f c slot r0 v buf :
  natural rt -> Forall natural ts -> stack_used rt ts + 64 < 2 ^ 32 ->
  machdep64 (TCif FFI_UNIX64 ts rt b f) = Ok (FFI_OK, c) ->
  struct_x87 rt = false -> hidden_pointer rt = false ->
  zlen v = ty_size rt -> bytes_ok v -> zlen slot = 32 -> bytes_ok slot -> result_holds rt v slot ->
  rstate_ok r0 -> result_width rt <= zlen buf ->
  exists r' buf', load_ret (c_flags c) slot r0 = Ok r' /\ store_ret (c_flags c) r' buf = Ok buf' /\ result_holds rt v buf'.
Proof.
  intros N Ns S P X H L B Ls Bs Rh RO W.
  destruct (return_loaded rt ts b f c slot r0 v) as (r' & E1 & E2); auto.
  pose proof (load_ret_state _ _ _ _ Bs RO E1) as RO'.
  destruct (return_stored rt ts b f c r' v buf) as (buf' & E3 & E4 & _); auto. eauto.
Qed.

(** What lies behind an argument object does not matter. *)
Lemma get_range_prefix {A} (v x : list A) o n d : get_range v o n = Some d -> get_range (v ++ x) o n = Some d.
Proof.
  intros H. pose proof (get_range_inv _ _ _ _ H) as (H1 & H2 & H3 & -> & _).
  rewrite get_range_some by (rewrite ?zlen_app; pose proof (zlen_nonneg x); lia).
  f_equal. unfold zlen in H3. rewrite skipn_app, firstn_app.
  replace (Z.to_nat n - length (skipn (Z.to_nat o) v))%nat with 0%nat by (rewrite skipn_length; lia).
  cbn [firstn]. apply app_nil_r.
Qed.

Definition followed_by (v w : list Z) : Prop := exists x, w = v ++ x.

Lemma followed_skip v w : followed_by v w -> followed_by (skipn 8 v) (skipn 8 w).
Proof. intros (x & ->). rewrite skipn_app. eexists. reflexivity. Qed.

Lemma gpr_value_followed code a b size r : followed_by a b -> gpr_value code a size = Ok r -> gpr_value code b size = Ok r.
Proof.
  intros (x & ->). unfold gpr_value.
  destruct code; match goal with |- bind (of_option (get_range a ?o ?n)) _ = _ -> _ =>
    destruct (get_range a o n) eqn:G; [|discriminate]; rewrite (get_range_prefix _ x _ _ _ G); auto end.
Qed.

Lemma store_words_followed code cl : forall a b size gpr sse gc sc r, followed_by a b ->
  store_words code cl a size gpr sse gc sc = Ok r -> store_words code cl b size gpr sse gc sc = Ok r.
Proof.
  induction cl as [|c cl IH]; intros a b size gpr sse gc sc r F; [auto|].
  cbn [store_words]. cbv zeta. pose proof (followed_skip _ _ F) as F'.
  assert (S : forall n s', sse_store sse sc n a = Ok s' -> sse_store sse sc n b = Ok s').
  { intros n s'. destruct F as (x & ->). unfold sse_store. destruct (get_range a 0 n) eqn:G; [|discriminate].
    rewrite (get_range_prefix _ x _ _ _ G); auto. }
  destruct c; intros H; try discriminate; eauto;
    first [ destruct (gpr_value code a size) eqn:V; try discriminate; rewrite (gpr_value_followed _ _ _ _ _ F V);
            cbn [bind] in *; destruct (upd gpr gc _); try discriminate; cbn [bind] in *; eauto
          | match type of H with bind (sse_store _ _ ?n _) _ = _ => destruct (sse_store sse sc n a) eqn:V; try discriminate;
              rewrite (S _ _ V); cbn [bind] in *; eauto end ].
Qed.

Lemma fill_args_followed base : forall ts vs ws f r, Forall2 followed_by vs ws ->
  fill_args base ts vs f = Ok r -> fill_args base ts ws f = Ok r.
Proof.
  induction ts as [|t ts IH]; intros vs ws f r F; [auto|].
  cbn [fill_args]. destruct F as [|v w vs ws F1 F]; [auto|]. cbv zeta.
  destruct (examine t false) as [e| |]; cbn [bind]; auto.
  match goal with |- (match e with EMem => ?A | _ => _ end) = _ -> (match e with EMem => ?B | _ => _ end) = _ =>
    assert (M : A = Ok r -> B = Ok r) end.
  { destruct (get_range v 0 (ty_size t)) eqn:G; [|discriminate]. destruct F1 as (x & ->).
    rewrite (get_range_prefix _ x _ _ _ G). cbn [of_option bind].
    destruct (set_range _ _ _); [|discriminate]. cbn [of_option bind]. eauto. }
  destruct e; auto. destruct (_ || _); auto.
  destruct (store_words _ _ v _ _ _ _ _) as [q| |] eqn:Sw; try discriminate.
  rewrite (store_words_followed _ _ _ _ _ _ _ _ _ _ F1 Sw). cbn [bind]. destruct q as [[[? ?] ?] ?]. eauto.
Qed.

Lemma call_reads rt ts vs ws b f c rv tmp closure base g_gpr g_sse g_area g_xmm frame :
  rt_ok rt -> Forall natural ts -> objects_ok ts vs -> stack_used rt ts + 64 < 2 ^ 32 ->
  machdep64 (TCif FFI_UNIX64 ts rt b f) = Ok (FFI_OK, c) ->
  env_ok (c_bytes c) base g_gpr g_sse g_area g_xmm frame ->
  Forall2 (fun v w => exists behind, w = v ++ behind) vs ws ->
  exists r, call64 c rv tmp vs closure base g_gpr g_sse g_area g_xmm frame = Ok r /\
    call64 c rv tmp ws closure base g_gpr g_sse g_area g_xmm frame = Ok r.
Proof.
  intros R N [L B] S P E F.
  destruct (call64_ok rt ts vs b f c rv tmp closure base g_gpr g_sse g_area g_xmm frame R N L B S P E)
    as (m & fl & rv' & C & _). exists (m, fl, rv'). split; [auto|].
  revert C. unfold call64. cbv zeta. destruct (match rv with Some _ => _ | None => _ end) as [flags rvalue].
  destruct (if negb _ then upd _ _ _ else _) as [gpr0| |]; try discriminate. cbn [bind].
  destruct (fill_args base _ vs _) as [q| |] eqn:Fa; try discriminate.
  rewrite (fill_args_followed _ _ _ _ _ _ F Fa). auto.
Qed.

(** The argument loop alone, with an area of exactly cif->bytes bytes. *)
Lemma call_inside rt ts vs b f c base gpr sse area :
  rt_ok rt -> Forall natural ts -> objects_ok ts vs -> stack_used rt ts + 64 < 2 ^ 32 ->
  machdep64 (TCif FFI_UNIX64 ts rt b f) = Ok (FFI_OK, c) ->
  (16 | base) -> 0 <= base -> base + c_bytes c + 64 < 2 ^ 64 ->
  zlen gpr = 6 -> zlen sse = 8 -> Forall (fun b => zlen b = 16) sse -> zlen area = c_bytes c ->
  exists f', fill_args base ts vs (Fill gpr sse area (first_gpr rt) 0 base) = Ok f' /\ zlen (f_area f') = c_bytes c.
Proof.
  intros R N [L B] S P E1 E2 E3 G1 G2 G3 G4. eapply call64_inside; eauto.
Qed.

(** ** Concrete cases *)

(** {int64; double} *)
Definition ex_ret : ftype := c_struct_of [ty_sint64; ty_double].
(** (sint8, {float; double}, double, {3 x uint64}, long double, {{uint8; float}; float},
    complex float, uint32, {uint8 x 3}) *)
Definition ex_args : list ftype :=
  [ty_sint8; c_struct_of [ty_float; ty_double]; ty_double; c_struct_of [ty_uint64; ty_uint64; ty_uint64];
   ty_longdouble; c_struct_of [c_struct_of [ty_uint8; ty_float]; ty_float]; ty_complex_float; ty_uint32;
   c_struct_of [ty_uint8; ty_uint8; ty_uint8]].
Definition ex_vals : list (list Z) :=
  map (fun t => map (fun i => (i * 7 + 200) mod 256) (zseq 0 (Z.to_nat (ty_size t)))) ex_args.
Definition ex_cif : tcif :=
  match machdep64 (TCif FFI_UNIX64 ex_args ex_ret 0 0) with Ok (_, c) => c | _ => TCif 0 [] ty_void 0 0 end.

Lemma ex_natural : natural ex_ret /\ Forall natural ex_args.
Proof.
  split; [unfold ex_ret; natural_tac|unfold ex_args; natural_tac].
Qed.

Lemma ex_objects : objects_ok ex_args ex_vals.
Proof.
  split.
  - unfold ex_vals, ex_args. cbn [map]. repeat (apply Forall2_cons; [reflexivity|]). apply Forall2_nil.
  - apply Forall_forall. intros v H. unfold ex_vals in H. apply in_map_iff in H as (t & <- & _).
    apply Forall_forall. intros x Hx. apply in_map_iff in Hx as (i & <- & _). unfold byte_ok. apply Z.mod_pos_bound. lia.
Qed.

Lemma ex_prepared : machdep64 (TCif FFI_UNIX64 ex_args ex_ret 0 0) = Ok (FFI_OK, ex_cif) /\
  c_bytes ex_cif = 48 /\ stack_used ex_ret ex_args = 48 /\ vectors_used ex_ret ex_args = 5 /\ hidden_pointer ex_ret = false.
Proof. vm_compute. auto. Qed.

Lemma ex_env : env_ok (c_bytes ex_cif) 4096 (repeat 77 6) (repeat (repeat 99 16) 8) (repeat 55 80) (repeat (repeat 11 16) 8) (repeat 0 32).
Proof.
  change (c_bytes ex_cif) with 48. unfold env_ok. split; [exists 256; reflexivity|].
  repeat (split; [first [lia | reflexivity | (apply Forall_forall; intros x H; apply repeat_spec in H; subst; reflexivity)]|]). reflexivity.
Qed.

Lemma ex_call : exists m fl rv', call64 ex_cif (Some 8192) 0 ex_vals 7 4096 (repeat 77 6) (repeat (repeat 99 16) 8) (repeat 55 80)
    (repeat (repeat 11 16) 8) (repeat 0 32) = Ok (m, fl, rv') /\ m_gpr m <> repeat 77 6 /\ m_rax m = 5.
Proof.
  eexists _, _, _. split; [vm_compute; reflexivity|]. split; [vm_compute; discriminate|reflexivity].
Qed.

(** ** Counterexamples *)

(** A 64 byte struct whose alignment was set to 64 by the user. *)
Definition over_aligned : ftype := FT T_STRUCT 64 64 (repeat ty_uint64 8).
Definition over_cif : tcif :=
  match machdep64 (TCif FFI_UNIX64 [over_aligned] ty_void 0 0) with Ok (_, c) => c | _ => TCif 0 [] ty_void 0 0 end.

Lemma area_overflow :
  exists t c base vs g_gpr g_sse g_area g_xmm frame,
    ty_size t mod ty_align t = 0 /\ objects_ok [t] vs /\
    machdep64 (TCif FFI_UNIX64 [t] ty_void 0 0) = Ok (FFI_OK, c) /\
    env_ok (c_bytes c) base g_gpr g_sse g_area g_xmm frame /\
    call64 c (Some 0) 0 vs 0 base g_gpr g_sse g_area g_xmm frame = UB.
Proof.
  exists over_aligned, over_cif, 16, [repeat 1 64], (repeat 0 6), (repeat (repeat 0 16) 8), (repeat 0 96), (repeat (repeat 0 16) 8), (repeat 0 32).
  split; [reflexivity|]. split.
  { split; [repeat constructor|]. repeat constructor; unfold byte_ok; lia. }
  split; [vm_compute; reflexivity|]. split.
  { change (c_bytes over_cif) with 64. unfold env_ok. split; [exists 1; reflexivity|].
    repeat (split; [first [lia | reflexivity | (apply Forall_forall; intros x H; apply repeat_spec in H; subst; reflexivity)]|]). reflexivity. }
  vm_compute. reflexivity.
Qed.

(** The same with a smaller alignment: the argument stays inside the area allocated by
    ffi_call_int but is partly overwritten by the frame of ffi_call_unix64. *)
Definition over_aligned32 : ftype := FT T_STRUCT 32 32 (repeat ty_uint64 4).
Definition over_cif32 : tcif :=
  match machdep64 (TCif FFI_UNIX64 [over_aligned32] ty_void 0 0) with Ok (_, c) => c | _ => TCif 0 [] ty_void 0 0 end.

Lemma area_clobbered :
  exists t c base vs g_gpr g_sse g_area g_xmm frame m fl rv,
    objects_ok [t] vs /\ machdep64 (TCif FFI_UNIX64 [t] ty_void 0 0) = Ok (FFI_OK, c) /\
    env_ok (c_bytes c) base g_gpr g_sse g_area g_xmm frame /\
    call64 c (Some 0) 0 vs 0 base g_gpr g_sse g_area g_xmm frame = Ok (m, fl, rv) /\
    forall o, get_range (m_stack m) o (ty_size t) <> Some (nth 0 vs []).
Proof.
  exists over_aligned32, over_cif32, 16, [repeat 1 32], (repeat 0 6), (repeat (repeat 0 16) 8), (repeat 0 64), (repeat (repeat 0 16) 8), (repeat 0 32).
  eexists _, _, _. split.
  { split; [repeat constructor|]. repeat constructor; unfold byte_ok; lia. }
  split; [vm_compute; reflexivity|]. split.
  { change (c_bytes over_cif32) with 32. unfold env_ok. split; [exists 1; reflexivity|].
    repeat (split; [first [lia | reflexivity | (apply Forall_forall; intros x H; apply repeat_spec in H; subst; reflexivity)]|]). reflexivity. }
  split; [vm_compute; reflexivity|].
  intros o H. cbn [m_stack ty_size over_aligned32] in H. pose proof (get_range_inv _ _ _ _ H) as (H1 & H2 & H3 & _).
  change (zlen _) with 64 in H3.
  destruct (Z.le_gt_cases o 15) as [Lo|Lo].
  - pose proof (nth_error_get_range _ _ _ _ 0 H ltac:(apply Nat.ltb_lt; vm_compute; reflexivity)) as E. cbn [nth nth_error repeat] in E.
    assert (C : (Z.to_nat o + 0 = 0 \/ Z.to_nat o + 0 = 1 \/ Z.to_nat o + 0 = 2 \/ Z.to_nat o + 0 = 3 \/ Z.to_nat o + 0 = 4 \/ Z.to_nat o + 0 = 5 \/ Z.to_nat o + 0 = 6 \/ Z.to_nat o + 0 = 7 \/
       Z.to_nat o + 0 = 8 \/ Z.to_nat o + 0 = 9 \/ Z.to_nat o + 0 = 10 \/ Z.to_nat o + 0 = 11 \/ Z.to_nat o + 0 = 12 \/ Z.to_nat o + 0 = 13 \/ Z.to_nat o + 0 = 14 \/ Z.to_nat o + 0 = 15)%nat) by lia.
    clear - C E. repeat (destruct C as [C|C]; [rewrite C in E; discriminate E|]). rewrite C in E. discriminate E.
  - pose proof (nth_error_get_range _ _ _ _ 16 H ltac:(apply Nat.ltb_lt; vm_compute; reflexivity)) as E. cbn [nth nth_error repeat] in E.
    assert (C : exists k, (Z.to_nat o + 16 = 32 + k /\ k < 32)%nat) by (exists (Z.to_nat o - 16)%nat; lia).
    destruct C as (k & C & Hk). rewrite C in E. clear - Hk E.
    do 32 (destruct k as [|k]; [discriminate E|]). lia.
Qed.

(** Results of type struct { long double }. *)
Definition ld_struct : ftype := c_struct_of [ty_longdouble].
Definition ld_cif : tcif :=
  match machdep64 (TCif FFI_UNIX64 [] ld_struct 0 0) with Ok (_, c) => c | _ => TCif 0 [] ty_void 0 0 end.

Lemma ld_return_lost :
  exists rt c r v buf buf',
    natural rt /\ machdep64 (TCif FFI_UNIX64 [] rt 0 0) = Ok (FFI_OK, c) /\ hidden_pointer rt = false /\
    zlen v = ty_size rt /\ bytes_ok v /\ rstate_ok r /\ returns rt r v /\ result_width rt <= zlen buf /\
    store_ret (c_flags c) r buf = Ok buf' /\ ~ result_holds rt v buf'.
Proof.
  exists ld_struct, ld_cif, (RState 0 0 (repeat 0 16) (repeat 0 16) (repeat 1 10) (repeat 0 10)), (repeat 1 16), (repeat 0 16).
  eexists. split; [unfold ld_struct; natural_tac|]. split; [vm_compute; reflexivity|]. split; [reflexivity|]. split; [reflexivity|].
  split; [repeat constructor; unfold byte_ok; lia|]. split; [unfold rstate_ok; cbn; repeat split; lia|].
  split; [vm_compute; reflexivity|]. split; [vm_compute; discriminate|]. split; [vm_compute; reflexivity|].
  unfold result_holds. change (integral ld_struct) with false. cbn iota. intros (w & G & _ & SV).
  destruct (SV 0 16 KX87 (or_introl eq_refl)) as (d & D1 & D2).
  vm_compute in G. injection G as <-. vm_compute in D1, D2. congruence.
Qed.

Lemma ld_closure_lost :
  exists rt c slot r v r',
    natural rt /\ machdep64 (TCif FFI_UNIX64 [] rt 0 0) = Ok (FFI_OK, c) /\ hidden_pointer rt = false /\
    zlen v = ty_size rt /\ bytes_ok v /\ zlen slot = 32 /\ bytes_ok slot /\ result_holds rt v slot /\ rstate_ok r /\
    load_ret (c_flags c) slot r = Ok r' /\ ~ returns rt r' v.
Proof.
  exists ld_struct, ld_cif, (repeat 1 32), (RState 0 0 (repeat 0 16) (repeat 0 16) (repeat 0 10) (repeat 0 10)), (repeat 1 16).
  eexists. split; [unfold ld_struct; natural_tac|]. split; [vm_compute; reflexivity|]. split; [reflexivity|]. split; [reflexivity|].
  split; [repeat constructor; unfold byte_ok; lia|]. split; [reflexivity|]. split; [repeat constructor; unfold byte_ok; lia|].
  split. { exists (repeat 1 16). split; [vm_compute; reflexivity|]. split; [reflexivity|]. intros o n k [I|[]]. injection I as <- <- <-.
    exists (repeat 1 10). split; vm_compute; reflexivity. }
  split; [unfold rstate_ok; cbn; repeat split; lia|]. split; [vm_compute; reflexivity|].
  unfold returns, returned. change (passing_of ld_struct) with PX87. vm_compute. discriminate.
Qed.

Lemma ex_results :
  struct_x87 ex_ret = false /\
  returns ex_ret (RState 5 0 (repeat 9 16) (repeat 0 16) (repeat 0 10) (repeat 0 10)) ([5; 0; 0; 0; 0; 0; 0; 0] ++ repeat 9 8) /\
  (exists buf', store_ret (c_flags ex_cif) (RState 5 0 (repeat 9 16) (repeat 0 16) (repeat 0 10) (repeat 0 10)) (repeat 1 24) = Ok buf' /\
     buf' = [5; 0; 0; 0; 0; 0; 0; 0] ++ repeat 9 8 ++ repeat 1 8) /\
  result_holds ex_ret ([5; 0; 0; 0; 0; 0; 0; 0] ++ repeat 9 8) ([5; 0; 0; 0; 0; 0; 0; 0] ++ repeat 9 8 ++ repeat 1 16).
Proof.
  assert (SV : same_value ex_ret ([5; 0; 0; 0; 0; 0; 0; 0] ++ repeat 9 8) ([5; 0; 0; 0; 0; 0; 0; 0] ++ repeat 9 8)).
  { split; [reflexivity|]. intros o n k H. vm_compute in H. destruct H as [H|[H|[]]]; injection H as <- <- <-; eexists; split; vm_compute; reflexivity. }
  split; [reflexivity|]. split.
  { unfold returns, returned. change (passing_of ex_ret) with (PRegs [EInt; ESse]).
    exists ([5; 0; 0; 0; 0; 0; 0; 0] ++ repeat 9 8). split; [exact SV|]. vm_compute. repeat split. }
  split; [eexists; split; vm_compute; reflexivity|].
  exists ([5; 0; 0; 0; 0; 0; 0; 0] ++ repeat 9 8). split; [vm_compute; reflexivity|exact SV].
Qed.
