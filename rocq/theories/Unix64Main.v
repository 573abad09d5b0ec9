(** Whole-call facts for x86-64: preparation, call state, closure decoding. *)
From Coq Require Import ZifyBool ZifyNat Znumtheory.
From Verif Require Import Base BaseFacts Types LayoutSpec NaturalTypes NaturalFacts Unix64Model Unix64Spec Unix64Link Unix64Classify Unix64Call Unix64Fill Unix64Closure Unix64Ret.
Ltac Zify.zify_post_hook ::= Z.div_mod_to_equations.
Local Arguments Z.mul : simpl never.
Local Arguments Z.add : simpl never.
Local Arguments Z.sub : simpl never.
Local Arguments Z.pow : simpl never.
Local Arguments Z.div : simpl never.
Local Arguments Z.modulo : simpl never.
Local Arguments Z.leb : simpl never.
Local Arguments Z.ltb : simpl never.
Local Arguments Z.eqb : simpl never.
Local Arguments Z.gtb : simpl never.
Local Arguments le_enc : simpl never.

(** ** Locations without vector registers *)

Lemma take_regs_xmm l : forall g x i, In (Xmm i) (take_regs l g x) -> x <= i < x + count is_esse l.
Proof.
  unfold count. induction l as [|c l IH]; intros g x i H; [contradiction|].
  destruct c; cbn [take_regs filter is_esse] in *; (destruct H as [H|H]; [try discriminate|apply IH in H]); rewrite ?zlen_cons; try lia.
  injection H as ->. pose proof (zlen_nonneg (filter is_esse l)). lia.
Qed.

Lemma regs_hold_noxmm gpr xmm xmm' l : forall v, (forall i, ~ In (Xmm i) l) -> regs_hold gpr xmm l v -> regs_hold gpr xmm' l v.
Proof.
  induction l as [|r l IH]; intros v N H; [exact H|]. cbn [regs_hold] in *. destruct H as [H1 H2]. split.
  - destruct r as [i|i|]; auto. exfalso. apply (N i). left. reflexivity.
  - apply IH; auto. intros i I. apply (N i). right. exact I.
Qed.

Lemma all_held_noxmm gpr xmm xmm' stack ts : Forall natural ts -> forall vs g x stk l g' s', 0 <= stk ->
  assign ts g x stk = (l, g', x, s') -> all_held gpr xmm stack ts l vs -> all_held gpr xmm' stack ts l vs.
Proof.
  induction 1 as [|t ts N F IH]; intros vs g x stk l g' s' S E H.
  - cbn in E. injection E as <- <- <-. inversion H; subst. constructor.
  - rewrite assign_cons in E. destruct (step t g x stk) as [[[l1 g1] x1] s1] eqn:St.
    destruct (assign ts g1 x1 s1) as [[[ls g2] x2] s2] eqn:As. injection E as <- <- -> <-.
    pose proof (step_mono _ _ _ _ _ _ _ _ N S St) as (A & B & C & _).
    pose proof (assign_mono _ F g1 x1 s1 _ _ _ _ ltac:(lia) As) as (A' & B' & C' & _).
    assert (x1 = x) by lia. subst x1.
    assert (S1 : 0 <= s1) by lia. inversion H as [|t0 ts0 l0 ls0 v vs0 (w & SV & Hd) AH]; subst. constructor; [|eapply IH with (stk := s1); eauto; lia].
    exists w. split; [auto|]. destruct l1 as [rs|o]; [|auto].
    eapply regs_hold_noxmm; [|exact Hd]. intros i I.
    unfold step in St. destruct (passing_of t) as [|cl| |]; try discriminate.
    destruct ((g + count is_eint cl <=? 6) && (x + count is_esse cl <=? 8)); [|discriminate].
    injection St as <- _ Ex _. apply take_regs_xmm in I. lia.
Qed.

Lemma all_held_stack gpr xmm stack stack' ts : Forall natural ts -> forall vs g x stk l g' x' s', 0 <= stk ->
  Forall2 (fun t v => zlen v = ty_size t) ts vs ->
  assign ts g x stk = (l, g', x', s') ->
  (forall o n d, 0 <= o -> o + n <= s' -> get_range stack o n = Some d -> get_range stack' o n = Some d) ->
  all_held gpr xmm stack ts l vs -> all_held gpr xmm stack' ts l vs.
Proof.
  induction 1 as [|t ts N F IH]; intros vs g x stk l g' x' s' S FV E K H.
  - cbn in E. injection E as <- <- <- <-. inversion H; subst. constructor.
  - rewrite assign_cons in E. destruct (step t g x stk) as [[[l1 g1] x1] s1] eqn:St.
    destruct (assign ts g1 x1 s1) as [[[ls g2] x2] s2] eqn:As. injection E as <- <- <- <-.
    pose proof (step_mono _ _ _ _ _ _ _ _ N S St) as (A & B & C & _ & _ & G).
    pose proof (assign_mono _ F g1 x1 s1 _ _ _ _ ltac:(lia) As) as (A' & B' & C' & _).
    inversion FV as [|? ? ? ? Lv FV']; subst.
    inversion H as [|t0 ts0 l0 ls0 v vs0 (w & SV & Hd) AH]; subst. constructor; [|eapply IH with (stk := s1); eauto; lia].
    exists w. split; [auto|]. destruct l1 as [rs|o]; [auto|]. apply K; auto; [lia|].
    destruct SV as [Lw _]. lia.
Qed.

(** ** Extension *)

Lemma skipn_skipn' {A} n m (l : list A) : skipn n (skipn m l) = skipn (m + n) l.
Proof.
  apply nth_error_ext. intros i. rewrite !nth_error_skipn. f_equal. lia.
Qed.

Lemma stored_gpr code cl : forall a size gpr sse gc sc, zlen a = size -> size < 2 ^ 64 -> zlen cl = eightbytes size ->
  stored code cl a size gpr sse gc sc -> forall k i, nth_error (take_regs (map proj cl) gc sc) k = Some (Gpr i) ->
  8 * Z.of_nat k < size /\
  exists v, gpr_value code (skipn (8 * k) a) (size - 8 * Z.of_nat k) = Ok v /\ znth gpr i = Some v.
Proof.
  induction cl as [|c cl IH]; intros a size gpr sse gc sc La Ls Lc St k i H.
  - destruct k; discriminate.
  - rewrite zlen_cons in Lc. pose proof (zlen_nonneg cl). pose proof (zlen_nonneg a). unfold eightbytes in Lc.
    assert (Hs : 0 < size) by lia.
    assert (Rec : forall gc' sc', stored code cl (skipn 8 a) (wrap64 (size - 8)) gpr sse gc' sc' ->
      forall k, nth_error (take_regs (map proj cl) gc' sc') k = Some (Gpr i) ->
      8 * Z.of_nat (S k) < size /\
      exists v, gpr_value code (skipn (8 * S k) a) (size - 8 * Z.of_nat (S k)) = Ok v /\ znth gpr i = Some v).
    { intros gc' sc' St' k' H'. destruct cl as [|c2 cl2]; [destruct k'; discriminate|].
      rewrite zlen_cons in *. pose proof (zlen_nonneg cl2).
      rewrite wrap64_small in St' by lia.
      destruct (IH (skipn 8 a) (size - 8) gpr sse gc' sc') with (k := k') (i := i) as (B & v & E1 & E2); auto.
      - rewrite zlen_skipn. lia.
      - lia.
      - unfold eightbytes. lia.
      - split; [lia|]. exists v. split; [|auto]. rewrite <- E1. rewrite skipn_skipn'. f_equal; [f_equal; lia|lia]. }
    destruct c; cbn [stored] in St; try contradiction; destruct St as [HR St]; cbn [map proj take_regs] in H; destruct k as [|k];
    try (cbn [nth_error] in H; discriminate); try (apply (Rec _ _ St); exact H);
    (split; [lia|]; destruct HR as (v & E1 & E2); exists v; injection H as <-; rewrite Z.sub_0_r; auto).
Qed.

Lemma gpr_value_word t v k : natural t -> zlen v = ty_size t -> ty_size t <= 16 -> 8 * Z.of_nat k < ty_size t ->
  forall x, gpr_value (ty_code t) (skipn (8 * k) v) (ty_size t - 8 * Z.of_nat k) = Ok x -> x = arg_word t v k.
Proof.
  intros N L L16 B x E. unfold arg_word. destruct (signed_narrow t) eqn:Sg.
  - assert (S : exists n, ty_size t = n /\ n <= 4 /\ gpr_value (ty_code t) (skipn (8 * k) v) (ty_size t - 8 * Z.of_nat k) =
       let* d := of_option (get_range (skipn (8 * k) v) 0 n) in Ok (wrap64 (to_signed (8 * n) (le_dec d)))).
    { pose proof (signed_natural t N) as Hn. unfold signed_narrow in Sg. 
      destruct (ty_code t) eqn:C; try discriminate; cbn [signed_size] in Hn; [exists 1|exists 2|exists 4]; (split; [lia|split; [lia|reflexivity]]). }
    destruct S as (n & Es & Hn & Eq). rewrite Eq in E. assert (k = 0%nat) by lia. subst k. cbn [Nat.mul skipn] in E.
    change (skipn (8 * 0) v) with v in E. rewrite <- Es in E. rewrite <- L in E at 1. rewrite get_range_all in E. cbn [of_option bind] in E.
    injection E as <-. reflexivity.
  - assert (Eq : gpr_value (ty_code t) (skipn (8 * k) v) (ty_size t - 8 * Z.of_nat k) =
      let* d := of_option (get_range (skipn (8 * k) v) 0 (if ty_size t - 8 * Z.of_nat k <=? 8 then ty_size t - 8 * Z.of_nat k else 8)) in Ok (le_dec d)).
    { unfold signed_narrow in Sg. destruct (ty_code t); try discriminate; reflexivity. }
    rewrite Eq in E. clear Eq.
    assert (Lk : zlen (skipn (8 * k) v) = ty_size t - 8 * Z.of_nat k) by (rewrite zlen_skipn; lia).
    rewrite get_range_some in E; [|lia|destruct (Z.leb_spec (ty_size t - 8 * Z.of_nat k) 8); lia|destruct (Z.leb_spec (ty_size t - 8 * Z.of_nat k) 8); lia].
    cbn [of_option bind] in E. injection E as <-. f_equal. change (Z.to_nat 0) with 0%nat. change (skipn 0 ?l) with l.
    destruct (Z.leb_spec (ty_size t - 8 * Z.of_nat k) 8); [|reflexivity].
    rewrite (firstn_all2 (n := 8)) by (unfold zlen in Lk; lia). rewrite <- Lk. unfold zlen. rewrite Nat2Z.id. apply firstn_all.
Qed.

Lemma placed_extended gpr sse area t l v : natural t -> zlen v = ty_size t -> placed gpr sse area t l v -> extended_at gpr t l v.
Proof.
  intros N L P. destruct l as [rs|o]; [|exact I]. cbn [placed extended_at] in *.
  destruct P as (cl & gc & sc & -> & P & (C1 & C2 & C3 & C4 & C5) & St). intros k i H.
  assert (Lcl : zlen cl = eightbytes (ty_size t)).
  { rewrite <- (zlen_map proj cl), C3, words_length. unfold eightbytes. destruct (natural_basic _ N) as (Bs & _). lia. }
  destruct (stored_gpr _ _ _ _ _ _ _ _ L ltac:(lia) Lcl St k i H) as (B & x & E1 & E2).
  rewrite E2. f_equal. eapply gpr_value_word; eauto.
Qed.

Lemma all_placed_extended gpr sse area ts ls vs : Forall natural ts ->
  Forall2 (fun t v => zlen v = ty_size t) ts vs ->
  all_placed gpr sse area ts ls vs -> all_extended gpr ts ls vs.
Proof.
  intros N L P. induction P as [|t ts l ls v vs H P IH]; [constructor|].
  inversion N; subst. inversion L; subst. constructor; auto. eapply placed_extended; eauto.
Qed.

(** ** Preparation *)

Definition flags_ok (rt : ftype) (xmm : bool) (fl : Z) : Prop :=
  if hidden_pointer rt then fl = 1024 + (if xmm then 2048 else 0)
  else exists code size, 0 <= code < 16 /\ 0 <= size <= 16 /\ fl = mkflags code size xmm /\
    (if match ty_code rt with T_VOID => true | _ => false end then code = RET_VOID /\ size = 0 else code_ok rt code size).

Lemma natural_not_void t : natural t -> ty_code t <> T_VOID.
Proof.
  destruct t as [c s a es]. intros N. destruct (natural_inv _ _ _ _ N) as [H|[(t0 & H & -> & _)|(-> & _)]]; cbn [ty_code]; try discriminate.
  intros ->. cbn in H. intuition discriminate.
Qed.

Lemma prep_ret rt : rt_ok rt -> exists fl, ret_flags rt = Ok (Some (fl, first_gpr rt)) /\ flags_ok rt false fl /\ flags_ok rt true (Z.lor fl FLAG_XMM_ARGS).
Proof.
  intros [N|V].
  - pose proof (ret_flags_ok rt N) as H. pose proof (natural_not_void _ N) as NV. unfold flags_ok, first_gpr. destruct (hidden_pointer rt).
    + rewrite H. exists FLAG_RET_IN_MEM. repeat split; reflexivity.
    + destruct H as (code & size & Hc & Hs & R & Ok). exists (mkflags code size false). split; [exact R|].
      destruct (mkflags_bits code size true Hc Hs) as (_ & _ & E). rewrite E.
      split; exists code, size; repeat (split; [auto|]); destruct (ty_code rt); auto; congruence.
  - destruct rt as [c s a es]. cbn [ty_code] in V. subst c. exists RET_VOID.
    unfold flags_ok, first_gpr, hidden_pointer. cbn [ty_code].
    split; [reflexivity|]. split; exists 0, 0; repeat (split; [lia|]); split; auto.
Qed.

Lemma machdep64_ok rt ts b f : rt_ok rt -> Forall natural ts -> stack_used rt ts + 16 < 2 ^ 64 ->
  exists c, machdep64 (TCif FFI_UNIX64 ts rt b f) = Ok (FFI_OK, c) /\
    c_abi c = FFI_UNIX64 /\ c_args c = ts /\ c_rtype c = rt /\ c_bytes c = wrap32 (round_up (stack_used rt ts) 8) /\
    flags_ok rt (negb (vectors_used rt ts =? 0)) (c_flags c).
Proof.
  intros R N S. destruct (prep_ret rt R) as (fl & E & F1 & F2). unfold machdep64. cbn [c_abi c_rtype c_args].
  change (negb (FFI_UNIX64 =? FFI_UNIX64)) with false. cbn iota. rewrite E. cbn [bind].
  unfold stack_used, vectors_used in *. destruct (assign ts (first_gpr rt) 0 0) as [[[l g'] x'] s'] eqn:As.
  rewrite (machdep_args_ok ts N _ _ _ _ _ _ _ (Z.le_refl 0) As) by lia. cbn [bind].
  eexists. split; [reflexivity|]. cbn [c_abi c_args c_rtype c_bytes c_flags].
  pose proof (assign_mono _ N _ _ 0 _ _ _ _ (Z.le_refl 0) As) as (A' & B' & C' & _).
  pose proof (round_up_lt s' 8 ltac:(lia)).
  rewrite ffi_align_round; [|exists 3; split; [lia|reflexivity]|lia|lia].
  repeat (split; [reflexivity|]). destruct (x' =? 0); auto.
Qed.

Lemma flags_in_mem rt x fl : flags_ok rt x fl -> negb (Z.land fl FLAG_RET_IN_MEM =? 0) = hidden_pointer rt.
Proof.
  unfold flags_ok. destruct (hidden_pointer rt).
  - intros ->. destruct x; reflexivity.
  - intros (code & size & Hc & Hs & -> & _). destruct (mkflags_bits code size x Hc Hs) as (E & _). rewrite E. reflexivity.
Qed.

Lemma flags_xmm rt x fl : flags_ok rt x fl -> negb (Z.land fl FLAG_XMM_ARGS =? 0) = x.
Proof.
  unfold flags_ok. destruct (hidden_pointer rt).
  - intros ->. destruct x; reflexivity.
  - intros (code & size & Hc & Hs & -> & _). destruct (mkflags_bits code size x Hc Hs) as (_ & E & _). rewrite E. destruct x; reflexivity.
Qed.

(** ** The call *)

Lemma call64_ok rt ts vs b f c rv tmp closure base g_gpr g_sse g_area g_xmm frame :
  rt_ok rt -> Forall natural ts -> Forall2 (fun t v => zlen v = ty_size t) ts vs -> Forall bytes_ok vs ->
  stack_used rt ts + 64 < 2 ^ 32 ->
  machdep64 (TCif FFI_UNIX64 ts rt b f) = Ok (FFI_OK, c) ->
  env_ok (c_bytes c) base g_gpr g_sse g_area g_xmm frame ->
  exists m fl rv', call64 c rv tmp vs closure base g_gpr g_sse g_area g_xmm frame = Ok (m, fl, rv') /\
    args_passed rt ts vs (m_gpr m) (m_xmm m) (m_stack m) /\
    args_extended rt ts vs (m_gpr m) /\
    m_rax m = vectors_used rt ts /\ m_r10 m = closure /\ m_sp m = base /\
    zlen (m_gpr m) = 6 /\ zlen (m_xmm m) = 8 /\ Forall (fun b => zlen b = 16) (m_xmm m) /\
    (hidden_pointer rt = true -> znth (m_gpr m) 0 = Some (match rv with Some p => p | None => tmp end)) /\
    rv' = match rv with Some p => Some p | None => if hidden_pointer rt then Some tmp else None end /\
    fl = match rv with Some p => c_flags c | None => if hidden_pointer rt then c_flags c else RET_VOID end.
Proof.
  intros R N L B S P (E1 & E2 & E3 & E4 & E5 & E6 & E7 & E8 & E9 & E10).
  destruct (machdep64_ok rt ts b f R N ltac:(lia)) as (c' & P' & _ & Ca & Cr & Cb & Cf).
  rewrite P in P'. injection P' as <-.
  pose proof (flags_in_mem _ _ _ Cf) as IM.
  unfold call64. rewrite IM.
  set (fl := match rv with Some p => c_flags c | None => if hidden_pointer rt then c_flags c else RET_VOID end).
  set (rv' := match rv with Some p => Some p | None => if hidden_pointer rt then Some tmp else None end).
  assert (EQ : match rv with
    | Some p => (c_flags c, Some p)
    | None => if hidden_pointer rt then (c_flags c, Some tmp) else (RET_VOID, None) end = (fl, rv')).
  { unfold fl, rv'. destruct rv; [reflexivity|]. destruct (hidden_pointer rt); reflexivity. }
  rewrite EQ. clear EQ. cbn beta iota.
  assert (IM' : negb (Z.land fl FLAG_RET_IN_MEM =? 0) = hidden_pointer rt).
  { unfold fl. destruct rv; [exact IM|]. destruct (hidden_pointer rt) eqn:Hh; [exact IM|reflexivity]. }
  rewrite IM'. 
  set (p := match rv with Some p => p | None => tmp end).
  assert (G : exists gpr0, (if hidden_pointer rt then upd g_gpr 0 (match rv' with Some p => p | None => 0 end) else Ok g_gpr) = Ok gpr0 /\
    zlen gpr0 = 6 /\ (hidden_pointer rt = true -> znth gpr0 0 = Some p)).
  { unfold rv', p. destruct (hidden_pointer rt).
    - destruct (set_range_ok g_gpr 0 [match rv with Some p => p | None => tmp end]) as (g1 & G1 & G2); [lia|change (zlen [?x]) with 1; lia|].
      exists g1. unfold upd. split; [|split; [lia|intros _; eapply znth_set_same; eauto]].
      destruct rv; rewrite G1; reflexivity.
    - exists g_gpr. repeat split; auto. discriminate. }
  destruct G as (gpr0 & G1 & G2 & G3). rewrite G1. cbn [bind].
  change (if hidden_pointer rt then 1 else 0) with (first_gpr rt).
  unfold stack_used, vectors_used, args_passed, args_extended in *.
  destruct (assign ts (first_gpr rt) 0 0) as [[[l g'] x'] s'] eqn:As.
  pose proof (assign_mono _ N _ _ 0 _ _ _ _ (Z.le_refl 0) As) as (A1 & A2 & A3 & A4 & A5 & _).
  pose proof (round_up_le s' 8 ltac:(lia)). pose proof (round_up_lt s' 8 ltac:(lia)).
  assert (Hb : c_bytes c = round_up s' 8).
  { rewrite Cb. unfold wrap32, wrap. apply Z.mod_small. lia. }
  rewrite Ca.
  assert (Fg : 0 <= first_gpr rt <= 6) by (unfold first_gpr; destruct (hidden_pointer rt); lia).
  destruct (fill_args_ok base ts E1 E2 N vs (Fill gpr0 g_sse g_area (first_gpr rt) 0 base) 0 l g' x' s') as
    (f' & FE & Q1 & Q2 & Q3 & Q4 & Q5 & Q6 & Q7 & Q8 & Q9 & Q10 & Q11 & Q12); cbn [f_gpr f_sse f_area f_gc f_sc f_argp]; auto; try lia.
  rewrite FE. cbn [bind]. cbn [f_gpr f_sse f_area f_gc f_sc f_argp] in *.
  destruct (set_range_ok (f_area f') (c_bytes c) frame) as (st & S1 & S2); [lia|lia|]. rewrite S1. cbn [of_option bind].
  eexists _, _, _. split; [reflexivity|]. cbn [m_gpr m_xmm m_rax m_r10 m_sp m_stack].
  rewrite Q6. assert (W : wrap32 x' = x') by (unfold wrap32, wrap; apply Z.mod_small; lia). rewrite W.
  split.
  { assert (HH : all_held (f_gpr f') (f_sse f') st ts l vs).
    { eapply all_held_stack with (stack := f_area f') (stk := 0); eauto; [lia| |eapply all_placed_held; eauto].
      intros o n d Ho Hn Hd. rewrite <- Hd. apply (get_set_disjoint _ _ _ _ o n S1). left. lia. }
    destruct (Z.eqb_spec x' 0) as [X0|]; [|exact HH]. rewrite X0 in As. apply (all_held_noxmm _ (f_sse f') _ _ _ N _ _ _ 0 _ _ _ (Z.le_refl 0) As HH). }
  split; [eapply all_placed_extended; eauto|].
  repeat (split; [auto; lia|]). split; [destruct (x' =? 0); auto; lia|]. split; [destruct (x' =? 0); auto|].
  split; [|split; reflexivity].
  intros Hh. rewrite Q8 by (unfold first_gpr; rewrite Hh; lia). auto.
Qed.

(** The argument area needs exactly the bytes recorded by the preparation. *)
Lemma call64_inside rt ts vs b f c base f0 :
  rt_ok rt -> Forall natural ts -> Forall2 (fun t v => zlen v = ty_size t) ts vs ->
  stack_used rt ts + 64 < 2 ^ 32 ->
  machdep64 (TCif FFI_UNIX64 ts rt b f) = Ok (FFI_OK, c) ->
  (16 | base) -> 0 <= base -> base + c_bytes c + 64 < 2 ^ 64 ->
  zlen (f_gpr f0) = 6 -> zlen (f_sse f0) = 8 -> Forall (fun b => zlen b = 16) (f_sse f0) ->
  f_gc f0 = first_gpr rt -> f_sc f0 = 0 -> f_argp f0 = base ->
  zlen (f_area f0) = c_bytes c ->
  exists f', fill_args base ts vs f0 = Ok f' /\ zlen (f_area f') = c_bytes c.
Proof.
  intros R N L S P E1 E2 E3 F1 F2 F3 F4 F5 F6 F7.
  destruct (machdep64_ok rt ts b f R N ltac:(lia)) as (c' & P' & _ & Ca & Cr & Cb & Cf).
  rewrite P in P'. injection P' as <-.
  unfold stack_used in *. destruct (assign ts (first_gpr rt) 0 0) as [[[l g'] x'] s'] eqn:As.
  pose proof (assign_mono _ N _ _ 0 _ _ _ _ (Z.le_refl 0) As) as (A1 & A2 & A3 & A4 & A5 & _).
  pose proof (round_up_le s' 8 ltac:(lia)). pose proof (round_up_lt s' 8 ltac:(lia)).
  assert (Hb : c_bytes c = round_up s' 8).
  { rewrite Cb. unfold wrap32, wrap. apply Z.mod_small. lia. }
  assert (Fg : 0 <= first_gpr rt <= 6) by (unfold first_gpr; destruct (hidden_pointer rt); lia).
  destruct (fill_args_ok base ts E1 E2 N vs f0 0 l g' x' s') as
    (f' & FE & Q1 & Q2 & Q3 & Q4 & _); auto; try lia; try (rewrite F4, F5; auto).
  exists f'. split; [auto|lia].
Qed.

(** ** Closures *)

Lemma closure64_ok rt ts vs b f c m g_sse g_tmp :
  rt_ok rt -> Forall natural ts -> Forall2 (fun t v => zlen v = ty_size t) ts vs ->
  machdep64 (TCif FFI_UNIX64 ts rt b f) = Ok (FFI_OK, c) ->
  zlen (m_gpr m) = 6 -> zlen (m_xmm m) = 8 -> Forall (fun b => zlen b = 16) (m_xmm m) ->
  zlen g_sse = 8 -> Forall (fun b => zlen b = 16) g_sse -> zlen g_tmp = 16 ->
  (16 | m_sp m) -> 0 <= m_sp m -> m_sp m + stack_used rt ts + 16 < 2 ^ 64 ->
  args_passed rt ts vs (m_gpr m) (m_xmm m) (m_stack m) ->
  exists ps r fl, closure64 c m g_sse g_tmp = Ok (ps, r, fl) /\
    Forall2 (fun p tv => exists w, read_aptr (closure_frame c m g_sse) m p (ty_size (fst tv)) = Some w /\ same_value (fst tv) (snd tv) w)
      ps (combine ts vs) /\
    (if hidden_pointer rt then exists p, znth (m_gpr m) 0 = Some p /\ r = RCaller p /\ fl = RET_INT64
     else r = RSlot /\ fl = c_flags c).
Proof.
  intros R N L P G1 G2 G3 G4 G5 G6 D P0 B AP.
  assert (S64 : 0 <= stack_used rt ts).
  { unfold stack_used. destruct (assign ts (first_gpr rt) 0 0) as [[[l g'] x'] s'] eqn:As.
    pose proof (assign_mono _ N _ _ 0 _ _ _ _ (Z.le_refl 0) As). lia. }
  destruct (machdep64_ok rt ts b f R N ltac:(lia)) as (c' & P' & _ & Ca & Cr & Cb & Cf).
  rewrite P in P'. injection P' as <-.
  pose proof (flags_in_mem _ _ _ Cf) as IM. pose proof (flags_xmm _ _ _ Cf) as XM.
  unfold stack_used, vectors_used, args_passed in *.
  destruct (assign ts (first_gpr rt) 0 0) as [[[l g'] x'] s'] eqn:As.
  set (xmm := if saves_vectors c then m_xmm m else g_sse).
  assert (CF : closure_frame c m g_sse = frame_of (m_gpr m) xmm) by reflexivity.
  assert (AH : all_held (m_gpr m) xmm (m_stack m) ts l vs).
  { unfold xmm, saves_vectors. rewrite XM. destruct (Z.eqb_spec x' 0); [|exact AP]. subst x'. cbn [negb].
    eapply all_held_noxmm with (stk := 0); eauto; lia. }
  assert (X1 : zlen xmm = 8) by (unfold xmm; destruct (saves_vectors c); auto).
  assert (X2 : Forall (fun b => zlen b = 16) xmm) by (unfold xmm; destruct (saves_vectors c); auto).
  destruct (closure_args_ok (m_gpr m) xmm (m_stack m) (m_sp m) g_tmp ts D P0 G6 G1 X1 X2 N vs (first_gpr rt) 0 0 l g' x' s' L (Z.le_refl 0) As B AH) as (ps & CE & AR).
  rewrite Z.add_0_r in CE.
  assert (F2 : Forall2 (fun p tv => exists w, read_aptr (closure_frame c m g_sse) m p (ty_size (fst tv)) = Some w /\ same_value (fst tv) (snd tv) w)
      ps (combine ts vs)).
  { rewrite CF. clear - AR. induction AR as [|t ts p ps v vs w Rd SV AR IH]; cbn [combine]; [constructor|].
    constructor; [|exact IH]. exists w. cbn [fst snd]. split; [|auto]. destruct p; exact Rd. }
  unfold closure64. rewrite Ca, IM, CF. unfold first_gpr in CE.
  destruct (hidden_pointer rt).
  - destruct (znth_some (m_gpr m) 0 ltac:(lia)) as (p & Ep). rewrite Ep. cbn [of_option bind]. rewrite CE. cbn [bind].
    eexists _, _, _. split; [reflexivity|]. split; [rewrite <- CF; exact F2|]. eauto.
  - rewrite CE. cbn [bind]. eexists _, _, _. split; [reflexivity|]. split; [rewrite <- CF; exact F2|]. auto.
Qed.
