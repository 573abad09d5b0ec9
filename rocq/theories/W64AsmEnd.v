(** Results and closures of src/x86/win64.S joined with src/x86/ffiw64.c. *)
From Coq Require Import ZifyBool ZifyNat.
From Verif Require Import Base BaseFacts ByteMem Types LayoutSpec NaturalTypes NaturalFacts Unix64Model Unix64Spec Unix64Link
  Win64Model Win64Spec Win64Link Win64Facts Win64Main PropsUnix64Lemmas PropsWin64Lemmas X64AsmWhole.
From Verif Require Import W64AsmModel W64AsmFacts W64AsmSpec W64AsmRun W64AsmClo W64AsmTop.
Local Open Scope Z_scope.
Local Arguments Z.mul : simpl never.
Local Arguments Z.add : simpl never.
Local Arguments Z.sub : simpl never.
Local Arguments Z.pow : simpl never.
Local Arguments Z.of_nat : simpl never.
Local Arguments le_enc : simpl never.

Lemma enc_sext n x : 0 < n <= 64 -> le_enc 8 (sext n x) = le_enc 8 (to_signed n x).
Proof. intros H. unfold sext. apply enc_wrap64. Qed.

Lemma set_nil {A} (b : list A) : set_range b 0 [] = Some b.
Proof. unfold set_range. change (zlen (@nil A)) with 0. pose proof (zlen_nonneg b). replace ((0 <=? 0) && (0 + 0 <=? zlen b)) with true by lia. reflexivity. Qed.

Lemma store_bytes fl r buf buf' : win_store fl r buf = Ok buf' ->
  0 <= fl < 19 /\ exists d, win_bytes fl (rs_rax r) (rs_xmm0 r) = Some d /\ set_range buf 0 d = Some buf'.
Proof.
  intros H. assert (F : 0 <= fl < 19).
  { unfold win_store in H. cbn [tcode_num] in H. unfold SMALL_STRUCT_1B, SMALL_STRUCT_2B, SMALL_STRUCT_4B in H. cbn [tcode_num] in H.
    repeat match type of H with (if ?c then _ else _) = _ => destruct c eqn:? end; try discriminate H; lia. }
  split; [exact F|]. apply cases19 in F. cbn [In] in F.
  repeat match type of F with _ \/ _ => destruct F as [F|F] end; try contradiction; subst fl; unfold win_store in H;
    cbn -[set_range le_enc sext zext firstn] in H; try discriminate H; cbn [win_bytes];
    eexists; (split; [reflexivity|]);
    try (injection H as <-; apply set_nil);
    rewrite ?enc_sext in H by lia;
    match type of H with of_option ?o = _ => destruct o eqn:E; cbn [of_option] in H; [|discriminate H]; injection H as <- end;
    first [reflexivity|exact E].
Qed.

Lemma set0_len {A} (b d b' : list A) : set_range b 0 d = Some b' -> zlen d <= zlen b.
Proof. unfold set_range. destruct ((0 <=? 0) && (0 + zlen d <=? zlen b)) eqn:E; [lia|discriminate]. Qed.

Lemma frame_words M P rbp ra fl rv : frame_at M P rbp ra fl rv -> 0 <= rbp < 2 ^ 64 -> 0 <= ra < 2 ^ 64 -> 0 <= fl < 2 ^ 32 ->
  (forall p, rv = Some p -> 0 <= p < 2 ^ 64) ->
  le_dec (rd M P 8) = rbp /\ le_dec (rd M (P + 8) 8) = ra /\ le_dec (rd M (P + 24) 4) = fl /\
  le_dec (rd M (P + 32) 8) = match rv with Some p => p | None => 0 end.
Proof.
  intros [H1 H2] B1 B2 B3 B4. apply pair_parts in H1. apply pair_parts in H2. destruct H1 as [A1 A2], H2 as [A3 A4].
  replace (P + 24 + 8) with (P + 32) in A4 by lia.
  rewrite A1, A2, A4. rewrite !dec_enc8 by (first [assumption|destruct rv; [apply B4; reflexivity|lia]]). repeat split; auto.
  change 8%nat with (4 + 4)%nat in A3. rewrite rd_app in A3. rewrite le_enc_add in A3.
  apply (f_equal (firstn 4)) in A3. rewrite !firstn_app, rd_length, le_enc_length, Nat.sub_diag, !firstn_O, !app_nil_r in A3.
  rewrite !firstn_all2 in A3 by (rewrite ?rd_length, ?le_enc_length; lia). rewrite A3.
  rewrite le_dec_enc. apply Z.mod_small. exact B3.
Qed.

Lemma leave_with g ib inner org X V c z M P fl rv rbp ra n buf' :
  text_ok g ib org -> 0 <= P -> zlen (V 0) = 16 -> X RBP = P -> P + 40 <= 2 ^ 64 ->
  frame_at M P rbp ra fl rv -> 0 <= rbp < 2 ^ 64 -> 0 <= ra < 2 ^ 64 ->
  (forall p, rv = Some p -> 0 <= p < 2 ^ 64) ->
  let p := match rv with Some q => q | None => 0 end in
  0 <= n -> p + n <= 2 ^ 64 -> p + n <= P \/ P + 16 <= p ->
  win_store fl (RState (X RAX) (X RDX) (V 0) (V 1) [] []) (rd M p (Z.to_nat n)) = Ok buf' ->
  exists X1 c1 z1 M1,
    reach ib inner (text g) org (St X V c z false (at_label (src g) org 5) M) (St X1 V c1 z1 false ra M1) /\
    X1 RSP = P + 16 /\ X1 RBP = rbp /\ (forall i, i = 3 \/ i = RSI \/ i = RDI \/ 12 <= i -> X1 i = X i) /\
    rd M1 p (Z.to_nat n) = buf' /\ (forall x, ~ (p <= x < p + n) -> M1 x = M x).
Proof.
  intros (T1 & T2 & T3) Bb Lv Xp Hp Fr Br Ba Bp p Hn H1 H2 St.
  apply store_bytes in St. destruct St as (Fl & d & Wb & Sr). cbn [rs_rax rs_xmm0] in Wb.
  pose proof (set0_len _ _ _ Sr) as Ld. rewrite rd_zlen in Ld.
  destruct (frame_words _ _ _ _ _ _ Fr Br Ba ltac:(lia) Bp) as (E1 & E2 & E3 & E4). fold p in E4.
  assert (P0 : 0 <= p) by (unfold p; destruct rv; [apply Bp; reflexivity|lia]).
  destruct (run_leave g ib inner org X V c z M P fl p d rbp ra) as (X1 & c1 & z1 & M1 & Rr & S1 & S2 & Sk & Mk); auto; try lia.
  { unfold zlen in Lv. lia. }
  exists X1, c1, z1, M1. split; [exact Rr|]. split; [exact S1|]. split; [exact S2|]. split; [intros i Hi; apply Sk; rn; lia|]. split.
  - rewrite (rd_ext (wr M p d) M1) by (intros; apply Mk). replace p with (p + 0) at 1 by lia. apply (rd_wr_range _ _ _ _ _ _ Sr).
  - intros x Hx. rewrite Mk. apply wr_out. lia.
Qed.

Lemma result_stored abi rt v g ib inner org X V c z M P rbp ra p :
  natural rt -> win_hidden rt = false -> zlen v = ty_size rt ->
  text_ok g ib org -> 0 <= P -> zlen (V 0) = 16 -> X RBP = P -> P + 40 <= 2 ^ 64 ->
  frame_at M P rbp ra (win_flags abi rt) (Some p) -> 0 <= rbp < 2 ^ 64 -> 0 <= ra < 2 ^ 64 ->
  0 <= p -> p + result_width rt <= 2 ^ 64 -> p + result_width rt <= P \/ P + 16 <= p ->
  win_returned rt (X RAX) (V 0) v ->
  exists X1 c1 z1 M1,
    reach ib inner (text g) org (St X V c z false (at_label (src g) org 5) M) (St X1 V c1 z1 false ra M1) /\
    X1 RSP = P + 16 /\ X1 RBP = rbp /\ (forall i, i = 3 \/ i = RSI \/ i = RDI \/ 12 <= i -> X1 i = X i) /\
    win_result_holds rt v (rd M1 p (Z.to_nat (result_width rt))) /\ (forall x, ~ (p <= x < p + result_width rt) -> M1 x = M x).
Proof.
  intros N Hd Lv Tx Bb L16 Xp Hp Fr Br Ba P0 H1 H2 Rt.
  assert (W : 0 < result_width rt) by (unfold result_width; pose proof (natural_size_pos _ N); destruct (integral rt); lia).
  destruct (win_result_stored abi rt v (RState (X RAX) (X RDX) (V 0) (V 1) [] []) (rd M p (Z.to_nat (result_width rt))) N Hd Lv Rt)
    as (buf' & St & Hh & _ & _). { rewrite rd_zlen. lia. }
  destruct (leave_with g ib inner org X V c z M P (win_flags abi rt) (Some p) rbp ra (result_width rt) buf') as (X1 & c1 & z1 & M1 & Rr & S1 & S2 & Sk & Rb & Mk);
    auto; try lia. { intros q E. injection E as <-. lia. }
  exists X1, c1, z1, M1. rewrite Rb. repeat (split; [assumption|]). exact Mk.
Qed.

(** Nothing to store. *)
Lemma no_result_stored abi rt g ib inner org X V c z M P rbp ra fl rv :
  rt_ok rt -> win_ret_ok abi rt ->
  text_ok g ib org -> 0 <= P -> zlen (V 0) = 16 -> X RBP = P -> P + 40 <= 2 ^ 64 ->
  (rv = None /\ fl = tcode_num T_VOID \/ (win_hidden rt = true \/ ty_code rt = T_VOID) /\ fl = win_flags abi rt) ->
  (forall p, rv = Some p -> 0 <= p < 2 ^ 64 /\ (p <= P \/ P + 16 <= p)) ->
  frame_at M P rbp ra fl rv -> 0 <= rbp < 2 ^ 64 -> 0 <= ra < 2 ^ 64 ->
  exists X1 c1 z1 M1,
    reach ib inner (text g) org (St X V c z false (at_label (src g) org 5) M) (St X1 V c1 z1 false ra M1) /\
    X1 RSP = P + 16 /\ X1 RBP = rbp /\ (forall i, i = 3 \/ i = RSI \/ i = RDI \/ 12 <= i -> X1 i = X i) /\ (forall x, M1 x = M x).
Proof.
  intros R Ho Tx Bb Lv Xp Hp Hf Bp Fr Br Ba. set (p := match rv with Some q => q | None => 0 end).
  assert (P0 : 0 <= p < 2 ^ 64 /\ (p + 0 <= P \/ P + 16 <= p)).
  { unfold p. destruct rv; [specialize (Bp _ eq_refl); lia|lia]. }
  destruct (leave_with g ib inner org X V c z M P fl rv rbp ra 0 []) as (X1 & c1 & z1 & M1 & Rr & S1 & S2 & Sk & Rb & Mk);
    auto; fold p; try lia; try (intros q E; apply Bp, E).
  { destruct Hf as [[_ ->]|[Hv ->]]; [reflexivity|]. apply (win_store_hidden _ _ _ _ R Ho Hv). }
  exists X1, c1, z1, M1. repeat (split; [assumption|]). intros x. apply Mk. lia.
Qed.

(** Closures. *)
Lemma rd_mid M a b u x w : b = a + zlen u -> rd (wr M a (u ++ le_enc 8 x ++ w)) b 8 = le_enc 8 x.
Proof.
  intros ->. pose proof (zlen_nonneg u) as Lu. pose proof (zlen_nonneg w) as Lw.
  rewrite rd_wr_sub by (rewrite ?zlen_app, ?le_enc_zlen; lia).
  replace (Z.to_nat (a + zlen u - a)) with (length u) by (unfold zlen; lia).
  rewrite skipn_app, skipn_all, Nat.sub_diag. cbn [skipn app]. rewrite firstn_app, le_enc_length, Nat.sub_diag, firstn_O, app_nil_r.
  apply firstn_all2. rewrite le_enc_length. lia.
Qed.

Lemma clo_prepared go M cl cif func data entry tramp :
  zlen tramp = 24 -> 0 <= cif < 2 ^ 64 -> 0 <= func < 2 ^ 64 -> 0 <= data < 2 ^ 64 ->
  clo_holds go (if go then prep_go cl entry cif func M else prep_closure cl entry cif func data tramp M) cl cif func (if go then cl else data).
Proof.
  intros Lt B1 B2 B3. destruct go; unfold clo_holds, clo_cif, clo_fun, clo_data, prep_go, prep_closure.
  - split; [|split; [|reflexivity]].
    + rewrite rd_mid by (rewrite le_enc_zlen; lia). apply dec_enc8, B1.
    + rewrite <- (app_nil_r (le_enc 8 func)). rewrite (app_assoc (le_enc 8 entry)).
      rewrite rd_mid by (rewrite zlen_app, !le_enc_zlen; lia). apply dec_enc8, B2.
  - split; [|split].
    + rewrite (app_assoc tramp). rewrite rd_mid by (rewrite zlen_app, le_enc_zlen; lia). apply dec_enc8, B1.
    + rewrite (app_assoc tramp), (app_assoc (tramp ++ _)). rewrite rd_mid by (rewrite !zlen_app, !le_enc_zlen; lia). apply dec_enc8, B2.
    + rewrite (app_assoc tramp), (app_assoc (tramp ++ _)), (app_assoc ((tramp ++ _) ++ _)). rewrite <- (app_nil_r (le_enc 8 data)).
      rewrite rd_mid by (rewrite !zlen_app, !le_enc_zlen; lia). apply dec_enc8, B3.
Qed.

(** What the handler reads in the frame of the closure. *)
Lemma handler_reads M M1 X V sp n m s p k v args :
  s = wstate_of X V M (sp + 8) (Z.to_nat n) -> 32 <= n ->
  rd M1 (sp - 32) 32 = firstn 8 (V 0) ++ firstn 8 (V 1) ++ firstn 8 (V 2) ++ firstn 8 (V 3) ->
  rd M1 (sp + 8) 32 = le_enc 8 (X RCX) ++ le_enc 8 (X RDX) ++ le_enc 8 (X R8) ++ le_enc 8 (X R9) ->
  (forall x, ~ (sp - 96 <= x < sp - 88) -> ~ (sp - 32 <= x < sp) -> ~ (sp + 8 <= x < sp + 40) -> M1 x = M x) ->
  memory_has M1 m -> win_closure_args s = Ok args ->
  read_wptr args (win_closure_fargs s) m p k = Some v -> rd M1 (ptr_addr (sp - 32) (sp + 8) p) (Z.to_nat k) = v.
Proof.
  intros -> Hn Fa Ga Mk Hm Ar R.
  assert (Ea : args = rd M1 (sp + 8) (Z.to_nat n)).
  { unfold win_closure_args in Ar. cbn [wstate_of w_stack w_gpr map concat] in Ar. rewrite app_nil_r in Ar.
    set (d := le_enc 8 (X RCX) ++ le_enc 8 (X RDX) ++ le_enc 8 (X R8) ++ le_enc 8 (X R9)) in *.
    assert (Ld : length d = 32%nat) by (unfold d; rewrite !app_length, !le_enc_length; reflexivity).
    destruct (set_range (rd M (sp + 8) (Z.to_nat n)) 0 d) as [b|] eqn:E; cbn [of_option] in Ar; [|discriminate Ar].
    apply rd_wr_range in E. injection Ar as <-. rewrite <- E, Z.add_0_r. apply rd_ext. intros x Hx.
    destruct (Z_lt_dec x (sp + 40)).
    - rewrite wr_in by (unfold zlen; lia). rewrite <- Ga. rewrite rd_nth by lia. f_equal. lia.
    - rewrite wr_out by (unfold zlen; lia). symmetry. apply Mk; lia. }
  assert (Ef : win_closure_fargs (wstate_of X V M (sp + 8) (Z.to_nat n)) = rd M1 (sp - 32) 32).
  { unfold win_closure_fargs. cbn [wstate_of w_xmm map concat]. rewrite app_nil_r. symmetry. exact Fa. }
  destruct p as [o|o|a]; cbn [read_wptr ptr_addr] in *.
  - rewrite Ef in R. apply get_rd in R. exact R.
  - rewrite Ea in R. apply get_rd in R. exact R.
  - apply (has_read _ _ _ _ _ Hm R).
Qed.

Lemma closure_entered go abi ts vs rt b f c m g ib inner org X V cf zf k M sp cl cif func data n :
  win_abi abi -> rt_ok rt -> win_ret_ok abi rt -> zlen ts < 2 ^ 28 -> Forall natural ts -> Forall (fun t => ty_size t < 2 ^ 31) ts ->
  Forall2 (fun t v => zlen v = ty_size t) ts vs ->
  machdep_x86 (TCif abi ts rt b f) = Ok (FFI_OK, c) ->
  text_ok g ib org -> machine_ok X V M -> (k = true -> g_cet g = true) ->
  X RSP = sp -> 96 <= sp -> sp + 8 + n < 2 ^ 64 -> 32 <= n -> 8 * (zlen ts + win_first rt) <= n ->
  X R10 = cl -> clo_holds go M cl cif func data -> cl + clo_size go <= 2 ^ 64 ->
  cl + clo_size go <= sp + 8 \/ sp + 40 <= cl ->
  win_all (win_holds (wstate_of X V M (sp + 8) (Z.to_nat n)) m) ts vs (win_first rt) ->
  memory_has M m -> outside m (sp - 96) sp -> outside m (sp + 8) (sp + 40) ->
  exists X1 c1 z1 M1 l rp slot,
    reach ib inner (text g) org (St X V cf zf k (at_label (src g) org (clo_label go)) M) (St X1 V c1 z1 false inner M1) /\
    X1 RCX = cif /\ X1 RDX = func /\ X1 R8 = data /\ X1 R9 = sp - 48 /\ X1 RSP = sp - 96 /\
    rd M1 (sp - 96) 8 = le_enc 8 (at_label (src g) org 14) /\
    closure_win c (wstate_of X V M (sp + 8) (Z.to_nat n)) (rd M1 (X1 R9) 16) = Ok (l, rp, slot) /\
    Forall2 (fun p tv => rd M1 (ptr_addr (X1 R9 + 16) (X1 R9 + 56) p) (Z.to_nat (ty_size (fst tv))) = snd tv) l (combine ts vs) /\
    rp = (if win_hidden rt then Some (X RCX) else None) /\
    get_range slot 0 8 = Some (if win_hidden rt then le_enc 8 (X RCX) else rd M1 (X1 R9) 8) /\
    memory_has M1 m /\
    (forall i, win_saved i -> X1 i = X i) /\
    (forall x, ~ (sp - 96 <= x < sp - 88) -> ~ (sp - 32 <= x < sp) -> ~ (sp + 8 <= x < sp + 40) -> M1 x = M x).
Proof.
  intros A R Ho L N Sz Lv P (T1 & T2 & T3) (HX & HV & HM) Hk Xs H96 Hn N32 Nn Xc (C1 & C2 & C3) Bc Dc Wa Hm O1 O2.
  pose proof (HX R10) as B10.
  destruct (run_closure go g ib inner org X V cf zf k M sp cl) as
    (X1 & c1 & z1 & M1 & Rr & G1 & G2 & G3 & G4 & G5 & Gk & Rt & Fa & Ga & Mk); auto; try lia.
  { intros i. destruct (HV i) as [Li _]. unfold zlen in Li. lia. }
  set (s := wstate_of X V M (sp + 8) (Z.to_nat n)) in *.
  assert (Ws : wstate_ok s (zlen ts + win_first rt)).
  { unfold wstate_ok, s, wstate_of. cbn [w_gpr w_xmm w_stack]. split; [reflexivity|]. split; [reflexivity|]. split.
    - repeat (constructor; [apply HV|]). constructor.
    - rewrite rd_zlen. lia. }
  destruct (closure_win_ok abi ts vs rt b f c s m (rd M1 (X1 R9) 16) A R Ho L N Sz Lv P Ws) as (args & l & rp & slot & E & Ar & Rd & Hh & Hnh);
    [rewrite rd_zlen; reflexivity|exact Wa|].
  assert (Hm1 : memory_has M1 m).
  { eapply has_kept; [exact Hm|exact O1|exact O2|]. intros x N1 N2. apply Mk; lia. }
  exists X1, c1, z1, M1, l, rp, slot.
  split; [exact Rr|]. split; [congruence|]. split; [congruence|]. split; [congruence|]. split; [exact G4|]. split; [exact G5|]. split; [exact Rt|].
  split; [exact E|]. split.
  { rewrite G4. replace (sp - 48 + 16) with (sp - 32) by lia. replace (sp - 48 + 56) with (sp + 8) by lia.
    clear E. induction Rd as [|p [t v] l' r' Rp _ IH]; constructor; [|exact IH]. cbn [fst snd] in *.
    eapply (handler_reads M M1 X V sp n m s p (ty_size t) v args); eauto. }
  split; [|split].
  - destruct (win_hidden rt); [|apply Hnh; reflexivity]. destruct (Hh eq_refl) as (p & -> & Zp & _).
    apply (znth0 _ _ (X RCX) [X RDX; X R8; X R9]) in Zp; [|reflexivity]. subst p. rewrite Z.mod_small by apply HX. reflexivity.
  - destruct (win_hidden rt).
    + destruct (Hh eq_refl) as (p & _ & Zp & ->). apply (znth0 _ _ (X RCX) [X RDX; X R8; X R9]) in Zp; [|reflexivity]. subst p. reflexivity.
    + destruct (Hnh eq_refl) as [_ ->]. rewrite rd_get by lia. rewrite Z.add_0_r. reflexivity.
  - split; [exact Hm1|]. split; [|exact Mk]. intros i Hi. apply Gk. unfold win_saved in Hi. rn. lia.
Qed.

(** Through the alternative entry point, used by the static trampolines. *)
Lemma alt_entered g ib inner org X V cf zf k M sp cl :
  text_ok g ib org -> machine_ok X V M -> (k = true -> g_cet g = true) ->
  X RSP = sp - 16 -> 16 <= sp < 2 ^ 64 -> rd M (sp - 8) 8 = le_enc 8 cl -> 0 <= cl < 2 ^ 64 ->
  exists X1 c1 z1,
    reach ib inner (text g) org (St X V cf zf k (at_label (src g) org 13) M) (St X1 V c1 z1 false (at_label (src g) org 11) M) /\
    X1 R10 = cl /\ X1 RSP = sp /\ (forall i, i <> R10 -> i <> RSP -> X1 i = X i).
Proof.
  intros (T1 & T2 & T3) Mo Hk Xs Hs Hc Bc.
  destruct (run_alt g ib inner org X V cf zf k M sp) as (X1 & c1 & z1 & Rr & G1 & G2 & G3); auto; try lia.
  exists X1, c1, z1. rewrite Hc in G1. rewrite dec_enc8 in G1 by exact Bc. auto.
Qed.

Lemma closure_returns rt v g ib inner org X V cf zf M sp ra :
  natural rt -> win_hidden rt = false -> zlen v = ty_size rt -> bytes_ok v ->
  text_ok g ib org -> machine_ok X V M -> X RSP = sp - 88 -> 88 <= sp -> sp + 8 < 2 ^ 64 ->
  rd M sp 8 = le_enc 8 ra -> 0 <= ra < 2 ^ 64 ->
  win_result_holds rt v (rd M (sp - 48) 16) ->
  exists X1 V1 c1 z1,
    reach ib inner (text g) org (St X V cf zf false (at_label (src g) org 14) M) (St X1 V1 c1 z1 false ra M) /\
    win_returned rt (X1 RAX) (V1 0) v /\ zlen (V1 0) = 16 /\ X1 RSP = sp + 8 /\
    (forall i, win_saved i -> X1 i = X i) /\ (forall i, 1 <= i -> V1 i = V i).
Proof.
  intros Nt Hd Lv Bv (T1 & T2 & T3) (HX & HV & HM) Xs H1 H2 Hr Br Hh.
  destruct (run_return g ib inner org X V cf zf M sp ra) as (X1 & V1 & c1 & z1 & Rr & G1 & G2 & G3 & Gk & Vk); auto.
  { rewrite Hr. apply dec_enc8, Br. }
  exists X1, V1, c1, z1. split; [exact Rr|]. split.
  - assert (B16 : bytes_ok (rd M (sp - 48) 16)) by (cbn [rd]; repeat constructor; apply HM).
    destruct (win_load_ok rt v (rd M (sp - 48) 16) (RState 0 0 [] [] [] []) Nt Hd (hidden_not_ld _ Nt Hd) Lv Bv ltac:(apply rd_zlen) B16 Hh) as (r' & E & Rt).
    unfold win_load in E. rewrite rd_get in E by lia. cbn [of_option bind] in E. injection E as <-. cbn [rs_rax rs_xmm0] in Rt.
    rewrite G1, G2. rewrite Z.add_0_r in Rt. exact Rt.
  - split; [rewrite G2; rewrite zlen_app, rd_zlen; reflexivity|]. split; [exact G3|]. split; [|exact Vk]. intros i Hi. apply Gk; unfold win_saved in Hi; rn; lia.
Qed.

(** The hidden pointer comes back in rax. *)
Lemma closure_returns_hidden g ib inner org X V cf zf M sp ra p :
  text_ok g ib org -> machine_ok X V M -> X RSP = sp - 88 -> 88 <= sp -> sp + 8 < 2 ^ 64 ->
  rd M sp 8 = le_enc 8 ra -> 0 <= ra < 2 ^ 64 -> rd M (sp - 48) 8 = le_enc 8 p -> 0 <= p < 2 ^ 64 ->
  exists X1 V1 c1 z1,
    reach ib inner (text g) org (St X V cf zf false (at_label (src g) org 14) M) (St X1 V1 c1 z1 false ra M) /\
    X1 RAX = p /\ X1 RSP = sp + 8 /\ (forall i, win_saved i -> X1 i = X i) /\ (forall i, 1 <= i -> V1 i = V i).
Proof.
  intros (T1 & T2 & T3) Mo Xs H1 H2 Hr Br Hp Bp.
  destruct (run_return g ib inner org X V cf zf M sp ra) as (X1 & V1 & c1 & z1 & Rr & G1 & G2 & G3 & Gk & Vk); auto.
  { rewrite Hr. apply dec_enc8, Br. }
  exists X1, V1, c1, z1. split; [exact Rr|]. split; [rewrite G1, Hp; apply dec_enc8, Bp|]. split; [exact G3|]. split; [|exact Vk].
  intros i Hi. apply Gk; unfold win_saved in Hi; rn; lia.
Qed.

(** A call of a closure and back. *)
Lemma same_holds X1 X2 V M a b n m : a = b -> X2 RCX = X1 RCX -> X2 RDX = X1 RDX -> X2 R8 = X1 R8 -> X2 R9 = X1 R9 ->
  win_holds (wstate_of X2 V M a n) m = win_holds (wstate_of X1 V M b n) m.
Proof. intros <- H1 H2 H3 H4. unfold win_holds, wstate_of. cbn [w_gpr w_xmm w_stack]. rewrite H1, H2, H3, H4. reflexivity. Qed.

Lemma outside_part m lo hi lo2 hi2 : outside m lo hi -> lo <= lo2 -> hi2 <= hi -> outside m lo2 hi2.
Proof.
  unfold outside, apart. intros H A B. eapply Forall_impl; [|exact H]. intros b Hb. cbn [fst snd] in *. lia.
Qed.

Lemma args_lengths m ts ps vs : args_at m ts ps vs -> Forall (fun t => 0 <= ty_size t < 2 ^ 31) ts -> Forall2 (fun t v => zlen v = ty_size t) ts vs.
Proof.
  intros H. induction H as [|t p v ts ps vs Bp R Bv H IH]; intros F; constructor.
  - apply mread_inv in R as (bk & _ & G). unfold get_range in G. destruct (_ && _) eqn:B in G; [|discriminate G]. injection G as <-.
    unfold zlen in *. rewrite firstn_length, skipn_length. lia.
  - apply IH. inversion F; assumption.
Qed.

Lemma trip_in abi ts rt vs ps b f c rv tmp stk base g_gpr g_sse g_area g_xmm frame m :
  win_abi abi -> rt_ok rt -> win_ret_ok abi rt -> zlen ts < 2 ^ 28 -> Forall natural ts ->
  Forall (fun t => ty_size t < 2 ^ 31) ts ->
  machdep_x86 (TCif abi ts rt b f) = Ok (FFI_OK, c) ->
  args_at m ts ps vs -> allocas_ok (live m) (requests abi ts) stk -> zlen g_area = c_bytes c ->
  0 <= tmp < 2 ^ 64 -> (forall p, rv = Some p -> 0 <= p < 2 ^ 64) ->
  exists s fl rv' av m', ffi_call_x86 c rv tmp ps stk base g_gpr g_sse g_area g_xmm frame m = Ok (EnterWin s, fl, rv', av, m') /\
    forall g ib inner org X V cf zf k M fn ra,
      text_ok g ib org -> machine_ok X V M -> (k = true -> g_cet g = true) -> 0 <= fn < 2 ^ 64 ->
      called g base (base + c_bytes c) 0 (w_stack s) fn fl rv' ra X M -> 104 <= base ->
      memory_has M m' -> outside m' (base - 104) (base + 32) -> outside m' (base + c_bytes c) (base + c_bytes c + 16) ->
      exists X1 V1 M1,
        reach ib inner (text g) org (St X V cf zf k (at_label (src g) org 1) M) (St X1 V1 cf zf ib fn M1) /\
        forall X2 cf2 zf2 k2 cl cif func data,
          machine_ok X2 V1 M1 -> (k2 = true -> g_cet g = true) ->
          (forall i, i <> RAX -> i <> R10 -> i <> 11 -> X2 i = X1 i) -> X2 R10 = cl ->
          clo_holds false M1 cl cif func data -> cl + 56 <= 2 ^ 64 -> cl + 56 <= base \/ base + 32 <= cl ->
          exists X3 c3 z3 M3 l rp slot,
            reach ib inner (text g) org (St X2 V1 cf2 zf2 k2 (at_label (src g) org 11) M1) (St X3 V1 c3 z3 false inner M3) /\
            X3 RCX = cif /\ X3 RDX = func /\ X3 R8 = data /\ X3 R9 = base - 56 /\
            closure_win c (wstate_of X2 V1 M1 base (Z.to_nat (c_bytes c))) (rd M3 (X3 R9) 16) = Ok (l, rp, slot) /\
            Forall2 (fun p tv => rd M3 (ptr_addr (X3 R9 + 16) (X3 R9 + 56) p) (Z.to_nat (ty_size (fst tv))) = snd tv) l (combine ts vs) /\
            rp = (if win_hidden rt then Some (match rv with Some q => q | None => tmp end) else None) /\
            X3 RBP = base + c_bytes c /\ frame_at M3 (base + c_bytes c) (X RBP) ra fl rv' /\
            rd M3 (base - 8) 8 = le_enc 8 (at_label (src g) org 5).
Proof.
  intros A R Ho L N Sz P At F La Ht Hr.
  destruct (call_entered abi ts rt vs ps b f c rv tmp stk base g_gpr g_sse g_area g_xmm frame m A R Ho L N Sz P At F La Ht Hr)
    as (s & fl & rv' & av & m' & E & Hc).
  exists s, fl, rv', av, m'. split; [exact E|].
  pose proof (machdep_x86_win _ _ _ _ _ _ A R Ho L P) as Ec. pose proof (natural_sizes _ N Sz) as Hs.
  assert (Cb : c_bytes c = 8 * Z.max 4 (zlen ts + win_first rt)) by (rewrite Ec; reflexivity).
  intros g ib inner org X V cf zf k M fn ra Tx Mo Hk Fn Cl B104 Hm O1 O2.
  assert (Cl' := Cl). destruct Cl' as (_ & _ & _ & _ & _ & _ & Fr & _).
  destruct (Hc g ib inner org X V cf zf k M fn ra Tx Mo Hk Fn Cl Hm) as (X1 & V1 & M1 & Rr & Ed); [eapply outside_part; [exact O1|lia|lia]|exact O2|].
  destruct Ed as (W1 & W2 & Hm1 & Hid & E10 & N32 & Sp & Rt & Bp & Fa & Xk & Vk & Mk).
  exists X1, V1, M1. split; [exact Rr|].
  intros X2 cf2 zf2 k2 cl cif func data Mo2 Hk2 Kp C10 Ch Bc Dc.
  destruct (closure_entered false abi ts vs rt b f c m' g ib inner org X2 V1 cf2 zf2 k2 M1 (base - 8) cl cif func data (c_bytes c)) as
    (X3 & c3 & z3 & M3 & l & rp & slot & Rc & G1 & G2 & G3 & G4 & G5 & G6 & Cw & Rd & Rp & _ & _ & Sv & Mk3); auto; try lia.
  - apply (args_lengths m ts ps); assumption.
  - rewrite Kp by discriminate. exact Sp.
  - cbn [clo_size]. lia.
  - rewrite (same_holds X1 X2 V1 M1 (base - 8 + 8) base) by (try lia; apply Kp; discriminate). exact W1.
  - eapply outside_part; [exact O1|lia|lia].
  - eapply outside_part; [exact O1|lia|lia].
  - exists X3, c3, z3, M3, l, rp, slot. replace (base - 8 + 8) with base in Cw by lia. replace (base - 8 - 48) with (base - 56) in G4 by lia.
    split; [exact Rc|]. split; [exact G1|]. split; [exact G2|]. split; [exact G3|]. split; [exact G4|]. split; [exact Cw|]. split; [exact Rd|].
    split. { rewrite Rp. destruct (win_hidden rt); [|reflexivity]. rewrite Kp by discriminate. rewrite Hid by reflexivity. reflexivity. }
    split. { rewrite Sv by (right; left; reflexivity). rewrite Kp by discriminate. exact Bp. }
    split.
    + destruct Fa as [F1 F2]. split; [rewrite <- F1|rewrite <- F2]; apply rd_ext; intros x Hx; apply Mk3; lia.
    + rewrite <- Rt. apply rd_ext. intros x Hx. apply Mk3; lia.
Qed.

Lemma trip_out abi rt v g ib inner org X V cf zf M base n rbp ra p :
  natural rt -> win_hidden rt = false -> zlen v = ty_size rt -> bytes_ok v ->
  text_ok g ib org -> machine_ok X V M -> 96 <= base -> 32 <= n -> base + n + 40 <= 2 ^ 64 ->
  X RSP = base - 96 -> X RBP = base + n -> rd M (base - 8) 8 = le_enc 8 (at_label (src g) org 5) ->
  frame_at M (base + n) rbp ra (win_flags abi rt) (Some p) -> 0 <= rbp < 2 ^ 64 -> 0 <= ra < 2 ^ 64 ->
  0 <= p -> p + result_width rt <= 2 ^ 64 -> p + result_width rt <= base + n \/ base + n + 16 <= p ->
  win_result_holds rt v (rd M (base - 56) 16) ->
  exists X1 V1 c1 z1 M1,
    reach ib inner (text g) org (St X V cf zf false (at_label (src g) org 14) M) (St X1 V1 c1 z1 false ra M1) /\
    X1 RSP = base + n + 16 /\ X1 RBP = rbp /\ (forall i, i = 3 \/ i = RSI \/ i = RDI \/ 12 <= i -> X1 i = X i) /\ (forall i, 6 <= i -> V1 i = V i) /\
    win_result_holds rt v (rd M1 p (Z.to_nat (result_width rt))) /\ (forall x, ~ (p <= x < p + result_width rt) -> M1 x = M x).
Proof.
  intros Nt Hd Lv Bv Tx Mo B96 N32 Bn Xs Xb Rt Fr Br Ba P0 H1 H2 Rh.
  assert (Lb : 0 <= at_label (src g) org 5 < 2 ^ 64).
  { destruct Tx as (T1 & T2 & _). cfg_cases g; lia. }
  destruct (closure_returns rt v g ib inner org X V cf zf M (base - 8) (at_label (src g) org 5)) as (X1 & V1 & c1 & z1 & R1 & Rt1 & L1 & S1 & K1 & VK1);
    auto; try lia. { replace (base - 8 - 48) with (base - 56) by lia. exact Rh. }
  destruct (result_stored abi rt v g ib inner org X1 V1 c1 z1 M (base + n) rbp ra p) as (X2 & c2 & z2 & M2 & R2 & S2 & B2 & K2 & Rh2 & Mk2);
    auto; try lia. { rewrite K1 by (right; left; reflexivity). exact Xb. }
  exists X2, V1, c2, z2, M2. split; [eapply reach_trans; [exact R1|exact R2]|]. split; [exact S2|]. split; [exact B2|].
  split; [intros i Hi; rewrite K2 by exact Hi; apply K1; unfold win_saved; tauto|]. split; [intros i Hi; apply VK1; lia|].
  split; [exact Rh2|exact Mk2].
Qed.

(** long double under FFI_WIN64. *)
Lemma abort_reached g ib inner org X V c z M P rbp ra rv :
  text_ok g ib org -> X RBP = P -> 0 <= P -> P + 40 <= 2 ^ 64 -> frame_at M P rbp ra 4 rv ->
  0 <= rbp < 2 ^ 64 -> 0 <= ra < 2 ^ 64 -> (forall p, rv = Some p -> 0 <= p < 2 ^ 64) ->
  exists s1, reach ib inner (text g) org (St X V c z false (at_label (src g) org 5) M) s1 /\ step ib inner (text g) org s1 = None.
Proof.
  intros (T1 & T2 & T3) Xb P0 Bp Fr Br Ba Brv.
  destruct (frame_words _ _ _ _ _ _ Fr Br Ba ltac:(lia) Brv) as (_ & _ & E3 & E4).
  destruct (run_dispatch g ib inner org X V c z M P 4 _ T1 T2 T3 Xb P0 Bp E3 E4 ltac:(lia)) as (X1 & c1 & z1 & R & _).
  eexists. split; [exact R|]. unfold step. cbn [spc].
  cfg_cases g;
    match goal with |- context [?o + ?a + 4 * 8 - ?o] => replace (o + a + 4 * 8 - o) with (a + 32) by lia end; vm_compute; reflexivity.
Qed.
