(** Lemmas closing the Win64 properties. *)
From Coq Require Import ZifyBool ZifyNat Znumtheory.
From Verif Require Import Base BaseFacts Types LayoutSpec NaturalTypes NaturalFacts Unix64Model Unix64Spec Unix64Link
  Unix64Classify Unix64Main Unix64Ret2 Win64Model Win64Spec Win64Link Win64Facts Win64Main PropsUnix64Lemmas.
Local Arguments Z.mul : simpl never.
Local Arguments Z.add : simpl never.
Local Arguments Z.sub : simpl never.
Local Arguments Z.pow : simpl never.
Local Arguments Z.eqb : simpl never.
Local Arguments le_enc : simpl never.

Lemma natural_sizes ts : Forall natural ts -> Forall (fun t => ty_size t < 2 ^ 31) ts ->
  Forall (fun t => 0 <= ty_size t < 2 ^ 31) ts.
Proof.
  intros N S. induction N; inversion S; subst; constructor; auto. pose proof (natural_size_pos _ H). lia.
Qed.

Lemma big_mono a b ts : a <= b -> big a ts = [] -> big b ts = [].
Proof.
  intros H. induction ts as [|t ts IH]; [auto|]. rewrite !big_cons. destruct (struct_code t); cbn [andb]; [|exact IH].
  destruct (Z.ltb_spec a (ty_size t)); [discriminate|]. destruct (Z.ltb_spec b (ty_size t)); [lia|exact IH].
Qed.

Lemma machdep_x86_win abi ts rt b f c : win_abi abi -> rt_ok rt -> win_ret_ok abi rt -> zlen ts < 2 ^ 28 ->
  machdep_x86 (TCif abi ts rt b f) = Ok (FFI_OK, c) ->
  c = TCif abi ts rt (8 * Z.max 4 (zlen ts + win_first rt)) (win_flags abi rt).
Proof.
  intros A R Ho L P. rewrite (machdep_win_ok _ _ _ _ _ A R Ho L) in P. injection P as <-. reflexivity.
Qed.

(** ffi_call under a Win64 ABI. *)
Lemma ffi_call_win abi ts rt vs ps b f c rv tmp stk base g_gpr g_sse g_area g_xmm frame m :
  win_abi abi -> rt_ok rt -> win_ret_ok abi rt -> zlen ts < 2 ^ 28 -> Forall natural ts ->
  Forall (fun t => ty_size t < 2 ^ 31) ts ->
  machdep_x86 (TCif abi ts rt b f) = Ok (FFI_OK, c) ->
  args_at m ts ps vs -> allocas_ok (live m) (requests abi ts) stk -> zlen g_area = c_bytes c ->
  0 <= tmp < 2 ^ 64 -> (forall p, rv = Some p -> 0 <= p < 2 ^ 64) ->
  exists s fl rv' av m', ffi_call_x86 c rv tmp ps stk base g_gpr g_sse g_area g_xmm frame m = Ok (EnterWin s, fl, rv', av, m') /\
    wstate_ok s (zlen ts + win_first rt) /\ w_sp s = base /\
    win_all (win_holds s m') ts vs (win_first rt) /\
    win_all (win_both (w_gpr s) (w_xmm s)) ts vs (win_first rt) /\
    (win_hidden rt = true -> exists p, rv' = Some p /\ znth (w_gpr s) 0 = Some p /\ p = match rv with Some q => q | None => tmp end) /\
    rv' = match rv with Some q => Some q | None => if win_hidden rt then Some tmp else None end /\
    fl = match rv with Some q => c_flags c | None => if win_hidden rt then c_flags c else tcode_num T_VOID end /\
    keeps m m' /\ (requests abi ts = [] -> av = ps /\ m' = m) /\
    (exists av1 m1, args_at m1 ts av1 vs /\ (forall r, In r (live m) -> In r (live m1)) /\ copied 8 ts av1 av m1 /\
       regs_of (w_stack s) s /\ words_at (w_stack s) ts av vs (win_first rt) /\ args_at m' ts av vs).
Proof.
  intros A R Ho L N Sz P At F La Ht Hrv.
  pose proof (machdep_x86_win _ _ _ _ _ _ A R Ho L P) as Ec. pose proof (natural_sizes _ N Sz) as Hs.
  unfold ffi_call_x86. rewrite Ec. cbn [c_abi c_args].
  assert (E : (abi =? FFI_WIN64) || (abi =? FFI_GNUW64) = true) by (destruct A as [-> | ->]; reflexivity).
  rewrite E. set (max := if abi =? FFI_GNUW64 then 8 else 16).
  assert (Rq : requests abi ts = big max ts ++ big 8 ts).
  { unfold requests, max. destruct A as [-> | ->]; reflexivity. }
  assert (Hm : 8 <= max) by (unfold max; destruct (abi =? FFI_GNUW64); lia).
  rewrite Rq in F.
  destruct (copy_structs_ok max ts ltac:(lia) Hs ps vs stk m (big 8 ts) At F) as (av1 & stk1 & m1 & E1 & A1 & K1 & F1 & S1 & C1 & N1).
  rewrite E1. cbn [bind]. rewrite <- Ec.
  replace (big 8 ts) with (big 8 ts ++ []) in F1 by apply app_nil_r.
  destruct (call_win_ok abi ts vs av1 rt _ c rv tmp stk1 0 base g_area m1 [] R Ho Hs Ec eq_refl A1 F1) as
    (s & fl & rv' & av & m' & E2 & W & Sp & R10 & H1 & H2 & Rg & Wd & Hh & Hrv' & Hfl & A2 & K2 & C2 & S2 & N2); auto.
  { rewrite La, Ec. reflexivity. }
  rewrite E2. cbn [bind]. eexists _, _, _, _, _. split; [reflexivity|].
  split; [exact W|]. split; [exact Sp|]. split; [exact H1|]. split; [exact H2|]. split; [exact Hh|]. split; [exact Hrv'|].
  split; [rewrite Ec; cbn [c_flags]; exact Hfl|]. split; [eapply keeps_trans; eauto|]. split.
  { rewrite Rq. intros H. apply app_eq_nil in H as [Ha Hb]. destruct (N1 Ha) as [-> ->]. destruct (N2 Hb) as [-> ->]. auto. }
  exists av1, m1. auto 10.
Qed.

(** ** Results of ffi_call for every ABI of the backend *)

Lemma mtail_read m p n v : mread m p n = Some v -> exists o, mtail m p n = Some o /\ exists behind, o = v ++ behind.
Proof.
  induction m as [|b m IH]; cbn [mread mtail]; [discriminate|].
  destruct (get_range (b_bytes b) (p - b_addr b) n) as [d|] eqn:G; [|exact IH].
  intros [= <-]. eexists. split; [reflexivity|].
  apply get_range_inv in G as (G1 & G2 & G3 & -> & _).
  exists (skipn (Z.to_nat n) (skipn (Z.to_nat (p - b_addr b)) (b_bytes b))). symmetry. apply firstn_skipn.
Qed.

Lemma objects_at_ok m ts ps vs : args_at m ts ps vs ->
  exists os, objects_at m ts ps = Ok os /\ Forall2 (fun v w => exists behind, w = v ++ behind) vs os.
Proof.
  intros A. induction A as [|t p v ts ps vs P R B A IH]; cbn [objects_at].
  - exists []. auto.
  - destruct (mtail_read _ _ _ _ R) as (o & -> & Fo). destruct IH as (os & -> & Fs). cbn [of_option bind].
    eexists. split; [reflexivity|]. constructor; auto.
Qed.

Lemma args_at_objects m ts ps vs : args_at m ts ps vs -> objects_ok ts vs.
Proof.
  intros A. unfold objects_ok. induction A as [|t p v ts ps vs P R B A [I1 I2]]; [auto|].
  split; constructor; auto. eapply mread_len; eauto.
Qed.

Lemma ffi_call_any abi ts rt vs ps b f c rv tmp stk base g_gpr g_sse g_area g_xmm frame m :
  rt_ok rt -> Forall natural ts -> Forall (fun t => ty_size t < 2 ^ 31) ts ->
  machdep_x86 (TCif abi ts rt b f) = Ok (FFI_OK, c) ->
  args_at m ts ps vs -> allocas_ok (live m) (requests abi ts) stk ->
  call_env_ok abi rt ts c base g_gpr g_sse g_area g_xmm frame ->
  0 <= tmp < 2 ^ 64 -> (forall p, rv = Some p -> 0 <= p < 2 ^ 64) ->
  exists e fl rv' av m', ffi_call_x86 c rv tmp ps stk base g_gpr g_sse g_area g_xmm frame m = Ok (e, fl, rv', av, m') /\
    keeps m m' /\ (requests abi ts = [] -> av = ps /\ m' = m) /\
    match e with
    | EnterUnix s => abi = FFI_UNIX64 /\ args_passed rt ts vs (m_gpr s) (m_xmm s) (m_stack s)
    | EnterWin s => win_abi abi /\ win_all (win_holds s m') ts vs (win_first rt) /\
        exists av1 m1, args_at m1 ts av1 vs /\ (forall r, In r (live m) -> In r (live m1)) /\ copied 8 ts av1 av m1 /\
          regs_of (w_stack s) s /\ words_at (w_stack s) ts av vs (win_first rt) /\ args_at m' ts av vs
    end.
Proof.
  intros R N Sz P At F [(Ea & St & En)|(A & Ho & L & La)] Ht Hrv.
  - subst abi. unfold machdep_x86 in P. cbn [c_abi] in P. change ((FFI_UNIX64 =? FFI_WIN64) || (FFI_UNIX64 =? FFI_GNUW64)) with false in P.
    cbn iota in P. unfold ffi_call_x86.
    destruct (machdep64_ok rt ts b f R N ltac:(lia)) as (c' & P' & Eabi & Ca & Cr & Cb & Cf). rewrite P in P'. injection P' as <-.
    rewrite Eabi, Ca. change (FFI_UNIX64 =? FFI_GNUW64) with false. change ((FFI_UNIX64 =? FFI_WIN64) || false) with false. cbn iota.
    change (requests FFI_UNIX64 ts) with (big 16 ts) in *. replace (big 16 ts) with (big 16 ts ++ []) in F by apply app_nil_r.
    destruct (copy_structs_ok 16 ts ltac:(lia) (natural_sizes _ N Sz) ps vs stk m [] At F) as (av & stk1 & m1 & E1 & A1 & K1 & F1 & S1 & C1 & N1).
    rewrite E1. cbn [bind].
    destruct (objects_at_ok _ _ _ _ A1) as (os & Eo & Fo). rewrite Eo. cbn [bind].
    pose proof (args_at_objects _ _ _ _ A1) as Ob.
    destruct (call_reads rt ts vs os b f c rv tmp 0 base g_gpr g_sse g_area g_xmm frame R N Ob St P En Fo) as ([[s fl] rv'] & Q1 & Q2).
    destruct (call64_ok rt ts vs b f c rv tmp 0 base g_gpr g_sse g_area g_xmm frame R N (proj1 Ob) (proj2 Ob) St P En)
      as (s2 & fl2 & rv2 & Q3 & Ap & _). rewrite Q1 in Q3. injection Q3 as <- <- <-.
    rewrite Q2. cbn [bind]. eexists _, _, _, _, _. split; [reflexivity|]. auto.
  - destruct (ffi_call_win abi ts rt vs ps b f c rv tmp stk base g_gpr g_sse g_area g_xmm frame m A R Ho L N Sz P At F La Ht Hrv)
      as (s & fl & rv' & av & m' & E & W & Sp & H1 & H2 & Hh & Hr & Hf & K & Nr & X).
    eexists (EnterWin s), _, _, _, _. split; [exact E|]. auto.
Qed.

(** ** Modification of parameters *)

Lemma mread_mwrite_apart : forall m p d m' q n, mwrite m p d = Some m' -> apart (q, n) (p, zlen d) -> mread m' q n = mread m q n.
Proof.
  induction m as [|b m IH]; intros p d m' q n; cbn [mwrite]; [discriminate|].
  destruct (set_range (b_bytes b) (p - b_addr b) d) as [d'|] eqn:S.
  - intros [= <-] Ap. cbn [mread b_addr b_bytes].
    rewrite (get_set_disjoint _ _ _ _ (q - b_addr b) n S); [reflexivity|]. unfold apart in Ap. cbn [fst snd] in Ap. lia.
  - destruct (mwrite m p d) as [m1|] eqn:W; [|discriminate]. intros [= <-] Ap. cbn [mread].
    rewrite (IH _ _ _ _ _ W Ap). reflexivity.
Qed.

Lemma modifies_keeps ranges m m1 m2 : (forall r l, In r ranges -> In l (live m) -> apart r l) ->
  keeps m m1 -> modifies ranges m1 m2 -> keeps m m2.
Proof.
  intros D K M. induction M as [|m1 m3 m2 p d a n I L1 L2 W M IH]; [exact K|].
  apply IH. clear IH. intros q k e Rq. pose proof (mread_len _ _ _ _ Rq) as Le. pose proof (zlen_nonneg e) as Pe.
  pose proof (K _ _ _ Rq) as Rq1.
  destruct (Z.eq_dec k 0) as [Hk|Hk].
  - pose proof (zlen_nonneg d). destruct (Z.le_gt_cases (p + zlen d) q).
    + rewrite (mread_mwrite_apart _ _ _ _ q k W); [auto|]. right. cbn [fst snd]. lia.
    + destruct (Z.le_gt_cases q p). { rewrite (mread_mwrite_apart _ _ _ _ q k W); [auto|]. left. cbn [fst snd]. lia. }
      (* an empty read inside the written range: the block may differ, the bytes read are none *)
      subst k. assert (He : e = []) by (apply zlen_0; lia). subst e.
      apply mread_inv in Rq as (b & Ib & G). apply get_range_inv in G as (G1 & _ & G3 & _).
      assert (Lb : In (b_addr b, zlen (b_bytes b)) (live m)) by (apply in_map_iff; exists b; auto).
      pose proof (D _ _ I Lb) as Ap. unfold apart in Ap. cbn [fst snd] in Ap. exfalso. lia.
  - destruct (mread_live _ _ _ _ Rq ltac:(lia)) as (A & l & Il & B1 & B2).
    pose proof (D _ _ I Il) as Ap. rewrite (mread_mwrite_apart _ _ _ _ q k W); [auto|].
    unfold apart in *. cbn [fst snd] in *. lia.
Qed.

Lemma refs_apart area s m1 m : regs_of area s -> (forall r, In r (live m) -> In r (live m1)) ->
  forall ts av1 av vs j m', 0 <= j -> args_at m' ts av vs -> length av1 = length ts -> Forall by_value ts ->
  copied 8 ts av1 av m1 -> words_at area ts av vs j ->
  forall r l, In r (struct_refs s ts j) -> In l (live m) -> apart r l.
Proof.
  intros Rg Sub. induction ts as [|t ts IH]; intros av1 av vs j m' Hj At Ll Bv C W r l Ir Il; [contradiction|].
  inversion At as [|? p v ? ps0 vs0 P0 Rd B A']; subst. destruct av1 as [|p1 av1]; [discriminate Ll|].
  inversion Bv as [|? ? Bt Bv']; subst. cbn [copied] in C. destruct C as [C1 C2]. cbn [words_at] in W. destruct W as [W1 W2].
  assert (Rec : In r (struct_refs s ts (j + 1)) -> apart r l).
  { intros I2. eapply (IH av1 ps0 vs0 (j + 1) m'); eauto. lia. }
  cbn [struct_refs] in Ir. destruct (ty_code t) eqn:Tc; try (exact (Rec Ir)).
  pose proof (slot_word_ok _ _ _ _ Rg Hj (slot_value_range _ _ _ _ Rd B P0) W1) as Sw. rewrite Sw in Ir.
  rewrite fits_alt in Ir. destruct (fits (ty_size t)) eqn:Ft; [exact (Rec Ir)|].
  destruct Ir as [Ir|Ir]; [|exact (Rec Ir)].
  destruct (Bt Tc) as [Fs|Gt]; [apply fits_iff in Fs; congruence|].
  subst r. unfold slot_value. rewrite Ft, le_dec_enc. change (2 ^ (8 * Z.of_nat 8)) with (2 ^ 64). rewrite Z.mod_small by lia.
  unfold struct_code in C1. rewrite Tc in C1. replace (8 <? ty_size t) with true in C1 by lia. cbn [andb] in C1.
  destruct l as [a n]. apply C1. auto.
Qed.

(** ** The properties *)

Lemma vector_kept abi ts rt vs ps b f c rv tmp stk base g_gpr g_sse g_area g_xmm frame m :
  rt_ok rt -> Forall natural ts -> Forall (fun t => ty_size t < 2 ^ 31) ts ->
  machdep_x86 (TCif abi ts rt b f) = Ok (FFI_OK, c) ->
  args_at m ts ps vs -> allocas_ok (live m) (requests abi ts) stk ->
  call_env_ok abi rt ts c base g_gpr g_sse g_area g_xmm frame ->
  0 <= tmp < 2 ^ 64 -> (forall p, rv = Some p -> 0 <= p < 2 ^ 64) ->
  exists e fl rv' av m', ffi_call_x86 c rv tmp ps stk base g_gpr g_sse g_area g_xmm frame m = Ok (e, fl, rv', av, m') /\
    keeps m m' /\ (requests abi ts = [] -> av = ps).
Proof.
  intros R N Sz P At F En Ht Hr.
  destruct (ffi_call_any abi ts rt vs ps b f c rv tmp stk base g_gpr g_sse g_area g_xmm frame m R N Sz P At F En Ht Hr)
    as (e & fl & rv' & av & m' & E & K & Nr & _).
  exists e, fl, rv', av, m'. split; [exact E|]. split; [exact K|]. intros H. exact (proj1 (Nr H)).
Qed.

Lemma struct_by_value abi ts rt vs ps b f c rv tmp stk base g_gpr g_sse g_area g_xmm frame m :
  rt_ok rt -> Forall natural ts -> Forall (fun t => ty_size t < 2 ^ 31) ts ->
  (win_abi abi -> Forall by_value ts) ->
  machdep_x86 (TCif abi ts rt b f) = Ok (FFI_OK, c) ->
  args_at m ts ps vs -> allocas_ok (live m) (requests abi ts) stk ->
  call_env_ok abi rt ts c base g_gpr g_sse g_area g_xmm frame ->
  0 <= tmp < 2 ^ 64 -> (forall p, rv = Some p -> 0 <= p < 2 ^ 64) ->
  exists e fl rv' av m', ffi_call_x86 c rv tmp ps stk base g_gpr g_sse g_area g_xmm frame m = Ok (e, fl, rv', av, m') /\
    forall m2, modifies (param_memory e ts rt) m' m2 -> keeps m m2 /\ args_at m2 ts ps vs.
Proof.
  intros R N Sz Bv P At F En Ht Hr.
  destruct (ffi_call_any abi ts rt vs ps b f c rv tmp stk base g_gpr g_sse g_area g_xmm frame m R N Sz P At F En Ht Hr)
    as (e & fl & rv' & av & m' & E & K & Nr & X).
  exists e, fl, rv', av, m'. split; [exact E|]. intros m2 M.
  assert (K2 : keeps m m2).
  { eapply modifies_keeps; [|exact K|exact M]. destruct e as [s|s]; cbn [param_memory]; [contradiction|].
    destruct X as (Wa & Wh & av1 & m1 & A1 & Sub & Cp & Rg & Wd & A2).
    eapply (refs_apart (w_stack s) s m1 m Rg Sub ts av1 av vs (win_first rt) m'); eauto.
    - unfold win_first. destruct (win_hidden rt); lia.
    - symmetry. apply (args_at_length _ _ _ _ A1). }
  split; [exact K2|]. eapply args_at_keeps; eauto.
Qed.

Lemma win_places abi ts rt vs ps b f c rv tmp stk base g_gpr g_sse g_area g_xmm frame m :
  win_abi abi -> rt_ok rt -> win_ret_ok abi rt -> zlen ts < 2 ^ 28 -> Forall natural ts ->
  Forall (fun t => ty_size t < 2 ^ 31) ts ->
  machdep_x86 (TCif abi ts rt b f) = Ok (FFI_OK, c) ->
  args_at m ts ps vs -> allocas_ok (live m) (requests abi ts) stk -> zlen g_area = c_bytes c ->
  0 <= tmp < 2 ^ 64 -> 0 <= rv < 2 ^ 64 ->
  exists s fl av m', ffi_call_x86 c (Some rv) tmp ps stk base g_gpr g_sse g_area g_xmm frame m = Ok (EnterWin s, fl, Some rv, av, m') /\
    win_all (win_holds s m') ts vs (win_first rt) /\
    win_all (win_both (w_gpr s) (w_xmm s)) ts vs (win_first rt) /\
    (win_hidden rt = true -> znth (w_gpr s) 0 = Some rv) /\ w_sp s = base /\ 32 <= zlen (w_stack s).
Proof.
  intros A R Ho L N Sz P At F La Ht Hr.
  destruct (ffi_call_win abi ts rt vs ps b f c (Some rv) tmp stk base g_gpr g_sse g_area g_xmm frame m A R Ho L N Sz P At F La Ht)
    as (s & fl & rv' & av & m' & E & W & Sp & H1 & H2 & Hh & Hr' & _).
  { intros p [= <-]. exact Hr. }
  subst rv'. exists s, fl, av, m'. split; [exact E|]. split; [exact H1|]. split; [exact H2|]. split.
  - intros H. destruct (Hh H) as (p & _ & Z0 & ->). exact Z0.
  - split; [exact Sp|]. apply W.
Qed.

Lemma win_args_round_trip abi ts rt vs ps b f c rv tmp stk base g_gpr g_sse g_area g_xmm frame m slot :
  win_abi abi -> rt_ok rt -> win_ret_ok abi rt -> zlen ts < 2 ^ 28 -> Forall natural ts ->
  Forall (fun t => ty_size t < 2 ^ 31) ts ->
  machdep_x86 (TCif abi ts rt b f) = Ok (FFI_OK, c) ->
  args_at m ts ps vs -> allocas_ok (live m) (requests abi ts) stk -> zlen g_area = c_bytes c ->
  0 <= tmp < 2 ^ 64 -> 0 <= rv < 2 ^ 64 -> zlen slot = 16 ->
  exists s fl av m' args l rp slot',
    ffi_call_x86 c (Some rv) tmp ps stk base g_gpr g_sse g_area g_xmm frame m = Ok (EnterWin s, fl, Some rv, av, m') /\
    closure_win c s slot = Ok (l, rp, slot') /\ win_closure_args s = Ok args /\
    Forall2 (fun p tv => read_wptr args (win_closure_fargs s) m' p (ty_size (fst tv)) = Some (snd tv)) l (combine ts vs) /\
    rp = (if win_hidden rt then Some rv else None) /\
    (win_hidden rt = true -> forall r, exists r', win_load slot' r = Ok r' /\ rs_rax r' = rv).
Proof.
  intros A R Ho L N Sz P At F La Ht Hr Ls.
  destruct (ffi_call_win abi ts rt vs ps b f c (Some rv) tmp stk base g_gpr g_sse g_area g_xmm frame m A R Ho L N Sz P At F La Ht)
    as (s & fl & rv' & av & m' & E & W & Sp & H1 & H2 & Hh & Hr' & _).
  { intros p [= <-]. exact Hr. }
  subst rv'.
  pose proof (proj1 (args_at_objects _ _ _ _ At)) as F2.
  destruct (closure_win_ok abi ts vs rt b f c s m' slot A R Ho L N Sz F2 P W Ls H1) as (args & l & rp & slot' & C & Ca & Rd & Hi & Nh).
  exists s, fl, av, m', args, l, rp, slot'. split; [exact E|]. split; [exact C|]. split; [exact Ca|]. split; [exact Rd|].
  destruct (win_hidden rt).
  - destruct (Hh eq_refl) as (p & [= <-] & Z0 & _). destruct (Hi eq_refl) as (p' & -> & Z1 & G). rewrite Z0 in Z1. injection Z1 as <-.
    split; [rewrite Z.mod_small by lia; reflexivity|]. intros _ r. unfold win_load. rewrite G. cbn [of_option bind].
    eexists. split; [reflexivity|]. cbn [rs_rax]. rewrite le_dec_enc. apply Z.mod_small. exact Hr.
  - split; [apply Nh; reflexivity|discriminate].
Qed.

Lemma hidden_not_ld rt : natural rt -> win_hidden rt = false -> ty_code rt <> T_LONGDOUBLE.
Proof.
  intros N H E. destruct rt as [cd sz al es]. unfold win_hidden in H. cbn [ty_code ty_size] in *. subst cd.
  destruct (natural_inv _ _ _ _ N) as [S|[(u & _ & D & _)|(D & _)]]; try discriminate D.
  apply scalar_cases in S. repeat (destruct S as [S|S]); injection S as; subst; try discriminate.
Qed.

Lemma win_result_round_trip abi rt v slot r buf :
  natural rt -> win_hidden rt = false -> zlen v = ty_size rt -> bytes_ok v -> zlen slot = 16 -> bytes_ok slot ->
  win_result_holds rt v slot -> result_width rt <= zlen buf ->
  exists r' buf', win_load slot r = Ok r' /\ win_store (win_flags abi rt) r' buf = Ok buf' /\ win_result_holds rt v buf' /\
    zlen buf' = zlen buf /\ forall o n, result_width rt <= o -> get_range buf' o n = get_range buf o n.
Proof.
  intros N H L B Ls Bs Rh W. pose proof (hidden_not_ld _ N H) as Nl.
  destruct (win_load_ok rt v slot r N H Nl L B Ls Bs Rh) as (r' & E & Rt).
  destruct (win_store_ok abi rt v r' buf N (or_intror Nl) H L Rt W) as (buf' & E2 & E3 & E4 & E5).
  exists r', buf'. auto.
Qed.

Lemma win_result_stored abi rt v r buf :
  natural rt -> win_hidden rt = false -> zlen v = ty_size rt -> win_returned rt (rs_rax r) (rs_xmm0 r) v ->
  result_width rt <= zlen buf ->
  exists buf', win_store (win_flags abi rt) r buf = Ok buf' /\ win_result_holds rt v buf' /\
    zlen buf' = zlen buf /\ forall o n, result_width rt <= o -> get_range buf' o n = get_range buf o n.
Proof.
  intros N H L Rt W. pose proof (hidden_not_ld _ N H) as Nl.
  exact (win_store_ok abi rt v r buf N (or_intror Nl) H L Rt W).
Qed.

Lemma win_completes abi ts rt vs ps b f c rv tmp stk base g_gpr g_sse g_area g_xmm frame m :
  win_abi abi -> rt_ok rt -> win_ret_ok abi rt -> zlen ts < 2 ^ 28 -> Forall natural ts ->
  Forall (fun t => ty_size t < 2 ^ 31) ts ->
  machdep_x86 (TCif abi ts rt b f) = Ok (FFI_OK, c) ->
  args_at m ts ps vs -> allocas_ok (live m) (requests abi ts) stk -> zlen g_area = c_bytes c ->
  0 <= tmp < 2 ^ 64 -> (forall p, rv = Some p -> 0 <= p < 2 ^ 64) ->
  exists s fl rv' av m', ffi_call_x86 c rv tmp ps stk base g_gpr g_sse g_area g_xmm frame m = Ok (EnterWin s, fl, rv', av, m') /\
    forall r buf, rstate_ok r -> (rv <> None -> result_width rt <= zlen buf) -> exists buf', win_store fl r buf = Ok buf'.
Proof.
  intros A R Ho L N Sz P At F La Ht Hr.
  destruct (ffi_call_win abi ts rt vs ps b f c rv tmp stk base g_gpr g_sse g_area g_xmm frame m A R Ho L N Sz P At F La Ht Hr)
    as (s & fl & rv' & av & m' & E & W & Sp & H1 & H2 & Hh & Hr' & Hf & _).
  exists s, fl, rv', av, m'. split; [exact E|]. intros r buf Rs Wb.
  rewrite (machdep_x86_win _ _ _ _ _ _ A R Ho L P) in Hf. cbn [c_flags] in Hf.
  destruct R as [Nr|V].
  2:{ exists buf. assert (Hd : win_hidden rt = false) by (unfold win_hidden; rewrite V; reflexivity).
      rewrite Hd in Hf. assert (Fv : win_flags abi rt = tcode_num T_VOID) by (unfold win_flags; rewrite V; reflexivity).
      rewrite Fv in Hf. destruct rv; subst fl; reflexivity. }
  destruct (win_hidden rt) eqn:Hd.
  - exists buf. replace fl with (win_flags abi rt) by (destruct rv; auto). apply win_store_hidden; auto. left. exact Nr.
  - destruct rv as [q|]; [|exists buf; subst fl; reflexivity]. subst fl.
    destruct Rs as (Ra & Rd & X0 & X1 & _). pose proof (natural_size_pos _ Nr) as Ps.
    set (v := if is_fp rt then firstn (Z.to_nat (ty_size rt)) (rs_xmm0 r) else le_enc (Z.to_nat (ty_size rt)) (rs_rax r)).
    assert (Lv : zlen v = ty_size rt).
    { unfold v. destruct (is_fp rt) eqn:Fp; [|rewrite le_enc_zlen; lia].
      assert (ty_size rt <= 8); [|rewrite zlen_firstn; lia].
      unfold win_hidden in Hd. rewrite fits_alt in Hd. unfold is_fp in Fp.
      destruct (ty_code rt); try discriminate; destruct (fits (ty_size rt)) eqn:Ft; try discriminate; apply fits_iff in Ft; unfold fits_slot in Ft; lia. }
    destruct (win_result_stored abi rt v r buf Nr Hd Lv) as (buf' & E' & _).
    + unfold win_returned, v. destruct (is_fp rt); reflexivity.
    + apply Wb. discriminate.
    + exists buf'. exact E'.
Qed.

(** ** Witnesses *)

Definition s24 : ftype := c_struct_of [ty_uint64; ty_uint64; ty_uint64].
Definition s3 : ftype := c_struct_of [ty_uint8; ty_uint8; ty_uint8].

Lemma vector_changed :
  exists abi ts vs ps stk c m m' e fl rv' av base g_gpr g_sse g_area g_xmm frame,
    Forall natural ts /\ machdep_x86 (TCif abi ts ty_void 0 0) = Ok (FFI_OK, c) /\
    args_at m ts ps vs /\ allocas_ok (live m) (requests abi ts) stk /\
    call_env_ok abi ty_void ts c base g_gpr g_sse g_area g_xmm frame /\
    ffi_call_x86 c None 0 ps stk base g_gpr g_sse g_area g_xmm frame m = Ok (e, fl, rv', av, m') /\
    av <> ps /\ ffi_call_x86 c None 0 av stk base g_gpr g_sse g_area g_xmm frame m = UB.
Proof.
  exists FFI_UNIX64, [s24; ty_uint32], [repeat 7 24; repeat 9 4], [1000; 2000], [5000].
  eexists. exists [Block 1000 (repeat 7 24); Block 2000 (repeat 9 4)]. eexists _, _, _, _, _.
  exists 4096, (repeat 77 6), (repeat (repeat 99 16) 8), (repeat 55 56), (repeat (repeat 11 16) 8), (repeat 0 32).
  split; [repeat (apply Forall_cons; [natural_tac|]); apply Forall_nil|]. split; [vm_compute; reflexivity|].
  split. { constructor; [lia|reflexivity|repeat constructor; lia|]. constructor; [lia|reflexivity|repeat constructor; lia|constructor]. }
  split. { cbn. split; [lia|]. split; [|exact I]. intros r [<-|[<-|[]]]; unfold apart; cbn; lia. }
  split. { left. split; [reflexivity|]. split; [vm_compute; reflexivity|].
    unfold env_ok. cbn [c_bytes]. split; [exists 256; reflexivity|]. repeat (split; [first [reflexivity|lia|repeat constructor]|]). reflexivity. }
  split; [vm_compute; reflexivity|]. split; [discriminate|]. vm_compute. reflexivity.
Qed.

Lemma struct_modified :
  exists ts vs ps c m m' e fl rv' av m2 base g_gpr g_sse g_area g_xmm frame,
    Forall natural ts /\ machdep_x86 (TCif FFI_WIN64 ts ty_void 0 0) = Ok (FFI_OK, c) /\
    args_at m ts ps vs /\
    call_env_ok FFI_WIN64 ty_void ts c base g_gpr g_sse g_area g_xmm frame /\
    ffi_call_x86 c None 0 ps [] base g_gpr g_sse g_area g_xmm frame m = Ok (e, fl, rv', av, m') /\
    modifies (param_memory e ts ty_void) m' m2 /\ ~ args_at m2 ts ps vs.
Proof.
  exists [s3], [[1; 2; 3]], [1000]. eexists. exists [Block 1000 [1; 2; 3]]. eexists _, _, _, _, _.
  exists [Block 1000 [1; 9; 3]], 4096, [], [], (repeat 55 32), [], [].
  split; [repeat (apply Forall_cons; [natural_tac|]); apply Forall_nil|]. split; [vm_compute; reflexivity|].
  split. { constructor; [lia|reflexivity|repeat constructor; lia|constructor]. }
  split. { right. split; [left; reflexivity|]. split; [right; discriminate|]. split; [vm_compute; reflexivity|reflexivity]. }
  split; [vm_compute; reflexivity|]. split.
  - apply (modifies_store _ _ [Block 1000 [1; 9; 3]] _ 1001 [9] 1000 3); [left; reflexivity|lia|vm_compute; discriminate|reflexivity|constructor].
  - intros A. inversion A; subst. match goal with R : mread _ _ _ = Some _ |- _ => vm_compute in R; discriminate R end.
Qed.

Lemma long_double_aborts :
  exists c, machdep_x86 (TCif FFI_WIN64 [] ty_longdouble 0 0) = Ok (FFI_OK, c) /\
    exists s fl rv' av m', ffi_call_x86 c (Some 8192) 0 [] [] 4096 [] [] (repeat 55 32) [] [] [] = Ok (EnterWin s, fl, rv', av, m') /\
      forall r buf, win_store fl r buf = Abort.
Proof.
  eexists. split; [vm_compute; reflexivity|]. eexists _, _, _, _, _. split; [vm_compute; reflexivity|]. reflexivity.
Qed.

(** A signature for the examples: by value, by reference, vector, on the stack. *)
Definition wex_args : list ftype := [ty_uint8; ty_double; s24; s3; ty_float; ty_longdouble].
Definition wex_ret : ftype := s24.
Definition wex_vals : list (list Z) := [[200]; repeat 3 8; repeat 7 24; [1; 2; 3]; repeat 4 4; repeat 5 16].
Definition wex_ptrs : list Z := [1000; 1100; 1200; 1300; 1400; 1500].
Definition wex_mem : mem := map (fun pv => Block (fst pv) (snd pv)) (combine wex_ptrs wex_vals).
Definition wex_cif : tcif := TCif FFI_GNUW64 wex_args wex_ret 56 13.

Lemma wex_ok : win_abi FFI_GNUW64 /\ rt_ok wex_ret /\ win_ret_ok FFI_GNUW64 wex_ret /\ Forall natural wex_args /\
  Forall (fun t => ty_size t < 2 ^ 31) wex_args /\ machdep_x86 (TCif FFI_GNUW64 wex_args wex_ret 0 0) = Ok (FFI_OK, wex_cif) /\
  args_at wex_mem wex_args wex_ptrs wex_vals /\ allocas_ok (live wex_mem) (requests FFI_GNUW64 wex_args) [5000; 6000] /\
  win_hidden wex_ret = true.
Proof.
  split; [right; reflexivity|]. split; [left; natural_tac|]. split; [left; reflexivity|]. split; [repeat (apply Forall_cons; [natural_tac|]); apply Forall_nil|].
  split; [repeat constructor|]. split; [vm_compute; reflexivity|].
  split. { repeat (constructor; [lia|reflexivity|repeat constructor; lia|]). constructor. }
  split; [|reflexivity]. cbn. split; [lia|]. split. { intros r H. vm_compute in H. repeat (destruct H as [<-|H]; [unfold apart; cbn; lia|]). contradiction. }
  split; [lia|]. split; [|exact I]. intros r H. vm_compute in H. repeat (destruct H as [<-|H]; [unfold apart; cbn; lia|]). contradiction.
Qed.
