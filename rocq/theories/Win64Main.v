(** Main facts about Win64 calls, closures and results. *)
From Coq Require Import ZifyBool ZifyNat Znumtheory.
From Verif Require Import Base BaseFacts Types LayoutSpec NaturalTypes NaturalFacts Unix64Model Unix64Spec Unix64Link
  Unix64Classify Unix64Closure Unix64Main Unix64Ret2 Win64Model Win64Spec Win64Link Win64Facts PropsUnix64Lemmas.
Local Arguments Z.mul : simpl never.
Local Arguments Z.add : simpl never.
Local Arguments Z.sub : simpl never.
Local Arguments Z.pow : simpl never.
Local Arguments Z.eqb : simpl never.
Local Arguments le_enc : simpl never.

Lemma get_range_sub' {A} (m : list A) off len d off2 len2 : get_range m off len = Some d ->
  off <= off2 -> 0 <= len2 -> off2 + len2 <= off + len ->
  get_range m off2 len2 = get_range d (off2 - off) len2.
Proof.
  intros G H1 H2 H3. replace off2 with (off + (off2 - off)) at 1 by lia.
  apply (get_range_sub _ _ _ _ _ _ G); lia.
Qed.

(** ** Preparation *)

Lemma win_flags_hidden abi rt : rt_ok rt -> win_ret_ok abi rt ->
  (win_flags abi rt =? tcode_num T_STRUCT) = win_hidden rt.
Proof.
  intros [N|V] Ho.
  - unfold win_flags, win_hidden. cbv zeta. rewrite fits_alt. destruct rt as [c s a es]. cbn [ty_code ty_size] in *.
    assert (Ag : forall f, f = tcode_num T_STRUCT -> ((if s =? 8 then tcode_num T_UINT64 else if s =? 4 then SMALL_STRUCT_4B
      else if s =? 2 then SMALL_STRUCT_2B else if s =? 1 then SMALL_STRUCT_1B else f) =? tcode_num T_STRUCT) = negb (fits s)).
    { intros f ->. unfold fits. destruct (s =? 8), (s =? 4), (s =? 2), (s =? 1); reflexivity. }
    destruct (natural_inv _ _ _ _ N) as [S|[(u & _ & -> & _)|(-> & _)]].
    + apply scalar_cases in S.
      repeat (destruct S as [S|S]); injection S as -> -> -> ->; try reflexivity.
      destruct Ho as [->|Ho]; [reflexivity|cbn in Ho; congruence].
    + apply Ag; reflexivity.
    + apply Ag; reflexivity.
  - unfold win_flags, win_hidden. rewrite V. reflexivity.
Qed.

Lemma machdep_win_ok abi ts rt b f : win_abi abi -> rt_ok rt -> win_ret_ok abi rt -> zlen ts < 2 ^ 28 ->
  machdep_x86 (TCif abi ts rt b f) =
    Ok (FFI_OK, TCif abi ts rt (8 * Z.max 4 (zlen ts + win_first rt)) (win_flags abi rt)).
Proof.
  intros A R Ho L. unfold machdep_x86, machdep_win. cbn [c_abi c_args c_rtype].
  assert (E : (abi =? FFI_WIN64) || (abi =? FFI_GNUW64) = true) by (destruct A as [-> | ->]; reflexivity).
  rewrite E. cbn [negb]. cbv zeta. rewrite (win_flags_hidden _ _ R Ho).
  pose proof (zlen_nonneg ts). do 3 f_equal. unfold win_first. 
  rewrite to_signed_small by (destruct (win_hidden rt); lia).
  unfold wrap32, wrap. destruct (Z.ltb_spec (zlen ts + (if win_hidden rt then 1 else 0)) 4); rewrite Z.mod_small; destruct (win_hidden rt); lia.
Qed.

Lemma natural_size_pos t : natural t -> 0 < ty_size t.
Proof. intros N. destruct (natural_basic _ N) as (B & _). exact B. Qed.

Lemma hidden_natural rt : rt_ok rt -> win_hidden rt = true -> natural rt.
Proof. intros [N|V] H; [auto|]. unfold win_hidden in H. rewrite V in H. discriminate. Qed.

(** ** The call *)

Lemma win_reg_ok area i : 0 <= i -> 8 * i + 8 <= zlen area -> exists d, win_reg area i = Ok d /\ get_range area (8 * i) 8 = Some d.
Proof.
  intros H L. unfold win_reg. destruct (get_range_ok area (8 * i) 8) as (d & E & _); try lia.
  rewrite E. exists d. auto.
Qed.

Lemma call_win_ok abi ts vs ps rt b c rv tmp stk closure base g_area m more :
  rt_ok rt -> win_ret_ok abi rt -> Forall (fun t => 0 <= ty_size t < 2 ^ 31) ts ->
  c = TCif abi ts rt b (win_flags abi rt) -> b = 8 * Z.max 4 (zlen ts + win_first rt) ->
  args_at m ts ps vs -> allocas_ok (live m) (big 8 ts ++ more) stk -> zlen g_area = b ->
  0 <= tmp < 2 ^ 64 -> (forall p, rv = Some p -> 0 <= p < 2 ^ 64) ->
  exists s fl rv' av m', call_win c rv tmp ps stk closure base g_area m = Ok (s, fl, rv', av, m') /\
    wstate_ok s (zlen ts + win_first rt) /\ w_sp s = base /\ w_r10 s = closure /\
    win_all (win_holds s m') ts vs (win_first rt) /\
    win_all (win_both (w_gpr s) (w_xmm s)) ts vs (win_first rt) /\
    regs_of (w_stack s) s /\ words_at (w_stack s) ts av vs (win_first rt) /\
    (win_hidden rt = true -> exists p, rv' = Some p /\ znth (w_gpr s) 0 = Some p /\ p = match rv with Some q => q | None => tmp end) /\
    rv' = match rv with Some q => Some q | None => if win_hidden rt then Some tmp else None end /\
    fl = match rv with Some q => win_flags abi rt | None => if win_hidden rt then win_flags abi rt else tcode_num T_VOID end /\
    args_at m' ts av vs /\ keeps m m' /\ copied 8 ts ps av m /\ (forall r, In r (live m) -> In r (live m')) /\
    (big 8 ts = [] -> av = ps /\ m' = m).
Proof.
  intros R Ho Hs -> Hb A F La Ht Hrv.
  destruct (copy_structs_ok 8 ts ltac:(lia) Hs ps vs stk m more A F) as (av & stk' & m' & E & A2 & K & _ & Sub & C & Nb).
  unfold call_win. cbn [c_args c_flags c_rtype]. rewrite E. cbn [bind]. rewrite (win_flags_hidden _ _ R Ho).
  pose proof (zlen_nonneg ts) as Lt.
  assert (Fst : 0 <= win_first rt <= 1) by (unfold win_first; destruct (win_hidden rt); lia).
  set (target := match rv with Some q => q | None => tmp end).
  set (rv2 := match rv with Some q => Some q | None => if win_hidden rt then Some tmp else None end).
  set (fl := match rv with Some q => win_flags abi rt | None => if win_hidden rt then win_flags abi rt else tcode_num T_VOID end).
  assert (Sel : (match rv with Some p => (win_flags abi rt, Some p)
      | None => if win_hidden rt then (win_flags abi rt, if ty_size rt =? 0 then None else Some tmp) else (tcode_num T_VOID, None) end)
      = (fl, rv2)).
  { unfold fl, rv2. destruct rv; [reflexivity|]. destruct (win_hidden rt) eqn:H; [|reflexivity].
    pose proof (natural_size_pos _ (hidden_natural _ R H)). replace (ty_size rt =? 0) with false by lia. reflexivity. }
  rewrite Sel.
  assert (Hf : (fl =? tcode_num T_STRUCT) = win_hidden rt).
  { unfold fl. destruct rv; [apply win_flags_hidden; auto|]. destruct (win_hidden rt) eqn:H; [|reflexivity].
    rewrite <- H. apply win_flags_hidden; auto. }
  rewrite Hf.
  assert (A0 : exists area0, (if win_hidden rt then of_option (set_range g_area 0 (le_enc 8 match rv2 with Some p => p | None => 0 end))
     else Ok g_area) = Ok area0 /\ zlen area0 = zlen g_area /\ (win_hidden rt = true -> get_range area0 0 8 = Some (le_enc 8 target))).
  { destruct (win_hidden rt) eqn:H.
    - destruct (set_range_ok g_area 0 (le_enc 8 match rv2 with Some p => p | None => 0 end)) as (a0 & S & L0); [lia|rewrite le_enc_zlen; lia|].
      rewrite S. exists a0. split; [reflexivity|]. split; [auto|]. intros _.
      pose proof (get_set_same _ _ _ _ S) as G. rewrite le_enc_zlen in G. change (Z.of_nat 8) with 8 in G. rewrite G.
      unfold rv2, target. destruct rv; reflexivity.
    - exists g_area. split; [reflexivity|]. split; [reflexivity|discriminate]. }
  destruct A0 as (area0 & -> & L0 & G0). cbn [bind].
  change (if win_hidden rt then 1 else 0) with (win_first rt).
  destruct (win_slots_ok m' ts av vs (win_first rt) area0 A2 ltac:(lia) ltac:(lia)) as (area & Es & Ls & Ks & Ws).
  rewrite Es. cbn [bind].
  destruct (win_reg_ok area 0 ltac:(lia) ltac:(lia)) as (s0 & W0 & Q0). rewrite W0. cbn [bind].
  destruct (win_reg_ok area 1 ltac:(lia) ltac:(lia)) as (s1 & W1 & Q1). rewrite W1. cbn [bind].
  destruct (win_reg_ok area 2 ltac:(lia) ltac:(lia)) as (s2 & W2 & Q2). rewrite W2. cbn [bind].
  destruct (win_reg_ok area 3 ltac:(lia) ltac:(lia)) as (s3 & W3 & Q3). rewrite W3. cbn [bind]. cbv zeta.
  eexists _, _, _, _, _. split; [reflexivity|].
  match goal with |- wstate_ok ?st _ /\ _ => set (s := st) end.
  assert (Rg : regs_of area s).
  { exists s0, s1, s2, s3. repeat split; assumption. }
  destruct (words_hold m' area s Rg ts av vs (win_first rt) A2 ltac:(lia) Ws) as [H1 H2].
  assert (Hl : forall i d, get_range area (8 * i) 8 = Some d -> zlen (d ++ repeat 0 8) = 16).
  { intros i d G. apply get_range_inv in G as (_ & _ & _ & _ & G). rewrite zlen_app, G. reflexivity. }
  split.
  { unfold wstate_ok, s. cbn [w_gpr w_xmm w_stack]. split; [reflexivity|]. split; [reflexivity|].
    split; [repeat constructor; eapply Hl; eassumption|]. lia. }
  split; [reflexivity|]. split; [reflexivity|]. split; [exact H1|]. split; [exact H2|].
  split; [exact Rg|]. split; [exact Ws|]. split.
  { intros H. exists target. split; [unfold rv2, target; rewrite H; destruct rv; reflexivity|]. split; [|reflexivity].
    assert (Gt : get_range area (8 * 0) 8 = Some (le_enc 8 target)).
    { change (8 * 0) with 0. rewrite Ks by (unfold win_first; rewrite H; lia). auto. }
    destruct (regs_of_slot area s 0 _ Rg ltac:(lia) Gt) as [-> _]. rewrite le_dec_enc. f_equal. apply Z.mod_small.
    unfold target. destruct rv; auto. }
  repeat (split; [first [reflexivity | assumption]|]). exact Nb.
Qed.

(** ** Closures *)

Lemma concat_slot (l : list Z) j w : 0 <= j -> znth l j = Some w ->
  get_range (concat (map (le_enc 8) l)) (8 * j) 8 = Some (le_enc 8 w).
Proof.
  revert j; induction l as [|x l IH]; intros j Hj; unfold znth; replace (0 <=? j) with true by lia.
  - destruct (Z.to_nat j); discriminate.
  - assert (Lc : forall l : list Z, zlen (concat (map (le_enc 8) l)) = 8 * zlen l).
    { clear. induction l; [reflexivity|]. cbn [map concat]. rewrite zlen_app, zlen_cons, le_enc_zlen, IHl. lia. }
    destruct (Z.eq_dec j 0) as [->|Hn].
    + cbn [Z.to_nat nth_error]. intros [= ->]. cbn [map concat]. apply get_range_prefix.
      change (8 * 0) with 0. replace 8 with (zlen (le_enc 8 w)) at 2 by (rewrite le_enc_zlen; reflexivity). apply get_range_all.
    + replace (Z.to_nat j) with (S (Z.to_nat (j - 1))) by lia. cbn [nth_error]. intros H.
      assert (H' : znth l (j - 1) = Some w) by (unfold znth; replace (0 <=? j - 1) with true by lia; exact H).
      specialize (IH (j - 1) ltac:(lia) H'). cbn [map concat].
      pose proof (get_range_inv _ _ _ _ IH) as (I1 & I2 & I3 & I4 & I5).
      rewrite get_range_some by (rewrite ?zlen_app, ?le_enc_zlen; lia).
      f_equal. rewrite I4. f_equal. rewrite skipn_app, le_enc_length.
      rewrite (skipn_all2 (le_enc 8 x)) by (rewrite le_enc_length; lia). cbn [app]. f_equal. lia.
Qed.

Lemma concat_fargs (l : list (list Z)) j b n : Forall (fun b => zlen b = 16) l -> 0 <= j -> znth l j = Some b -> 0 <= n <= 8 ->
  get_range (concat (map (firstn 8) l)) (8 * j) n = Some (firstn (Z.to_nat n) b).
Proof.
  intros F. revert j; induction F as [|x l Lx F IH]; intros j Hj; unfold znth; replace (0 <=? j) with true by lia.
  - destruct (Z.to_nat j); discriminate.
  - intros H Hn. cbn [map concat].
    assert (Lf : zlen (firstn 8 x) = 8) by (rewrite zlen_firstn; lia).
    destruct (Z.eq_dec j 0) as [->|Hn0].
    + cbn [Z.to_nat nth_error] in H. injection H as ->. apply get_range_prefix.
      rewrite get_range_some by lia. change (Z.to_nat (8 * 0)) with 0%nat. cbn [skipn]. f_equal.
      rewrite firstn_firstn. f_equal. lia.
    + replace (Z.to_nat j) with (S (Z.to_nat (j - 1))) in H by lia. cbn [nth_error] in H.
      assert (H' : znth l (j - 1) = Some b) by (unfold znth; replace (0 <=? j - 1) with true by lia; exact H).
      specialize (IH (j - 1) ltac:(lia) H' Hn).
      pose proof (get_range_inv _ _ _ _ IH) as (I1 & I2 & I3 & I4 & I5).
      rewrite get_range_some by (rewrite ?zlen_app; lia). rewrite I4. f_equal. f_equal.
      rewrite skipn_app. rewrite (skipn_all2 (firstn 8 x)) by (unfold zlen in Lf; lia). cbn [app]. f_equal.
      unfold zlen in Lf. lia.
Qed.

Lemma closure_loop_ok args s m n : wstate_ok s n -> win_closure_args s = Ok args ->
  forall ts vs j, 0 <= j -> j + zlen ts <= n -> Forall natural ts -> Forall (fun t => ty_size t < 2 ^ 31) ts ->
  Forall2 (fun t v => zlen v = ty_size t) ts vs ->
  win_all (win_holds s m) ts vs j ->
  exists l, win_closure_loop args ts j = Ok l /\
    Forall2 (fun p tv => read_wptr args (win_closure_fargs s) m p (ty_size (fst tv)) = Some (snd tv)) l (combine ts vs).
Proof.
  intros (G4 & X4 & X16 & S32 & Sn) Ca.
  unfold win_closure_args in Ca. destruct (set_range (w_stack s) 0 (concat (map (le_enc 8) (w_gpr s)))) as [args'|] eqn:Sr; [|discriminate].
  cbn [of_option] in Ca. injection Ca as ->.
  assert (Lc : zlen (concat (map (le_enc 8) (w_gpr s))) = 32).
  { destruct (w_gpr s) as [|a [|b [|c [|d [|e l]]]]]; unfold zlen in G4; cbn [length] in G4; try lia.
    cbn [map concat]. rewrite !zlen_app, !le_enc_zlen, zlen_nil. reflexivity. }
  pose proof (set_range_inv _ _ _ _ Sr) as (_ & _ & _ & La).
  pose proof (get_set_same _ _ _ _ Sr) as Gs. rewrite Lc in Gs.
  (* every slot word is in args *)
  assert (Wd : forall j w, 0 <= j < n -> slot_word (w_gpr s) (w_stack s) j = Some w -> get_range args (8 * j) 8 = Some w).
  { intros j w Hj. unfold slot_word. destruct (Z.ltb_spec j 4).
    - destruct (znth (w_gpr s) j) as [x|] eqn:Zx; [|discriminate]. intros [= <-].
      pose proof (concat_slot _ _ _ (proj1 Hj) Zx) as Cs.
      rewrite (get_range_sub' _ _ _ _ (8 * j) 8 Gs) by lia.
      replace (8 * j - 0) with (8 * j) by lia. exact Cs.
    - intros H'. rewrite (get_set_disjoint _ _ _ _ (8 * j) 8 Sr); [exact H'|]. right. lia. }
  induction ts as [|t ts IH]; intros vs j Hj Hn N Sz F2 W.
  - inversion F2; subst. exists []. split; [reflexivity|constructor].
  - inversion F2 as [|? v ? vs0 Lv F2']; subst. inversion N as [|? ? Nt N']; subst. inversion Sz as [|? ? St Sz']; subst.
    cbn [win_all] in W. destruct W as [[Wv Wr] W']. rewrite zlen_cons in Hn. pose proof (zlen_nonneg ts).
    destruct (IH vs0 (j + 1) ltac:(lia) ltac:(lia) N' Sz' F2' W') as (l & El & Fl).
    pose proof (natural_size_pos _ Nt) as Ps.
    assert (Low : forall w, get_range args (8 * j) 8 = Some w -> fits_slot (ty_size t) -> firstn (Z.to_nat (ty_size t)) w = v ->
      get_range args (8 * j) (ty_size t) = Some v).
    { intros w Gw Ft Fv. assert (ty_size t <= 8) by (unfold fits_slot in Ft; lia).
      rewrite (get_range_sub' _ _ _ _ (8 * j) (ty_size t) Gw) by lia. rewrite Z.sub_diag.
      pose proof (get_range_inv _ _ _ _ Gw) as (_ & _ & _ & _ & Lw).
      rewrite get_range_some by lia. change (Z.to_nat 0) with 0%nat. cbn [skipn]. congruence. }
    assert (Fp : tcode_eqb (ty_code t) T_DOUBLE || tcode_eqb (ty_code t) T_FLOAT = is_fp t).
    { unfold is_fp. destruct (ty_code t); reflexivity. }
    assert (Ffp : is_fp t = true -> fits_slot (ty_size t)).
    { destruct t as [c sz a es]. unfold is_fp. cbn [ty_code ty_size]. intros Hf.
      destruct (natural_inv _ _ _ _ Nt) as [S|[(u & _ & -> & _)|(-> & _)]]; try discriminate.
      apply scalar_cases in S. unfold fits_slot.
      repeat (destruct S as [S|S]); injection S as -> -> -> ->; try discriminate Hf; lia. }
    cbn [win_closure_loop]. cbv zeta. rewrite Fp, fits_alt.
    assert (Pt : exists p, (if is_fp t then if j <? 4 then Ok (WFarg (8 * j)) else Ok (WArg (8 * j))
        else if fits (ty_size t) then Ok (WArg (8 * j))
        else let* d := of_option (get_range args (8 * j) 8) in Ok (WRef (le_dec d))) = Ok p /\
        read_wptr args (win_closure_fargs s) m p (ty_size t) = Some v).
    { destruct (is_fp t) eqn:If.
      - specialize (Wv (Ffp eq_refl)). pose proof (Ffp eq_refl) as Ft. cbn [andb] in Wv.
        destruct (Z.ltb_spec j 4).
        + destruct Wv as (b & Zb & Fb). eexists. split; [reflexivity|]. cbn [read_wptr]. unfold win_closure_fargs.
          rewrite <- Fb. apply concat_fargs; auto. unfold fits_slot in Ft. lia.
        + destruct Wv as (w & Sw & Fw). eexists. split; [reflexivity|]. cbn [read_wptr].
          apply (Low w); auto. apply Wd; auto; lia.
      - cbn [andb] in Wv. destruct (fits (ty_size t)) eqn:Ff.
        + apply fits_iff in Ff. destruct (Wv Ff) as (w & Sw & Fw). eexists. split; [reflexivity|]. cbn [read_wptr].
          apply (Low w); auto. apply Wd; auto; lia.
        + assert (Nf : ~ fits_slot (ty_size t)) by (rewrite <- fits_iff; congruence).
          destruct (Wr Nf) as (w & Sw & Rw). rewrite (Wd j w ltac:(lia) Sw). cbn [of_option bind].
          eexists. split; [reflexivity|]. exact Rw. }
    destruct Pt as (p & Ep & Rp). rewrite Ep. cbn [bind]. rewrite El. cbn [bind].
    exists (p :: l). split; [reflexivity|]. cbn [combine]. constructor; auto.
Qed.

Lemma closure_win_ok abi ts vs rt b f c s m slot :
  win_abi abi -> rt_ok rt -> win_ret_ok abi rt -> zlen ts < 2 ^ 28 -> Forall natural ts -> Forall (fun t => ty_size t < 2 ^ 31) ts ->
  Forall2 (fun t v => zlen v = ty_size t) ts vs ->
  machdep_x86 (TCif abi ts rt b f) = Ok (FFI_OK, c) ->
  wstate_ok s (zlen ts + win_first rt) -> zlen slot = 16 ->
  win_all (win_holds s m) ts vs (win_first rt) ->
  exists args l rp slot', closure_win c s slot = Ok (l, rp, slot') /\ win_closure_args s = Ok args /\
    Forall2 (fun p tv => read_wptr args (win_closure_fargs s) m p (ty_size (fst tv)) = Some (snd tv)) l (combine ts vs) /\
    (win_hidden rt = true -> exists p, rp = Some (p mod 2 ^ 64) /\ znth (w_gpr s) 0 = Some p /\ get_range slot' 0 8 = Some (le_enc 8 p)) /\
    (win_hidden rt = false -> rp = None /\ slot' = slot).
Proof.
  intros A R Ho L N Sz F2 P Ok16 Ls W. rewrite (machdep_win_ok _ _ _ _ _ A R Ho L) in P. injection P as <-.
  pose proof Ok16 as (G4 & X4 & X16 & S32 & Sn). pose proof (zlen_nonneg ts).
  assert (Lc : zlen (concat (map (le_enc 8) (w_gpr s))) = 32).
  { destruct (w_gpr s) as [|x0 [|x1 [|x2 [|x3 [|e l]]]]]; unfold zlen in G4; cbn [length] in G4; try lia.
    cbn [map concat]. rewrite !zlen_app, !le_enc_zlen, zlen_nil. reflexivity. }
  destruct (set_range_ok (w_stack s) 0 (concat (map (le_enc 8) (w_gpr s)))) as (args & Sr & La); [lia|lia|].
  assert (Ca : win_closure_args s = Ok args) by (unfold win_closure_args; rewrite Sr; reflexivity).
  destruct (closure_loop_ok args s m _ Ok16 Ca ts vs (win_first rt)) as (l & El & Fl); auto.
  { unfold win_first. destruct (win_hidden rt); lia. } { lia. }
  unfold closure_win. rewrite Ca. cbn [bind c_flags c_args]. rewrite (win_flags_hidden _ _ R Ho).
  unfold win_first in El. destruct (win_hidden rt) eqn:Hd.
  - destruct (w_gpr s) as [|x l0] eqn:Eg; [unfold zlen in G4; cbn in G4; lia|].
    assert (Z0 : znth (x :: l0) 0 = Some x) by reflexivity.
    pose proof (concat_slot _ _ _ (Z.le_refl 0) Z0) as Cs. change (8 * 0) with 0 in Cs.
    pose proof (get_set_same _ _ _ _ Sr) as Gs. rewrite Lc in Gs.
    assert (Ga : get_range args 0 8 = Some (le_enc 8 x)).
    { rewrite (get_range_sub' _ _ _ _ 0 8 Gs) by lia. exact Cs. }
    rewrite Ga. cbn [of_option bind].
    destruct (set_range_ok slot 0 (le_enc 8 x)) as (slot' & Ss & Lsl); [lia|rewrite le_enc_zlen; lia|].
    rewrite Ss. cbn [of_option bind]. rewrite El. cbn [bind].
    eexists _, _, _, _. split; [reflexivity|]. split; [reflexivity|]. split; [exact Fl|]. split; [|discriminate].
    intros _. exists x. split; [rewrite le_dec_enc; reflexivity|]. split; [reflexivity|].
    pose proof (get_set_same _ _ _ _ Ss) as G. rewrite le_enc_zlen in G. exact G.
  - rewrite El. cbn [bind]. eexists _, _, _, _. split; [reflexivity|]. split; [reflexivity|]. split; [exact Fl|].
    split; [discriminate|auto].
Qed.

(** ** Results *)

Lemma le_enc_is n x v : le_enc n x = v -> le_dec v = x mod 2 ^ (8 * Z.of_nat n).
Proof. intros <-. apply le_dec_enc. Qed.

Lemma win_store_ok abi rt v r buf : natural rt -> win_ret_ok abi rt -> win_hidden rt = false ->
  zlen v = ty_size rt -> win_returned rt (rs_rax r) (rs_xmm0 r) v ->
  result_width rt <= zlen buf ->
  exists buf', win_store (win_flags abi rt) r buf = Ok buf' /\ win_result_holds rt v buf' /\ zlen buf' = zlen buf /\
    forall o n, result_width rt <= o -> get_range buf' o n = get_range buf o n.
Proof.
  intros N Ho H L Rt W. unfold win_result_holds, result_width in *.
  assert (St : forall d w, zlen d = w -> w <= zlen buf -> exists buf', of_option (set_range buf 0 d) = Ok buf' /\
     get_range buf' 0 w = Some d /\ zlen buf' = zlen buf /\ forall o n, w <= o -> get_range buf' o n = get_range buf o n).
  { intros d w Ld Lw. destruct (store_front buf d w) as (b' & E1 & E2 & E3 & E4); [lia|lia|].
    rewrite E1. exists b'. rewrite Ld in E3. auto. }
  destruct rt as [c s a es]. cbn [ty_code ty_size] in *.
  destruct (natural_inv _ _ _ _ N) as [S|[(u & _ & -> & _)|(-> & _)]].
  - apply scalar_cases in S.
    repeat (destruct S as [S|S]); injection S as -> -> -> ->; try discriminate H;
    unfold win_returned, is_fp in Rt; cbn [ty_code ty_size] in Rt; cbn iota in Rt;
    try (apply le_enc_is in Rt; rewrite Z2Nat.id in Rt by lia);
    change (integral _) with true in * || change (integral _) with false in *; cbn iota in *;
    unfold win_store, win_flags; cbn [ty_code]; known; cbn [orb andb]; known.
    all: try (match goal with |- exists _, of_option (set_range _ 0 (le_enc 8 ?x)) = _ /\ _ =>
      destruct (St (le_enc 8 x) 8 (le_enc_zlen _ _) W) as (b' & E1 & E2 & E3 & E4);
      exists b'; split; [exact E1|]; split; [|split; [exact E3|exact E4]];
      rewrite E2; f_equal; rewrite <- (le_enc_mod 8), <- (le_enc_mod 8 (widened _ _)); f_equal;
      unfold widened; cbn [signed_narrow ty_code ty_size]; cbn iota; rewrite ?Rt;
      unfold zext, sext, wrap64, wrap; change (2 ^ (8 * Z.of_nat 8)) with (2 ^ 64) in *;
      rewrite ?Z.mod_mod by lia; try reflexivity;
      rewrite ?(to_signed_low 8), ?(to_signed_low 16), ?(to_signed_low 32); try reflexivity end).
    all: match goal with |- exists _, of_option (set_range _ 0 ?d) = _ /\ _ =>
      destruct (St d (zlen v)) as (b' & E1 & E2 & E3 & E4); [rewrite <- Rt; reflexivity|rewrite L; exact W|] end;
      rewrite L in E2, E4; exists b'; split; [exact E1|]; split; [rewrite E2; f_equal; exact Rt|auto].
  - assert (Fs : fits s = true) by (unfold win_hidden in H; rewrite fits_alt in H; cbn [ty_code ty_size] in H; destruct (fits s); [reflexivity|discriminate]).
    unfold win_returned, is_fp in Rt; cbn [ty_code ty_size] in Rt; cbn iota in Rt.
    change (integral _) with false in *. cbn iota in *. unfold win_flags. cbn [ty_code ty_size]. cbv zeta. unfold fits in Fs.
    destruct (St (le_enc (Z.to_nat s) (rs_rax r)) s) as (b' & E1 & E2 & E3 & E4); [rewrite le_enc_zlen; lia|auto|].
    exists b'. rewrite <- Rt. split; [|auto].
    destruct (Z.eqb_spec s 8) as [->|]; [exact E1|]. destruct (Z.eqb_spec s 4) as [->|]; [exact E1|].
    destruct (Z.eqb_spec s 2) as [->|]; [exact E1|]. destruct (Z.eqb_spec s 1) as [->|]; [exact E1|]. discriminate Fs.
  - assert (Fs : fits s = true) by (unfold win_hidden in H; rewrite fits_alt in H; cbn [ty_code ty_size] in H; destruct (fits s); [reflexivity|discriminate]).
    unfold win_returned, is_fp in Rt; cbn [ty_code ty_size] in Rt; cbn iota in Rt.
    change (integral _) with false in *. cbn iota in *. unfold win_flags. cbn [ty_code ty_size]. cbv zeta. unfold fits in Fs.
    destruct (St (le_enc (Z.to_nat s) (rs_rax r)) s) as (b' & E1 & E2 & E3 & E4); [rewrite le_enc_zlen; lia|auto|].
    exists b'. rewrite <- Rt. split; [|auto].
    destruct (Z.eqb_spec s 8) as [->|]; [exact E1|]. destruct (Z.eqb_spec s 4) as [->|]; [exact E1|].
    destruct (Z.eqb_spec s 2) as [->|]; [exact E1|]. destruct (Z.eqb_spec s 1) as [->|]; [exact E1|]. discriminate Fs.
Qed.

Lemma win_store_hidden abi rt r buf : rt_ok rt -> win_ret_ok abi rt -> win_hidden rt = true \/ ty_code rt = T_VOID ->
  win_store (win_flags abi rt) r buf = Ok buf.
Proof.
  intros R Ho [H|V].
  - pose proof (win_flags_hidden _ _ R Ho) as E. rewrite H in E. apply Z.eqb_eq in E. rewrite E. reflexivity.
  - unfold win_flags. rewrite V. reflexivity.
Qed.

(** Low bytes of the slot. *)
Lemma win_load_ok rt v slot r : natural rt -> win_hidden rt = false -> ty_code rt <> T_LONGDOUBLE ->
  zlen v = ty_size rt -> bytes_ok v -> zlen slot = 16 -> bytes_ok slot -> win_result_holds rt v slot ->
  exists r', win_load slot r = Ok r' /\ win_returned rt (rs_rax r') (rs_xmm0 r') v.
Proof.
  intros N H Nl L B Ls Bs Rh. unfold win_load.
  destruct (get_range_ok slot 0 8) as (d & Gd & Ld); try lia. rewrite Gd. cbn [of_option bind].
  eexists. split; [reflexivity|]. cbn [rs_rax rs_xmm0].
  pose proof (bytes_ok_get_range _ _ _ _ Bs Gd) as Bd.
  unfold win_returned. unfold win_result_holds in Rh.
  assert (Fs : fits (ty_size rt) = true).
  { unfold win_hidden in H. rewrite fits_alt in H. destruct (ty_code rt) eqn:Cd; try (destruct (fits (ty_size rt)); [reflexivity|discriminate]).
    exfalso. apply (natural_not_void _ N). exact Cd. }
  apply fits_iff in Fs. assert (Sz : 0 < ty_size rt <= 8) by (unfold fits_slot in Fs; lia).
  assert (Lown : get_range slot 0 (ty_size rt) = Some v -> firstn (Z.to_nat (ty_size rt)) d = v).
  { intros G. rewrite (get_range_sub' _ _ _ _ 0 (ty_size rt) Gd) in G by lia.
    rewrite get_range_some in G by lia. injection G as G. exact G. }
  destruct (is_fp rt) eqn:Fp.
  - assert (integral rt = false) as Ei by (unfold is_fp in Fp; unfold integral; destruct (ty_code rt); try discriminate; reflexivity).
    rewrite Ei in Rh. rewrite firstn_app. replace (Z.to_nat (ty_size rt) - length d)%nat with 0%nat by (unfold zlen in Ld; lia).
    cbn [firstn]. rewrite app_nil_r. auto.
  - destruct (integral rt) eqn:Ei.
    + rewrite Gd in Rh. apply Some_inj in Rh. subst d. rewrite le_dec_enc.
      change (2 ^ (8 * Z.of_nat 8)) with (2 ^ 64).
      destruct (integral_cases rt N Ei) as (n & Hn & Sn & _ & _ & Sg & _). rewrite Sn in *. rewrite Nat2Z.id.
      rewrite <- (le_enc_mod n). 
      assert (Pn : (2 ^ (8 * Z.of_nat n) | 2 ^ 64)).
      { exists (2 ^ (64 - 8 * Z.of_nat n)). rewrite <- Z.pow_add_r by lia. f_equal. lia. }
      assert (P0 : 0 < 2 ^ (8 * Z.of_nat n)) by (apply Z.pow_pos_nonneg; lia).
      rewrite <- Zmod_div_mod by (auto; lia).
      assert (Lvn : length v = n) by (unfold zlen in L; lia).
      pose proof (le_dec_bound v B) as Bv. rewrite L in Bv.
      replace (widened rt v mod 2 ^ (8 * Z.of_nat n)) with (le_dec v).
      { rewrite <- Lvn. apply le_enc_dec. exact B. }
      unfold widened. destruct (signed_narrow rt).
      * rewrite Sn. rewrite <- Zmod_div_mod by (auto; lia). rewrite to_signed_mod by lia. symmetry. apply Z.mod_small. lia.
      * symmetry. apply Z.mod_small. lia.
    + apply Lown in Rh. rewrite <- Rh. rewrite <- (le_enc_firstn _ 8) by lia. f_equal.
      replace 8%nat with (length d) by (unfold zlen in Ld; lia). apply le_enc_dec. exact Bd.
Qed.
