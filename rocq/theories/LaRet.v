(** LoongArch: results. *)
From Coq Require Import ZifyBool ZifyNat.
From Verif Require Import Base BaseFacts Types LayoutSpec NaturalTypes NaturalFacts RvSpec RvFlat RvMain RvRet LaModel LaSpec LaFlat LaCall LaMain LaWhole LaClosure.

Local Arguments Z.mul : simpl never.
Local Arguments Z.add : simpl never.

(** Registers as seen through the first two. *)
Lemma at_place_regs fl t d (a a' fa fa' : list Z) sp rd rd' : 0 <= fl -> in_memory fl t = false ->
  (forall o n, 0 <= o -> 0 <= n -> o + n <= 16 -> get_range a' o n = get_range a o n) ->
  (forall o n, 0 <= o -> 0 <= n -> o + n <= 2 * fl -> get_range fa' o n = get_range fa o n) ->
  forall pl g f k, place_arg fl false t 0 0 0 = (pl, g, f, k) -> at_place fl a fa sp rd t pl d -> at_place fl a' fa' 0 rd' t pl d.
Proof.
  intros F0 IM A FA pl g f k P. destruct (ret_place fl t IM) as (pl' & g' & f' & P' & _ & _ & S). rewrite P in P'. injection P' as <- _ _ _.
  assert (FR : forall i x, 0 <= i <= 1 -> in_freg fl fa i x -> in_freg fl fa' i x).
  { intros i x I H. destruct H as (H1 & H2). pose proof (zlen_nonneg x). split; [exact H1|]. rewrite FA by nia. exact H2. }
  assert (LI : forall x, low_in a 0 x -> low_in a' 0 x).
  { intros x (w & H1 & H2 & H3). exists w. rewrite A by lia. auto. }
  destruct pl; cbn [at_place].
  - subst. apply FR; lia.
  - subst. intros (x & y & H1 & H2 & H3 & H4). exists x, y. do 2 (split; [assumption|]). split; apply FR; auto; lia.
  - destruct S as (-> & ->). intros (x & y & H1 & H2 & H3 & H4). exists x, y. do 2 (split; [assumption|]). split; [apply FR; auto; lia|auto].
  - destruct S as (-> & ->). intros (x & y & H1 & H2 & H3 & H4). exists x, y. do 2 (split; [assumption|]). split; [auto|apply FR; auto; lia].
  - intros (w & H1 & H2). exists w. split; [|exact H2]. rewrite <- H1. destruct S as [-> | ->]; cbn [words_of word_of]; rewrite !A by lia; reflexivity.
  - contradiction.
Qed.

Theorem load_ret_ok fl fixed rt ts regs d gr : la_fl fl -> natural rt -> in_memory fl rt = false ->
  zlen regs = ctx_size fl -> zlen d = ty_size rt -> bytes_ok d -> zlen gr = 16 -> bytes_ok gr ->
  exists r, load_ret fl (prep fixed rt ts) regs d gr = Ok r /\ zlen (r_a r) = 16 /\ zlen (r_fa r) = 2 * fl /\
    returned fl rt (r_a r) (r_fa r) d.
Proof.
  intros FL N IM ZR ZD OD ZG OG. pose proof (flcases fl FL) as F0. unfold load_ret. change (k_rtype (prep fixed rt ts)) with rt.
  rewrite (ref_is_memory fl rt FL (or_intror N)), IM. cbn [orb].
  assert (NV : tcode_eqb (ty_code rt) T_VOID = false).
  { destruct (tcode_eqb (ty_code rt) T_VOID) eqn:E; [|reflexivity]. exfalso.
    assert (C : ty_code rt = T_VOID) by (destruct (ty_code rt); try discriminate E; reflexivity).
    destruct (scalar_size rt _ N C) as (_ & _ & _ & _ & _ & _ & NV & _); try discriminate. congruence. }
  rewrite NV. destruct (ret_place fl rt IM) as (pl & g & f & P & G & F & S).
  assert (I0 : inv 0 fl 0 0 (CB regs 0 0 0 0) 0 0 0).
  { unfold inv. cbn [b_int b_flt b_stk b_cpy b_blk]. do 6 (split; [lia|]). split; [apply Z.divide_0_r|]. split; [lia|]. split; [lia|]. lia. }
  destruct (marshal_ok 0 0 fl 0 0 FL ltac:(lia) ltac:(lia) ltac:(split; [lia|split; [apply Z.divide_0_r|lia]]) (CB regs 0 0 0 0) 0 0 0 rt false d gr pl g f 0 I0 N ZD OD ZG OG)
    as (s & E & I & _ & _ & H); [intros _ _ n _; lia|discriminate|exact P|lia|cbn [b_cpy]; unfold lowered; destruct pl; try contradiction; lia|].
  rewrite E. cbn [bind]. pose proof I as (_ & _ & _ & _ & _ & _ & _ & _ & _ & ZB). unfold ctx_size in ZB.
  destruct (get_range (b_blk s) 0 (2 * fl)) as [fa|] eqn:GF; [|rewrite get_range_some in GF by lia; discriminate].
  destruct (get_range (b_blk s) (8 * fl) 16) as [a|] eqn:GA; [|rewrite get_range_some in GA by lia; discriminate].
  cbn [of_option bind]. eexists. split; [reflexivity|]. cbn [r_a r_fa]. split; [apply get_range_inv in GA; lia|]. split; [apply get_range_inv in GF; lia|].
  specialize (H _ (agree_self 0 fl 0 s)). unfold returned. rewrite P.
  assert (HA : at_place fl (ra 0 fl (b_blk s)) (rf 0 fl (b_blk s)) 0 (rdb 0 (b_blk s)) rt pl d) by (destruct pl; try contradiction; exact H).
  refine (at_place_regs fl rt d _ a _ fa 0 _ _ F0 IM _ _ pl g f 0 P HA).
  - intros o n O N0 L. rewrite (prefix_same _ _ _ _ GA) by lia. unfold ra, xo.
    destruct (get_range (b_blk s) (0 + 8 * fl) 64) as [x|] eqn:X; [|rewrite get_range_some in X by lia; discriminate].
    rewrite (prefix_same _ _ _ _ X) by lia. f_equal; lia.
  - intros o n O N0 L. rewrite (prefix_same _ _ _ _ GF) by lia. unfold rf.
    destruct (get_range (b_blk s) 0 (8 * fl)) as [x|] eqn:X; [|rewrite get_range_some in X by lia; discriminate].
    rewrite (prefix_same _ _ _ _ X) by lia. reflexivity.
Qed.

Lemma split_regs fl (x : list Z) : la_fl fl -> zlen x = ctx_size fl ->
  exists fa a frame, x = fa ++ a ++ frame /\ zlen fa = 8 * fl /\ zlen a = 64.
Proof.
  intros FL Z. pose proof (flcases fl FL). unfold ctx_size in Z.
  exists (firstn (Z.to_nat (8 * fl)) x), (firstn 64 (skipn (Z.to_nat (8 * fl)) x)), (skipn 64 (skipn (Z.to_nat (8 * fl)) x)).
  split; [rewrite !firstn_skipn; reflexivity|]. unfold zlen in *. rewrite !firstn_length, skipn_length. lia.
Qed.

Theorem finish_ok fl fixed rt ts rd r regs b d : la_fl fl -> natural rt -> in_memory fl rt = false -> reads_ok rd ->
  zlen regs = ctx_size fl -> zlen (r_a r) = 16 -> zlen (r_fa r) = 2 * fl -> zlen d = ty_size rt ->
  ubuf_ok fl rt b ->
  returned fl rt (r_a r) (r_fa r) d ->
  exists b', finish fl (prep fixed rt ts) rd r regs false (Some b) = Ok (Some b') /\
    same_fields rt b' d /\ (whole (ty_code rt) = true -> get_range b' 0 8 = Some (le_enc 8 (extended (ty_code rt) d))).
Proof.
  intros FL N IM RD ZR ZA ZF ZD ZB H. pose proof (flcases fl FL) as F0. unfold finish. change (k_rtype (prep fixed rt ts)) with rt. unfold ctx_size in ZR.
  destruct (set_range_ok regs 0 (r_fa r)) as (x & X & ZX); [lia|lia|]. rewrite X. cbn [of_option bind].
  destruct (set_range_ok x (8 * fl) (r_a r)) as (x1 & X1 & ZX1); [lia|lia|]. rewrite X1. cbn [of_option bind].
  destruct (split_regs fl x1 FL) as (fa & a & frame & EX & ZFA & ZAA); [unfold ctx_size; lia|].
  assert (GA : forall o n, 0 <= o -> 0 <= n -> o + n <= 16 -> get_range a o n = get_range (r_a r) o n).
  { intros o n O N0 L. rewrite <- (regs_a fl fa a frame rd FL ZFA ZAA o n) by lia. rewrite <- EX.
    pose proof (get_set_same _ _ _ _ X1) as G. rewrite ZA in G. rewrite (prefix_same _ _ _ _ G) by lia. reflexivity. }
  assert (GF : forall o n, 0 <= o -> 0 <= n -> o + n <= 2 * fl -> get_range fa o n = get_range (r_fa r) o n).
  { intros o n O N0 L. rewrite <- (regs_fa fl fa a frame rd ZFA ZAA o n) by lia. rewrite <- EX.
    rewrite (get_set_disjoint _ _ _ _ o n X1) by lia.
    pose proof (get_set_same _ _ _ _ X) as G. rewrite ZF in G. rewrite (prefix_same _ _ _ _ G) by lia. reflexivity. }
  destruct (ret_place fl rt IM) as (pl & g & f & P & G & F & S).
  unfold returned in H. rewrite P in H.
  pose proof (at_place_regs fl rt d _ a _ fa 0 (fun _ _ => None) rd F0 IM GA GF pl g f 0 P H) as HP.
  assert (RM : room 0 0 0) by (repeat split; try lia; apply Z.divide_0_r).
  destruct (unmarshal_ok fl 0 fa a frame rd FL ZFA ZAA ltac:(split; [lia|apply Z.divide_0_r]) ltac:(intros; eapply RD; eauto) 0 0 0 0 rt false b d pl g f 0 RM ltac:(lia) N
      ZB ZD ltac:(discriminate) ltac:(intros _ _ n _; lia) P ltac:(lia)) as (v & E & RV).
  { unfold at_place_or_ref. destruct pl; auto. contradiction. }
  rewrite Z.add_0_r in E. rewrite EX, E. cbn [bind]. destruct v as [b1|p].
  - exists b1. split; [reflexivity|]. split; [exact RV|]. intros WH.
    assert (CS : ty_size rt = csize (ty_code rt)) by (apply (csize_of fl); auto).
    assert (C8 : 0 < csize (ty_code rt) <= 8) by (destruct (ty_code rt); cbn; lia).
    assert (PL : pl = Words [XR 0] /\ integral (ty_code rt) = true).
    { assert (NS : ty_code rt <> T_STRUCT) by (intros E0; rewrite E0 in WH; discriminate).
      destruct (leaf_not_struct rt NS) as (_ & FS). unfold place_arg, shape_of in P. rewrite FS in P.
      assert (RE : real fl (ty_code rt) = false) by (destruct (ty_code rt); try discriminate WH; reflexivity). rewrite RE in P.
      unfold place_words in P.
      replace (ty_size rt >? 16) with false in P by lia. cbn [andb] in P. replace (8 <=? 0) with false in P by reflexivity. rewrite andb_false_r in P.
      change (word_at 0 0) with (XR 0, 1, 0) in P. cbv beta iota zeta in P. replace (ty_size rt >? 8) with false in P by lia.
      injection P as <- _ _. split; [reflexivity|]. destruct (ty_code rt); try discriminate WH; reflexivity. }
    destruct PL as (-> & IT). cbn [at_place words_of] in HP. destruct HP as (w & HW & OW & _ & HE). specialize (HE IT).
    destruct (word_of a 0 rd (XR 0)) as [y|] eqn:WO; [|discriminate]. rewrite app_nil_r in HW.
    assert (EY : y = w) by congruence. subst y.
    assert (ZW : zlen w = 8) by (cbn [word_of] in WO; apply get_range_inv in WO; lia).
    revert E. unfold unmarshal.
    replace (elements_of fl false (u_int (USt 0 0 0)) (u_flt (USt 0 0 0)) rt) with (@None (tcode * option (Z * tcode)))
      by (unfold elements_of; destruct (fl =? 0); [reflexivity|]; destruct (ty_code rt); try discriminate WH; reflexivity).
    replace (is_float_code fl (ty_code rt)) with false by (rewrite is_float_real by auto; destruct (ty_code rt); try discriminate WH; reflexivity).
    rewrite andb_false_r. replace (var_float fl false rt) with false by (unfold var_float; rewrite andb_false_r; reflexivity).
    replace (ty_size rt >? 16) with false by lia. rewrite is_int_whole, WH. cbn [orb].
    rewrite (word_atom fl 0 fa a frame rd FL ZFA ZAA 0 0 (XR 0) 1 0 (USt 0 0 0) w (ty_code rt)) by (auto; lia).
    cbn [bind]. intros E. apply bind_ok in E as (b2 & SB & E). assert (b2 = b1) by congruence. subst b2.
    destruct (set_range b 0 w) as [b3|] eqn:SR; [|discriminate]. cbn [of_option] in SB. assert (b3 = b1) by congruence. subst b3.
    pose proof (get_set_same _ _ _ _ SR) as GS. rewrite ZW in GS. rewrite GS, HE. reflexivity.
  - exfalso. revert E. unfold unmarshal.
    assert (NB16 : (ty_size rt >? 16) = false \/ exists q, elements_of fl false 0 0 rt = Some q).
    { rewrite <- (ref_is_memory fl rt FL (or_intror N)) in IM. unfold passed_by_ref in IM. destruct (elements_of fl false 0 0 rt); eauto. }
    cbn [u_int u_flt]. destruct (elements_of fl false 0 0 rt) as [[c1 [[off c2]|]]|].
    + intros E. apply bind_ok in E as ((? & ?) & _ & E). apply bind_ok in E as (? & _ & E). apply bind_ok in E as ((? & ?) & _ & E).
      apply bind_ok in E as (? & _ & E). discriminate.
    + intros E. apply bind_ok in E as ((? & ?) & _ & E). apply bind_ok in E as (? & _ & E). discriminate.
    + destruct NB16 as [-> |(q & Q)]; [|discriminate].
      destruct (negb false && (0 <? NARGREG) && is_float_code fl (ty_code rt)).
      { intros E. apply bind_ok in E as ((? & ?) & _ & E). apply bind_ok in E as (? & _ & E). discriminate. }
      destruct (var_float fl false rt); [discriminate|].
      destruct (is_int_code (ty_code rt) || tcode_eqb (ty_code rt) T_POINTER).
      { intros E. apply bind_ok in E as ((? & ?) & _ & E). apply bind_ok in E as (? & _ & E). discriminate. }
      intros E. apply bind_ok in E as ((? & ?) & _ & E). apply bind_ok in E as ((? & ?) & _ & E). apply bind_ok in E as (? & _ & E). apply bind_ok in E as (? & _ & E). discriminate.
Qed.
