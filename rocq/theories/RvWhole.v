(** RISC-V: ffi_call up to the entry of the called function. *)
From Coq Require Import ZifyBool ZifyNat.
From Verif Require Import Base BaseFacts Types LayoutSpec NaturalTypes NaturalFacts RvModel RvSpec RvFlat RvCall RvMain.
From Verif Require A64Model A64Fits.
Local Arguments Z.mul : simpl never.
Local Arguments Z.add : simpl never.

Lemma ref_is_memory fl t : fl_ok fl -> t = ty_void \/ natural t -> passed_by_ref fl 0 0 t false = in_memory fl t.
Proof.
  intros FL [-> | N]. { destruct FL as [-> | [-> | ->]]; reflexivity. }
  unfold passed_by_ref, elements_of, in_memory, place_arg. rewrite orb_false_r.
  assert (INT : (let '(p, _, _, _) := (let '(p, g1, s1) := place_words false t 0 0 in (p, g1, 0, s1)) in match p with Ref _ => true | _ => false end) = (ty_size t >? 16)).
  { unfold place_words. destruct (ty_size t >? 16) eqn:B; [reflexivity|]. cbn [andb]. replace (8 <=? 0) with false by reflexivity. rewrite andb_false_r.
    destruct (word_at 0 0) as [[w g1] k1]. destruct (ty_size t >? 8); [destruct (word_at g1 k1) as [[w2 g2] k2]|]; reflexivity. }
  assert (INT2 : match (let '(p, g1, s1) := place_words false t 0 0 in (p, g1, 0, s1)) with (Ref _, _, _, _) => true | _ => false end = (ty_size t >? 16)).
  { rewrite <- INT. destruct (place_words false t 0 0) as [[p ?] ?]. destruct p; reflexivity. }
  clear INT. pose proof (shape_fields fl t N) as SF.
  destruct (tcode_eqb (ty_code t) T_STRUCT) eqn:ST.
  - assert (TS : ty_code t = T_STRUCT) by (destruct (ty_code t); try discriminate ST; reflexivity). rewrite TS.
    destruct (fl =? 0) eqn:F0.
    + assert (FZ : fl = 0) by lia. assert (R0 : forall c, real fl c = false) by (intros c; rewrite FZ; destruct c; reflexivity).
      destruct (shape_of fl t); [..|auto]; exfalso.
      * destruct SF as (c & _ & R & _). rewrite R0 in R. discriminate.
      * destruct SF as (c1 & c2 & _ & R & _). rewrite R0 in R. discriminate.
      * destruct SF as (c1 & c2 & _ & R & _). rewrite R0 in R. discriminate.
      * destruct SF as (c1 & c2 & _ & _ & R). rewrite R0 in R. discriminate.
    + rewrite (elements_shape fl 0 0 t FL N TS).
      destruct (shape_of fl t) as [n|n1 o2 n2|n1 o2 n2|n1 o2 n2|] eqn:SH.
      * destruct SF as (c & -> & _). reflexivity.
      * destruct SF as (c1 & c2 & (-> & _) & _). reflexivity.
      * destruct SF as (c1 & c2 & (-> & _) & _). reflexivity.
      * destruct SF as (c1 & c2 & (-> & _) & _). reflexivity.
      * auto.
  - assert (NS : ty_code t <> T_STRUCT) by (intros E; rewrite E in ST; discriminate).
    replace (if fl =? 0 then None else _) with (@None (tcode * option (Z * tcode))) by (destruct (fl =? 0); [reflexivity|destruct (ty_code t); try reflexivity; congruence]).
    destruct (leaf_not_struct t NS) as (_ & FS). unfold shape_of in SF |- *. rewrite FS in SF |- *.
    destruct (real fl (ty_code t)) eqn:R; [|auto]. destruct SF as (c & _ & Rc & CN & SZ). cbn.
    assert (csize c <= 8) by (destruct c; cbn; lia). lia.
Qed.

Lemma pointer_natural : natural ty_pointer.
Proof. apply natural_scalar. cbn. tauto. Qed.

Lemma pointer_place fl : fl_ok fl -> place_arg fl false ty_pointer 0 0 0 = (Words [XR 0], 1, 0, 0).
Proof. intros [-> | [-> | ->]]; reflexivity. Qed.

Theorem call_ok fl fixed rt ts rv objs gr chain base blk frame :
  let c := prep fixed rt ts in
  fl_ok fl -> signature_ok rt ts -> objects_ok ts objs -> A64Fits.total_size ts < 2 ^ 31 -> ty_size rt < 2 ^ 31 ->
  lone_reals_ok fl fixed 0 ts (places fl fixed rt ts) ->
  zlen blk = alloc_size fl c rv -> zlen frame = 16 -> (forall i, zlen (gr i) = 16 /\ bytes_ok (gr i)) ->
  0 <= base -> (16 | base) -> base + alloc_size fl c rv < 2 ^ 64 -> (forall a, rv = Some a -> 0 <= a < 2 ^ 64) ->
  exists m r ptrs, call fl c rv objs gr chain base blk frame = Ok (m, r, in_memory fl rt) /\
    s_sp m = base /\ s_t2 m = chain /\ zlen (s_a m) = 64 /\ zlen (s_fa m) = 8 * fl /\
    held fl (s_a m) (s_fa m) (s_sp m) (s_read m) ts (places fl fixed rt ts) objs ptrs /\
    copies_ok (fun _ => 8) ts (places fl fixed rt ts) ptrs (base + stack_used fl fixed rt ts + rval_bytes c rv) (base + ctx_at c rv) /\
    (in_memory fl rt = true -> exists a, r = Some a /\ get_range (s_a m) 0 8 = Some (le_enc 8 a) /\
       (forall a', rv = Some a' -> a = a') /\
       (rv = None -> base + stack_used fl fixed rt ts <= a /\ a + ty_size rt <= base + arg_bytes c + rval_bytes c rv)).
Proof.
  intros c FL (N & NC & RT) O T TR LO ZB ZF GR B0 B16 BB RV.
  destruct (areas_fit fl fixed rt ts N T) as (AB & DA & SU & SB & DS & CS). fold c in AB, DA, SU, SB, DS, CS.
  assert (RN : rt = ty_void \/ natural rt) by tauto.
  assert (P16 : is_pow2 16) by (exists 4; split; [lia|reflexivity]). pose proof flcases fl FL as FP.
  assert (SZR : 0 < ty_size rt) by (destruct RN as [-> |Nr]; [reflexivity|apply (natural_basic _ Nr)]).
  assert (RB : 0 <= rval_bytes c rv /\ (16 | rval_bytes c rv) /\ (rv = None -> ty_size rt > 16 -> ty_size rt <= rval_bytes c rv)).
  { unfold rval_bytes, c, prep. cbn [k_rtype]. destruct rv as [a|]; [split; [lia|split; [apply Z.divide_0_r|discriminate]]|].
    destruct (ty_size rt >? 16) eqn:E; [|split; [lia|split; [apply Z.divide_0_r|lia]]].
    pose proof (round_up_le (ty_size rt) 16 ltac:(lia)). pose proof (round_up_lt (ty_size rt) 16 ltac:(lia)).
    rewrite ffi_align_round by (auto; lia). split; [lia|]. split; [apply round_up_divide|]. lia. }
  destruct RB as (R0 & RD & RS).
  set (A := arg_bytes c + rval_bytes c rv). set (ctx := ctx_at c rv).
  assert (CTX : ctx = A + struct_bytes c) by (unfold ctx, A, ctx_at; lia).
  assert (A0 : 0 <= A <= ctx) by (unfold A in *; lia).
  unfold alloc_size in ZB, BB. fold ctx in ZB, BB. unfold ctx_size in BB.
  assert (BASE : 0 <= base /\ (16 | base) /\ base + ctx + 32 < 2 ^ 64) by (split; [lia|]; split; [auto|lia]).
  assert (I0 : inv ctx fl A (CB blk 0 0 0 A) 0 0 0).
  { unfold inv. cbn [b_int b_flt b_stk b_cpy b_blk]. do 6 (split; [lia|]). split; [apply Z.divide_0_r|]. split; [lia|]. split; [lia|].
    split; [unfold A; apply Z.divide_add_r; eapply Z.divide_trans with 16; auto; exists 2; reflexivity|exact ZB]. }
  unfold places, stack_used in *. destruct (assign fl fixed 0 ts (first_reg fl rt) 0 0) as [pls e] eqn:AS. cbn [fst snd] in *.
  assert (VR : forall j, 0 <= j < 0 + zlen ts -> (k_nfixed c <=? j) = variadic fixed j).
  { intros j J. unfold c, prep. cbn [k_nfixed]. destruct fixed as [n|]; cbn [variadic]; [reflexivity|lia]. }
  unfold call. fold ctx. fold A. change (k_rtype c) with rt. change (k_args c) with ts. rewrite (ref_is_memory fl rt FL RN).
  set (rvalue := if rval_bytes c rv =? 0 then rv else Some (base + arg_bytes c)).
  assert (FIN : forall s1 g, inv ctx fl A s1 g 0 0 -> b_cpy s1 = A -> g = first_reg fl rt ->
    exists m ptrs,
      (let* s2 := marshal_args base ctx fl (k_nfixed c) 0 ts objs gr s1 in
       let* b := of_option (set_range (b_blk s2) (ctx + 8 * fl + 64) frame) in
       let* fa := of_option (get_range b ctx (8 * fl)) in
       let* a := of_option (get_range b (ctx + 8 * fl) 64) in
       Ok (RState a fa chain base (fun p n => get_range b (p - base) n), rvalue, in_memory fl rt)) = Ok (m, rvalue, in_memory fl rt) /\
      s_sp m = base /\ s_t2 m = chain /\ zlen (s_a m) = 64 /\ zlen (s_fa m) = 8 * fl /\
      held fl (s_a m) (s_fa m) (s_sp m) (s_read m) ts pls objs ptrs /\
      copies_ok (fun _ => 8) ts pls ptrs (base + e + rval_bytes c rv) (base + ctx) /\
      forall d, low ctx fl A s1 (xo ctx fl) 8 -> get_range (b_blk s1) (xo ctx fl) 8 = Some d -> get_range (s_a m) 0 8 = Some d).
  { intros s1 g I1 C1 ->.
    assert (RM : room (first_reg fl rt) 0 1).
    { destruct (first_reg_cases fl rt) as [-> | ->]; repeat split; try lia; apply Z.divide_0_r. }
    destruct (args_ok base ctx fl A fixed (k_nfixed c) gr FL A0 BASE GR ts objs 0 s1 (first_reg fl rt) 0 0 pls e 1 I1 RM N O VR AS LO)
      as (s2 & ptrs & g' & f' & E2 & I2 & X2 & C2 & CO & H2). { unfold A; lia. } { lia. }
    rewrite E2. cbn [bind]. pose proof I2 as (_ & _ & _ & G2 & F2 & K2 & _ & _ & CC & _ & Z2).
    destruct (set_range_ok (b_blk s2) (ctx + 8 * fl + 64) frame) as (b & B & ZB2). { lia. } { rewrite Z2, ZF. unfold ctx_size. lia. }
    rewrite B. cbn [of_option bind].
    assert (AG : agree ctx fl A s2 b).
    { split; [lia|]. intros o k (K0 & LK). eapply get_set_disjoint; eauto.
      left. unfold xo in LK. destruct I2 as (Q1 & Q2 & Q3 & _). rewrite Q1, Q2, Q3 in LK. destruct LK as [LK|[LK|[LK|LK]]]; nia. }
    specialize (H2 b AG).
    destruct (get_range b ctx (8 * fl)) as [fa|] eqn:GF; [|rewrite get_range_some in GF by (unfold ctx_size in *; lia); discriminate].
    destruct (get_range b (ctx + 8 * fl) 64) as [a|] eqn:GA; [|rewrite get_range_some in GA by (unfold ctx_size in *; lia); discriminate].
    cbn [of_option bind]. eexists; exists ptrs. split; [reflexivity|]. cbn [s_sp s_t2 s_a s_fa s_read].
    split; [reflexivity|]. split; [reflexivity|]. split; [apply get_range_inv in GA; lia|]. split; [apply get_range_inv in GF; lia|].
    split. { unfold ra, rf, rdb, xo in H2. rewrite GF, GA in H2. exact H2. }
    split. { eapply copies_hi; [eapply copies_le; [exact CO|unfold A in *; lia]|lia]. }
    intros d L D. destruct (X2 _ AG) as (_ & X3). rewrite <- X3 in D by auto. rewrite <- D. unfold xo.
    rewrite <- (get_range_sub b (ctx + 8 * fl) 64 a 0 8) by (auto; lia). rewrite Z.add_0_r. reflexivity. }
  destruct (in_memory fl rt) eqn:IM.
  - assert (BIG : ty_size rt > 16).
    { rewrite <- (ref_is_memory fl rt FL RN) in IM. unfold passed_by_ref in IM. destruct (elements_of fl false 0 0 rt); [discriminate|lia]. }
    set (a := match rvalue with Some x => x | None => 0 end).
    assert (AA : rvalue = Some a /\ 0 <= a < 2 ^ 64 /\ (forall a', rv = Some a' -> a = a') /\
       (rv = None -> base + e <= a /\ a + ty_size rt <= base + arg_bytes c + rval_bytes c rv)).
    { unfold a, rvalue. destruct rv as [x|].
      - change (rval_bytes c (Some x)) with 0. cbn [Z.eqb]. specialize (RV x eq_refl). split; [reflexivity|]. split; [lia|].
        split; [intros a' E; congruence|discriminate].
      - specialize (RS eq_refl BIG). replace (rval_bytes c None =? 0) with false by lia. split; [reflexivity|].
        split; [unfold A in *; lia|]. split; [discriminate|]. lia. }
    destruct AA as (AA & AB2 & AC & AD).
    destruct (GR (-1)) as (ZG & OG).
    destruct (marshal_ok base ctx fl A FL A0 BASE (CB blk 0 0 0 A) 0 0 0 ty_pointer false (le_enc 8 a) (gr (-1)) (Words [XR 0]) 1 0 0 I0 pointer_natural)
      as (s1 & E1 & I1 & X1 & C1 & S1); auto using le_enc_ok.
    { intros _ E. discriminate E. } { lia. } { cbn [b_cpy grown]. lia. }
    rewrite E1. cbn [bind].
    destruct (FIN s1 1 I1) as (m & ptrs & E & M1 & M2 & M3 & M4 & M5 & M6 & M7).
    { rewrite C1. cbn [b_cpy grown]. lia. } { unfold first_reg. rewrite IM. reflexivity. }
    exists m, rvalue, ptrs. do 7 (split; [assumption|]). intros _. exists a. split; [exact AA|]. split; [|auto].
    apply M7.
    { split; [lia|]. right; right; right. destruct I1 as (-> & _). lia. }
    specialize (S1 _ (agree_self ctx fl A s1)). cbn [at_place words_of] in S1. destruct S1 as (w & S1 & _ & _ & S2).
    specialize (S2 eq_refl). subst w. destruct (word_of _ _ _ (XR 0)) as [x|] eqn:W; [|discriminate]. cbn [word_of] in W.
    rewrite app_nil_r in S1. apply (f_equal (fun o => match o with Some y => y | None => x end)) in S1. cbv beta iota in S1. subst x. change (ty_code ty_pointer) with T_POINTER in W. 
    rewrite enc_ptr in W by (try apply le_enc_ok; apply le_enc_zlen).
    assert (GX : get_range (b_blk s1) (xo ctx fl) 64 = Some (ra ctx fl (b_blk s1))).
    { unfold ra. destruct I1 as (_ & _ & _ & _ & _ & _ & _ & _ & CC & _ & Z1). rewrite (get_range_some (b_blk s1)) by (unfold xo, ctx_size in *; lia). reflexivity. }
    rewrite <- W. rewrite <- (get_range_sub _ _ _ _ (8 * 0) 8 GX) by lia. f_equal. lia.
  - cbn [bind]. destruct (FIN (CB blk 0 0 0 A) 0 I0 eq_refl) as (m & ptrs & E & M1 & M2 & M3 & M4 & M5 & M6 & M7).
    { unfold first_reg. rewrite IM. reflexivity. }
    exists m, rvalue, ptrs. do 7 (split; [assumption|]). discriminate.
Qed.
