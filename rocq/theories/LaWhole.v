(** LoongArch: ffi_call up to the entry of the called function. *)
From Coq Require Import ZifyBool ZifyNat.
From Verif Require Import Base BaseFacts Types LayoutSpec NaturalTypes NaturalFacts RvSpec RvFlat RvMain LaModel LaSpec LaFlat LaCall LaMain.
From Verif Require A64Model A64Fits.
Local Arguments Z.mul : simpl never.
Local Arguments Z.add : simpl never.

Lemma ref_is_memory fl t : la_fl fl -> t = ty_void \/ natural t -> passed_by_ref fl 0 0 t false = in_memory fl t.
Proof.
  intros FL [-> | N]. { destruct FL as [-> | ->]; reflexivity. }
  unfold passed_by_ref, elements_of, in_memory, place_arg. rewrite orb_false_r.
  assert (INT : (let '(p, _, _, _) := (let '(p, g1, s1) := place_words false t 0 0 in (p, g1, 0, s1)) in match p with Ref _ => true | _ => false end) = (ty_size t >? 16)).
  { unfold place_words. destruct (ty_size t >? 16) eqn:B; [reflexivity|]. cbn [andb]. replace (8 <=? 0) with false by reflexivity. rewrite andb_false_r.
    destruct (word_at 0 0) as [[w g1] k1]. destruct (ty_size t >? 8); [destruct (word_at g1 k1) as [[w2 g2] k2]|]; reflexivity. }
  assert (INT2 : match (let '(p, g1, s1) := place_words false t 0 0 in (p, g1, 0, s1)) with (Ref _, _, _, _) => true | _ => false end = (ty_size t >? 16)).
  { rewrite <- INT. destruct (place_words false t 0 0) as [[p ?] ?]. destruct p; reflexivity. }
  clear INT. pose proof (shape_fields fl t N) as SF.
  destruct (tcode_eqb (ty_code t) T_STRUCT) eqn:ST.
  - assert (TS : ty_code t = T_STRUCT) by (destruct (ty_code t); try discriminate ST; reflexivity). rewrite TS.
    destruct (fl =? 0) eqn:F0.
    + assert (FZ : fl = 0) by lia. assert (R0 : forall c, real fl c = false) by (intros c; rewrite FZ; destruct c; reflexivity).
      destruct (shape_of fl t); [..|auto]; exfalso.
      * destruct SF as (c & _ & R & _). rewrite R0 in R. discriminate.
      * destruct SF as (c1 & c2 & _ & R & _). rewrite R0 in R. discriminate.
      * destruct SF as (c1 & c2 & _ & R & _). rewrite R0 in R. discriminate.
      * destruct SF as (c1 & c2 & _ & _ & R). rewrite R0 in R. discriminate.
    + rewrite (elements_shape fl 0 0 t FL N TS).
      destruct (shape_of fl t) as [n|n1 o2 n2|n1 o2 n2|n1 o2 n2|] eqn:SH.
      * destruct SF as (c & -> & _). reflexivity.
      * destruct SF as (c1 & c2 & (-> & _) & _). reflexivity.
      * destruct SF as (c1 & c2 & (-> & _) & _). reflexivity.
      * destruct SF as (c1 & c2 & (-> & _) & _). reflexivity.
      * auto.
  - assert (NS : ty_code t <> T_STRUCT) by (intros E; rewrite E in ST; discriminate).
    replace (if fl =? 0 then None else _) with (@None (tcode * option (Z * tcode))) by (destruct (fl =? 0); [reflexivity|destruct (ty_code t); try reflexivity; congruence]).
    destruct (leaf_not_struct t NS) as (_ & FS). unfold shape_of in SF |- *. rewrite FS in SF |- *.
    destruct (real fl (ty_code t)) eqn:R; [|auto]. destruct SF as (c & _ & Rc & CN & SZ). cbn.
    assert (csize c <= 8) by (destruct c; cbn; lia). lia.
Qed.

Lemma copies_lo ts : forall pls ptrs lo lo' hi, copies_down ts pls ptrs lo hi -> lo' <= lo -> copies_down ts pls ptrs lo' hi.
Proof.
  induction ts as [|t r IH]; intros pls ptrs lo lo' hi; [auto|]. cbn [copies_down]. destruct pls as [|pl l]; [auto|].
  destruct pl; try (intros; eapply IH; eauto). destruct ptrs; [auto|]. intros (A & B & C & D) L. split; [lia|]. split; [lia|]. split; [auto|]. eapply IH; eauto.
Qed.

Lemma pointer_natural : natural ty_pointer.
Proof. apply natural_scalar. cbn. tauto. Qed.

Lemma pointer_place fl : la_fl fl -> place_arg fl false ty_pointer 0 0 0 = (Words [XR 0], 1, 0, 0).
Proof. intros [-> | ->]; reflexivity. Qed.

Theorem call_ok fl fixed rt ts rv objs gr chain base blk frame :
  let c := prep fixed rt ts in
  la_fl fl -> signature_ok rt ts -> promoted fixed 0 ts -> objects_ok ts objs -> A64Fits.total_size ts < 2 ^ 31 -> ty_size rt < 2 ^ 31 ->
  lone_reals_ok fl fixed 0 ts (places fl fixed rt ts) ->
  stack_used fl fixed rt ts <= copies_end ts (places fl fixed rt ts) (arg_bytes c) ->
  zlen blk = alloc_size fl c rv -> zlen frame = 16 -> (forall i, zlen (gr i) = 16 /\ bytes_ok (gr i)) ->
  0 <= base -> (16 | base) -> base + alloc_size fl c rv < 2 ^ 64 -> (forall a, rv = Some a -> 0 <= a < 2 ^ 64) ->
  exists m r ptrs, call fl c rv objs gr chain base blk frame = Ok (m, r, in_memory fl rt) /\
    s_sp m = base /\ s_t2 m = chain /\ zlen (s_a m) = 64 /\ zlen (s_fa m) = 8 * fl /\
    held fl (s_a m) (s_fa m) (s_sp m) (s_read m) ts (places fl fixed rt ts) objs ptrs /\
    copies_down ts (places fl fixed rt ts) ptrs (base + stack_used fl fixed rt ts) (base + arg_bytes c) /\
    (in_memory fl rt = true -> exists a, r = Some a /\ get_range (s_a m) 0 8 = Some (le_enc 8 a) /\
       (forall a', rv = Some a' -> a = a') /\
       (rv = None -> base + arg_bytes c <= a /\ a + ty_size rt <= base + ctx_at c rv)).
Proof.
  intros c FL (N & NC & RT) PR O T TR LO FITS ZB ZF GR B0 B16 BB RV.
  assert (RN : rt = ty_void \/ natural rt) by tauto.
  pose proof flcases fl FL as FP.
  assert (SZR : 0 < ty_size rt) by (destruct RN as [-> |Nr]; [reflexivity|apply (natural_basic _ Nr)]).
  assert (RB : 0 <= rval_bytes c rv /\ (rv = None -> ty_size rt > 16 -> ty_size rt <= rval_bytes c rv)).
  { unfold rval_bytes, c, prep. cbn [k_rtype]. destruct rv as [a|]; [split; [lia|discriminate]|].
    destruct (ty_size rt >? 16) eqn:E; [|split; [lia|lia]].
    pose proof (round_up_le (ty_size rt) 16 ltac:(lia)). pose proof (round_up_lt (ty_size rt) 16 ltac:(lia)).
    rewrite ffi_align_round by (auto using P16; lia). split; lia. }
  destruct RB as (R0 & RS).
  set (top := arg_bytes c) in *. set (ctx := ctx_at c rv) in *.
  assert (CTX : ctx = top + rval_bytes c rv) by reflexivity.
  pose proof (copies_end_le ts N (places fl fixed rt ts) top) as CLE.
  unfold alloc_size in ZB, BB. fold ctx in ZB, BB. unfold ctx_size in BB.
  unfold places, stack_used in *. destruct (assign fl fixed 0 ts (first_reg fl rt) 0 0) as [pls e] eqn:AS. cbn [fst snd] in *.
  assert (RM : room (first_reg fl rt) 0 1).
  { destruct (first_reg_cases fl rt) as [-> | ->]; repeat split; try lia; apply Z.divide_0_r. }
  destruct (assign_room _ _ _ _ _ _ _ _ _ _ RM AS) as (E0 & _).
  assert (A0 : 0 <= e <= top) by lia. assert (TC : top <= ctx) by lia.
  assert (BASE : 0 <= base /\ (16 | base) /\ base + ctx + 32 < 2 ^ 64) by (split; [lia|]; split; [auto|lia]).
  assert (I0 : forall b g, zlen b = ctx + ctx_size fl -> 0 <= g <= 1 -> inv ctx fl e top (CB b g 0 0 top) g 0 0).
  { intros b g Zb G. unfold inv. cbn [b_int b_flt b_stk b_cpy b_blk]. do 6 (split; [lia|]). split; [apply Z.divide_0_r|]. split; [lia|]. split; [lia|].
    exact Zb. }
  assert (VR : forall j, 0 <= j < 0 + zlen ts -> (k_nfixed c <=? j) = variadic fixed j).
  { intros j J. unfold c, prep. cbn [k_nfixed]. destruct fixed as [n|]; cbn [variadic]; [reflexivity|lia]. }
  unfold call. fold ctx. fold top. change (k_rtype c) with rt. change (k_args c) with ts. rewrite (ref_is_memory fl rt FL RN).
  set (rvalue := if rval_bytes c rv =? 0 then rv else Some (base + top)).
  assert (FIN : forall s1, inv ctx fl e top s1 (first_reg fl rt) 0 0 -> b_cpy s1 = top ->
    exists m ptrs,
      (let* s2 := marshal_args base ctx fl (k_nfixed c) 0 ts objs gr s1 in
       let* b := of_option (set_range (b_blk s2) (ctx + 8 * fl + 64) frame) in
       let* fa := of_option (get_range b ctx (8 * fl)) in
       let* a := of_option (get_range b (ctx + 8 * fl) 64) in
       Ok (RState a fa chain base (fun p n => get_range b (p - base) n), rvalue, in_memory fl rt)) = Ok (m, rvalue, in_memory fl rt) /\
      s_sp m = base /\ s_t2 m = chain /\ zlen (s_a m) = 64 /\ zlen (s_fa m) = 8 * fl /\
      held fl (s_a m) (s_fa m) (s_sp m) (s_read m) ts pls objs ptrs /\
      copies_down ts pls ptrs (base + e) (base + top) /\
      forall d, low ctx fl top s1 (xo ctx fl) 8 -> get_range (b_blk s1) (xo ctx fl) 8 = Some d -> get_range (s_a m) 0 8 = Some d).
  { intros s1 I1 C1.
    destruct (args_ok base ctx fl e top fixed (k_nfixed c) gr FL A0 TC BASE GR ts objs 0 s1 (first_reg fl rt) 0 0 pls e 1 I1 RM N O VR PR AS LO)
      as (s2 & ptrs & g' & f' & E2 & I2 & X2 & C2 & CO & H2). { lia. } { rewrite C1. lia. }
    rewrite E2. cbn [bind]. pose proof I2 as (_ & _ & _ & G2 & F2 & K2 & _ & _ & CC & Z2).
    destruct (set_range_ok (b_blk s2) (ctx + 8 * fl + 64) frame) as (b & B & ZB2). { lia. } { rewrite Z2, ZF. unfold ctx_size. lia. }
    rewrite B. cbn [of_option bind].
    assert (AG : agree ctx fl top s2 b).
    { split; [lia|]. intros o k (K0 & LK). eapply get_set_disjoint; eauto.
      left. unfold xo in LK. destruct I2 as (Q1 & Q2 & Q3 & _). rewrite Q1, Q2, Q3 in LK. destruct LK as [LK|[LK|[LK|LK]]]; nia. }
    specialize (H2 b AG).
    destruct (get_range b ctx (8 * fl)) as [fa|] eqn:GF; [|rewrite get_range_some in GF by (unfold ctx_size in *; lia); discriminate].
    destruct (get_range b (ctx + 8 * fl) 64) as [a|] eqn:GA; [|rewrite get_range_some in GA by (unfold ctx_size in *; lia); discriminate].
    cbn [of_option bind]. eexists; exists ptrs. split; [reflexivity|]. cbn [s_sp s_t2 s_a s_fa s_read].
    split; [reflexivity|]. split; [reflexivity|]. split; [apply get_range_inv in GA; lia|]. split; [apply get_range_inv in GF; lia|].
    split. { unfold ra, rf, rdb, xo in H2. rewrite GF, GA in H2. exact H2. }
    split. { rewrite C1 in CO. eapply copies_lo; [exact CO|lia]. }
    intros d L D. destruct (X2 _ AG) as (_ & X3). rewrite <- X3 in D by auto. rewrite <- D. unfold xo.
    rewrite <- (get_range_sub b (ctx + 8 * fl) 64 a 0 8) by (auto; lia). rewrite Z.add_0_r. reflexivity. }
  destruct (in_memory fl rt) eqn:IM.
  - assert (BIG : ty_size rt > 16).
    { rewrite <- (ref_is_memory fl rt FL RN) in IM. unfold passed_by_ref in IM. destruct (elements_of fl false 0 0 rt); [discriminate|lia]. }
    set (a := match rvalue with Some x => x | None => 0 end).
    assert (AA : rvalue = Some a /\ (forall a', rv = Some a' -> a = a') /\
       (rv = None -> base + top <= a /\ a + ty_size rt <= base + ctx)).
    { unfold a, rvalue. destruct rv as [x|].
      - change (rval_bytes c (Some x)) with 0. cbn [Z.eqb]. split; [reflexivity|].
        split; [intros a' E; congruence|discriminate].
      - specialize (RS eq_refl BIG). replace (rval_bytes c None =? 0) with false by lia. split; [reflexivity|].
        split; [discriminate|]. lia. }
    destruct AA as (AA & AC & AD).
    destruct (set_range_ok blk (ctx + 8 * fl) (le_enc 8 a)) as (b & SB & Zb). { lia. } { rewrite le_enc_zlen, ZB. unfold ctx_size. lia. }
    rewrite SB. cbn [of_option bind].
    assert (FR : first_reg fl rt = 1) by (unfold first_reg; rewrite IM; reflexivity).
    destruct (FIN (CB b 1 0 0 top)) as (m & ptrs & E & M1 & M2 & M3 & M4 & M5 & M6 & M7).
    { rewrite FR. apply I0; lia. } { reflexivity. }
    exists m, rvalue, ptrs. do 7 (split; [assumption|]). intros _. exists a. split; [exact AA|]. split; [|auto].
    apply M7.
    { split; [lia|]. right; right; right. cbn [b_int]. lia. }
    cbn [b_blk]. pose proof (get_set_same _ _ _ _ SB) as GS. rewrite le_enc_zlen in GS. exact GS.
  - cbn [bind]. assert (FR : first_reg fl rt = 0) by (unfold first_reg; rewrite IM; reflexivity).
    destruct (FIN (CB blk 0 0 0 top)) as (m & ptrs & E & M1 & M2 & M3 & M4 & M5 & M6 & M7).
    { rewrite FR. apply I0; lia. } { reflexivity. }
    exists m, rvalue, ptrs. do 7 (split; [assumption|]). discriminate.
Qed.
