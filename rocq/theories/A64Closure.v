(** Closures find the arguments where AAPCS64 puts them. *)
From Coq Require Import ZifyBool ZifyNat.
From Verif Require Import Base BaseFacts Types LayoutSpec NaturalTypes NaturalFacts A64Model A64Spec A64Hfa A64Facts A64Call A64Main.
Local Arguments Z.mul : simpl never.
Local Arguments Z.add : simpl never.

Lemma get_range_firstn (d : list Z) n k : 0 <= n -> 0 <= k -> n + k <= zlen d ->
  exists e, get_range d n k = Some e /\ firstn (Z.to_nat n) d ++ e = firstn (Z.to_nat (n + k)) d.
Proof.
  intros A B C. rewrite get_range_some by lia. eexists. split; [reflexivity|].
  rewrite Z2Nat.inj_add by lia. generalize (Z.to_nat n) (Z.to_nat k). clear. intros i j. revert d.
  induction i as [|i IH]; intros d; [reflexivity|]. destruct d; cbn; [destruct j; reflexivity|]. rewrite IH. reflexivity.
Qed.

Lemma gather_ok blk off u (d : list Z) : 0 < u -> forall n, Z.of_nat n * u <= zlen d ->
  (forall k, (k < n)%nat -> exists e, get_range d (u * Z.of_nat k) u = Some e /\ get_range blk (off + 16 * Z.of_nat k) u = Some e) ->
  gather_hfa blk off u n = Ok (firstn (Z.to_nat (u * Z.of_nat n)) d).
Proof.
  intros U. induction n as [|n IH]; intros L H.
  - cbn [gather_hfa]. rewrite Z.mul_0_r. reflexivity.
  - cbn [gather_hfa]. rewrite IH; [|lia|intros; apply H; lia]. cbn [bind].
    destruct (H n ltac:(lia)) as (e & E1 & E2). rewrite E2. cbn [of_option bind]. f_equal.
    destruct (get_range_firstn d (u * Z.of_nat n) u) as (e' & E' & F); [nia|lia|nia|].
    assert (e' = e) by congruence. subst e'. rewrite F. f_equal. nia.
Qed.

Lemma contiguous_ok blk off (d : list Z) : forall n, Z.of_nat n * 16 = zlen d -> 0 <= off -> off + 16 * Z.of_nat n <= zlen blk ->
  (forall k, (k < n)%nat -> exists e, get_range d (16 * Z.of_nat k) 16 = Some e /\ get_range blk (off + 16 * Z.of_nat k) 16 = Some e) ->
  get_range blk off (zlen d) = Some d.
Proof.
  intros n L O B H. apply get_range_nth; [lia|apply zlen_nonneg|lia|reflexivity|].
  intros i Hi. unfold zlen in *.
  assert (Hk : (i / 16 < n)%nat) by (apply Nat.div_lt_upper_bound; lia).
  pose proof (Nat.div_mod i 16 ltac:(lia)) as DM. pose proof (Nat.mod_upper_bound i 16 ltac:(lia)) as MB.
  revert Hk DM. generalize (i / 16)%nat. intros k Hk DM.
  destruct (H k Hk) as (e & E1 & E2).
  pose proof (get_range_inv _ _ _ _ E1) as (_ & _ & _ & _ & LE). unfold zlen in LE.
  revert MB DM. generalize (i mod 16)%nat. intros j MB DM.
  pose proof (nth_error_get_range _ _ _ _ j E1) as X1. pose proof (nth_error_get_range _ _ _ _ j E2) as X2.
  rewrite X1 in X2 by lia.
  replace (Z.to_nat (16 * Z.of_nat k) + j)%nat with i in X2 by lia.
  replace (Z.to_nat (off + 16 * Z.of_nat k) + j)%nat with (Z.to_nat off + i)%nat in X2 by lia.
  rewrite X2 by lia. reflexivity.
Qed.

(** compress_hfa_type makes the aggregate contiguous. *)
Lemma compress_ok blk off t c n (d : list Z) : hfa_of t = Some (c, n) -> zlen d = Z.of_nat n * fsize c ->
  0 <= off -> off + 16 * Z.of_nat n <= zlen blk ->
  (forall k, (k < n)%nat -> exists e, get_range d (fsize c * Z.of_nat k) (fsize c) = Some e /\
     get_range blk (off + 16 * Z.of_nat k) (fsize c) = Some e) ->
  exists b, compress_hfa blk off (vfp_code t) = Ok b /\ zlen b = zlen blk /\ get_range b off (zlen d) = Some d /\
    (forall o k, 0 <= k -> o + k <= off \/ off + 16 * Z.of_nat n <= o -> get_range b o k = get_range blk o k).
Proof.
  intros HF L O B H. destruct (vfp_code_pos t c n HF) as (_ & _ & CN & UN & LN).
  pose proof (proj1 (hfa_of_spec _ _ _) HF) as (_ & FC & _).
  unfold compress_hfa. rewrite CN, UN.
  destruct (Z.of_nat n =? 1) eqn:N1; cbn [orb].
  - assert (n = 1%nat) by lia. subst n. exists blk. split; [reflexivity|]. split; [reflexivity|]. split; [|auto].
    destruct (H 0%nat ltac:(lia)) as (e & E1 & E2). rewrite Z.mul_0_r in E1. 
    replace (off + 16 * Z.of_nat 0) with off in E2 by lia.
    assert (ZD : zlen d = fsize c) by lia. rewrite <- ZD in E1. rewrite get_range_all in E1. injection E1 as <-.
    rewrite ZD. exact E2.
  - destruct (fsize c =? 16) eqn:U16.
    + assert (FS : fsize c = 16) by lia. rewrite FS in *. exists blk. split; [reflexivity|]. split; [reflexivity|]. split; [|auto].
      eapply contiguous_ok; eauto; lia.
    + assert (U : 0 < fsize c <= 8) by (destruct c; try discriminate FC; cbn in *; lia).
      rewrite Nat2Z.id. rewrite (gather_ok blk off (fsize c) d ltac:(lia) n ltac:(lia) H). cbn [bind].
      rewrite firstn_all2 by (unfold zlen in L; nia).
      destruct (set_range_ok blk off d) as (b & SB & ZB); [lia|nia|]. rewrite SB. exists b. split; [reflexivity|].
      split; [exact ZB|]. split; [apply (get_set_same _ _ _ _ SB)|].
      intros o k K C. apply (get_set_disjoint _ _ _ _ o k SB). nia.
Qed.

Lemma get_arg_int p win m t blk st : is_int_type t ->
  get_arg p win m t blk st = let '(q, st1) := int_reg_or_stack p (s_sp m) (ty_size t) st in Ok ([q], blk, st1).
Proof.
  intros [-> | H]; [reflexivity|]. cbn in H. repeat (destruct H as [<-|H]; [reflexivity|]). contradiction.
Qed.

Lemma get_arg_agg p m t blk st :
  match ty_code t with T_FLOAT | T_DOUBLE | T_LONGDOUBLE | T_STRUCT | T_COMPLEX => True | _ => False end ->
  get_arg p false m t blk st =
    let s := ty_size t in
    let* h := is_vfp p t in
    if negb (h =? 0) then
      let n := vfp_count h in
      if a_nsrn st + n <=? N_V then
        let reg := 16 * a_nsrn st in
        let* b := compress_hfa blk reg h in
        Ok ([PFrame reg], b, with_nsrn (a_nsrn st + n) st)
      else
        let '(o, st1) := allocate_to_stack p (with_nsrn N_V st) (ty_align t) s in
        Ok ([PAddr (s_sp m + o)], blk, st1)
    else if s >? 16 then
      let '(q, st1) := int_reg_or_stack p (s_sp m) 8 st in
      let* a := load_ptr m blk q in
      Ok ([PAddr a], blk, st1)
    else
      let n := (s + 7) / 8 in
      if a_ngrn st + n <=? N_X then
        Ok ([PFrame (16 * N_V + 8 * a_ngrn st)], blk, with_ngrn (a_ngrn st + n) st)
      else
        let '(o, st1) := allocate_to_stack p (with_ngrn N_X st) (ty_align t) s in
        Ok ([PAddr (s_sp m + o)], blk, st1).
Proof. unfold get_arg. destruct (ty_code t); intros H; try contradiction; reflexivity. Qed.

(** The frame still holds the registers not yet looked at. *)
Definition frame_inv (m : astate) (usev : Prop) (nsrn : Z) (blk : list Z) : Prop :=
  zlen blk = 256 /\
  (forall o k, 0 <= o -> 0 <= k -> o + k <= 64 -> get_range blk (128 + o) k = get_range (s_x m) o k) /\
  (usev -> forall o k, 16 * nsrn <= o -> 0 <= k -> o + k <= 128 -> get_range blk o k = get_range (s_v m) o k).

(** The frame part handed out so far stays. *)
Definition frame_keeps (nsrn : Z) (b b' : list Z) : Prop :=
  forall o k, 0 <= o -> 0 <= k -> (o + k <= 16 * nsrn \/ 128 <= o /\ o + k <= 192) -> get_range b' o k = get_range b o k.

Definition st_of (st : ast) (var : bool) (g v : Z) : Prop :=
  if var then a_ngrn st = 8 /\ a_nsrn st = 8 else a_ngrn st = g /\ a_nsrn st = v.

Lemma int_reg_ok p m sz st var g v s : rel (is_apple p) st var g v s -> is_pow2 sz -> sz <= 8 ->
  forall pl g' s', (pl, g', s') = (if negb var && (g + 1 <=? 8) then (Xregs g, g + 1, s)
                     else (Stack (round_up s (stack_align (is_apple p) var sz)), 8,
                           round_up s (stack_align (is_apple p) var sz) + stack_size (is_apple p) sz)) ->
  s' < 2 ^ 60 ->
  exists q st', int_reg_or_stack p (s_sp m) sz st = (q, st') /\ rel (is_apple p) st' var g' v s' /\
    a_nsrn st' = a_nsrn st /\
    forall blk usev nsrn t d, frame_inv m usev nsrn blk -> zlen d <= 8 ->
      at_place (s_x m) (s_v m) (s_sp m) (s_read m) t pl d -> read_aptr m blk q (zlen d) = Some d.
Proof.
  intros R PW S8 pl g' s' PL B. pose proof R as (V & RG & G & VV & N & S). pose proof (is_pow2_pos _ PW) as SP.
  unfold int_reg_or_stack. change N_X with 8. change (16 * N_V) with 128.
  destruct (a_ngrn st <? 8) eqn:GR.
  - destruct var; [exfalso; lia|]. destruct RG as [RG1 RG2]. cbn [negb andb] in PL.
    replace (g + 1 <=? 8) with true in PL by lia. injection PL as -> -> ->.
    eexists _, _. split; [reflexivity|]. split. { unfold rel, with_ngrn; cbn. repeat split; auto; lia. }
    split; [reflexivity|]. intros blk usev nsrn t d (_ & FX & _) L H. cbn [at_place read_aptr] in *.
    pose proof (zlen_nonneg d). rewrite FX by lia. rewrite RG1. exact H.
  - assert (C : negb var && (g + 1 <=? 8) = false) by (destruct var; [reflexivity|cbn; lia]).
    rewrite C in PL. injection PL as -> -> ->.
    assert (R2 : rel (is_apple p) (with_ngrn 8 st) var 8 v s).
    { unfold rel, with_ngrn; cbn. destruct var; repeat split; auto; try lia; tauto. }
    destruct (allocate_ok p (with_ngrn 8 st) var 8 v s sz sz R2 PW ltac:(lia) ltac:(lia) B) as (st1 & AL & N1 & N2 & N3 & N4 & N5 & N6 & N7 & N8 & N9).
    rewrite AL. eexists _, st1. split; [reflexivity|].
    cbn in N1, N2, N3. split.
    { unfold rel. rewrite N1, N2, N4, N5. repeat split; auto; try lia.
      - destruct var; [tauto|]. split; [reflexivity|tauto].
      - destruct (is_apple p) eqn:APL; [unfold stack_size; lia|]. exact N8. }
    split; [exact N2|]. intros blk usev nsrn t d _ L H. exact H.
Qed.

Lemma get_arg_ok p m t (o : list Z) ptr (blk : list Z) st var g v s (usev : Prop) :
  natural t -> quads_ok p t -> zlen o = ty_size t -> zlen (s_x m) = 64 ->
  (by_ref t = true -> 0 <= ptr < 2 ^ 64) ->
  rel (is_apple p) st var g v s -> (hfa_of t <> None -> usev) ->
  forall pl g' v' s', place_arg (is_apple p) var t g v s = (pl, g', v', s') ->
  0 <= s -> s' < 2 ^ 60 -> frame_inv m usev (a_nsrn st) blk ->
  (if by_ref t then at_place (s_x m) (s_v m) (s_sp m) (s_read m) t pl (le_enc 8 ptr) /\ s_read m ptr (ty_size t) = Some o
   else at_place (s_x m) (s_v m) (s_sp m) (s_read m) t pl o) ->
  exists q b st', get_arg p false m t blk st = Ok ([q], b, st') /\ rel (is_apple p) st' var g' v' s' /\
    a_nsrn st <= a_nsrn st' /\ frame_inv m usev (a_nsrn st') b /\ frame_keeps (a_nsrn st) blk b /\
    forall b2, frame_keeps (a_nsrn st') b b2 -> read_aptr m b2 q (ty_size t) = Some o.
Proof.
  intros N Q LO ZX PB R UV pl g' v' s' PL S0 SB FI H.
  pose proof (natural_basic _ N) as (SP & PW & A16 & DV). pose proof (is_pow2_pos _ PW) as AP.
  pose proof R as (V & RG & G & VV & NN & S). pose proof FI as (FZ & FX & FV).
  assert (KR : frame_keeps (a_nsrn st) blk blk) by (intros ? ? ? ? ?; reflexivity).
  destruct (natural_int_or t N) as [I|C].
  - destruct (int_type_facts t I) as (HN & AS & SZ & _).
    assert (BR : by_ref t = false) by (unfold by_ref; rewrite HN; lia). rewrite BR in H.
    assert (DIV : (ty_size t + 7) / 8 = 1).
    { pose proof (Z.div_mod (ty_size t + 7) 8). pose proof (Z.mod_pos_bound (ty_size t + 7) 8). lia. }
    unfold place_arg in PL. rewrite HN, BR, DIV in PL.
    assert (PL' : (pl, g', s') = (if negb var && (g + 1 <=? 8) then (Xregs g, g + 1, s)
                     else (Stack (round_up s (stack_align (is_apple p) var (ty_size t))), 8,
                           round_up s (stack_align (is_apple p) var (ty_size t)) + stack_size (is_apple p) (ty_size t))) /\ v' = v).
    { rewrite AS in PL. destruct (negb var && (g + 1 <=? 8)); injection PL as <- <- <- <-; auto. }
    destruct PL' as [PL' ->]. rewrite AS in PW.
    destruct (int_reg_ok p m (ty_size t) st var g v s R PW ltac:(lia) pl g' s' PL' SB) as (q & st' & E & R' & NS & RD).
    rewrite (get_arg_int _ _ _ _ _ _ I), E. exists q, blk, st'. split; [reflexivity|]. split; [exact R'|].
    split; [lia|]. rewrite NS. split; [exact FI|]. split; [exact KR|].
    intros b2 K. rewrite <- LO.
    assert (FI2 : frame_inv m False (a_nsrn st) b2 \/ True) by (right; exact Logic.I).
    assert (RX : read_aptr m blk q (zlen o) = Some o) by (eapply RD; eauto; lia).
    destruct q as [off|a]; [|exact RX]. cbn [read_aptr] in *. rewrite <- RX.
    revert E. unfold int_reg_or_stack. change N_X with 8. change (16 * N_V) with 128.
    destruct (a_ngrn st <? 8) eqn:GR.
    + intros E. injection E as <- <-. apply K; [destruct var; lia|apply zlen_nonneg|]. right. destruct var; lia.
    + destruct (allocate_to_stack _ _ _ _) as [? ?]. intros E. discriminate E.
  - rewrite (get_arg_agg _ _ _ _ _ C). rewrite (is_vfp_exact p t N Q). cbn [bind]. cbv zeta.
    change (16 * N_V) with 128. change N_X with 8. change N_V with 8.
    destruct (hfa_of t) as [[c n]|] eqn:HF.
    + destruct (vfp_code_pos t c n HF) as (_ & NZ & CNT & UN & LN).
      assert (BR : by_ref t = false) by (unfold by_ref; rewrite HF; reflexivity). rewrite BR in H.
      replace (negb (vfp_code t =? 0)) with true by lia. rewrite CNT.
      pose proof (proj1 (hfa_of_spec _ _ _) HF) as (MM & FC & _).
      destruct (homogeneous_size t N c n FC MM) as [HS HA].
      assert (U : 0 < fsize c <= 16) by (destruct c; try discriminate FC; cbn; lia).
      unfold place_arg in PL. rewrite HF in PL.
      destruct (a_nsrn st + Z.of_nat n <=? 8) eqn:VR.
      * destruct var; [exfalso; lia|]. destruct RG as [RG1 RG2].
        cbn [negb andb] in PL. replace (v + Z.of_nat n <=? 8) with true in PL by lia. injection PL as <- <- <- <-.
        cbn [at_place] in H. destruct H as (c0 & n0 & HF0 & H). rewrite HF in HF0. injection HF0 as <- <-.
        assert (UU : usev) by (apply UV; discriminate). specialize (FV UU).
        destruct (compress_ok blk (16 * a_nsrn st) t c n o HF ltac:(lia) ltac:(lia) ltac:(lia)) as (b & E & ZB & GB & KB).
        { intros k Hk. destruct (H k Hk) as (e & E1 & E2). exists e. split; [exact E1|].
          rewrite FV by lia. replace (16 * a_nsrn st + 16 * Z.of_nat k) with (16 * (v + Z.of_nat k)) by lia. exact E2. }
        rewrite E. cbn [bind]. eexists _, b, _. split; [reflexivity|].
        split. { unfold rel, with_nsrn; cbn. repeat split; auto; lia. }
        split; [cbn; lia|]. cbn [with_nsrn a_nsrn].
        split. { split; [lia|]. split.
          - intros o' k O K L. rewrite KB by lia. apply FX; auto.
          - intros _ o' k O K L. rewrite KB by lia. apply FV; lia. }
        split. { intros o' k O K L. apply KB; lia. }
        intros b2 K. cbn [read_aptr]. assert (ty_size t <= 16 * Z.of_nat n) by nia.
        cbn [with_nsrn a_nsrn] in K. rewrite K by lia. rewrite <- LO. exact GB.
      * assert (CC : negb var && (v + Z.of_nat n <=? 8) = false) by (destruct var; [reflexivity|cbn; lia]).
        rewrite CC in PL. injection PL as <- <- <- <-.
        assert (R2 : rel (is_apple p) (with_nsrn 8 st) var g 8 s).
        { unfold rel, with_nsrn; cbn. destruct var; repeat split; auto; try lia; tauto. }
        destruct (allocate_ok p (with_nsrn 8 st) var g 8 s (ty_align t) (ty_size t) R2 PW A16 SP ltac:(lia)) as (st1 & AL & N1 & N2 & N3 & N4 & N5 & N6 & N7 & N8 & N9).
        cbv zeta in N5, N6, N7, N8, AL. rewrite AL. cbn in N1, N2, N3.
        eexists _, blk, st1. split; [reflexivity|].
        split.
        { unfold rel. rewrite N1, N2, N4, N5. repeat split; auto; try lia.
          - destruct var; [tauto|]. split; [tauto|reflexivity].
          - destruct (is_apple p) eqn:APL; [unfold stack_size; lia|]. exact N8. }
        split; [destruct var; lia|]. split.
        { split; [exact FZ|]. split; [exact FX|]. intros UU o' k O K L. apply FV; auto. destruct var; lia. }
        split; [exact KR|]. intros b2 K. cbn [read_aptr at_place] in *. rewrite <- LO. exact H.
    + assert (VZ : vfp_code t = 0) by (unfold vfp_code; rewrite HF; reflexivity). rewrite VZ. cbn [Z.eqb negb].
      unfold place_arg in PL. rewrite HF in PL.
      assert (BR : by_ref t = (ty_size t >? 16)) by (unfold by_ref; rewrite HF; reflexivity).
      rewrite BR in H, PL, PB. destruct (ty_size t >? 16) eqn:S16.
      * change ((8 + 7) / 8) with 1 in PL.
        assert (PL' : (pl, g', s') = (if negb var && (g + 1 <=? 8) then (Xregs g, g + 1, s)
                     else (Stack (round_up s (stack_align (is_apple p) var 8)), 8,
                           round_up s (stack_align (is_apple p) var 8) + stack_size (is_apple p) 8)) /\ v' = v).
        { destruct (negb var && (g + 1 <=? 8)); injection PL as <- <- <- <-; auto. }
        destruct PL' as [PL' ->].
        assert (P8 : is_pow2 8) by (exists 3; split; [lia|reflexivity]).
        destruct (int_reg_ok p m 8 st var g v s R P8 ltac:(lia) pl g' s' PL' SB) as (q & st' & E & R' & NS & RD).
        rewrite E. destruct H as [H1 H2]. specialize (PB eq_refl).
        assert (RX : read_aptr m blk q 8 = Some (le_enc 8 ptr)).
        { rewrite <- (le_enc_zlen 8 ptr) at 1. change (Z.of_nat 8) with 8. eapply RD; eauto. rewrite le_enc_zlen. lia. }
        assert (LP : load_ptr m blk q = Ok ptr).
        { unfold load_ptr, read_aptr in *. destruct q; rewrite RX; cbn [of_option bind]; rewrite le_dec_enc;
            change (2 ^ (8 * Z.of_nat 8)) with (2 ^ 64); rewrite Z.mod_small by lia; reflexivity. }
        rewrite LP. cbn [bind]. eexists _, blk, st'. split; [reflexivity|]. split; [exact R'|].
        split; [lia|]. rewrite NS. split; [exact FI|]. split; [exact KR|]. intros b2 K. exact H2.
      * assert (D8 : ty_size t <= 8 * ((ty_size t + 7) / 8) /\ 0 < (ty_size t + 7) / 8).
        { pose proof (Z.div_mod (ty_size t + 7) 8). pose proof (Z.mod_pos_bound (ty_size t + 7) 8). lia. }
        destruct (a_ngrn st + (ty_size t + 7) / 8 <=? 8) eqn:GR.
        -- destruct var; [exfalso; lia|]. destruct RG as [RG1 RG2].
           cbn [negb andb] in PL. replace (g + (ty_size t + 7) / 8 <=? 8) with true in PL by lia. injection PL as <- <- <- <-.
           eexists _, blk, _. split; [reflexivity|].
           split. { unfold rel, with_ngrn; cbn. repeat split; auto; lia. }
           split; [cbn; lia|]. split; [exact FI|]. split; [exact KR|].
           intros b2 K. cbn [read_aptr at_place] in *. rewrite K by lia. rewrite FX by lia. rewrite <- LO, RG1. exact H.
        -- assert (CC : negb var && (g + (ty_size t + 7) / 8 <=? 8) = false) by (destruct var; [reflexivity|cbn; lia]).
           rewrite CC in PL. injection PL as <- <- <- <-.
           assert (R2 : rel (is_apple p) (with_ngrn 8 st) var 8 v s).
           { unfold rel, with_ngrn; cbn. destruct var; repeat split; auto; try lia; tauto. }
           destruct (allocate_ok p (with_ngrn 8 st) var 8 v s (ty_align t) (ty_size t) R2 PW A16 SP ltac:(lia)) as (st1 & AL & N1 & N2 & N3 & N4 & N5 & N6 & N7 & N8 & N9).
           cbv zeta in N5, N6, N7, N8, AL. rewrite AL. cbn in N1, N2, N3.
           eexists _, blk, st1. split; [reflexivity|].
           split.
           { unfold rel. rewrite N1, N2, N4, N5. repeat split; auto; try lia.
             - destruct var; [tauto|]. split; [reflexivity|tauto].
             - destruct (is_apple p) eqn:APL; [unfold stack_size; lia|]. exact N8. }
           split; [lia|]. rewrite N2. split; [exact FI|].
           split; [exact KR|]. intros b2 K. cbn [read_aptr at_place] in *. rewrite <- LO. exact H.
Qed.

(** Every argument is read correctly through its pointer. *)
Fixpoint seen (m : astate) (blk : list Z) (ts : list ftype) (l : list aptr) (objs : list (list Z)) : Prop :=
  match ts, l, objs with
  | [], [], [] => True
  | t :: ts', q :: l', o :: objs' => read_aptr m blk q (ty_size t) = Some o /\ seen m blk ts' l' objs'
  | _, _, _ => False
  end.

Lemma get_args_ok p m fixed (usev : Prop) : (forall n, fixed = Some n -> 1 <= n) -> zlen (s_x m) = 64 ->
  forall ts, Forall natural ts -> Forall (quads_ok p) ts -> (any_hfa ts = true -> usev) ->
  forall objs, objects_ok ts objs -> forall i blk st g v s pls e ptrs, 0 <= i ->
  rel (is_apple p) st (variadic (is_apple p) fixed i) g v s ->
  assign (is_apple p) fixed i ts g v s = (pls, e) -> 0 <= s -> e < 2 ^ 60 -> frame_inv m usev (a_nsrn st) blk ->
  Forall (fun a => 0 <= a < 2 ^ 64) ptrs ->
  held (s_x m) (s_v m) (s_sp m) (s_read m) ts pls objs ptrs ->
  exists l b, get_args p false (nfixed_of p fixed) m i ts blk st = Ok (l, b) /\
    zlen b = 256 /\ frame_keeps (a_nsrn st) blk b /\
    forall b2, frame_keeps 8 b b2 -> seen m b2 ts l objs.
Proof.
  intros FX ZX ts F. induction F as [|t r N F IH]; intros Q UV objs O i blk st g v s pls e ptrs I R AS S0 EB FI PP H.
  - cbn [assign] in AS. injection AS as <- <-. inversion O; subst. cbn [get_args]. exists [], blk.
    split; [reflexivity|]. split; [apply FI|]. split; [intros ? ? ? ? ?; reflexivity|]. intros. exact Logic.I.
  - inversion O as [|t0 o r0 os [LO BO] O']; subst. inversion Q as [|? ? Qt Qr]; subst.
    cbn [assign] in AS. destruct (place_arg (is_apple p) (variadic (is_apple p) fixed i) t g v s) as [[[pl g'] v'] s'] eqn:PL.
    destruct (assign (is_apple p) fixed (i + 1) r g' v' s') as [l e'] eqn:AS'. injection AS as <- <-.
    pose proof (place_arg_mono _ _ _ _ _ _ _ _ _ _ N S0 PL) as M1.
    assert (S2 : 0 <= s') by lia. pose proof (assign_mono _ _ _ F _ _ _ _ _ _ S2 AS') as M2.
    assert (UR : any_hfa r = true -> usev).
    { intros E. apply UV. cbn [any_hfa existsb]. unfold any_hfa in E. rewrite E. apply orb_true_r. }
    assert (UT : hfa_of t <> None -> usev).
    { intros E. apply UV. cbn [any_hfa existsb]. destruct (hfa_of t); [reflexivity|congruence]. }
    cbn [held] in H.
    assert (H' : exists ptr ptrs', (by_ref t = true -> 0 <= ptr < 2 ^ 64) /\ Forall (fun a => 0 <= a < 2 ^ 64) ptrs' /\
      (if by_ref t then at_place (s_x m) (s_v m) (s_sp m) (s_read m) t pl (le_enc 8 ptr) /\ s_read m ptr (ty_size t) = Some o
       else at_place (s_x m) (s_v m) (s_sp m) (s_read m) t pl o) /\
      held (s_x m) (s_v m) (s_sp m) (s_read m) r l os ptrs').
    { destruct (by_ref t).
      - destruct ptrs as [|a ps]; [contradiction|]. inversion PP as [|? ? PA PB]; subst. destruct H as (HA & HB & HC). exists a, ps. auto.
      - destruct H as (HA & HC). exists 0, ptrs. repeat split; auto; discriminate. }
    destruct H' as (ptr & ptrs' & PB & PP' & HT & HR).
    assert (SB : s' < 2 ^ 60) by lia.
    destruct (get_arg_ok p m t o ptr blk st _ g v s usev N Qt LO ZX PB R UT pl g' v' s' PL S0 SB FI HT)
      as (q & b1 & st1 & E1 & R1 & NS & FI1 & K1 & RD).
    pose proof (after_rel p fixed i st1 g' v' s' I FX R1) as R2.
    destruct (after_fields p (nfixed_of p fixed) i st1) as (_ & _ & AF3).
    assert (G8 : a_nsrn st1 <= 8).
    { destruct R1 as (_ & X & X1 & X2 & _). destruct (variadic (is_apple p) fixed i); lia. }
    specialize (AF3 G8).
    assert (FI2 : frame_inv m usev (a_nsrn (after_arg p (nfixed_of p fixed) i st1)) b1).
    { destruct FI1 as (A & B & C). split; [exact A|]. split; [exact B|]. intros UU o' k O1 K2 L. apply C; auto. lia. }
    destruct (IH Qr UR os O' (i + 1) b1 _ g' v' s' l e' ptrs' ltac:(lia) R2 AS' S2 EB FI2 PP' HR) as (l' & b & E & ZB & K & SN).
    cbn [get_args]. rewrite E1. cbn [bind]. rewrite E. cbn [bind]. exists (q :: l'), b. split; [reflexivity|]. split; [exact ZB|].
    split. { intros o' k O1 K2 L. rewrite K by lia. apply K1; auto. }
    intros b2 K2. cbn [seen]. split; [|apply SN; auto].
    apply RD. intros o' k O1 K3 L. rewrite K2 by lia. apply K; lia.
Qed.

Theorem closure_args p abi fixed rt ts c m objs ptrs g_v slot :
  signature_ok p abi fixed rt ts -> prep p abi fixed rt ts = Ok c -> objects_ok ts objs ->
  zlen (s_x m) = 64 -> zlen (s_v m) = 128 -> zlen g_v = 128 -> zlen slot = 64 ->
  stack_used (is_apple p) fixed ts < 2 ^ 60 -> Forall (fun a => 0 <= a < 2 ^ 64) ptrs ->
  held (s_x m) (s_v m) (s_sp m) (s_read m) ts (places (is_apple p) fixed ts) objs ptrs ->
  exists l blk r fl, closure p c m g_v slot = Ok (l, blk, r, fl) /\ zlen blk = 256 /\
    (forall blk2, (forall o k, 0 <= o -> 0 <= k -> o + k <= 192 -> get_range blk2 o k = get_range blk o k) -> seen m blk2 ts l objs) /\
    r = (if in_memory rt then RCaller (s_x8 m) else RSlot) /\
    Z.land fl A_RET_MASK = Z.land (spec_flags rt) A_RET_MASK.
Proof.
  intros SO PR O ZX ZV ZG ZS EB PP H. pose proof SO as (N & Q & RT & FX & W).
  rewrite (prep_ok _ _ _ _ _ SO) in PR. injection PR as PR.
  assert (EA : k_args c = ts) by (rewrite <- PR; reflexivity).
  assert (EF : k_flags c = all_flags p fixed rt ts) by (rewrite <- PR; reflexivity).
  assert (EN : k_nfixed c = nfixed_of p fixed) by (rewrite <- PR; reflexivity).
  assert (EK : k_abi c = abi) by (rewrite <- PR; reflexivity).
  clear PR.
  pose proof (flags_bits p fixed rt ts RT) as FB. cbv zeta in FB. rewrite <- EF in FB.
  destruct FB as (F1 & F2 & F3 & F4 & F5 & F6 & F7 & F8 & F9 & F10).
  assert (WV : win_variadic c = false).
  { unfold win_variadic. rewrite F1, EK. destruct (abi =? A_WIN64) eqn:EW; [|reflexivity].
    destruct (W ltac:(lia)) as [-> | ->]; [destruct p; reflexivity|reflexivity]. }
  unfold places, stack_used in *. destruct (assign (is_apple p) fixed 0 ts 0 0 0) as [pls e] eqn:AS. cbn [fst snd] in *.
  assert (R0 : rel (is_apple p) (arg_init (k_bytes c)) (variadic (is_apple p) fixed 0) 0 0 0).
  { assert (V0 : variadic (is_apple p) fixed 0 = false).
    { unfold variadic. destruct fixed as [n|]; [|reflexivity]. specialize (FX n eq_refl). destruct (is_apple p); [cbn; lia|reflexivity]. }
    rewrite V0. unfold rel; cbn. repeat split; try lia. destruct (is_apple p); reflexivity. }
  set (vv := if Z.land (k_flags c) A_ARG_V =? 0 then g_v else s_v m).
  assert (LV : zlen vv = 128).
  { clear -ZG ZV. subst vv. case (Z.land (k_flags c) A_ARG_V =? 0); assumption. }
  assert (FI : frame_inv m (any_hfa ts = true) 0 (vv ++ s_x m ++ slot)).
  { assert (GA : forall (a b c : list Z) o k, 0 <= o -> 0 <= k -> o + k <= zlen b -> get_range (a ++ b ++ c) (zlen a + o) k = get_range b o k).
    { clear. intros a b c o k O K L.
      assert (W : get_range (a ++ b ++ c) (zlen a) (zlen b) = Some b).
      { pose proof (zlen_nonneg a). pose proof (zlen_nonneg b). pose proof (zlen_nonneg c).
        rewrite get_range_some by (rewrite ?zlen_app; lia). f_equal. unfold zlen. rewrite !Nat2Z.id.
        rewrite skipn_app, skipn_all, Nat.sub_diag. cbn [skipn app]. rewrite firstn_app, Nat.sub_diag, firstn_all. cbn [firstn]. apply app_nil_r. }
      apply (get_range_sub _ _ _ _ o k W); lia. }
    split; [rewrite !zlen_app; lia|]. split.
    - intros o k OO K L. rewrite <- LV. apply GA; lia.
    - intros U o k OO K L. unfold vv. rewrite F3, U. cbn [negb].
      pose proof (GA [] (s_v m) (s_x m ++ slot) o k) as G. cbn [app] in G. change (zlen (@nil Z)) with 0 in G. rewrite Z.add_0_l in G. apply G; lia. }
  unfold closure. rewrite WV, EA, EN. fold vv.
  destruct (get_args_ok p m fixed (any_hfa ts = true) FX ZX ts N Q (fun x => x) objs O 0 (vv ++ s_x m ++ slot) (arg_init (k_bytes c)) 0 0 0 pls e ptrs
     ltac:(lia) R0 AS ltac:(lia) EB FI PP H) as (l & b & E & ZB & K & SN).
  rewrite E. cbn [bind]. eexists l, b, _, _. split; [reflexivity|].
  split; [exact ZB|]. split; [intros b2 K2; apply SN; intros ? ? ? ? ?; apply K2; lia|]. split.
  { rewrite F6, (in_mem_bit p rt RT). unfold in_memory. destruct (by_ref rt); reflexivity. }
  exact F10.
Qed.
