(** The two return tables on x86-64 against the psABI return convention. *)
From Coq Require Import ZifyBool ZifyNat Znumtheory.
From Verif Require Import Base BaseFacts Types LayoutSpec NaturalTypes NaturalFacts Unix64Model Unix64Spec Unix64Link Unix64Classify Unix64Call Unix64Fill Unix64Closure Unix64Ret Unix64Main.
Ltac Zify.zify_post_hook ::= Z.div_mod_to_equations.
Local Arguments Z.mul : simpl never.
Local Arguments Z.add : simpl never.
Local Arguments Z.sub : simpl never.
Local Arguments Z.pow : simpl never.
Local Arguments Z.div : simpl never.
Local Arguments Z.modulo : simpl never.
Local Arguments Z.leb : simpl never.
Local Arguments Z.ltb : simpl never.
Local Arguments Z.eqb : simpl never.
Local Arguments Z.gtb : simpl never.
Local Arguments le_enc : simpl never.

Lemma to_signed_low n x : to_signed n (x mod 2 ^ n) = to_signed n x.
Proof.
  unfold to_signed. destruct (Z.eq_dec (2 ^ n) 0) as [E|E].
  - rewrite E. rewrite !Zmod_0_r. reflexivity.
  - rewrite Z.mod_mod by auto. reflexivity.
Qed.

Lemma integral_cases t : natural t -> integral t = true ->
  exists n : nat, (n = 1 \/ n = 2 \/ n = 4 \/ n = 8)%nat /\ ty_size t = Z.of_nat n /\
    passing_of t = PRegs [EInt] /\ flatten t 0 = [(0, ty_size t, KInt)] /\
    ((signed_narrow t = true /\ n <> 8%nat) \/ signed_narrow t = false) /\
    match ty_code t with
    | T_UINT8 => signed_narrow t = false /\ n = 1%nat | T_SINT8 => signed_narrow t = true /\ n = 1%nat
    | T_UINT16 => signed_narrow t = false /\ n = 2%nat | T_SINT16 => signed_narrow t = true /\ n = 2%nat
    | T_UINT32 => signed_narrow t = false /\ n = 4%nat | T_SINT32 => signed_narrow t = true /\ n = 4%nat
    | T_UINT64 | T_SINT64 | T_POINTER => signed_narrow t = false /\ n = 8%nat
    | _ => False end.
Proof.
  destruct t as [c s a es]. intros N H.
  destruct (natural_inv _ _ _ _ N) as [S|[(t0 & _ & -> & _)|(-> & _)]]; [|discriminate|discriminate].
  apply scalar_cases in S.
  repeat (destruct S as [S|S]); injection S as -> -> -> ->; try discriminate H;
  first [ exists 1%nat; split; [lia|split; [reflexivity|split; [reflexivity|split; [reflexivity|split; [first [right; reflexivity|left; split; [reflexivity|lia]]|split; reflexivity]]]]]
        | exists 2%nat; split; [lia|split; [reflexivity|split; [reflexivity|split; [reflexivity|split; [first [right; reflexivity|left; split; [reflexivity|lia]]|split; reflexivity]]]]]
        | exists 4%nat; split; [lia|split; [reflexivity|split; [reflexivity|split; [reflexivity|split; [first [right; reflexivity|left; split; [reflexivity|lia]]|split; reflexivity]]]]]
        | exists 8%nat; split; [lia|split; [reflexivity|split; [reflexivity|split; [reflexivity|split; [first [right; reflexivity|left; split; [reflexivity|lia]]|split; reflexivity]]]]] ].
Qed.

(** Decide the comparisons of a known code. *)
Ltac known := repeat match goal with |- context [?a =? ?b] =>
  let r := eval vm_compute in (a =? b) in
  match r with true => idtac | false => idtac end; change (a =? b) with r; cbn iota end.

(** One store at the start of the buffer. *)
Lemma store_front (buf d : list Z) (w : Z) : zlen d <= w -> w <= zlen buf -> exists buf', set_range buf 0 d = Some buf' /\
  zlen buf' = zlen buf /\ get_range buf' 0 (zlen d) = Some d /\
  forall o n, w <= o -> get_range buf' o n = get_range buf o n.
Proof.
  intros H1 H2. destruct (set_range_ok buf 0 d) as (b' & E & L); [lia|lia|]. exists b'. split; [auto|]. split; [auto|].
  split; [eapply get_set_same; eauto|]. intros o n Ho. eapply get_set_disjoint; eauto. right. lia.
Qed.

Lemma same_value_scalar t v w : flatten t 0 = [(0, ty_size t, KInt)] -> zlen v = ty_size t -> same_value t v w -> w = v.
Proof.
  intros F L [L' H]. rewrite F in H. destruct (H 0 (ty_size t) KInt (or_introl eq_refl)) as (d & D1 & D2). cbn [value_size] in *.
  rewrite <- L, get_range_all in D1. rewrite <- L, <- L', get_range_all in D2. congruence.
Qed.

Lemma scratch1 gpr xmm r w n : regs_hold gpr xmm [r] w -> zlen w = n -> forall b b2, reg_low gpr xmm r 8 = Some b -> n <= zlen b ->
  get_range (b ++ b2) 0 n = Some w.
Proof.
  intros H L b b2 Hb Ln. destruct (hold1 _ _ _ _ H) as (b' & Eb & W). rewrite Hb in Eb. apply Some_inj in Eb. subst b'.
  pose proof (zlen_nonneg w). pose proof (zlen_nonneg b2).
  rewrite get_range_some by (rewrite ?zlen_app; lia). f_equal. change (Z.to_nat 0) with 0%nat. change (skipn 0 ?l) with l.
  rewrite firstn_app. replace (Z.to_nat n - length b)%nat with 0%nat by (unfold zlen in *; lia). rewrite firstn_O, app_nil_r.
  rewrite W at 1. f_equal. unfold zlen in *. lia.
Qed.

Lemma scratch2 gpr xmm r1 r2 w n : regs_hold gpr xmm [r1; r2] w -> zlen w = n -> 8 < n <= 16 -> forall b1 b2,
  reg_low gpr xmm r1 8 = Some b1 -> reg_low gpr xmm r2 8 = Some b2 -> zlen b2 = 8 ->
  get_range (b1 ++ b2) 0 n = Some w.
Proof.
  intros H L Ln b1 b2 H1 H2 L2. unfold zlen in L. destruct (hold2 _ _ _ _ w ltac:(lia) H) as (b1' & b2' & E1 & E2 & L1 & W).
  rewrite H1 in E1. apply Some_inj in E1. subst b1'. rewrite H2 in E2. apply Some_inj in E2. subst b2'.
  unfold zlen in *. rewrite get_range_some by (unfold zlen; rewrite ?app_length; lia). f_equal.
  change (Z.to_nat 0) with 0%nat. change (skipn 0 ?l) with l. rewrite W at 1. f_equal. lia.
Qed.

Lemma reg_low_len gpr xmm r b : Forall (fun b => zlen b = 16) xmm -> reg_low gpr xmm r 8 = Some b -> zlen b = 8.
Proof.
  intros F. destruct r as [i|i|]; cbn [reg_low]; [| |discriminate].
  - destruct (znth gpr i); [|discriminate]. intros H. apply Some_inj in H. subst b. apply le_enc_zlen.
  - destruct (znth xmm i) eqn:Z; [|discriminate]. intros H. apply Some_inj in H. subst b. rewrite zlen_firstn.
    rewrite Forall_forall in F. rewrite (F l) by (eapply znth_in; eauto). reflexivity.
Qed.

(** Length of the class list. *)
Lemma passing_len t l : natural t -> passing_of t = PRegs l -> zlen l = eightbytes (ty_size t) /\ ty_size t <= 16.
Proof.
  intros N P. destruct (examine_ok t true N) as (e & _ & Oe). unfold exam_ok in Oe. rewrite P in Oe.
  destruct Oe as (cl & _ & _ & _ & _ & O4 & _ & O6). split; [|auto]. rewrite O4, words_length. unfold eightbytes.
  destruct (natural_basic _ N) as (Bs & _). lia.
Qed.

Lemma flags_value code size x : 0 <= code < 16 -> 0 <= size <= 16 ->
  mkflags code size x mod 256 = code /\ Z.shiftr (wrap32 (mkflags code size x)) SIZE_SHIFT = size.
Proof. intros. split; [apply mkflags_code|apply mkflags_size]; auto. Qed.

Lemma store_ret_ok rt v x fl r buf : natural rt -> hidden_pointer rt = false -> struct_x87 rt = false ->
  zlen v = ty_size rt -> bytes_ok v -> rstate_ok r -> flags_ok rt x fl ->
  returned rt (rs_rax r) (rs_rdx r) (rs_xmm0 r) (rs_xmm1 r) (rs_st0 r) (rs_st1 r) v ->
  result_width rt <= zlen buf ->
  exists buf', store_ret fl r buf = Ok buf' /\ result_holds rt v buf' /\ zlen buf' = zlen buf /\
    forall o n, result_width rt <= o -> get_range buf' o n = get_range buf o n.
Proof.
  intros N Hh Sx L B (R1 & R2 & R3 & R4 & R5 & R6) Fl Rt W.
  unfold flags_ok in Fl. rewrite Hh in Fl. destruct Fl as (code & size & Hc & Hs & -> & CO).
  pose proof (natural_not_void _ N) as NV.
  replace (match ty_code rt with T_VOID => true | _ => false end) with false in CO by (destruct (ty_code rt); congruence).
  destruct (flags_value code size x Hc Hs) as [FC FS].
  destruct (natural_basic _ N) as (Bs & _).
  unfold store_ret. rewrite FC, FS. cbv zeta. unfold code_ok in CO. unfold returned in Rt.
  unfold result_holds, result_width in *.
  destruct (passing_of rt) as [|l| |] eqn:P; [contradiction| | |].
  - destruct (integral rt) eqn:It.
    + destruct (integral_cases rt N It) as (n & Hn & Sz & P' & Fl & Sg & Cd).
      rewrite P in P'. injection P' as ->. destruct Rt as (w & SV & RH).
      apply (same_value_scalar _ _ _ Fl L) in SV. subst w.
      cbn [take_regs regs_hold] in RH. destruct RH as [RH _]. cbn [reg_low] in RH.
      change (znth [rs_rax r; rs_rdx r] 0) with (Some (rs_rax r)) in RH. cbn iota in RH. apply Some_inj in RH.
      assert (Lv : length v = n) by (unfold zlen in L; lia).
      rewrite (firstn_all2 (n := 8)) in RH by lia. rewrite Lv in RH. replace (Nat.min 8 n) with n in RH by lia.
      assert (Dv : le_dec v = rs_rax r mod 2 ^ (8 * Z.of_nat n)) by (rewrite <- RH; apply le_dec_enc).
      assert (Fin : forall d, d = le_enc 8 (widened rt v) -> exists buf', of_option (set_range buf 0 d) = Ok buf' /\
        get_range buf' 0 8 = Some (le_enc 8 (widened rt v)) /\ zlen buf' = zlen buf /\
        forall o n, 8 <= o -> get_range buf' o n = get_range buf o n).
      { intros d ->. destruct (store_front buf (le_enc 8 (widened rt v)) 8) as (b' & E1 & E2 & E3 & E4);
          [rewrite le_enc_zlen; lia|lia|]. rewrite le_enc_zlen in E3. exists b'. rewrite E1. auto. }
      destruct CO as [_ ->]. unfold widened in Fin |- *. rewrite Dv, Sz in Fin |- *.
      destruct (ty_code rt); try contradiction; destruct Cd as [Cs Cn]; subst n; rewrite Cs in Fin |- *;
      known; apply Fin; f_equal;
      first [ unfold zext; f_equal; reflexivity
            | unfold sext, wrap64, wrap; f_equal; rewrite to_signed_low; reflexivity
            | symmetry; apply Z.mod_small; exact R1 ].
    + destruct Rt as (w & SV & RH).
      assert (Lw : zlen w = ty_size rt) by (destruct SV; lia).
      destruct (passing_len rt l N P) as [Ll L16].
      assert (Fin : forall d, Some w = Some d -> exists buf', of_option (set_range buf 0 d) = Ok buf' /\
        (exists w, get_range buf' 0 (ty_size rt) = Some w /\ same_value rt v w) /\ zlen buf' = zlen buf /\
        forall o n, ty_size rt <= o -> get_range buf' o n = get_range buf o n).
      { intros d E. apply Some_inj in E. subst d. destruct (store_front buf w (ty_size rt)) as (b' & E1 & E2 & E3 & E4); [lia|lia|].
        rewrite Lw in E3. exists b'. rewrite E1. split; [reflexivity|]. split; [exists w; auto|auto]. }
      assert (Fin2 : forall sc, get_range sc 0 (ty_size rt) = Some w -> exists buf',
        (let* d := of_option (get_range sc 0 (ty_size rt)) in of_option (set_range buf 0 d)) = Ok buf' /\
        (exists w, get_range buf' 0 (ty_size rt) = Some w /\ same_value rt v w) /\ zlen buf' = zlen buf /\
        forall o n, ty_size rt <= o -> get_range buf' o n = get_range buf o n).
      { intros sc E. rewrite E. cbn [of_option bind]. apply Fin. reflexivity. }
      assert (F16 : Forall (fun b => zlen b = 16) [rs_xmm0 r; rs_xmm1 r]) by (repeat constructor; auto).
      assert (G0 : reg_low [rs_rax r; rs_rdx r] [rs_xmm0 r; rs_xmm1 r] (Gpr 0) 8 = Some (le_enc 8 (rs_rax r))) by reflexivity.
      assert (G1 : reg_low [rs_rax r; rs_rdx r] [rs_xmm0 r; rs_xmm1 r] (Gpr 1) 8 = Some (le_enc 8 (rs_rdx r))) by reflexivity.
      assert (X0 : reg_low [rs_rax r; rs_rdx r] [rs_xmm0 r; rs_xmm1 r] (Xmm 0) 8 = Some (firstn 8 (rs_xmm0 r))) by reflexivity.
      assert (X1 : reg_low [rs_rax r; rs_rdx r] [rs_xmm0 r; rs_xmm1 r] (Xmm 1) 8 = Some (firstn 8 (rs_xmm1 r))) by reflexivity.
      assert (LG : forall z, zlen (le_enc 8 z) = 8) by (intros; apply le_enc_zlen).
      assert (LX0 : zlen (firstn 8 (rs_xmm0 r)) = 8) by (rewrite zlen_firstn; lia).
      assert (LX1 : zlen (firstn 8 (rs_xmm1 r)) = 8) by (rewrite zlen_firstn; lia).
      unfold eightbytes in Ll.
      destruct CO as [(-> & S & -> & ->)|[(-> & S & -> & ->)|[(-> & S & -> & ->)|(-> & CO)]]]; known.
      * apply Fin. cbn [take_regs] in RH. pose proof (scratch1 _ _ _ _ _ RH Lw _ [] X0 ltac:(lia)) as G.
        rewrite app_nil_r in G. rewrite <- G. rewrite get_range_some by lia. f_equal.
        rewrite S. change (Z.to_nat 4) with 4%nat. change (skipn (Z.to_nat 0) ?l) with l. rewrite firstn_firstn. reflexivity.
      * apply Fin. cbn [take_regs] in RH. pose proof (scratch1 _ _ _ _ _ RH Lw _ [] X0 ltac:(lia)) as G.
        rewrite app_nil_r in G. rewrite <- G. rewrite get_range_some by lia. f_equal.
        rewrite S. change (Z.to_nat 8) with 8%nat. change (skipn (Z.to_nat 0) ?l) with l. rewrite firstn_firstn. reflexivity.
      * apply Fin. cbn [take_regs] in RH. pose proof (scratch1 _ _ _ _ _ RH Lw _ [] G0 ltac:(rewrite LG; lia)) as G.
        rewrite app_nil_r in G. rewrite <- G. rewrite <- (get_range_all (le_enc 8 (rs_rax r))), LG. f_equal. lia.
      * destruct CO as [(-> & ->)|[([->| ->] & ->)|[(-> & ->)|([->| ->] & ->)]]]; known; apply Fin2; cbn [take_regs] in RH;
        repeat match type of Ll with context [zlen (?a :: ?l)] => rewrite (zlen_cons a l) in Ll end; rewrite zlen_nil in Ll;
        first [ eapply scratch2; [exact RH|exact Lw|lia|eassumption|eassumption|auto; apply LG]
              | eapply scratch1; [exact RH|exact Lw|eassumption|rewrite ?LG, ?LX0; lia] ].
  - assert (It : integral rt = false).
    { destruct (integral rt) eqn:It; [|reflexivity]. destruct (integral_cases rt N It) as (n & _ & _ & P' & _). congruence. }
    rewrite It in *.
    destruct CO as [[-> ->]|(Cs & _)]; [|unfold struct_x87 in Sx; rewrite Cs, P in Sx; discriminate]. known.
    assert (T : rt = ty_longdouble).
    { unfold struct_x87 in Sx. rewrite P in Sx. clear - N P Sx. destruct rt as [c s a es].
      destruct (natural_inv _ _ _ _ N) as [S|[(t0 & S & -> & -> & -> & ->)|(-> & _)]]; [| |discriminate].
      - apply scalar_cases in S. repeat (destruct S as [S|S]); try (rewrite S in P; discriminate P). exact S.
      - exfalso. cbn in S. repeat (destruct S as [<-|S]; [discriminate P|]). contradiction. }
    subst rt. change (ty_size ty_longdouble) with 16 in *.
    destruct (store_front buf (rs_st0 r) 16) as (b' & E1 & E2 & E3 & E4); [lia|lia|]. rewrite E1. exists b'.
    split; [reflexivity|]. split; [|split; [auto|exact E4]].
    destruct (get_range_ok b' 0 16) as (w & Ew & Lw); [lia|lia|lia|]. exists w. split; [auto|].
    split; [lia|]. intros o n k I. cbn in I. destruct I as [I|[]]. injection I as <- <- <-. cbn [value_size]. change (Z.min 16 10) with 10.
    exists (rs_st0 r). split.
    + rewrite Rt. rewrite get_range_some by lia. reflexivity.
    + rewrite <- (get_range_sub _ _ _ _ 0 10 Ew) by lia. rewrite <- E3. f_equal. lia.
  - assert (It : integral rt = false).
    { destruct (integral rt) eqn:It; [|reflexivity]. destruct (integral_cases rt N It) as (n & _ & _ & P' & _). congruence. }
    rewrite It in *. destruct CO as [-> ->]. destruct Rt as [T0 T1]. known.
    assert (T : rt = FT T_COMPLEX 32 16 [ty_longdouble]).
    { clear - N P. destruct rt as [c s a es].
      destruct (natural_inv _ _ _ _ N) as [S|[(t0 & S & -> & -> & -> & ->)|(-> & _)]].
      - apply scalar_cases in S. repeat (destruct S as [S|S]); try (rewrite S in P; discriminate P).
      - cbn in S. repeat (destruct S as [<-|S]; [first [discriminate P|reflexivity]|]). contradiction.
      - exfalso. unfold passing_of in P. destruct (ty_size (FT T_STRUCT s a es) >? 16); [discriminate|].
        destruct (existsb is_x87 _); discriminate. }
    subst rt. change (ty_size (FT T_COMPLEX 32 16 [ty_longdouble])) with 32 in *.
    destruct (store_front buf (rs_st0 r) 32) as (b' & E1 & E2 & E3 & E4); [lia|lia|]. rewrite E1. cbn [of_option bind].
    destruct (set_range_ok b' 16 (rs_st1 r)) as (b2 & D1 & D2); [lia|lia|]. rewrite D1. exists b2.
    split; [reflexivity|]. split; [|split; [lia|]].
    + destruct (get_range_ok b2 0 32) as (w & Ew & Lw); [lia|lia|lia|]. exists w. split; [auto|].
      split; [lia|]. intros o n k I. cbn in I. destruct I as [I|[I|[]]]; injection I as <- <- <-; cbn [value_size]; change (Z.min 16 10) with 10.
      * exists (rs_st0 r). split; [rewrite T0; rewrite get_range_some by lia; reflexivity|].
        rewrite <- (get_range_sub _ _ _ _ 0 10 Ew) by lia.
        rewrite (get_set_disjoint _ _ _ _ _ _ D1) by lia. rewrite <- E3. f_equal. lia.
      * exists (rs_st1 r). change (0 + 16) with 16. split; [rewrite T1; rewrite get_range_some by lia; reflexivity|].
        rewrite <- (get_range_sub _ _ _ _ 16 10 Ew) by lia. rewrite <- (get_set_same _ _ _ _ D1). f_equal. lia.
    + intros o n Ho. rewrite (get_set_disjoint _ _ _ _ _ _ D1) by lia. apply E4. auto.
Qed.

Lemma store_ret_hidden rt x fl r buf : hidden_pointer rt = true -> flags_ok rt x fl -> store_ret fl r buf = Ok buf.
Proof. unfold flags_ok. intros ->. intros ->. destruct x; reflexivity. Qed.

Lemma store_ret_void rt x fl r buf : ty_code rt = T_VOID -> flags_ok rt x fl -> store_ret fl r buf = Ok buf.
Proof.
  unfold flags_ok, hidden_pointer. intros ->. intros (code & size & Hc & Hs & -> & -> & ->). destruct x; reflexivity.
Qed.

(** ** Loading *)

Lemma firstn_range {A} (m : list A) n w k b : get_range m 0 n = Some w -> get_range m 0 k = Some b -> n <= k -> w = firstn (length w) b.
Proof.
  intros H1 H2 L. apply get_range_inv in H1 as (_ & P1 & P2 & E1 & P3). apply get_range_inv in H2 as (_ & Q1 & Q2 & E2 & Q3).
  rewrite E2, firstn_firstn. unfold zlen in P3. replace (Nat.min (length w) (Z.to_nat k)) with (Z.to_nat n) by lia. exact E1.
Qed.

Lemma hold_single gpr xmm slot r w n lo : get_range slot 0 n = Some w -> n <= 8 -> get_range slot 0 8 = Some lo ->
  reg_low gpr xmm r 8 = Some lo -> regs_hold gpr xmm [r] w.
Proof.
  intros H Ln Hl R. pose proof (get_range_inv _ _ _ _ H) as (_ & P1 & P2 & _ & P3). unfold zlen in P3.
  cbn [regs_hold]. split; [|rewrite skipn_all2; [reflexivity|lia]].
  rewrite (reg_low_8 _ _ _ _ _ (Nat.le_min_l _ _) R). f_equal. rewrite (firstn_all2 (n := 8) w) by lia.
  replace (Nat.min 8 (length w)) with (length w) by lia. symmetry. eapply firstn_range; eauto.
Qed.

Lemma hold_pair gpr xmm slot r1 r2 w n lo hi : get_range slot 0 n = Some w -> 8 < n <= 16 ->
  get_range slot 0 8 = Some lo -> get_range slot 8 8 = Some hi ->
  reg_low gpr xmm r1 8 = Some lo -> reg_low gpr xmm r2 8 = Some hi -> regs_hold gpr xmm [r1; r2] w.
Proof.
  intros H Ln Hl Hh R1 R2. pose proof (get_range_inv _ _ _ _ H) as (_ & P1 & P2 & Ew & P3). unfold zlen in P3.
  pose proof (get_range_inv _ _ _ _ Hl) as (_ & Q1 & Q2 & El & Q3). pose proof (get_range_inv _ _ _ _ Hh) as (_ & S1 & S2 & Eh & S3).
  cbn [regs_hold]. unfold zlen in *. rewrite skipn_length. split; [|split].
  - replace (Nat.min 8 (length w)) with 8%nat by lia. rewrite R1. f_equal. rewrite Ew, El, firstn_firstn. f_equal. lia.
  - rewrite (reg_low_8 _ _ _ _ _ (Nat.le_min_l _ _) R2). f_equal.
    rewrite (firstn_all2 (n := 8) (skipn 8 w)) by (rewrite skipn_length; lia).
    replace (Nat.min 8 (length w - 8)) with (length w - 8)%nat by lia.
    apply nth_error_ext. intros i. destruct (Nat.lt_ge_cases i (length w - 8)) as [Hi|Hi].
    + rewrite nth_error_firstn_lt by lia. rewrite nth_error_skipn. rewrite (nth_error_get_range _ _ _ _ _ Hh) by lia.
      rewrite (nth_error_get_range _ _ _ _ _ H) by lia. f_equal.
    + rewrite !(proj2 (nth_error_None _ _)); auto; [rewrite skipn_length; lia|rewrite firstn_length; lia].
  - rewrite skipn_skipn'. apply skipn_all2. lia.
Qed.

Lemma xmm_low (d : list Z) m : length d = 8%nat -> firstn 8 (d ++ repeat 0 m) = d.
Proof. intros H. apply firstn_app_exact. exact H. Qed.

Lemma load_ret_ok rt v w x fl slot r : natural rt -> hidden_pointer rt = false -> struct_x87 rt = false ->
  zlen v = ty_size rt -> zlen slot = 32 -> bytes_ok slot -> flags_ok rt x fl ->
  get_range slot 0 (ty_size rt) = Some w -> same_value rt v w ->
  exists r', load_ret fl slot r = Ok r' /\
    returned rt (rs_rax r') (rs_rdx r') (rs_xmm0 r') (rs_xmm1 r') (rs_st0 r') (rs_st1 r') v.
Proof.
  intros N Hh Sx L Ls Bsl Fl Gw SV.
  unfold flags_ok in Fl. rewrite Hh in Fl. destruct Fl as (code & size & Hc & Hs & -> & CO).
  pose proof (natural_not_void _ N) as NV.
  replace (match ty_code rt with T_VOID => true | _ => false end) with false in CO by (destruct (ty_code rt); congruence).
  destruct (flags_value code size x Hc Hs) as [FC _].
  destruct (natural_basic _ N) as (Bs & _).
  unfold load_ret. rewrite FC. cbv zeta. unfold code_ok in CO. unfold returned.
  pose proof (bytes_ok_get_range _ _ _ _ Bsl Gw) as Bw.
  pose proof (get_range_inv _ _ _ _ Gw) as (_ & _ & _ & _ & Lw).
  destruct (get_range_ok slot 0 8) as (lo & Elo & Llo); [lia|lia|lia|].
  destruct (get_range_ok slot 8 8) as (hi & Ehi & Lhi); [lia|lia|lia|].
  assert (Elo' : le_enc 8 (le_dec lo) = lo).
  { unfold zlen in Llo. replace 8%nat with (length lo) at 1 by lia. apply le_enc_dec. exact (bytes_ok_get_range slot 0 8 _ Bsl Elo). }
  assert (Ehi' : le_enc 8 (le_dec hi) = hi).
  { unfold zlen in Lhi. replace 8%nat with (length hi) at 1 by lia. apply le_enc_dec. exact (bytes_ok_get_range slot 8 8 _ Bsl Ehi). }
  assert (Nlo : length lo = 8%nat) by (unfold zlen in Llo; lia). assert (Nhi : length hi = 8%nat) by (unfold zlen in Lhi; lia).
  destruct (passing_of rt) as [|l| |] eqn:P; [contradiction| | |].
  - destruct (integral rt) eqn:It.
    + destruct (integral_cases rt N It) as (n & Hn & Sz & P' & Fl & Sg & Cd).
      rewrite P in P'. injection P' as ->.
      pose proof (same_value_scalar _ _ _ Fl L SV) as ->.
      assert (Lv : length v = n) by (unfold zlen in L; lia).
      assert (Fin : forall z rdx xmm0 xmm1, le_enc n z = v -> exists w, same_value rt v w /\ regs_hold [z; rdx] [xmm0; xmm1] (take_regs [EInt] 0 0) w).
      { intros z rdx xmm0 xmm1 E. exists v. split; [exact SV|]. cbn [take_regs regs_hold reg_low].
        change (znth [z; rdx] 0) with (Some z). cbn iota. rewrite Lv. replace (Nat.min 8 n) with n by lia.
        rewrite (firstn_all2 (n := 8)) by lia. rewrite (skipn_all2 (n := 8)) by lia. rewrite E. auto. }
      assert (Ev : le_enc n (le_dec v) = v) by (rewrite <- Lv; apply le_enc_dec; auto).
      assert (Dvd : (2 ^ (8 * Z.of_nat n) | 2 ^ 64)).
      { exists (2 ^ (64 - 8 * Z.of_nat n)). rewrite <- Z.pow_add_r by lia. f_equal. lia. }
      rewrite Sz in Gw. destruct CO as [_ ->].
      destruct (ty_code rt); try contradiction; destruct Cd as [Cs Cn]; subst n; known;
      match type of Gw with get_range slot 0 ?k = _ => let k' := eval vm_compute in k in change k with k' in Gw end;
      rewrite Gw; cbn [of_option bind]; eexists; (split; [reflexivity|]); cbn [rs_rax rs_rdx rs_xmm0 rs_xmm1 rs_st0 rs_st1]; apply Fin; auto.
      all: try (unfold zext; rewrite (le_enc_mod 1) || rewrite (le_enc_mod 2) || rewrite (le_enc_mod 4); exact Ev).
      * rewrite <- Ev at 2. unfold sext32, wrap32, wrap. rewrite <- (le_enc_mod 1), <- (le_enc_mod 1 (le_dec v)). f_equal.
        rewrite <- (Zmod_div_mod (2 ^ (8 * Z.of_nat 1)) (2 ^ 32)); [|lia|lia|exists (2 ^ 24); reflexivity]. apply to_signed_mod. lia.
      * rewrite <- Ev at 2. unfold sext32, wrap32, wrap. rewrite <- (le_enc_mod 2), <- (le_enc_mod 2 (le_dec v)). f_equal.
        rewrite <- (Zmod_div_mod (2 ^ (8 * Z.of_nat 2)) (2 ^ 32)); [|lia|lia|exists (2 ^ 16); reflexivity]. apply to_signed_mod. lia.
    + destruct (passing_len rt l N P) as [Ll L16]. unfold eightbytes in Ll.
      destruct CO as [(-> & S & -> & ->)|[(-> & S & -> & ->)|[(-> & S & -> & ->)|(-> & CO)]]]; known.
      * rewrite S in Gw, Lw. rewrite Gw. cbn [of_option bind]. eexists. split; [reflexivity|]. cbn [rs_rax rs_rdx rs_xmm0 rs_xmm1].
        exists w. split; [auto|]. cbn [take_regs regs_hold reg_low]. unfold zlen in Lw.
        rewrite (skipn_all2 (n := 8)) by lia. split; [|reflexivity].
        change (znth (?a :: ?b) 0) with (Some a). cbn iota. f_equal.
        replace (Nat.min 8 (length w)) with (length w) by lia. rewrite firstn_app_exact by reflexivity. symmetry. apply firstn_all2. lia.
      * rewrite S in Gw. rewrite Gw. rewrite Gw in Elo. apply Some_inj in Elo. subst lo. cbn [of_option bind]. eexists. split; [reflexivity|]. cbn [rs_rax rs_rdx rs_xmm0 rs_xmm1].
        exists w. split; [auto|]. cbn [take_regs].
        eapply hold_single; [exact Gw|lia|exact Gw|]. cbn [reg_low]. change (znth (?a :: ?b) 0) with (Some a). cbn iota.
        rewrite xmm_low by auto. reflexivity.
      * rewrite S in Gw. rewrite Gw. rewrite Gw in Elo. apply Some_inj in Elo. subst lo. cbn [of_option bind]. eexists. split; [reflexivity|]. cbn [rs_rax rs_rdx rs_xmm0 rs_xmm1].
        exists w. split; [auto|]. cbn [take_regs].
        eapply hold_single; [exact Gw|lia|exact Gw|]. cbn [reg_low]. change (znth (?a :: ?b) 0) with (Some a). cbn iota. f_equal. auto.
      * rewrite Ehi, Elo. cbn [of_option bind].
        destruct CO as [(-> & ->)|[([->| ->] & ->)|[(-> & ->)|([->| ->] & ->)]]]; known; cbn [take_regs] in *;
        repeat match type of Ll with context [zlen (?a :: ?l)] => rewrite (zlen_cons a l) in Ll end; rewrite zlen_nil in Ll;
        eexists; (split; [reflexivity|]); cbn [rs_rax rs_rdx rs_xmm0 rs_xmm1]; exists w; (split; [exact SV|]);
        first [ eapply hold_pair; [exact Gw|lia|exact Elo|exact Ehi| | ]
              | eapply hold_single; [exact Gw|lia|exact Elo|] ]; cbn [reg_low]; change (0 + 1) with 1;
        repeat change (znth (?a :: ?b) 0) with (Some a); repeat change (znth (?a :: ?c :: ?b) 1) with (Some c); cbn iota;
        rewrite ?xmm_low by auto; f_equal; auto.
  - assert (It : integral rt = false).
    { destruct (integral rt) eqn:It; [|reflexivity]. destruct (integral_cases rt N It) as (n & _ & _ & P' & _). congruence. }
    destruct CO as [[-> ->]|(Cs & _)]; [|unfold struct_x87 in Sx; rewrite Cs, P in Sx; discriminate]. known.
    assert (T : rt = ty_longdouble).
    { unfold struct_x87 in Sx. rewrite P in Sx. clear - N P Sx. destruct rt as [c s a es].
      destruct (natural_inv _ _ _ _ N) as [S|[(t0 & S & -> & -> & -> & ->)|(-> & _)]]; [| |discriminate].
      - apply scalar_cases in S. repeat (destruct S as [S|S]); try (rewrite S in P; discriminate P). exact S.
      - exfalso. cbn in S. repeat (destruct S as [<-|S]; [discriminate P|]). contradiction. }
    subst rt. change (ty_size ty_longdouble) with 16 in *.
    destruct (get_range_ok slot 0 10) as (d & Ed & Ld); [lia|lia|lia|]. rewrite Ed. cbn [of_option bind].
    eexists. split; [reflexivity|]. cbn [rs_st0].
    destruct SV as [_ SV]. destruct (SV 0 16 KX87 (or_introl eq_refl)) as (e & V1 & V2). cbn [value_size] in *. change (Z.min 16 10) with 10 in *.
    rewrite <- (get_range_sub _ _ _ _ 0 10 Gw) in V2 by lia. change (0 + 0) with 0 in V2. rewrite Ed in V2. apply Some_inj in V2. subst e.
    apply get_range_inv in V1 as (_ & _ & _ & -> & _). reflexivity.
  - destruct CO as [-> ->]. known.
    assert (T : rt = FT T_COMPLEX 32 16 [ty_longdouble]).
    { clear - N P. destruct rt as [c s a es].
      destruct (natural_inv _ _ _ _ N) as [S|[(t0 & S & -> & -> & -> & ->)|(-> & _)]].
      - apply scalar_cases in S. repeat (destruct S as [S|S]); try (rewrite S in P; discriminate P).
      - cbn in S. repeat (destruct S as [<-|S]; [first [discriminate P|reflexivity]|]). contradiction.
      - exfalso. unfold passing_of in P. destruct (ty_size (FT T_STRUCT s a es) >? 16); [discriminate|].
        destruct (existsb is_x87 _); discriminate. }
    subst rt. change (ty_size (FT T_COMPLEX 32 16 [ty_longdouble])) with 32 in *.
    destruct (get_range_ok slot 16 10) as (d1 & Ed1 & Ld1); [lia|lia|lia|]. rewrite Ed1. cbn [of_option bind].
    destruct (get_range_ok slot 0 10) as (d & Ed & Ld); [lia|lia|lia|]. rewrite Ed. cbn [of_option bind].
    eexists. split; [reflexivity|]. cbn [rs_st0 rs_st1].
    destruct SV as [_ SV]. split.
    + destruct (SV 0 16 KX87 (or_introl eq_refl)) as (e & V1 & V2). cbn [value_size] in *. change (Z.min 16 10) with 10 in *.
      rewrite <- (get_range_sub _ _ _ _ 0 10 Gw) in V2 by lia. change (0 + 0) with 0 in V2. rewrite Ed in V2. apply Some_inj in V2. subst e.
      apply get_range_inv in V1 as (_ & _ & _ & -> & _). reflexivity.
    + destruct (SV 16 16 KX87 (or_intror (or_introl eq_refl))) as (e & V1 & V2). cbn [value_size] in *. change (Z.min 16 10) with 10 in *.
      rewrite <- (get_range_sub _ _ _ _ 16 10 Gw) in V2 by lia. change (0 + 16) with 16 in V2. rewrite Ed1 in V2. apply Some_inj in V2. subst e.
      apply get_range_inv in V1 as (_ & _ & _ & -> & _). reflexivity.
Qed.

(** A documented (widened) result starts with the bytes of the value. *)
Lemma result_holds_bytes rt v slot : natural rt -> zlen v = ty_size rt -> bytes_ok v -> result_holds rt v slot ->
  exists w, get_range slot 0 (ty_size rt) = Some w /\ same_value rt v w.
Proof.
  intros N L B. unfold result_holds. destruct (integral rt) eqn:It; [|auto]. intros H.
  destruct (integral_cases rt N It) as (n & Hn & Sz & P' & Fl & Sg & Cd).
  assert (Lv : length v = n) by (unfold zlen in L; lia).
  exists v. split.
  - rewrite Sz. rewrite (get_range_prefix _ _ _ _ _ H) by lia. f_equal. rewrite Nat2Z.id. rewrite le_enc_firstn by lia.
    transitivity (le_enc n (le_dec v)); [|rewrite <- Lv; apply le_enc_dec; auto].
    unfold widened. destruct (signed_narrow rt); [|reflexivity].
    rewrite Sz. rewrite <- (le_enc_mod n), <- (le_enc_mod n (le_dec v)). f_equal.
    rewrite <- (Zmod_div_mod (2 ^ (8 * Z.of_nat n)) (2 ^ 64)); [apply to_signed_mod; lia|apply Z.pow_pos_nonneg; lia|lia|].
    exists (2 ^ (64 - 8 * Z.of_nat n)). rewrite <- Z.pow_add_r by lia. f_equal. lia.
  - split; [reflexivity|]. intros o k kk I. rewrite Fl in I. destruct I as [I|[]]. injection I as <- <- <-. cbn [value_size].
    exists v. rewrite <- L, get_range_all. auto.
Qed.
