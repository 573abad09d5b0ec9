(** Closures on x86-64: the handler sees the arguments the psABI put in place. *)
From Coq Require Import ZifyBool ZifyNat.
From Verif Require Import Base BaseFacts Types LayoutSpec NaturalTypes NaturalFacts Unix64Model Unix64Spec Unix64Classify Unix64Call Unix64Fill.
Ltac Zify.zify_post_hook ::= Z.div_mod_to_equations.
Local Arguments Z.mul : simpl never.
Local Arguments Z.add : simpl never.
Local Arguments Z.sub : simpl never.
Local Arguments Z.pow : simpl never.
Local Arguments Z.div : simpl never.
Local Arguments Z.modulo : simpl never.
Local Arguments Z.leb : simpl never.
Local Arguments Z.ltb : simpl never.
Local Arguments Z.eqb : simpl never.
Local Arguments Z.gtb : simpl never.

Lemma Some_inj {A} (a b : A) : Some a = Some b -> a = b.
Proof. congruence. Qed.

(** ** Reading registers from the saved block *)

Definition frame_of (gpr : list Z) (xmm : list (list Z)) : list Z := concat (map (le_enc 8) gpr) ++ concat xmm.

Lemma concat_fixed_length {A} n (l : list (list A)) : Forall (fun b => length b = n) l -> length (concat l) = (n * length l)%nat.
Proof. induction 1; cbn; [lia|]. rewrite app_length, IHForall. lia. Qed.

Lemma nth_concat {A} n (l : list (list A)) : Forall (fun b => length b = n) l -> forall i b, nth_error l i = Some b ->
  forall j, (j < n)%nat -> nth_error (concat l) (n * i + j) = nth_error b j.
Proof.
  induction 1 as [|x l H F IH]; intros i b E j Hj; [destruct i; discriminate|].
  destruct i as [|i]; cbn in E |- *.
  - injection E as ->. rewrite nth_error_app1 by lia. f_equal. lia.
  - rewrite nth_error_app2 by lia. rewrite <- (IH i b E j Hj). f_equal. lia.
Qed.

Lemma gpr_block_len gpr : zlen gpr = 6 -> length (concat (map (le_enc 8) gpr)) = 48%nat.
Proof.
  intros L. rewrite (concat_fixed_length 8).
  - rewrite map_length. unfold zlen in L. lia.
  - apply Forall_map, Forall_forall. intros; apply le_enc_length.
Qed.

Lemma frame_len gpr xmm : zlen gpr = 6 -> zlen xmm = 8 -> Forall (fun b => zlen b = 16) xmm -> zlen (frame_of gpr xmm) = 176.
Proof.
  intros Lg Lx F. unfold frame_of, zlen. rewrite app_length, gpr_block_len by auto.
  rewrite (concat_fixed_length 16); [unfold zlen in Lx; lia|].
  eapply Forall_impl; [|exact F]. cbn. unfold zlen. intros; lia.
Qed.

Lemma frame_gpr gpr xmm i v : zlen gpr = 6 -> zlen xmm = 8 -> Forall (fun b => zlen b = 16) xmm -> znth gpr i = Some v ->
  get_range (frame_of gpr xmm) (8 * i) 8 = Some (le_enc 8 v).
Proof.
  intros Lg Lx F Z. pose proof (frame_len gpr xmm Lg Lx F) as Lf.
  unfold znth in Z. destruct (Z.leb_spec 0 i) as [Hi|]; [|discriminate].
  assert (Hi2 : (Z.to_nat i < length gpr)%nat) by (apply nth_error_Some; congruence).
  unfold zlen in Lg. apply get_range_nth; try lia.
  { rewrite le_enc_zlen. reflexivity. }
  intros j Hj. rewrite le_enc_length in Hj. unfold frame_of. rewrite nth_error_app1 by (rewrite gpr_block_len; auto; lia).
  replace (Z.to_nat (8 * i) + j)%nat with (8 * Z.to_nat i + j)%nat by lia.
  apply (nth_concat 8); auto.
  - apply Forall_map, Forall_forall. intros; apply le_enc_length.
  - rewrite nth_error_map, Z. reflexivity.
Qed.

Lemma frame_xmm gpr xmm i b n : zlen gpr = 6 -> zlen xmm = 8 -> Forall (fun b => zlen b = 16) xmm -> znth xmm i = Some b ->
  0 <= n <= 16 -> get_range (frame_of gpr xmm) (48 + 16 * i) n = Some (firstn (Z.to_nat n) b).
Proof.
  intros Lg Lx F Z Hn. pose proof (frame_len gpr xmm Lg Lx F) as Lf.
  assert (Lb : zlen b = 16) by (rewrite Forall_forall in F; apply F; eapply znth_in; eauto).
  unfold znth in Z. destruct (Z.leb_spec 0 i) as [Hi|]; [|discriminate].
  assert (Hi2 : (Z.to_nat i < length xmm)%nat) by (apply nth_error_Some; congruence).
  unfold zlen in Lx. apply get_range_nth; try lia.
  { rewrite zlen_firstn. lia. }
  intros j Hj. rewrite firstn_length in Hj. unfold frame_of. rewrite nth_error_app2 by (rewrite gpr_block_len; auto; lia).
  rewrite gpr_block_len by auto. rewrite nth_error_firstn_lt by lia.
  replace (Z.to_nat (48 + 16 * i) + j - 48)%nat with (16 * Z.to_nat i + j)%nat by lia.
  apply (nth_concat 16); auto; [|unfold zlen in Lb; lia].
  eapply Forall_impl; [|exact F]. cbn. unfold zlen. intros; lia.
Qed.

Lemma get_range_append {A} (m : list A) o n1 n2 a b : get_range m o n1 = Some a -> get_range m (o + n1) n2 = Some b ->
  get_range m o (n1 + n2) = Some (a ++ b).
Proof.
  intros H1 H2. pose proof (get_range_inv _ _ _ _ H1) as (P1 & P2 & P3 & _ & P4).
  pose proof (get_range_inv _ _ _ _ H2) as (Q1 & Q2 & Q3 & _ & Q4).
  apply get_range_nth; try lia; [rewrite zlen_app; lia|].
  intros i Hi. rewrite app_length in Hi. unfold zlen in *.
  destruct (Nat.lt_ge_cases i (length a)) as [L|L].
  - rewrite nth_error_app1 by auto. symmetry. eapply nth_error_get_range; eauto.
  - rewrite nth_error_app2 by auto. rewrite (nth_error_get_range _ _ _ _ _ H2) by lia. f_equal. lia.
Qed.

Lemma get_range_prefix {A} (m : list A) o n d k : get_range m o n = Some d -> 0 <= k <= n ->
  get_range m o k = Some (firstn (Z.to_nat k) d).
Proof.
  intros H Hk. pose proof (get_range_inv _ _ _ _ H) as (P1 & P2 & P3 & _ & P4).
  apply get_range_nth; try lia; [rewrite zlen_firstn; lia|].
  intros i Hi. rewrite firstn_length in Hi. rewrite nth_error_firstn_lt by lia. symmetry.
  eapply nth_error_get_range; eauto. lia.
Qed.

(** Eight bytes of a register. *)
Lemma reg_low_8 gpr xmm r n b : (n <= 8)%nat -> reg_low gpr xmm r 8 = Some b -> reg_low gpr xmm r n = Some (firstn n b).
Proof.
  intros Hn. destruct r as [i|i|]; cbn [reg_low]; [| |discriminate].
  - destruct (znth gpr i); [|discriminate]. intros H. apply Some_inj in H. rewrite <- H. f_equal. symmetry. apply le_enc_firstn. auto.
  - destruct (znth xmm i); [|discriminate]. intros H. apply Some_inj in H. subst b. f_equal. rewrite firstn_firstn. f_equal. lia.
Qed.

Lemma reg_low_inv gpr xmm r n b : reg_low gpr xmm r n = Some b -> exists b8, reg_low gpr xmm r 8 = Some b8.
Proof.
  destruct r as [i|i|]; cbn [reg_low]; [| |discriminate].
  - destruct (znth gpr i); [eauto|discriminate].
  - destruct (znth xmm i); [eauto|discriminate].
Qed.

Lemma hold1 gpr xmm r w : regs_hold gpr xmm [r] w -> exists b, reg_low gpr xmm r 8 = Some b /\ w = firstn (length w) b.
Proof.
  cbn [regs_hold]. intros [H1 H2]. destruct (reg_low_inv _ _ _ _ _ H1) as (b & E). exists b. split; [auto|].
  assert (L : (length w <= 8)%nat).
  { destruct (Nat.le_gt_cases (length w) 8); auto. apply (f_equal (@length _)) in H2. rewrite skipn_length in H2. cbn in H2. lia. }
  rewrite (reg_low_8 _ _ _ _ _ (Nat.le_min_l _ _) E) in H1. apply Some_inj in H1.
  rewrite (firstn_all2 (n := 8)) in H1 by lia. replace (Nat.min 8 (length w)) with (length w) in H1 by lia. auto.
Qed.

Lemma hold2 gpr xmm r1 r2 w : (8 <= length w)%nat -> regs_hold gpr xmm [r1; r2] w ->
  exists b1 b2, reg_low gpr xmm r1 8 = Some b1 /\ reg_low gpr xmm r2 8 = Some b2 /\ length b1 = 8%nat /\ w = firstn (length w) (b1 ++ b2).
Proof.
  intros L H. cbn [regs_hold] in H. destruct H as [H1 H2].
  replace (Nat.min 8 (length w)) with 8%nat in H1 by lia.
  destruct (hold1 gpr xmm r2 (skipn 8 w)) as (b2 & E2 & W2). { exact H2. }
  exists (firstn 8 w), b2. split; [auto|]. split; [auto|]. split; [rewrite firstn_length; lia|].
  rewrite <- (firstn_skipn 8 w) at 1. rewrite firstn_app. rewrite firstn_length, firstn_firstn.
  replace (Nat.min (length w) 8) with 8%nat by lia. f_equal.
  rewrite W2. f_equal. rewrite skipn_length. lia.
Qed.

(** ** The argument loop *)

Definition reads (gpr : list Z) (xmm : list (list Z)) (stack : list Z) (sp : Z) (p : aptr) (n : Z) : option (list Z) :=
  match p with
  | AFrame off => get_range (frame_of gpr xmm) off n
  | AStack a => get_range stack (a - sp) n
  | ACopy b => get_range b 0 n
  end.

Inductive all_read (gpr : list Z) (xmm : list (list Z)) (stack : list Z) (sp : Z)
  : list ftype -> list aptr -> list (list Z) -> Prop :=
| read_nil : all_read gpr xmm stack sp [] [] []
| read_cons : forall t ts p ps v vs w,
    reads gpr xmm stack sp p (ty_size t) = Some w -> same_value t v w ->
    all_read gpr xmm stack sp ts ps vs -> all_read gpr xmm stack sp (t :: ts) (p :: ps) (v :: vs).

Lemma gather_ok gpr xmm frame cl : zlen gpr = 6 -> zlen xmm = 8 -> Forall (fun b => zlen b = 16) xmm -> frame = frame_of gpr xmm ->
  forall c1 c2 gc sc tmp b1 b2, cl = [c1; c2] -> zlen tmp = 16 ->
  plain c1 = true -> plain c2 = true -> proj c1 <> ENone -> proj c2 <> ENone ->
  forall r1 r2, take_regs (map proj cl) gc sc = [r1; r2] ->
  reg_low gpr xmm r1 8 = Some b1 -> reg_low gpr xmm r2 8 = Some b2 ->
  gather frame cl 0 gc sc tmp = Ok (b1 ++ b2, gc + count is_eint (map proj cl), sc + count is_esse (map proj cl)).
Proof.
  intros Lg Lx F -> c1 c2 gc sc tmp b1 b2 -> Lt P1 P2 N1 N2 r1 r2 T E1 E2.
  assert (W : forall c g s r b, plain c = true -> proj c <> ENone ->
     match proj c with EInt => r = Gpr g | ESse => r = Xmm s | ENone => False end ->
     reg_low gpr xmm r 8 = Some b ->
     zlen b = 8 /\ if sse_class_p c then proj c = ESse /\ get_range (frame_of gpr xmm) (48 + 16 * s) 8 = Some b
       else proj c = EInt /\ get_range (frame_of gpr xmm) (8 * g) 8 = Some b).
  { intros c g s r b Pc Nc Hr Eb. destruct c; try discriminate Pc; cbn [proj] in *; try congruence; subst r; cbn [reg_low] in Eb.
    1,2: (destruct (znth gpr g) as [v|] eqn:Z; [|discriminate]; apply Some_inj in Eb; subst b; split; [apply le_enc_zlen|];
          split; [reflexivity|]; eapply frame_gpr; eauto).
    all: (destruct (znth xmm s) as [v|] eqn:Z; [|discriminate]; apply Some_inj in Eb; subst b;
          assert (zlen v = 16) by (rewrite Forall_forall in F; apply F; eapply znth_in; eauto);
          split; [rewrite zlen_firstn; lia|]; split; [reflexivity|]; rewrite (frame_xmm gpr xmm s v) by (auto; lia); reflexivity). }
  cbn [map take_regs] in T.
  assert (St : forall t0 b : list Z, zlen t0 = 16 -> zlen b = 8 -> forall j, j = 0 \/ j = 1 -> exists t1, set_range t0 (8 * j) b = Some t1 /\ zlen t1 = 16 /\
     get_range t1 (8 * j) 8 = Some b /\ (forall j', j' = 0 \/ j' = 1 -> j' <> j -> get_range t1 (8 * j') 8 = get_range t0 (8 * j') 8)).
  { intros t0 b L0 Lb j Hj. destruct (set_range_ok t0 (8 * j) b) as (t1 & S & L1); [lia|lia|].
    exists t1. split; [auto|]. split; [lia|]. split; [pose proof (get_set_same _ _ _ _ S) as Q; rewrite Lb in Q; exact Q|].
    intros j' Hj' Hn. eapply get_set_disjoint; eauto. lia. }
  assert (Fin : forall t1 t2 : list Z, zlen t1 = 16 -> zlen t2 = 16 -> zlen b1 = 8 -> zlen b2 = 8 -> get_range t1 (8 * 0) 8 = Some b1 ->
     get_range t2 (8 * 1) 8 = Some b2 -> get_range t2 (8 * 0) 8 = get_range t1 (8 * 0) 8 -> t2 = b1 ++ b2).
  { intros t1 t2 L1 L2 Lb1 Lb2 G1 G2 G3. rewrite G1 in G3.
    pose proof (get_range_append t2 0 8 8 b1 b2 G3 G2) as G. change (8 + 8) with 16 in G. rewrite <- L2 in G. rewrite get_range_all in G.
    congruence. }
  unfold count.
  destruct (proj c1) eqn:Pj1; try congruence; destruct (proj c2) eqn:Pj2; try congruence; injection T as <- <-;
  (match goal with E : reg_low _ _ ?r 8 = Some b1 |- _ => destruct (W c1 gc sc r b1 P1) as [Lb1 W1] end; [rewrite Pj1; discriminate|rewrite Pj1; reflexivity|eassumption|]);
  (match goal with E : reg_low _ _ (Gpr ?g) 8 = Some b2 |- _ => destruct (W c2 g sc (Gpr g) b2 P2) as [Lb2 W2]
     | E : reg_low _ _ (Xmm ?x) 8 = Some b2 |- _ => destruct (W c2 gc x (Xmm x) b2 P2) as [Lb2 W2] end;
     [rewrite Pj2; discriminate|rewrite Pj2; reflexivity|eassumption|]);
  cbn [gather map filter]; rewrite ?Pj1, ?Pj2; cbn [is_eint is_esse];
  (destruct (sse_class_p c1); destruct W1 as [X1 W1]; try congruence);
  (destruct (sse_class_p c2); destruct W2 as [X2 W2]; try congruence);
  rewrite W1; cbn [of_option bind];
  (destruct (St tmp b1 Lt Lb1 0 ltac:(auto)) as (t1 & S1 & L1 & G1 & _); rewrite S1; cbn [of_option bind]);
  change (0 + 1) with 1; rewrite W2; cbn [of_option bind];
  (destruct (St t1 b2 L1 Lb2 1 ltac:(auto)) as (t2 & S2 & L2 & G2 & O2); rewrite S2; cbn [of_option bind]);
  rewrite (Fin t1 t2) by (auto; apply O2; lia); do 2 f_equal; rewrite ?zlen_cons, ?zlen_nil; try (f_equal; lia); lia.
Qed.

Lemma closure_args_ok gpr xmm stack sp g_tmp ts : (16 | sp) -> 0 <= sp -> zlen g_tmp = 16 ->
  zlen gpr = 6 -> zlen xmm = 8 -> Forall (fun b => zlen b = 16) xmm ->
  Forall natural ts -> forall vs g x stk l g' x' s', Forall2 (fun t v => zlen v = ty_size t) ts vs ->
  0 <= stk -> assign ts g x stk = (l, g', x', s') -> sp + s' + 16 < 2 ^ 64 ->
  all_held gpr xmm stack ts l vs ->
  exists ps, closure_args (frame_of gpr xmm) g_tmp ts g x (sp + stk) = Ok ps /\ all_read gpr xmm stack sp ts ps vs.
Proof.
  intros Db Pb Lt Lg Lx Fx F. induction F as [|t ts N F IH]; intros vs g x stk l g' x' s' FV Hstk As Bd AH.
  - cbn in As. injection As as <- <- <- <-. inversion AH; subst. exists []. split; [reflexivity|constructor].
  - inversion FV as [|t0 v ts0 vs' Lv FV']; subst. rewrite assign_cons in As.
    destruct (step t g x stk) as [[[l1 g1] x1] s1] eqn:St.
    destruct (assign ts g1 x1 s1) as [[[ls g2] x2] s2] eqn:As'. injection As as <- <- <- <-.
    inversion AH as [|t0 ts0 l0 ls0 v0 vs0 (w & SV & Hd) AH']; subst.
    pose proof (step_mono _ _ _ _ _ _ _ _ N Hstk St) as (A & B & C & D & E & G).
    pose proof (assign_mono _ F g1 x1 s1 _ _ _ _ ltac:(lia) As') as (A' & B' & C' & D' & E' & _).
    destruct (natural_basic _ N) as (Bs & _).
    assert (Lw : zlen w = ty_size t) by (destruct SV; lia).
    cbn [closure_args]. destruct (examine_ok t false N) as (e & Ee & Oe). rewrite Ee. cbn [bind].
    assert (Mem : l1 = OnStack (round_up stk (st_align t)) -> g1 = g -> x1 = x ->
      exists ps, (let a := ffi_align (sp + stk) (stack_align t) in
        let* l := closure_args (frame_of gpr xmm) g_tmp ts g x (wrap64 (a + ty_size t)) in Ok (AStack a :: l)) = Ok ps /\
        all_read gpr xmm stack sp (t :: ts) ps (v :: vs')).
    { intros -> -> ->. destruct G as (_ & G1 & G2). set (o := round_up stk (st_align t)) in *.
      cbn zeta. rewrite stack_align_eq. destruct (st_align_pow2 t N) as [P2 P3].
      assert (Ea : ffi_align (sp + stk) (st_align t) = sp + o).
      { assert (Dv : (st_align t | sp)).
        { eapply Z.divide_trans; [|exact Db]. apply is_pow2_divide; auto; [|lia]. exists 4. split; [lia|reflexivity]. }
        rewrite ffi_align_round; auto; try lia; rewrite round_up_add by (auto; lia); fold o; lia. }
      rewrite Ea. rewrite wrap64_small by lia.
      destruct (IH vs' g x s1 ls g2 x2 s2) as (ps & R & Q); auto; try lia.
      replace (sp + o + ty_size t) with (sp + s1) by lia. rewrite R. cbn [bind].
      eexists. split; [reflexivity|]. econstructor; eauto. cbn [reads]. replace (sp + o - sp) with o by lia. rewrite <- Lw. auto. }
    unfold exam_ok in Oe. unfold step in St. destruct (passing_of t) as [|cl| |] eqn:P.
    + subst e. injection St as <- <- <- <-. apply Mem; reflexivity.
    + destruct Oe as (cls & -> & O1 & O2 & O3 & O4 & O5 & O6). unfold MAX_GPR, MAX_SSE.
      destruct ((g + count is_eint cl <=? 6) && (x + count is_esse cl <=? 8)) eqn:C1; injection St as <- <- <- <-.
      2: { replace ((g + count is_eint cl >? 6) || (x + count is_esse cl >? 8)) with true by lia. apply Mem; reflexivity. }
      replace ((g + count is_eint cl >? 6) || (x + count is_esse cl >? 8)) with false by lia. clear Mem.
      assert (Lcl : zlen cls = eightbytes (ty_size t)).
      { rewrite <- (zlen_map proj cls), O1, O4, words_length. unfold eightbytes. lia. }
      assert (NN : Forall (fun c => c <> ENone) (map proj cls)) by (rewrite O1, O4; apply words_not_none; auto).
      destruct (IH vs' (g + count is_eint cl) (x + count is_esse cl) stk ls g2 x2 s2) as (ps & R & Q); auto; try lia.
      destruct cls as [|c1 [|c2 [|c3 cls]]].
      * exfalso. unfold eightbytes in Lcl. rewrite zlen_nil in Lcl. lia.
      * (* one register *)
        change (zlen [c1]) with 1. change (1 =? 1) with true. cbn [orb].
        cbn [map] in O1. subst cl. cbn [forallb map] in O2, NN. rewrite andb_true_r in O2. inversion NN as [|? ? N1 _]; subst.
        unfold eightbytes in Lcl. change (zlen [c1]) with 1 in Lcl.
        assert (Hw : w = firstn (Z.to_nat (ty_size t)) w) by (symmetry; apply firstn_all2; unfold zlen in Lw; lia).
        destruct (proj c1) eqn:Pj; [| |congruence]; cbn [take_regs] in Hd; apply hold1 in Hd as (b & Eb & Wb); cbn [reg_low] in Eb.
        -- assert (sse_class_p c1 = false) as -> by (destruct c1; try discriminate; reflexivity).
           change (count is_eint [EInt]) with 1 in R. change (count is_esse [EInt]) with 0 in R. rewrite Z.add_0_r in R.
           rewrite R. cbn [bind]. eexists. split; [reflexivity|]. econstructor; eauto. cbn [reads].
           destruct (znth gpr g) as [val|] eqn:Z; [|discriminate]. apply Some_inj in Eb; subst b.
           pose proof (frame_gpr gpr xmm g val Lg Lx Fx Z) as Fr. rewrite (get_range_prefix _ _ _ _ (ty_size t) Fr) by lia.
           f_equal. rewrite Wb. f_equal. unfold zlen in Lw. lia.
        -- assert (sse_class_p c1 = true) as -> by (destruct c1; try discriminate; reflexivity).
           change (count is_eint [ESse]) with 0 in R. change (count is_esse [ESse]) with 1 in R. rewrite Z.add_0_r in R.
           rewrite R. cbn [bind]. eexists. split; [reflexivity|]. econstructor; eauto. cbn [reads].
           destruct (znth xmm x) as [val|] eqn:Z; [|discriminate]. apply Some_inj in Eb; subst b.
           rewrite (frame_xmm gpr xmm x val) by (auto; lia). f_equal. rewrite Wb, firstn_firstn. f_equal. unfold zlen in Lw. lia.
      * (* two registers *)
        change (zlen [c1; c2]) with 2 in *. change (2 =? 1) with false. change (2 =? 2) with true. cbn [orb andb].
        cbn [forallb map] in O2, NN. rewrite andb_true_r in O2. apply andb_prop in O2 as [O2a O2b].
        inversion NN as [|? ? N1 NN2]; subst. inversion NN2 as [|? ? N2 _]; subst.
        unfold eightbytes in Lcl.
        assert (T : exists r1 r2, take_regs (map proj [c1; c2]) g x = [r1; r2]).
        { cbn [map take_regs]. destruct (proj c1); try congruence; destruct (proj c2); try congruence; eauto. }
        destruct T as (r1 & r2 & T). rewrite T in Hd.
        destruct (hold2 gpr xmm r1 r2 w) as (b1 & b2 & E1 & E2 & Lb1 & Wb); [unfold zlen in Lw; lia|auto|].
        destruct (sse_class_p c1 || sse_class_p c2) eqn:SS; cbn [negb].
        -- rewrite (gather_ok gpr xmm _ [c1; c2] Lg Lx Fx eq_refl c1 c2 g x g_tmp b1 b2 eq_refl Lt O2a O2b N1 N2 r1 r2 T E1 E2).
           cbn [bind]. rewrite R. cbn [bind]. eexists. split; [reflexivity|]. econstructor; eauto. cbn [reads].
           assert (zlen (b1 ++ b2) = 16).
           { apply hold1 in Hd || idtac. rewrite zlen_app. unfold zlen. rewrite Lb1.
             assert (length b2 = 8%nat); [|lia].
             clear -E2 Fx. destruct r2 as [i|i|]; cbn [reg_low] in E2; [| |discriminate].
             - destruct (znth gpr i); [|discriminate]. apply Some_inj in E2. subst b2. reflexivity.
             - destruct (znth xmm i) as [bb|] eqn:Z; [|discriminate]. apply Some_inj in E2. subst b2.
               rewrite Forall_forall in Fx. apply znth_in in Z. apply Fx in Z. rewrite firstn_length. unfold zlen in Z. lia. }
           rewrite get_range_some by lia. cbn [Z.to_nat skipn]. f_equal. rewrite Wb. f_equal. unfold zlen in Lw. lia.
        -- assert (proj c1 = EInt /\ proj c2 = EInt) as [X1 X2].
           { apply orb_false_elim in SS as [S1 S2]. destruct c1; try discriminate; cbn in N1; try congruence;
             destruct c2; try discriminate; cbn in N2; try congruence; auto. }
           apply orb_false_elim in SS as [S1 S2]. rewrite S1.
           cbn [map] in R, T. rewrite X1, X2 in R, T. change (count is_eint [EInt; EInt]) with 2 in R. change (count is_esse [EInt; EInt]) with 0 in R.
           rewrite Z.add_0_r in R. rewrite R. cbn [bind]. eexists. split; [reflexivity|]. econstructor; eauto. cbn [reads].
           cbn [take_regs] in T. injection T as <- <-. cbn [reg_low] in E1, E2.
           destruct (znth gpr g) as [v1|] eqn:Z1; [|discriminate]. destruct (znth gpr (g + 1)) as [v2|] eqn:Z2; [|discriminate].
           apply Some_inj in E1. apply Some_inj in E2. subst b1 b2.
           pose proof (frame_gpr gpr xmm g v1 Lg Lx Fx Z1) as F1. pose proof (frame_gpr gpr xmm (g + 1) v2 Lg Lx Fx Z2) as F2.
           replace (8 * (g + 1)) with (8 * g + 8) in F2 by lia.
           pose proof (get_range_append _ _ _ _ _ _ F1 F2) as F12.
           rewrite (get_range_prefix _ _ _ _ (ty_size t) F12) by lia. f_equal. rewrite Wb. f_equal. unfold zlen in Lw. lia.
      * exfalso. unfold eightbytes in Lcl. rewrite !zlen_cons in Lcl. pose proof (zlen_nonneg cls). lia.
    + subst e. injection St as <- <- <- <-. apply Mem; reflexivity.
    + subst e. injection St as <- <- <- <-. apply Mem; reflexivity.
Qed.
