(** The memory of ffi_call on ARM when the assembly code is called. *)
From Coq Require Import ZifyBool ZifyNat.
From Verif Require Import Base BaseFacts Types LayoutSpec NaturalTypes NaturalFacts ByteMem ArmModel ArmSpec ArmHfa ArmFp ArmPlan ArmCall ArmPrep.
Local Arguments Z.mul : simpl never.
Local Arguments Z.add : simpl never.

Lemma rsize_nonneg c rv : rtype_ok (k_rtype c) -> 0 <= call_rsize c rv.
Proof.
  intros R. assert (0 <= ty_size (k_rtype c)).
  { destruct R as [-> |C]; [cbn; lia|]. destruct (ctype_basic _ C) as (S & _). lia. }
  unfold call_rsize. destruct rv.
  - destruct (_ =? _); [lia|]. destruct (_ && _); lia.
  - destruct (_ =? _); lia.
Qed.

(** The places of a plan. *)
Definition good_loc (t : ftype) (l : loc) : Prop :=
  match l with
  | Core i => 0 <= i < 4
  | Stk o => 0 <= o
  | Fp f => 0 <= f /\ 4 * f + ty_size t <= 64 /\ is_fp t = true
  end.
Lemma plan_good hard ts : Forall ctype ts -> forall n u s, 0 <= n <= 4 -> 0 <= s -> (4 | s) -> packed u ->
  Forall2 good_loc ts (plan hard ts n u s).
Proof.
  induction 1 as [|t ts C F IH]; intros n u s N S D P; cbn [plan]; [constructor|].
  destruct (words_ge t C) as [W1 W2]. assert (AP : 0 < al t) by (destruct (al_cases t); lia).
  pose proof (round_up_nonneg s (al t) AP S) as RN.
  assert (D' : (4 | round_up s (al t) + words t)) by (apply Z.divide_add_r; [apply al_4|apply words_4]).
  destruct (need hard t) as [[k a]|] eqn:ND.
  - assert (FN : fp_need t = Some (k, a)) by (destruct hard; [auto|discriminate ND]).
    destruct (fp_need_size t k a C FN) as (SZ & _ & KB & _).
    destruct (find_fp u k a) as [f|] eqn:FF.
    + destruct (packed_step t k a u f C FN P FF) as (P' & G1 & G2 & _). constructor; [|auto].
      cbn [good_loc]. split; [auto|]. split; [lia|]. unfold is_fp. rewrite FN. reflexivity.
    + constructor; [cbn [good_loc]; auto|]. apply IH; auto; try lia. apply packed_all.
  - destruct (code_arg t n s) as [[p n'] s'] eqn:CA.
    destruct (code_core t n s C N S D p n' s' CA) as (N' & NN & SS & DD & M).
    constructor; [|apply IH; auto; lia]. destruct p as [i|i|o]; [|contradiction|]; cbn [good_loc].
    + destruct M as (I1 & I2 & I3 & [Q|Q]); lia.
    + lia.
Qed.

Lemma stored_ext ts : forall (m m' : Z -> Z) stk vfp bnd ls objs, Forall ctype ts -> objects_ok ts objs ->
  vfp + 64 <= stk \/ ~ In true (map (fun l => match l with Fp _ => true | _ => false end) ls) -> 0 <= bnd -> fits bnd ts ls -> Forall2 good_loc ts ls ->
  (forall x, x < stk + bnd -> m' x = m x) ->
  stored m stk vfp ts ls objs -> stored m' stk vfp ts ls objs.
Proof.
  induction ts as [|t ts IH]; intros m m' stk vfp bnd [|l ls] [|o objs] TS OB V B0 FT GL H S; cbn [stored] in *; auto.
  destruct S as [S1 S2]. inversion TS as [|? ? C TS']; subst. inversion OB as [|? ? ? ? [O1 O2] OB']; subst.
  inversion FT as [|? ? ? ? F1 FT']; subst. inversion GL as [|? ? ? ? G1 GL']; subst. split.
  - rewrite <- S1 at 2. apply rd_ext. intros x X. apply H. pose proof (image_len t o C O1) as IL. unfold zlen in IL, O1.
    destruct l as [i|i|off]; cbn [pos loc_end good_loc] in *; try lia.
    destruct V as [V|V]; [|exfalso; apply V; left; reflexivity]. destruct G1 as (G1 & G2 & G3). 
    assert (words t = ty_size t).
    { apply words_exact; auto. unfold is_fp in G3. destruct (fp_need t) as [[k a]|] eqn:E; [|discriminate G3].
      destruct (fp_need_size t k a C E) as (SZ & _). exists k. lia. }
    lia.
  - apply (IH m m' stk vfp bnd); auto. destruct V as [V|V]; [auto|right]. intros I. apply V. right. exact I.
Qed.

Section Call.
Variables (c : acif) (hard : bool) (rt : ftype) (ts : list ftype).
Hypothesis P : prepared c hard rt ts.
Hypothesis TS : Forall ctype ts.
Hypothesis RT : rtype_ok rt.
Variables (rv : option Z) (objs : list (list Z)) (closure base : Z).
Hypothesis OB : objects_ok ts objs.
Hypothesis BA : (8 | base).
Hypothesis B0 : 0 <= base.
Hypothesis BH : base + alloc_size c rv < 2 ^ 32.

Let stk := stack_at c base.
Let fr := frame_at c base.
Let ls := plan hard ts (first_core hard rt) [] 0.

Lemma call_flags_mem : (call_flags c rv =? K_STRUCT) = in_memory hard rt.
Proof.
  rewrite <- (pr_mem _ _ _ _ P). unfold call_flags. destruct rv; [reflexivity|].
  destruct (k_flags c =? K_STRUCT) eqn:E; reflexivity.
Qed.
Lemma stk_eq : stk = base + (if use_vfp c then 64 else 0).
Proof. reflexivity. Qed.
Lemma stk_8 : (8 | stk).
Proof. rewrite stk_eq. destruct (use_vfp c); [|rewrite Z.add_0_r; auto]. apply Z.divide_add_r; auto. exists 8. reflexivity. Qed.

Theorem call_memory m : exists m', call c rv objs closure base m = Ok m' /\
  stored m' stk base ts ls objs /\
  (in_memory hard rt = true -> rd m' stk 4 = le_enc 4 (new_rvalue c rv base)) /\
  rd m' (fr + 8) 4 = le_enc 4 (new_rvalue c rv base) /\
  rd m' (fr + 12) 4 = le_enc 4 (call_flags c rv) /\
  rd m' (fr + 16) 4 = le_enc 4 closure /\
  (forall x, x < base \/ fr + frame_size <= x -> m' x = m x).
Proof.
  unfold call. set (hi := base + alloc_size c rv). set (nr := new_rvalue c rv base).
  assert (RS : 0 <= call_rsize c rv) by (apply rsize_nonneg; rewrite (pr_rtype _ _ _ _ P); auto).
  pose proof (pr_min _ _ _ _ P) as BM.
  assert (HI : hi = fr + frame_size + call_rsize c rv) by (unfold hi, alloc_size, fr, frame_at, stack_at; lia).
  assert (FR : fr = stk + k_bytes c) by reflexivity.
  assert (SB : base <= stk <= base + 64) by (rewrite stk_eq; destruct (use_vfp c); lia).
  unfold frame_size in *.
  fold fr. rewrite store_ok by (rewrite ?le_enc_zlen; lia). cbn [bind].
  rewrite store_ok by (rewrite ?le_enc_zlen; lia). cbn [bind]. rewrite store_ok by (rewrite ?le_enc_zlen; lia). cbn [bind].
  set (m1 := wr m (fr + 8) (le_enc 4 nr)). set (m2 := wr m1 (fr + 12) (le_enc 4 (call_flags c rv))). set (m3 := wr m2 (fr + 16) (le_enc 4 closure)).
  assert (R1 : rd m3 (fr + 8) 4 = le_enc 4 nr).
  { unfold m3, m2, m1. rewrite rd_wr_other by lia. rewrite rd_wr_other by lia. apply rd_wr_same. reflexivity. }
  assert (R2 : rd m3 (fr + 12) 4 = le_enc 4 (call_flags c rv)).
  { unfold m3, m2. rewrite rd_wr_other by lia. apply rd_wr_same. reflexivity. }
  assert (R3 : rd m3 (fr + 16) 4 = le_enc 4 closure) by (apply rd_wr_same; reflexivity).
  assert (OUT : forall x, x < base \/ fr + 20 <= x -> m3 x = m x).
  { intros x X. unfold m3, m2, m1. rewrite !wr_out by (rewrite ?le_enc_zlen; lia). reflexivity. }
  pose proof (pr_over _ _ _ _ P) as OV. fold ls in OV.
  set (bnd := k_bytes c + 4) in *.
  (* the hidden pointer *)
  set (mh := if in_memory hard rt then wr m3 stk (le_enc 4 nr) else m3).
  assert (MH : (in_memory hard rt = true -> rd mh stk 4 = le_enc 4 nr) /\ (forall x, x < stk \/ stk + 4 <= x -> mh x = m3 x)).
  { unfold mh. destruct (in_memory hard rt).
    - split; [intros _; apply rd_wr_same; reflexivity|]. intros x X. apply wr_out. rewrite le_enc_zlen. lia.
    - split; [discriminate|auto]. }
  destruct MH as [MH1 MH2].
  set (n0 := first_core hard rt) in *.
  assert (N0 : n0 = if in_memory hard rt then 1 else 0) by reflexivity.
  assert (FIN : forall m', stored m' stk base ts ls objs ->
    (forall x, kept base stk bnd n0 [] 0 x -> m' x = mh x) ->
    stored m' stk base ts ls objs /\
    (in_memory hard rt = true -> rd m' stk 4 = le_enc 4 nr) /\ rd m' (fr + 8) 4 = le_enc 4 nr /\
    rd m' (fr + 12) 4 = le_enc 4 (call_flags c rv) /\ rd m' (fr + 16) 4 = le_enc 4 closure /\
    (forall x, x < base \/ fr + 20 <= x -> m' x = m x)).
  { intros m' S K. split; [exact S|].
    assert (KF : forall a, fr + 8 <= a -> rd m' a 4 = rd m3 a 4).
    { intros a A. apply rd_ext. intros x X. rewrite K by (unfold kept, bnd; lia). apply MH2. lia. }
    split; [intros E; rewrite <- (MH1 E); apply rd_ext; intros x X; apply K; unfold kept; rewrite N0, E; lia|].
    rewrite !KF by lia. split; [exact R1|]. split; [exact R2|]. split; [exact R3|].
    intros x X. rewrite K by (unfold kept, bnd; lia). rewrite MH2 by lia. apply OUT. exact X. }
  pose proof stk_8 as S8. fold stk.
  destruct (use_vfp c) eqn:UV.
  - pose proof (pr_use _ _ _ _ P) as PU. rewrite UV in PU. symmetry in PU. apply andb_prop in PU. destruct PU as [HD _].
    pose proof stk_eq as SE. rewrite UV in SE.
    unfold prep_args_vfp. rewrite call_flags_mem, (pr_args _ _ _ _ P).
    assert (PRE : (if in_memory hard rt then let* m' := store base hi m3 stk (le_enc 4 nr) in Ok (m', stk + 4) else Ok (m3, stk)) = Ok (mh, stk + 4 * n0)).
    { unfold mh. rewrite N0. destruct (in_memory hard rt).
      - rewrite store_ok by (rewrite ?le_enc_zlen; lia). cbn [bind]. do 2 f_equal; lia.
      - do 2 f_equal; lia. }
    rewrite PRE. cbn [bind].
    destruct (args_vfp_spec base hi stk base bnd S8 B0 ltac:(lia) ltac:(lia) ltac:(unfold bnd; lia) ltac:(unfold bnd; lia) BH ts TS objs OB n0 [] 0
      (PSt mh (stk + 4 * n0) (stk + 16) false false (v_args (k_vfp c)))) as (st & E1 & E2 & E3).
    + split; [rewrite N0; destruct (in_memory hard rt); lia|]. split; [lia|]. split; [exists 0; reflexivity|]. split; [apply packed_nil|].
      cbn [p_left p_argp p_used p_done p_regp]. split; [apply (pr_vfp _ _ _ _ P HD)|]. split; [lia|]. split; [reflexivity|]. split; [discriminate|]. auto.
    + rewrite <- HD. exact OV.
    + rewrite E1. cbn [bind]. exists (p_mem st). split; [reflexivity|]. apply FIN; [|exact E3]. unfold ls. rewrite HD. exact E2.
  - assert (LE : ls = plan false ts n0 [] 0).
    { unfold ls. fold n0. pose proof (pr_use _ _ _ _ P) as PU. rewrite UV in PU. destruct hard; [|reflexivity].
      cbn [andb] in PU. symmetry in PU. apply no_fp_forall in PU. apply plan_no_fp. auto. }
    unfold prep_args_sysv. rewrite call_flags_mem, (pr_args _ _ _ _ P).
    assert (PRE : forall X, (if in_memory hard rt then let* m' := store base hi m3 stk (le_enc 4 nr) in args_sysv base hi ts objs m' (stk + 4) else args_sysv base hi ts objs m3 stk) = X ->
       args_sysv base hi ts objs mh (stk + fill n0 0) = X).
    { intros X <-. unfold mh, fill. rewrite N0. cbn [Z.eqb]. destruct (in_memory hard rt).
      - rewrite store_ok by (rewrite ?le_enc_zlen; lia). reflexivity.
      - f_equal. lia. }
    rewrite <- (PRE _ eq_refl).
    rewrite LE in OV.
    destruct (args_sysv_spec base hi stk base bnd S8 ltac:(lia) ltac:(lia) ltac:(unfold bnd; lia) BH ts TS objs OB n0 0 mh
      ltac:(rewrite N0; destruct (in_memory hard rt); lia) ltac:(lia) ltac:(exists 0; reflexivity) ltac:(auto) OV) as (m' & E1 & E2 & E3).
    exists m'. split; [exact E1|]. apply FIN; [rewrite LE; exact E2|].
    intros x X. apply E3. unfold kept, fill in *. cbn [Z.eqb].
    pose proof stk_eq as SE. rewrite UV in SE.
    assert (0 <= n0) by (rewrite N0; destruct (in_memory hard rt); lia).
    destruct X as [X|[X|[X|[X|X]]]]; [lia|lia|destruct X as [_ []]|lia|lia].
Qed.
End Call.
