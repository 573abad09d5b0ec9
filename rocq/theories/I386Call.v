(** The i386 ffi_call: the loop over the arguments. *)
From Verif Require Import Base Types LayoutSpec BaseFacts NaturalTypes NaturalFacts.
From Verif Require Import I386Model I386Spec I386Facts.
Local Open Scope Z_scope.
Local Arguments Z.mul : simpl never.
Local Arguments Z.add : simpl never.
Local Arguments Z.sub : simpl never.

(** Words. *)
Lemma word_enc o t d : ctype32 o t -> zlen d = ty_size t -> bytes_ok d -> small_int (ty_code t) = true ->
  extend_basic_type d (ty_code t) = Ok (word_value (ty_code t) d) /\
  get_range (le_enc 4 (word_value (ty_code t) d)) 0 (ty_size t) = Some d.
Proof.
  intros C Z B S.
  assert (SZ : (ty_code t = T_SINT8 /\ ty_size t = 1) \/ (ty_code t = T_UINT8 /\ ty_size t = 1) \/
               (ty_code t = T_SINT16 /\ ty_size t = 2) \/ (ty_code t = T_UINT16 /\ ty_size t = 2) \/
               ((ty_code t = T_SINT32 \/ ty_code t = T_UINT32 \/ ty_code t = T_POINTER) /\ ty_size t = 4)).
  { inversion C as [|t0 H|t0 H|s0 a0 es0 offs NE F SL]; subst; try discriminate S.
    - cbn. tauto.
    - destruct o; cbn in H; in_cases H; cbn in S; try discriminate S; cbn; tauto. }
  assert (G : forall n : nat, zlen d = Z.of_nat n -> (n <= 4)%nat ->
    forall v, v mod 2 ^ (8 * Z.of_nat n) = le_dec d -> get_range (le_enc 4 (v mod 2 ^ 32)) 0 (Z.of_nat n) = Some d).
  { intros n Hn L v E. rewrite get_range_some by (rewrite ?le_enc_zlen; lia). f_equal.
    rewrite Nat2Z.id. cbn [Z.to_nat skipn]. rewrite le_enc_firstn by lia.
    assert (LN : length d = n) by (unfold zlen in Hn; lia).
    rewrite <- (le_enc_dec d) by auto. rewrite LN, <- E, le_enc_mod.
    rewrite <- (le_enc_mod n (v mod 2 ^ 32)). rewrite <- (le_enc_mod n v). f_equal.
    symmetry. apply Znumtheory.Zmod_div_mod; try (apply Z.pow_pos_nonneg; lia).
    exists (2 ^ (32 - 8 * Z.of_nat n)). rewrite <- Z.pow_add_r by lia. f_equal. lia. }
  assert (A : get_range d 0 (ty_size t) = Some d) by (rewrite <- Z; apply get_range_all).
  pose proof (le_dec_bound d B) as LB. rewrite Z in LB.
  unfold word_value. rewrite Z.
  destruct SZ as [[Ec Es]|[[Ec Es]|[[Ec Es]|[[Ec Es]|[Ec Es]]]]].
  - rewrite Ec, Es in *. cbn [extend_basic_type signed]. rewrite A. cbn [of_option bind]. split; [reflexivity|].
    apply (G 1%nat); [exact Z|lia|]. change (8 * Z.of_nat 1) with (8 * 1). rewrite to_signed_mod by lia. apply Z.mod_small. exact LB.
  - rewrite Ec, Es in *. cbn [extend_basic_type signed]. rewrite A. cbn [of_option bind]. split; [reflexivity|].
    apply (G 1%nat); [exact Z|lia|]. change (8 * Z.of_nat 1) with (8 * 1). apply Z.mod_small. exact LB.
  - rewrite Ec, Es in *. cbn [extend_basic_type signed]. rewrite A. cbn [of_option bind]. split; [reflexivity|].
    apply (G 2%nat); [exact Z|lia|]. change (8 * Z.of_nat 2) with (8 * 2). rewrite to_signed_mod by lia. apply Z.mod_small. exact LB.
  - rewrite Ec, Es in *. cbn [extend_basic_type signed]. rewrite A. cbn [of_option bind]. split; [reflexivity|].
    apply (G 2%nat); [exact Z|lia|]. change (8 * Z.of_nat 2) with (8 * 2). apply Z.mod_small. exact LB.
  - assert (SG : signed (ty_code t) = false) by (destruct Ec as [->|[->| ->]]; reflexivity). rewrite SG.
    rewrite Es in *. split.
    + destruct Ec as [->|[->| ->]]; cbn [extend_basic_type]; rewrite A; reflexivity.
    + apply (G 4%nat); [exact Z|lia|]. change (8 * Z.of_nat 4) with (8 * 4). apply Z.mod_small. exact LB.
Qed.
Lemma float_enc o t d : ctype32 o t -> zlen d = ty_size t -> bytes_ok d -> ty_code t = T_FLOAT ->
  exists v, extend_basic_type d (ty_code t) = Ok v /\ le_enc 4 v = d.
Proof.
  intros C Z B S. destruct (float_one o t C S) as [Sz _]. rewrite S. cbn [extend_basic_type].
  rewrite Sz in Z. pose proof (get_range_all d) as A. rewrite Z in A. rewrite A. cbn [of_option bind]. eexists. split; [reflexivity|].
  change (2 ^ 32) with (2 ^ (8 * Z.of_nat 4)). rewrite le_enc_mod.
  replace 4%nat with (length d) by (unfold zlen in Z; lia). apply le_enc_dec; auto.
Qed.

(** Reading the block. *)
Section Block.
Variables (a : abi) (base fr : Z).

Definition slot (r : Z) : Z := fr + 20 + 4 * r.
Definition word_at (F : list Z) (r : Z) : Z := match get_range F (slot r - base) 4 with Some x => le_dec x | None => 0 end.
Definition agrees (F B : list Z) : Prop :=
  forall p n, 0 <= n -> base <= p -> p + n <= fr \/ fr + 20 <= p -> get_range F (p - base) n = get_range B (p - base) n.
(** A range that the registers in [rs] do not use. *)
Definition off_regs (rs : list Z) (p n : Z) : Prop := forall r, In r rs -> p + n <= slot r \/ slot r + 4 <= p.

Lemma agrees_refl F : agrees F F.
Proof. intros p n _ _ _. reflexivity. Qed.

Lemma store_ok blk p d : base <= p -> p + zlen d <= base + zlen blk ->
  exists b, store base blk p d = Ok b /\ zlen b = zlen blk /\ get_range b (p - base) (zlen d) = Some d /\
    forall q n, (q + n <= p \/ p + zlen d <= q) -> get_range b (q - base) n = get_range blk (q - base) n.
Proof.
  intros P L. destruct (set_range_ok blk (p - base) d ltac:(lia) ltac:(lia)) as (b & S & Z).
  exists b. unfold store. rewrite S. split; [reflexivity|]. split; [auto|]. split; [eapply get_set_same; eauto|].
  intros q n D. eapply get_set_disjoint; eauto. lia.
Qed.

Lemma reg_held o t d b k F : ctype32 o t -> zlen d = ty_size t -> bytes_ok d -> small_int (ty_code t) = true ->
  get_range F (slot k - base) 4 = Some (le_enc 4 (word_value (ty_code t) d)) ->
  (forall rd : Z -> Z -> option (list Z), at_loc (word_at F) b rd t (Reg k) d).
Proof.
  intros C Z B S G rd. cbn [at_loc]. unfold word_at. rewrite G. rewrite le_dec_enc.
  unfold word_value. change (8 * Z.of_nat 4) with 32. rewrite Z.mod_mod by (change (2 ^ 32) with 4294967296; lia). reflexivity.
Qed.

Definition reads (F : list Z) : Z -> Z -> option (list Z) := fun p n => get_range F (p - base) n.

(** One argument on the stack at [p]. *)
Lemma stk_held o t d F off regs sp : ctype32 o t -> zlen d = ty_size t -> bytes_ok d ->
  (if one_word t then exists v, extend_basic_type d (ty_code t) = Ok v /\ get_range F (sp + off - base) 4 = Some (le_enc 4 v)
   else get_range F (sp + off - base) (ty_size t) = Some d) -> passable t ->
  at_loc regs sp (reads F) t (Stk off) d.
Proof.
  intros C Z B W P. cbn [at_loc]. unfold reads.
  destruct (small_int (ty_code t)) eqn:S.
  - destruct (small_one o t C S) as (O1 & _ & _ & _ & SZ). rewrite O1 in W.
    destruct (word_enc o t d C Z B S) as [E G]. destruct W as (v & E' & W). rewrite E in E'. injection E' as <-.
    split; [|intros _; exact W].
    rewrite <- G. replace (sp + off - base) with (sp + off - base + 0) by lia.
    apply (get_range_sub _ _ 4 _ 0 (ty_size t) W); lia.
  - split; [|discriminate].
    destruct (one_word t) eqn:O1; [|exact W].
    destruct W as (v & E & W).
    assert (FL : ty_code t = T_FLOAT).
    { destruct (tcode_eqb (ty_code t) T_FLOAT) eqn:T; [destruct (ty_code t); try discriminate T; reflexivity|].
      rewrite (not_one o t C P S) in O1 by (intros E0; rewrite E0 in T; discriminate T). discriminate O1. }
    destruct (float_enc o t d C Z B FL) as (v' & E' & L). rewrite E in E'. injection E' as <-.
    destruct (float_one o t C FL) as [-> _]. rewrite L in W. exact W.
Qed.

End Block.

(** The loop, first argument lowest. *)
Lemma push_up o a base fr : down a = false -> (16 | base) -> 0 <= base -> base <= fr ->
  forall ts, Forall (ctype32 o) ts -> Forall passable ts -> forall objs, objects_ok ts objs ->
  forall blk off n locs e, 0 <= n -> 0 <= off -> (4 | off) ->
    assign_up a (left a n) off ts = (locs, e) -> base + e <= fr -> fr + 32 <= base + zlen blk -> base + zlen blk < 2 ^ 32 ->
  exists s, push_args a base fr ts objs (CSt blk (base + off) n) = Ok s /\ zlen (b_blk s) = zlen blk /\
    (forall p m, 0 <= m -> base <= p -> p + m <= base + off \/ fr <= p -> off_regs fr (left a n) p m ->
       get_range (b_blk s) (p - base) m = get_range blk (p - base) m) /\
    (forall F, agrees base fr F (b_blk s) -> held (word_at base fr F) base (reads base F) ts locs objs).
Proof.
  intros DN AL BP BF ts CT. induction CT as [|t ts C CT IH]; intros PS objs OK blk off n locs e N O D AS E FZ BZ.
  - inversion OK; subst. cbn in AS. injection AS as <- <-. cbn [push_args]. eexists. split; [reflexivity|].
    split; [reflexivity|]. split; [reflexivity|]. cbn. auto.
  - inversion PS as [|? ? PT PS']; subst. inversion OK as [|? d ? objs' [Z B] OK']; subst.
    pose proof (ctype32_basic _ _ C) as (Sz & _). pose proof (words_size t) as [W WD].
    cbn [assign_up] in AS. cbn [push_args]. unfold push_arg. cbn [b_blk b_argp b_n]. rewrite DN.
    pose proof (osa_le off t) as OL.
    assert (MONO : forall rg q l e0, assign_up a rg q ts = (l, e0) -> q <= e0).
    { intros rg q l e0 H. pose proof (up_mono o a ts CT rg q) as M. rewrite H in M. exact M. }
    destruct (small_int (ty_code t)) eqn:S.
    + destruct (small_one o t C S) as (O1 & NF & NS & _ & SZ). rewrite O1.
      destruct (word_enc o t d C Z B S) as [EX GX]. rewrite EX. cbn [bind].
      replace (tcode_eqb (ty_code t) T_FLOAT) with false by (destruct (ty_code t); try reflexivity; congruence).
      rewrite left_znth by lia. destruct (left a n) as [|k regs'] eqn:LF.
      * assert (OA : on_stack_align t = 4) by (unfold on_stack_align; destruct (ty_code t); try reflexivity; congruence).
        rewrite OA in AS. rewrite (round_up_id off 4) in AS by (auto; lia).
        replace (stops a (ty_code t)) with false in AS by (destruct a, (ty_code t); try reflexivity; discriminate S).
        rewrite (words_small o t C O1) in AS. destruct (assign_up a [] (off + 4) ts) as [l e0] eqn:AS'. injection AS as <- <-.
        pose proof (MONO _ _ _ _ AS').
        destruct (store_ok base blk (base + off) (le_enc 4 (word_value (ty_code t) d)) ltac:(lia) ltac:(rewrite le_enc_zlen; lia))
          as (b & ST & BL & RD & FRM). rewrite le_enc_zlen in RD, FRM. change (Z.of_nat 4) with 4 in RD, FRM.
        rewrite ST. cbn [bind]. rewrite <- Z.add_assoc.
        rewrite <- LF in AS'.
        destruct (IH PS' objs' OK' b (off + 4) n l e0 N ltac:(lia) ltac:(apply Z.divide_add_r; auto; exists 1; reflexivity) AS' E ltac:(lia) ltac:(lia)) as (s & P & ZB & FR & H1).
        exists s. split; [exact P|]. split; [lia|]. split.
        -- intros p m M PB DJ OR. rewrite FR by (auto; try lia; rewrite LF; auto). apply FRM. lia.
        -- intros F AG. cbn [held]. split; [|apply H1; auto].
           apply (stk_held base o); auto. rewrite O1. exists (word_value (ty_code t) d). split; [exact EX|].
           rewrite AG by lia. rewrite FR by (try lia; rewrite LF; intros r []). exact RD.
      * destruct (assign_up a regs' off ts) as [l e0] eqn:AS'. injection AS as <- <-.
        pose proof (MONO _ _ _ _ AS').
        pose proof (left_range a n k ltac:(rewrite LF; left; reflexivity)) as KR.
        pose proof (left_next a n k regs' N LF) as LN.
        pose proof (left_nodup a n) as ND. rewrite LF in ND. apply NoDup_cons_iff in ND as [NI ND'].
        destruct (store_ok base blk (slot fr k) (le_enc 4 (word_value (ty_code t) d)) ltac:(unfold slot; lia) ltac:(rewrite le_enc_zlen; unfold slot; lia))
          as (b & ST & BL & RD & FRM). rewrite le_enc_zlen in RD, FRM. change (Z.of_nat 4) with 4 in RD, FRM.
        unfold slot in ST. rewrite ST. cbn [bind].
        rewrite <- LN in AS'.
        destruct (IH PS' objs' OK' b off (n + 1) l e0 ltac:(lia) O D AS' E ltac:(lia) ltac:(lia)) as (s & P & ZB & FR & H1).
        exists s. split; [exact P|]. split; [lia|]. split.
        -- intros p m M PB DJ OR. rewrite FR by (auto; rewrite LN; intros r IR; apply OR; right; auto).
           apply FRM. apply OR. left; reflexivity.
        -- intros F AG. cbn [held]. split; [|apply H1; auto].
           apply (reg_held base fr o); auto. rewrite AG by (unfold slot; lia). rewrite FR; [exact RD|lia|unfold slot; lia|unfold slot; lia|].
           rewrite LN. intros r IR. assert (r <> k) by (intros ->; auto).
           pose proof (left_range a n r ltac:(rewrite LF; right; auto)). unfold slot. lia.
    + assert (AS2 : (let '(l, e0) := assign_up a (if stops a (ty_code t) then [] else left a n) (round_up off (on_stack_align t) + words t) ts in (Stk (round_up off (on_stack_align t)) :: l, e0)) = (locs, e)).
      { destruct (left a n); exact AS. }
      clear AS. destruct (assign_up a (if stops a (ty_code t) then [] else left a n) (round_up off (on_stack_align t) + words t) ts) as [l e0] eqn:AS'.
      injection AS2 as <- <-. pose proof (MONO _ _ _ _ AS').
      pose proof (osa_divide off t) as OD.
      assert (OR0 : forall r, In r (if stops a (ty_code t) then [] else left a n) -> In r (left a n)) by (intros r IR; destruct (stops a (ty_code t)); [contradiction|auto]).
      destruct (one_word t) eqn:O1.
      * assert (FL : ty_code t = T_FLOAT).
        { destruct (tcode_eqb (ty_code t) T_FLOAT) eqn:T; [destruct (ty_code t); try discriminate T; reflexivity|].
          rewrite (not_one o t C PT S) in O1 by (intros E0; rewrite E0 in T; discriminate T). discriminate O1. }
        destruct (float_enc o t d C Z B FL) as (v & EX & LE). rewrite EX. cbn [bind].
        rewrite FL in *. cbn [tcode_eqb].
        assert (OA : on_stack_align t = 4) by (unfold on_stack_align; rewrite FL; reflexivity).
        rewrite OA in *. rewrite (round_up_id off 4) in * by (auto; lia).
        rewrite (words_small o t C O1) in *.
        replace (stops a T_FLOAT) with false in * by (destruct a; reflexivity).
        destruct (store_ok base blk (base + off) (le_enc 4 v) ltac:(lia) ltac:(rewrite le_enc_zlen; lia))
          as (b & ST & BL & RD & FRM). rewrite le_enc_zlen in RD, FRM. change (Z.of_nat 4) with 4 in RD, FRM.
        rewrite ST. cbn [bind]. rewrite <- Z.add_assoc.
        destruct (IH PS' objs' OK' b (off + 4) n l e0 N ltac:(lia) ltac:(apply Z.divide_add_r; auto; exists 1; reflexivity) AS' E ltac:(lia) ltac:(lia)) as (s & P & ZB & FR & H1).
        exists s. split; [exact P|]. split; [lia|]. split.
        -- intros p m M PB DJ OR. rewrite FR by (auto; try lia). apply FRM. lia.
        -- intros F AG. cbn [held]. split; [|apply H1; auto].
           apply (stk_held base o); auto. rewrite O1. exists v. rewrite FL. split; [exact EX|].
           rewrite AG by lia. rewrite FR; [exact RD|lia|lia|lia|].
           intros r IR. pose proof (left_range a n r IR). unfold slot. lia.
      * assert (GD : get_range d 0 (ty_size t) = Some d) by (rewrite <- Z; apply get_range_all).
        rewrite GD. cbn [of_option bind].
        assert (PP : ffi_align_w 32 (base + off) (arg_align t) = base + round_up off (on_stack_align t)).
        { rewrite arg_align_spec. assert (DB : (on_stack_align t | base)) by (destruct (osa_cases t) as [->|[-> _]]; [eapply Z.divide_trans; [|exact AL]; exists 4; reflexivity|auto]).
          rewrite ffi_align_w_round; [apply round_up_add; auto|lia|apply osa_pow|lia|].
          - pose proof (is_pow2_pos _ (osa_pow t)); lia.
          - rewrite round_up_add; auto; [lia|]. pose proof (is_pow2_pos _ (osa_pow t)); lia. }
        rewrite PP.
        destruct (store_ok base blk (base + round_up off (on_stack_align t)) d ltac:(lia) ltac:(lia)) as (b & ST & BL & RD & FRM).
        rewrite ST. cbn [bind].
        assert (WW : ffi_align_w 32 (ty_size t) 4 = words t).
        { apply ffi_align_w_round; [lia|apply pow2_small|lia|]. fold (words t). lia. }
        rewrite WW. rewrite <- Z.add_assoc. rewrite <- (left_close a n (ty_code t)) in AS'.
        destruct (IH PS' objs' OK' b (round_up off (on_stack_align t) + words t) (if closes_regs a (ty_code t) then 2 else n) l e0
          ltac:(destruct (closes_regs a (ty_code t)); lia) ltac:(lia) ltac:(apply Z.divide_add_r; auto) AS' E ltac:(lia) ltac:(lia)) as (s & P & ZB & FR & H1).
        exists s. split; [exact P|]. split; [lia|]. split.
        -- intros p m M PB DJ OR. rewrite FR by (try lia; rewrite left_close; intros r IR; auto). apply FRM. lia.
        -- intros F AG. cbn [held]. split; [|apply H1; auto].
           apply (stk_held base o); auto. rewrite O1.
           rewrite AG by lia. rewrite FR; [rewrite <- Z; exact RD|lia|lia|lia|].
           rewrite left_close. intros r IR. pose proof (left_range a n r (OR0 _ IR)). unfold slot. lia.
Qed.

(** The loop, last argument lowest; [g]: the gap below the arguments. *)
Lemma push_down o a base fr g : down a = true -> 0 <= base -> 0 <= g -> base <= fr ->
  forall ts, Forall (ctype32 o) ts -> Forall passable ts -> forall objs, objects_ok ts objs ->
  forall blk n locs e, 0 <= n ->
    assign_down a (left a n) ts = (locs, e) -> base + g + e <= fr -> fr + 32 <= base + zlen blk -> base + zlen blk < 2 ^ 32 ->
  exists s, push_args a base fr ts objs (CSt blk (base + g + e) n) = Ok s /\ zlen (b_blk s) = zlen blk /\
    (forall p m, 0 <= m -> base <= p -> p + m <= base + g \/ base + g + e <= p -> off_regs fr (left a n) p m ->
       get_range (b_blk s) (p - base) m = get_range blk (p - base) m) /\
    (forall F, agrees base fr F (b_blk s) -> held (word_at base fr F) (base + g) (reads base F) ts locs objs).
Proof.
  intros DN BP GP BF ts CT. induction CT as [|t ts C CT IH]; intros PS objs OK blk n locs e N AS E FZ BZ.
  - inversion OK; subst. cbn in AS. injection AS as <- <-. cbn [push_args]. eexists. split; [reflexivity|].
    split; [reflexivity|]. split; [reflexivity|]. cbn. auto.
  - inversion PS as [|? ? PT PS']; subst. inversion OK as [|? d ? objs' [Z B] OK']; subst.
    pose proof (ctype32_basic _ _ C) as (Sz & _). pose proof (words_size t) as [W WD].
    cbn [assign_down] in AS. cbn [push_args]. unfold push_arg. cbn [b_blk b_argp b_n]. rewrite DN.
    assert (MONO : forall rg l e0, assign_down a rg ts = (l, e0) -> 0 <= e0).
    { intros rg l e0 H. pose proof (down_nonneg o a ts CT rg) as M. rewrite H in M. exact M. }
    assert (CL : closes_regs a (ty_code t) = false) by (destruct a; try discriminate DN; reflexivity).
    (* storing on the stack *)
    assert (STK : forall l e0 x, assign_down a (left a n) ts = (l, e0) -> e = e0 + words t -> locs = Stk e0 :: l ->
              zlen x <= words t ->
              (if one_word t then exists v, extend_basic_type d (ty_code t) = Ok v /\ x = le_enc 4 v else x = d) ->
              exists s, (let* b := store base blk (base + g + e - words t) x in
                         push_args a base fr ts objs' (CSt b (base + g + e - words t) n)) = Ok s /\ zlen (b_blk s) = zlen blk /\
                (forall p m, 0 <= m -> base <= p -> p + m <= base + g \/ base + g + e <= p -> off_regs fr (left a n) p m ->
                   get_range (b_blk s) (p - base) m = get_range blk (p - base) m) /\
                (forall F, agrees base fr F (b_blk s) -> held (word_at base fr F) (base + g) (reads base F) (t :: ts) locs (d :: objs'))).
    { intros l e0 x AS' -> -> XZ XV. pose proof (MONO _ _ _ AS').
      replace (base + g + (e0 + words t) - words t) with (base + g + e0) by lia.
      destruct (store_ok base blk (base + g + e0) x ltac:(lia) ltac:(lia)) as (b & ST & BL & RD & FRM).
      rewrite ST. cbn [bind].
      destruct (IH PS' objs' OK' b n l e0 N AS' ltac:(lia) ltac:(lia) ltac:(lia)) as (s & P & ZB & FR & H1).
      exists s. split; [exact P|]. split; [lia|]. split.
      - intros p m M PB DJ OR. rewrite FR by (auto; try lia). apply FRM. lia.
      - intros F AG. cbn [held]. split; [|apply H1; auto].
        apply (stk_held base o); auto.
        assert (RX : get_range F (base + g + e0 - base) (zlen x) = Some x).
        { rewrite AG by (pose proof (zlen_nonneg x); lia). rewrite FR; [exact RD|apply zlen_nonneg|lia|lia|].
          intros r IR. pose proof (left_range a n r IR). unfold slot. lia. }
        destruct (one_word t).
        + destruct XV as (v & EX & ->). exists v. split; [exact EX|]. rewrite le_enc_zlen in RX. exact RX.
        + subst x. rewrite <- Z. exact RX. }
    destruct (one_word t) eqn:O1.
    + assert (W4 := words_small o t C O1). rewrite W4 in *.
      destruct (small_int (ty_code t)) eqn:S.
      * destruct (small_one o t C S) as (_ & NF & NS & _ & SZ).
        destruct (word_enc o t d C Z B S) as [EX GX]. rewrite EX. cbn [bind].
        replace (tcode_eqb (ty_code t) T_FLOAT) with false by (destruct (ty_code t); try reflexivity; congruence).
        rewrite left_znth by lia. destruct (left a n) as [|k regs'] eqn:LF.
        -- destruct (assign_down a [] ts) as [l e0] eqn:AS'. injection AS as <- <-.
           destruct (STK l e0 (le_enc 4 (word_value (ty_code t) d)) eq_refl eq_refl eq_refl ltac:(rewrite le_enc_zlen; lia) ltac:(eauto)) as (s & P & R).
           exists s. split; [|exact R]. rewrite <- P. destruct (store base blk (base + g + (e0 + 4) - 4) (le_enc 4 (word_value (ty_code t) d))); reflexivity.
        -- clear STK. destruct (assign_down a regs' ts) as [l e0] eqn:AS'. injection AS as <- <-.
           pose proof (MONO _ _ _ AS').
           pose proof (left_range a n k ltac:(rewrite LF; left; reflexivity)) as KR.
           pose proof (left_next a n k regs' N LF) as LN.
           pose proof (left_nodup a n) as ND. rewrite LF in ND. apply NoDup_cons_iff in ND as [NI ND'].
           destruct (store_ok base blk (slot fr k) (le_enc 4 (word_value (ty_code t) d)) ltac:(unfold slot; lia) ltac:(rewrite le_enc_zlen; unfold slot; lia))
             as (b & ST & BL & RD & FRM). rewrite le_enc_zlen in RD, FRM. change (Z.of_nat 4) with 4 in RD, FRM.
           unfold slot in ST. rewrite ST. cbn [bind].
           rewrite <- LN in AS'.
           destruct (IH PS' objs' OK' b (n + 1) l e0 ltac:(lia) AS' E ltac:(lia) ltac:(lia)) as (s & P & ZB & FR & H1).
           exists s. split; [exact P|]. split; [lia|]. split.
           ++ intros p m M PB DJ OR. rewrite FR by (auto; rewrite LN; intros r IR; apply OR; right; auto).
              apply FRM. apply OR. left; reflexivity.
           ++ intros F AG. cbn [held]. split; [|apply H1; auto].
              apply (reg_held base fr o); auto. rewrite AG by (unfold slot; lia). rewrite FR; [exact RD|lia|unfold slot; lia|unfold slot; lia|].
              rewrite LN. intros r IR. assert (r <> k) by (intros ->; auto).
              pose proof (left_range a n r ltac:(rewrite LF; right; auto)). unfold slot. lia.
      * assert (FL : ty_code t = T_FLOAT).
        { destruct (tcode_eqb (ty_code t) T_FLOAT) eqn:T; [destruct (ty_code t); try discriminate T; reflexivity|].
          rewrite (not_one o t C PT S) in O1 by (intros E0; rewrite E0 in T; discriminate T). discriminate O1. }
        destruct (float_enc o t d C Z B FL) as (v & EX & LE). rewrite EX. cbn [bind].
        rewrite FL. cbn [tcode_eqb].
        destruct (assign_down a (left a n) ts) as [l e0] eqn:AS'. injection AS as <- <-.
        destruct (STK l e0 (le_enc 4 v) eq_refl eq_refl eq_refl ltac:(rewrite le_enc_zlen; lia) ltac:(eauto)) as (s & P & R).
        exists s. split; [|exact R]. rewrite <- P. destruct (store base blk (base + g + (e0 + 4) - 4) (le_enc 4 v)); reflexivity.
    + assert (S : small_int (ty_code t) = false).
      { destruct (small_int (ty_code t)) eqn:S; auto. destruct (small_one o t C S) as (O2 & _). congruence. }
      rewrite S in AS.
      assert (GD : get_range d 0 (ty_size t) = Some d) by (rewrite <- Z; apply get_range_all).
      rewrite GD. cbn [of_option bind].
      destruct (assign_down a (left a n) ts) as [l e0] eqn:AS'. injection AS as <- <-.
      pose proof (MONO _ _ _ AS').
      assert (WW : ffi_align_w 32 (ty_size t) 4 = words t).
      { apply ffi_align_w_round; [lia|apply pow2_small|lia|]. fold (words t). lia. }
      rewrite WW, CL.
      destruct (STK l e0 d eq_refl eq_refl eq_refl ltac:(lia) eq_refl) as (s & P & R).
      exists s. split; [|exact R]. rewrite <- P. destruct (store base blk (base + g + (e0 + words t) - words t) d); reflexivity.
Qed.
