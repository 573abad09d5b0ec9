(** LoongArch: what a closure's handler gets. *)
From Coq Require Import ZifyBool ZifyNat.
From Verif Require Import Base BaseFacts Types LayoutSpec NaturalTypes NaturalFacts RvSpec RvFlat RvMain LaModel LaSpec LaFlat LaCall LaMain LaWhole.
From Verif Require A64Fits RvClosure.
Local Arguments Z.mul : simpl never.
Local Arguments Z.add : simpl never.

(** The value of an argument as the handler sees it: [v] is what it is given a pointer to. *)
Definition received1 (rd : Z -> Z -> option (list Z)) (t : ftype) (v : uval) (o : list Z) : Prop :=
  match v with UData b => same_fields t b o | UPtr p => rd p (ty_size t) = Some o end.
Fixpoint received (rd : Z -> Z -> option (list Z)) (ts : list ftype) (vs : list uval) (objs : list (list Z)) : Prop :=
  match ts, vs, objs with
  | [], [], [] => True
  | t :: ts', v :: vs', o :: objs' => received1 rd t v o /\ received rd ts' vs' objs'
  | _, _, _ => False
  end.

(** The memory an argument or result is stored in: integer members take whole words. *)
Definition ubuf_ok (fl : Z) (t : ftype) (buf : list Z) : Prop :=
  ty_size t <= 16 -> ty_size t <= zlen buf /\ (whole (ty_code t) = true -> 8 <= zlen buf) /\
    match shape_of fl t with RealInt _ o2 _ => o2 + 8 <= zlen buf | IntReal _ _ _ => 8 <= zlen buf | _ => True end.

Lemma second_offset fl t n1 o2 n2 : natural t -> shape_of fl t = RealInt n1 o2 n2 -> o2 <= 8.
Proof.
  intros N. unfold shape_of. destruct (natural_leaves _ N) as (NE & NL & NS).
  destruct (leaves t) as [|x [|y [|z r]]] eqn:L.
  - congruence.
  - destruct (one_leaf _ _ N L) as (SZ & _ & F). rewrite (F 0) by apply Z.divide_0_r. destruct (real fl (ty_code x)); discriminate.
  - destruct (two_leaves _ _ _ N L) as (AL & SZ & F). rewrite (F 0) by apply Z.divide_0_r. rewrite Z.add_0_l.
    inversion NL as [|? ? Nx NL1]; subst. inversion NL1 as [|? ? Ny _]; subst.
    destruct (real fl (ty_code x)) eqn:RX, (real fl (ty_code y)) eqn:RY; cbn [andb]; try discriminate.
    + destruct (whole (ty_code y)) eqn:WY; [|rewrite andb_false_r; discriminate]. intros E. injection E as <- <- <-.
      rewrite (csize_of fl x Nx) by auto.
      assert (DY : ty_code y <> T_STRUCT /\ ty_code y <> T_COMPLEX) by (split; intros E; rewrite E in WY; discriminate).
      destruct (scalar_size y _ Ny eq_refl (proj1 DY) (proj2 DY)) as (AY & _). rewrite AY, (csize_of fl y Ny) by auto.
      assert (M : forall c, csize c = 1 \/ csize c = 2 \/ csize c = 4 \/ csize c = 8) by (intros c; destruct c; cbn; auto).
      destruct (M (ty_code x)) as [-> | [-> | [-> | ->]]]; destruct (M (ty_code y)) as [-> | [-> | [-> | ->]]]; vm_compute; discriminate.
    + rewrite andb_true_r. destruct (whole (ty_code x)); discriminate.
    + rewrite andb_false_r. discriminate.
  - pose proof (fields_length t 0) as FLN. rewrite L in FLN. destruct (fields t 0) as [|[[? ?] ?] [|[[? ?] ?] [|[[? ?] ?] q]]]; try discriminate FLN; discriminate.
Qed.

Lemma ubuf_16 fl t buf : natural t -> 16 <= zlen buf -> ubuf_ok fl t buf.
Proof.
  intros N Z S. split; [lia|]. split; [lia|]. destruct (shape_of fl t) eqn:SH; auto; [|lia].
  pose proof (second_offset _ _ _ _ _ N SH). lia.
Qed.

Section Regs.
Variables (fl sp : Z) (fa a frame : list Z) (rd : Z -> Z -> option (list Z)).
Hypothesis FL : la_fl fl.
Hypothesis ZFA : zlen fa = 8 * fl.
Hypothesis ZA : zlen a = 64.
Let regs := fa ++ a ++ frame.

Lemma regs_a p n : 0 <= p -> 0 <= n -> p + n <= 64 -> get_range regs (8 * fl + p) n = get_range a p n.
Proof.
  intros P N L. unfold regs. assert (G : get_range (fa ++ a ++ frame) (8 * fl) 64 = Some a).
  { rewrite get_range_some; [|destruct FL as [-> | ->]; lia|lia|rewrite !zlen_app; pose proof (zlen_nonneg frame); lia].
    f_equal. rewrite <- ZFA. unfold zlen. rewrite Nat2Z.id, skipn_app, skipn_all, Nat.sub_diag. cbn [skipn app].
    rewrite firstn_app. replace (Z.to_nat 64) with (length a) by (unfold zlen in ZA; lia).
    rewrite firstn_all, Nat.sub_diag, firstn_O, app_nil_r. reflexivity. }
  apply (get_range_sub _ _ _ _ p n G); lia.
Qed.
Lemma regs_fa p n : 0 <= p -> 0 <= n -> p + n <= 8 * fl -> get_range regs p n = get_range fa p n.
Proof.
  intros P N L. unfold regs. assert (G : get_range (fa ++ a ++ frame) 0 (8 * fl) = Some fa).
  { rewrite get_range_some; [|lia|lia|rewrite !zlen_app; pose proof (zlen_nonneg frame); lia].
    f_equal. rewrite <- ZFA. unfold zlen. rewrite Nat2Z.id. cbn [Z.to_nat skipn].
    rewrite firstn_app, firstn_all, Nat.sub_diag, firstn_O, app_nil_r. reflexivity. }
  rewrite <- (get_range_sub _ _ _ _ p n G) by lia. reflexivity.
Qed.

Lemma take_float_ok f d u : 0 <= f < 8 -> 0 < zlen d <= fl -> in_freg fl fa f d -> u_flt u = f ->
  take_float fl (zlen d) regs u = Ok (d, USt (u_int u) (f + 1) (u_stk u)).
Proof.
  intros F Z (_ & H) E. unfold take_float. rewrite E. rewrite regs_fa by nia. rewrite H. reflexivity.
Qed.

Lemma float_atom c f d u : real fl c = true -> zlen d = csize c -> 0 <= f < 8 -> in_freg fl fa f d -> u_flt u = f ->
  unmarshal_atom fl regs rd c u = Ok (d, USt (u_int u) (f + 1) (u_stk u)).
Proof.
  intros R Z F H E. unfold real in R. destruct c; try discriminate R; cbn [unmarshal_atom csize] in *; rewrite R.
  - rewrite <- Z. apply take_float_ok; auto. lia.
  - rewrite <- Z. apply take_float_ok; auto. lia.
Qed.

Lemma word_atom g k w g' k' u x c : 0 <= g <= 8 -> word_at g k = (w, g', k') -> u_int u = g -> u_stk u = sp + k ->
  word_of a sp rd w = Some x -> zlen x = 8 -> bytes_ok x -> integral c = true ->
  unmarshal_atom fl regs rd c u = Ok (x, USt g' (u_flt u) (sp + k')).
Proof.
  intros G W U1 U2 X ZX OX IC.
  assert (T : take_word fl regs rd u = Ok (le_dec x, USt g' (u_flt u) (sp + k'))).
  { unfold take_word. rewrite U1, U2. change NARGREG with 8. unfold word_at in W.
    destruct (g <? 8) eqn:G8; injection W as <- <- <-; cbn [word_of] in X.
    - replace (g =? 8) with false by lia. rewrite regs_a by lia. rewrite X. reflexivity.
    - replace (g =? 8) with true by lia. rewrite X. cbn [of_option bind]. do 2 f_equal. f_equal. lia. }
  assert (LE : le_enc 8 (le_dec x) = x).
  { replace 8%nat with (length x) by (unfold zlen in ZX; lia). apply le_enc_dec; auto. }
  destruct c; try discriminate IC; cbn [unmarshal_atom]; rewrite T; cbn [bind]; rewrite LE; reflexivity.
Qed.

Lemma low_atom g u x c : 0 <= g < 8 -> u_int u = g -> low_in a g x -> zlen x = csize c -> whole c = true ->
  exists y, zlen y = 8 /\ get_range y 0 (zlen x) = Some x /\
    unmarshal_atom fl regs rd c u = Ok (y, USt (g + 1) (u_flt u) (u_stk u)).
Proof.
  intros G U (y & Y & OY & L) Z W.
  assert (IC : integral c = true) by (destruct c; try discriminate W; reflexivity).
  assert (ZY : zlen y = 8) by (apply get_range_inv in Y; lia).
  assert (WA : word_at g (u_stk u - sp) = (XR g, g + 1, u_stk u - sp)) by (unfold word_at; replace (g <? 8) with true by lia; reflexivity).
  exists y. split; [exact ZY|]. split; [exact L|].
  rewrite (word_atom g (u_stk u - sp) (XR g) (g + 1) (u_stk u - sp) u y c) by (auto; lia).
  replace (sp + (u_stk u - sp)) with (u_stk u) by lia. reflexivity.
Qed.

(** An argument at its place. *)
Definition at_place_or_ref (t : ftype) (pl : place) (o : list Z) : Prop :=
  match pl with
  | Ref w => exists p, 0 <= p < 2 ^ 64 /\ word_of a sp rd w = Some (le_enc 8 p) /\ rd p (ty_size t) = Some o
  | _ => at_place fl a fa sp rd t pl o
  end.

Hypothesis SP : 0 <= sp /\ (16 | sp).

(** The part of unmarshal for the integer convention. *)
Definition urest (t : ftype) (var : bool) (buf : list Z) (u : ust) : res (uval * ust) :=
  if ty_size t >? 16 then
    let* (x, u1) := unmarshal_atom fl regs rd T_POINTER u in Ok (UPtr (le_dec x), u1)
  else if is_int_code (ty_code t) || tcode_eqb (ty_code t) T_POINTER then
    let* (x, u1) := unmarshal_atom fl regs rd (ty_code t) u in
    let* b := of_option (set_range buf 0 x) in
    Ok (UData b, u1)
  else
    let u0 := ualign_pair var t u in
    let* (x, u1) := if ty_size t >? 0 then unmarshal_atom fl regs rd T_POINTER u0 else Ok ([], u0) in
    let* (y, u2) := if ty_size t >? 8 then unmarshal_atom fl regs rd T_POINTER u1 else Ok ([], u1) in
    let* d := of_option (get_range (x ++ y) 0 (ty_size t)) in
    let* b := of_option (set_range buf 0 d) in
    Ok (UData b, u2).

Hypothesis RD8 : forall p x, rd p 8 = Some x -> zlen x = 8.

Lemma word_len w x : word_of a sp rd w = Some x -> zlen x = 8.
Proof. destruct w; cbn [word_of]; [|apply RD8]. intros H. apply get_range_inv in H. lia. Qed.

Lemma urest_ok g f k m t var buf o pl g' k' : room g k m -> natural t -> ubuf_ok fl t buf -> zlen o = ty_size t ->
  place_words var t g k = (pl, g', k') -> sp + k' + 32 < 2 ^ 64 -> at_place_or_ref t pl o ->
  exists v, urest t var buf (USt g f (sp + k)) = Ok (v, USt g' f (sp + k')) /\ received1 rd t v o.
Proof.
  intros (G & K & DK & SK & _) N ZB ZO PW B H. unfold urest, place_words in *. destruct SP as (SP0 & SP16).
  destruct (natural_basic _ N) as (SZ & _).
  destruct (ty_size t >? 16) eqn:BIG.
  - destruct (word_at g k) as [[w g1] k1] eqn:W. injection PW as <- <- <-. cbn [at_place_or_ref] in H.
    destruct H as (p & PP & HW & HR).
    rewrite (word_atom g k w g1 k1 _ (le_enc 8 p) T_POINTER) by (auto; try apply le_enc_ok; apply le_enc_zlen).
    cbn [bind u_flt csize]. exists (UPtr p). split; [|exact HR].
    rewrite le_dec_enc. change (2 ^ (8 * Z.of_nat 8)) with (2 ^ 64). rewrite Z.mod_small by lia. reflexivity.
  - destruct (ZB ltac:(lia)) as (ZB1 & ZB2 & ZB3).
    destruct (is_int_code (ty_code t) || tcode_eqb (ty_code t) T_POINTER) eqn:IC.
    + assert (IT : integral (ty_code t) = true) by (rewrite is_int_whole in IC; destruct (ty_code t); try discriminate IC; reflexivity).
      assert (NS : ty_code t <> T_STRUCT /\ ty_code t <> T_COMPLEX) by (split; intros E; rewrite E in IT; discriminate).
      destruct (scalar_size t _ N eq_refl (proj1 NS) (proj2 NS)) as (AL & S1 & S2 & S3 & S4 & SR & _ & _ & Q1 & Q2 & Q3 & Q4).
      assert (CZ : ty_size t = csize (ty_code t)) by (destruct (ty_code t) eqn:E; try discriminate IT; cbn [csize]; auto).
      assert (S8 : ty_size t <= 8) by (rewrite CZ; destruct (ty_code t); cbn; lia).
      replace (ty_align t >? 8) with false in PW by lia. rewrite andb_false_r in PW. cbn [andb] in PW.
      replace (ty_size t >? 8) with false in PW by lia.
      destruct (word_at g k) as [[w g1] k1] eqn:W. injection PW as <- <- <-. cbn [at_place_or_ref at_place words_of] in H.
      destruct H as (x & HW & OX & HG & _). destruct (word_of a sp rd w) as [y|] eqn:WO; [|discriminate].
      rewrite app_nil_r in HW. injection HW as ->.
      rewrite (word_atom g k w g1 k1 _ x (ty_code t)) by (auto; eapply word_len; eauto).
      cbn [bind u_flt]. pose proof (word_len _ _ WO) as Z8.
      assert (B8 : 8 <= zlen buf).
      { destruct (whole (ty_code t)) eqn:WT; [auto|].
        assert (ty_code t = T_POINTER) as TP by (destruct (ty_code t); try discriminate IT; try discriminate WT; reflexivity).
        rewrite TP in CZ. cbn [csize] in CZ. lia. }
      destruct (RvClosure.store_prefix buf x ltac:(lia)) as (b & SB & _ & GB). rewrite SB. cbn [of_option bind].
      exists (UData b). split; [reflexivity|]. cbn [received1]. apply RvClosure.prefix_fields; auto.
      rewrite Z8 in GB. pose proof (get_range_sub b 0 8 x 0 (zlen o) GB ltac:(lia) ltac:(lia) ltac:(lia)) as GS. rewrite Z.add_0_l in GS. rewrite GS. exact HG.
    + assert (P2 : is_pow2 2) by (exists 1; split; [lia|reflexivity]). assert (P16 : is_pow2 16) by (exists 4; split; [lia|reflexivity]).
      set (g0 := if var && (ty_align t >? 8) then round_up g 2 else g) in *.
      set (k0 := if (ty_align t >? 8) && (8 <=? g0) then round_up k 16 else k) in *.
      assert (KB : k <= k' /\ k0 <= k' /\ 0 <= g0 <= 8 /\ 0 <= k0).
      { pose proof (round_up_le g 2 ltac:(lia)). pose proof (round_up_lt g 2 ltac:(lia)). pose proof (round_up_le k 16 ltac:(lia)).
        assert (R8 : round_up g 2 <= 8) by (apply round_up_least; [lia|exists 4; lia|lia]).
        assert (g <= g0 <= 8) by (unfold g0; destruct (var && (ty_align t >? 8)); lia).
        assert (k <= k0) by (unfold k0; destruct ((ty_align t >? 8) && (8 <=? g0)); lia).
        destruct (word_at g0 k0) as [[w g1] k1] eqn:W. pose proof (word_at_mono _ _ _ _ _ W).
        destruct (ty_size t >? 8); [destruct (word_at g1 k1) as [[w2 g2] k2] eqn:W2; pose proof (word_at_mono _ _ _ _ _ W2)|]; injection PW as _ _ <-; lia. }
      destruct KB as (KB1 & KB2 & KB3 & KB4).
      destruct (align_word sp k k k ltac:(lia) ltac:(lia) ltac:(split; [lia|split; [auto|lia]]) g k var t G SK ltac:(lia)) as (E1 & E2 & _). fold g0 in E1, E2. fold k0 in E2.
      assert (UA : ualign_pair var t (USt g f (sp + k)) = USt g0 f (sp + k0)).
      { unfold ualign_pair. cbn [u_int u_flt u_stk]. destruct (ty_align t >? 8); [rewrite E1; f_equal; lia|].
        f_equal; lia. }
      rewrite UA. replace (ty_size t >? 0) with true by lia.
      destruct (word_at g0 k0) as [[w g1] k1] eqn:W.
      destruct (ty_size t >? 8) eqn:TWO.
      * destruct (word_at g1 k1) as [[w2 g2] k2] eqn:W2. injection PW as <- <- <-. cbn [at_place_or_ref at_place words_of] in H.
        destruct H as (x & HW & OX & HG & _). destruct (word_of a sp rd w) as [y|] eqn:WO; [|discriminate].
        destruct (word_of a sp rd w2) as [y2|] eqn:WO2; [|discriminate]. rewrite app_nil_r in HW. injection HW as <-.
        apply bytes_ok_app in OX as (OX1 & OX2). pose proof (word_len _ _ WO) as Z8. pose proof (word_len _ _ WO2) as Z82.
        rewrite (word_atom g0 k0 w g1 k1 _ y T_POINTER) by auto. cbn [bind u_flt csize].
        assert (G1 : 0 <= g1 <= 8) by (unfold word_at in W; destruct (g0 <? 8) eqn:?; injection W as _ <- _; lia).
        rewrite (word_atom g1 k1 w2 g2 k2 _ y2 T_POINTER) by auto. cbn [bind u_flt csize].
        rewrite <- ZO, HG. cbn [of_option bind].
        destruct (RvClosure.store_prefix buf o ltac:(lia)) as (b & SB & _ & GB). rewrite SB. cbn [of_option bind].
        exists (UData b). split; [reflexivity|]. cbn [received1]. apply RvClosure.prefix_fields; auto.
      * injection PW as <- <- <-. cbn [at_place_or_ref at_place words_of] in H.
        destruct H as (x & HW & OX & HG & _). destruct (word_of a sp rd w) as [y|] eqn:WO; [|discriminate].
        rewrite app_nil_r in HW. injection HW as ->. pose proof (word_len _ _ WO) as Z8.
        rewrite (word_atom g0 k0 w g1 k1 _ x T_POINTER) by auto. cbn [bind u_flt csize].
        rewrite app_nil_r, <- ZO, HG. cbn [of_option bind].
        destruct (RvClosure.store_prefix buf o ltac:(lia)) as (b & SB & _ & GB). rewrite SB. cbn [of_option bind].
        exists (UData b). split; [reflexivity|]. cbn [received1]. apply RvClosure.prefix_fields; auto.
Qed.

Lemma store_pair t (buf o x y x' y' : list Z) c1 c2 n1 o2 n2 : two_fields t c1 c2 n1 o2 n2 ->
  zlen x' <= zlen buf -> o2 + zlen y' <= zlen buf -> get_range x' 0 n1 = Some x -> get_range y' 0 n2 = Some y ->
  get_range o 0 n1 = Some x -> get_range o o2 n2 = Some y ->
  exists b b2, set_range buf 0 x' = Some b /\ set_range b o2 y' = Some b2 /\ same_fields t b2 o.
Proof.
  intros (FS & N1 & N2 & L1 & L2 & L3) LX LY PX PY X Y.
  assert (C1 : 0 < csize c1) by (destruct c1; cbn; lia). assert (C2 : 0 < csize c2) by (destruct c2; cbn; lia).
  pose proof (get_range_inv _ _ _ _ PX) as QX. pose proof (get_range_inv _ _ _ _ PY) as QY.
  destruct (set_range_ok buf 0 x') as (b & B & Zb); [lia|lia|]. destruct (set_range_ok b o2 y') as (b2 & B2 & Zb2); [lia|lia|].
  exists b, b2. split; [exact B|]. split; [exact B2|]. unfold same_fields. rewrite FS. constructor; [|constructor; [|constructor]].
  - exists x. split; [|exact X]. rewrite (get_set_disjoint _ _ _ _ 0 n1 B2) by lia.
    rewrite <- PX. rewrite <- (get_range_sub b 0 (zlen x') x' 0 n1 (get_set_same _ _ _ _ B)) by lia. reflexivity.
  - exists y. split; [|exact Y]. rewrite <- PY. rewrite <- (get_range_sub b2 o2 (zlen y') y' 0 n2 (get_set_same _ _ _ _ B2)) by lia.
    rewrite Z.add_0_r. reflexivity.
Qed.
Lemma get_all (x : list Z) n : zlen x = n -> get_range x 0 n = Some x.
Proof.
  intros <-. rewrite get_range_some by (pose proof (zlen_nonneg x); lia). unfold zlen. rewrite Nat2Z.id. cbn [Z.to_nat skipn]. rewrite firstn_all. reflexivity.
Qed.

Lemma unmarshal_ok g f k m t var buf o pl g' f' k' : room g k m -> 0 <= f <= 8 -> natural t -> ubuf_ok fl t buf -> zlen o = ty_size t ->
  (var = true -> ty_code t <> T_FLOAT) -> lone_ok fl var t f -> place_arg fl var t g f k = (pl, g', f', k') -> sp + k' + 32 < 2 ^ 64 -> at_place_or_ref t pl o ->
  exists v, unmarshal fl regs rd t var buf (USt g f (sp + k)) = Ok (v, USt g' f' (sp + k')) /\ received1 rd t v o.
Proof.
  intros R F N ZB ZO VF LONE PA B H. pose proof R as (G & K & DK & SK & _).
  assert (REST : (let '(p, g1, s1) := place_words var t g k in (p, g1, f, s1)) = (pl, g', f', k') ->
    exists v, urest t var buf (USt g f (sp + k)) = Ok (v, USt g' f' (sp + k')) /\ received1 rd t v o).
  { destruct (place_words var t g k) as [[p g1] s1] eqn:PW. intros E. injection E as -> -> <- ->. eapply urest_ok; eauto. }
  assert (VFF : var_float fl var t = false).
  { unfold var_float. destruct var; [|rewrite andb_false_r; reflexivity]. specialize (VF eq_refl).
    destruct (ty_code t); try congruence; apply andb_false_r. }
  assert (ZB1 : ty_size t <= 16 -> ty_size t <= zlen buf) by (intros X; apply ZB; exact X).
  unfold unmarshal. rewrite VFF. clear VFF. change (if ty_size t >? 16 then _ else _) with (urest t var buf (USt g f (sp + k))). unfold elements_of. cbn [u_int u_flt].
  unfold place_arg in PA. destruct var.
  { rewrite orb_true_r. cbn [negb andb]. auto. }
  rewrite orb_false_r. cbn [negb andb].
  destruct (tcode_eqb (ty_code t) T_STRUCT) eqn:ST.
  2: { assert (NS : ty_code t <> T_STRUCT) by (intros E; rewrite E in ST; discriminate).
    destruct (leaf_not_struct t NS) as (_ & FS).
    replace (if fl =? 0 then None else _) with (@None (tcode * option (Z * tcode))) by (destruct (fl =? 0); [reflexivity|destruct (ty_code t); try reflexivity; congruence]).
    unfold shape_of in PA. rewrite FS in PA. rewrite (is_float_real fl _ FL).
    destruct (real fl (ty_code t)) eqn:RE; [|rewrite andb_false_r; auto]. rewrite andb_true_r. change (f <? NARGREG) with (f <? 8).
    destruct (f <? 8) eqn:F8; [|auto]. injection PA as <- <- <- <-. cbn [at_place_or_ref at_place] in H.
    assert (CS : ty_size t = csize (ty_code t)) by (apply (csize_of fl); auto).
    assert (C8 : csize (ty_code t) <= 8) by (destruct (ty_code t); cbn; lia).
    rewrite (float_atom (ty_code t) f o) by (auto; lia). cbn [bind u_int u_stk].
    destruct (RvClosure.store_prefix buf o ltac:(lia)) as (b & SB & _ & GB). rewrite SB. cbn [of_option bind].
    exists (UData b). split; [reflexivity|]. cbn [received1]. apply RvClosure.prefix_fields; auto. }
  assert (TS : ty_code t = T_STRUCT) by (destruct (ty_code t); try discriminate ST; reflexivity). rewrite TS.
  replace (is_float_code fl T_STRUCT) with false by (rewrite is_float_real by auto; reflexivity). rewrite andb_false_r.
  destruct (fl =? 0) eqn:F0.
  { assert (FZ : fl = 0) by lia. clear F0. assert (SH : shape_of fl t = Other); [|rewrite SH in PA; auto].
    pose proof (shape_fields fl t N) as SF. assert (R0 : forall c, real fl c = false) by (intros c; rewrite FZ; destruct c; reflexivity).
    destruct (shape_of fl t); auto; exfalso.
    - destruct SF as (c & _ & RE & _). rewrite R0 in RE. discriminate.
    - destruct SF as (c1 & c2 & _ & RE & _). rewrite R0 in RE. discriminate.
    - destruct SF as (c1 & c2 & _ & RE & _). rewrite R0 in RE. discriminate.
    - destruct SF as (c1 & c2 & _ & _ & RE). rewrite R0 in RE. discriminate. }
  assert (ZBS := fun X => proj2 (proj2 (ZB X))).
  rewrite (elements_shape fl g f t FL N TS). pose proof (shape_fields fl t N) as SF.
  destruct (shape_of fl t) as [n|n1 o2 n2|n1 o2 n2|n1 o2 n2|] eqn:SH.
  - destruct SF as (c & FS & RE & CN & SZ). rewrite FS. pose proof (LONE eq_refl TS n SH) as F8.
    replace (f <? 8) with true in PA by lia. injection PA as <- <- <- <-. cbn [at_place_or_ref at_place] in H.
    assert (C8 : csize c <= 8) by (destruct c; cbn; lia).
    rewrite (float_atom c f o) by (auto; lia). cbn [bind u_int u_stk].
    destruct (RvClosure.store_prefix buf o ltac:(lia)) as (b & SB & _ & GB). rewrite SB. cbn [of_option bind].
    exists (UData b). split; [reflexivity|]. cbn [received1]. apply RvClosure.prefix_fields; auto.
  - destruct SF as (c1 & c2 & TF & R1 & R2). pose proof TF as (FS & N1 & N2 & L1 & L2 & L3). specialize (ZBS L3). specialize (ZB1 L3).
    assert (0 < csize c1 /\ 0 < csize c2) as (CP1 & CP2) by (split; [destruct c1|destruct c2]; cbn; lia). rewrite FS.
    destruct (f <? 7) eqn:F7.
    2: { replace ((f + 2 >? 8) || (g >? 8)) with true by lia. auto. }
    replace ((f + 2 >? 8) || (g >? 8)) with false by lia. injection PA as <- <- <- <-. cbn [at_place_or_ref at_place] in H.
    destruct H as (x & y & X & Y & HX & HY).
    assert (ZX : zlen x = csize c1) by (apply get_range_inv in X; lia). assert (ZY : zlen y = csize c2) by (apply get_range_inv in Y; lia).
    destruct (store_pair t buf o x y x y c1 c2 n1 o2 n2 TF ltac:(lia) ltac:(lia) (get_all x n1 ltac:(lia)) (get_all y n2 ltac:(lia)) X Y) as (b & b2 & SB & SB2 & SF).
    rewrite (float_atom c1 f x) by (auto; lia). cbn [bind u_int u_stk]. rewrite SB. cbn [of_option bind].
    rewrite (float_atom c2 (f + 1) y) by (auto; lia). cbn [bind u_int u_stk]. rewrite SB2. cbn [of_option bind].
    exists (UData b2). split; [do 3 f_equal; lia|exact SF].
  - destruct SF as (c1 & c2 & TF & R1 & R2). pose proof TF as (FS & N1 & N2 & L1 & L2 & L3). specialize (ZBS L3). specialize (ZB1 L3).
    assert (0 < csize c1 /\ 0 < csize c2) as (CP1 & CP2) by (split; [destruct c1|destruct c2]; cbn; lia). rewrite FS.
    destruct ((f <? 8) && (g <? 8)) eqn:F7.
    2: { replace ((f + 1 >? 8) || (g + 1 >? 8)) with true by lia. auto. }
    replace ((f + 1 >? 8) || (g + 1 >? 8)) with false by lia. injection PA as <- <- <- <-. cbn [at_place_or_ref at_place] in H.
    destruct H as (x & y & X & Y & HX & HY).
    assert (ZX : zlen x = csize c1) by (apply get_range_inv in X; lia). assert (ZY : zlen y = csize c2) by (apply get_range_inv in Y; lia).
    destruct (low_atom g (USt g (f + 1) (sp + k)) y c2) as (y' & ZY' & PY & LA); [lia|reflexivity|auto|auto|auto|].
    destruct (store_pair t buf o x y x y' c1 c2 n1 o2 n2 TF ltac:(lia) ltac:(lia) (get_all x n1 ltac:(lia)) ltac:(rewrite <- PY; f_equal; lia) X Y) as (b & b2 & SB & SB2 & SF).
    rewrite (float_atom c1 f x) by (auto; lia). cbn [bind u_int u_stk]. rewrite SB. cbn [of_option bind].
    rewrite LA. cbn [bind u_flt u_stk]. rewrite SB2. cbn [of_option bind].
    exists (UData b2). split; [reflexivity|exact SF].
  - destruct SF as (c1 & c2 & TF & R1 & R2). pose proof TF as (FS & N1 & N2 & L1 & L2 & L3). specialize (ZBS L3). specialize (ZB1 L3).
    assert (0 < csize c1 /\ 0 < csize c2) as (CP1 & CP2) by (split; [destruct c1|destruct c2]; cbn; lia). rewrite FS.
    destruct ((f <? 8) && (g <? 8)) eqn:F7.
    2: { replace ((f + 1 >? 8) || (g + 1 >? 8)) with true by lia. auto. }
    replace ((f + 1 >? 8) || (g + 1 >? 8)) with false by lia. injection PA as <- <- <- <-. cbn [at_place_or_ref at_place] in H.
    destruct H as (x & y & X & Y & HX & HY).
    assert (ZX : zlen x = csize c1) by (apply get_range_inv in X; lia). assert (ZY : zlen y = csize c2) by (apply get_range_inv in Y; lia).
    destruct (low_atom g (USt g f (sp + k)) x c1) as (x' & ZX' & PX & LA); [lia|reflexivity|auto|auto|auto|].
    destruct (store_pair t buf o x y x' y c1 c2 n1 o2 n2 TF ltac:(lia) ltac:(lia) ltac:(rewrite <- PX; f_equal; lia) (get_all y n2 ltac:(lia)) X Y) as (b & b2 & SB & SB2 & SF).
    rewrite LA. cbn [bind u_flt u_stk]. rewrite SB. cbn [of_option bind].
    rewrite (float_atom c2 f y) by (auto; lia). cbn [bind u_int u_stk]. rewrite SB2. cbn [of_option bind].
    exists (UData b2). split; [reflexivity|exact SF].
  - auto.
Qed.

Lemma place_arg_floats var t g f k pl g' f' k' : 0 <= f <= 8 -> place_arg fl var t g f k = (pl, g', f', k') -> 0 <= f' <= 8.
Proof.
  intros F P. unfold place_arg in P.
  assert (INT : (let '(p, g1, s1) := place_words var t g k in (p, g1, f, s1)) = (pl, g', f', k') -> 0 <= f' <= 8).
  { destruct (place_words var t g k) as [[p g1] s1]. intros E. injection E as <- <- <- <-. lia. }
  destruct var; [auto|].
  destruct (shape_of fl t); [destruct (f <? 8) eqn:?|destruct (f <? 7) eqn:?|destruct ((f <? 8) && (g <? 8)) eqn:?|destruct ((f <? 8) && (g <? 8)) eqn:?|]; auto; injection P as <- <- <- <-; lia.
Qed.

Lemma lone_place fixed i t g f k pl g' f' k' : 
  (variadic fixed i = false -> ty_code t = T_STRUCT -> forall n, shape_of fl t = OneReal n -> exists f, pl = InF f n) ->
  place_arg fl (variadic fixed i) t g f k = (pl, g', f', k') -> lone_ok fl (variadic fixed i) t f.
Proof.
  intros LO P V1 TS n SH. specialize (LO V1 TS n SH). destruct LO as (f0 & ->). rewrite V1 in P. unfold place_arg in P. rewrite SH in P.
  destruct (f <? 8) eqn:F8; [lia|]. destruct (place_words false t g k) as [[p ?] ?] eqn:PW. injection P as -> _ _ _.
  unfold place_words in PW. destruct (ty_size t >? 16); destruct (word_at _ _) as [[? ?] ?] in PW; [discriminate PW|].
  destruct (ty_size t >? 8); [destruct (word_at _ _) as [[? ?] ?] in PW|]; discriminate PW.
Qed.

Lemma uargs_ok fixed nfixed sto : (forall i, zlen (sto i) = 16) ->
  forall ts objs ptrs i g f k pls e m, room g k m -> 0 <= f <= 8 -> Forall natural ts -> objects_ok ts objs ->
  (forall j, i <= j < i + zlen ts -> (nfixed <=? j) = variadic fixed j) ->
  promoted fixed i ts -> assign fl fixed i ts g f k = (pls, e) -> lone_reals_ok fl fixed i ts pls -> sp + e + 32 < 2 ^ 64 ->
  Forall (fun p => 0 <= p < 2 ^ 64) ptrs -> held fl a fa sp rd ts pls objs ptrs ->
  exists l u, unmarshal_args fl regs rd nfixed i ts sto (USt g f (sp + k)) = Ok (l, u) /\ received rd ts l objs.
Proof.
  intros ST. induction ts as [|t r IH]; intros objs ptrs i g f k pls e m R F N O V PR AS LO B PT H.
  - cbn [assign] in AS. injection AS as <- <-. inversion O; subst. exists [], (USt g f (sp + k)). split; [reflexivity|exact Logic.I].
  - inversion O as [|? o ? os (ZO & OO) O']; subst. inversion N as [|? ? NT NR]; subst. cbn [assign unmarshal_args] in *.
    destruct (place_arg fl (variadic fixed i) t g f k) as [[[pl g1] f1] k1] eqn:P.
    destruct (assign fl fixed (i + 1) r g1 f1 k1) as [l e'] eqn:AS'. injection AS as <- <-.
    pose proof (place_arg_room _ _ _ _ _ _ _ _ _ _ _ R P) as RM1. destruct (assign_room _ _ _ _ _ _ _ _ _ _ RM1 AS') as (KE & _).
    pose proof (place_arg_floats _ _ _ _ _ _ _ _ _ F P) as F1.
    cbn [lone_reals_ok promoted] in *. destruct LO as (LO & LO'). destruct PR as (VP & PR').
    assert (V0 : (nfixed <=? i) = variadic fixed i) by (apply V; rewrite zlen_cons; pose proof (zlen_nonneg r); lia). rewrite V0.
    pose proof (lone_place _ _ _ _ _ _ _ _ _ _ LO P) as LN.
    assert (HH : at_place_or_ref t pl o /\ exists ps, Forall (fun p => 0 <= p < 2 ^ 64) ps /\ held fl a fa sp rd r l os ps).
    { cbn [held] in H. destruct pl; try (destruct H as (H1 & H2); split; [exact H1|exists ptrs; auto]).
      destruct ptrs as [|p ps]; [contradiction|]. inversion PT as [|? ? PT1 PT2]; subst. destruct H as (H1 & H2 & H3). split; [exists p; auto|exists ps; auto]. }
    destruct HH as (H1 & ps & PS & H2).
    destruct (unmarshal_ok g f k m t (variadic fixed i) (sto i) o pl g1 f1 k1 R F NT ltac:(apply ubuf_16; [auto|rewrite ST; lia]) ZO VP LN P ltac:(lia) H1) as (v & E & RV).
    rewrite E. cbn [bind].
    destruct (IH os ps (i + 1) g1 f1 k1 l e' (m + 1) RM1 F1 NR O') as (vs & u & E2 & RV2); auto.
    { intros j J. apply V. rewrite zlen_cons. lia. }
    rewrite E2. cbn [bind]. exists (v :: vs), u. split; [reflexivity|]. cbn [received]. auto.
Qed.
End Regs.

(** Memory reads give as many bytes as asked. *)
Definition reads_ok (rd : Z -> Z -> option (list Z)) : Prop := forall p n x, rd p n = Some x -> zlen x = n.

Theorem closure_ok fl fixed rt ts m frame sto slot objs ptrs res :
  la_fl fl -> signature_ok rt ts -> promoted fixed 0 ts -> objects_ok ts objs -> lone_reals_ok fl fixed 0 ts (places fl fixed rt ts) ->
  zlen (s_a m) = 64 -> zlen (s_fa m) = 8 * fl -> 0 <= s_sp m -> (16 | s_sp m) ->
  s_sp m + stack_used fl fixed rt ts + 32 < 2 ^ 64 -> reads_ok (s_read m) ->
  (forall i, zlen (sto i) = 16) -> zlen slot = 16 -> Forall (fun p => 0 <= p < 2 ^ 64) ptrs ->
  held fl (s_a m) (s_fa m) (s_sp m) (s_read m) ts (places fl fixed rt ts) objs ptrs ->
  (in_memory fl rt = true -> 0 <= res < 2 ^ 64 /\ get_range (s_a m) 0 8 = Some (le_enc 8 res)) ->
  exists l r, closure fl (prep fixed rt ts) m frame sto slot = Ok (l, s_fa m ++ s_a m ++ frame, r) /\
    received (s_read m) ts l objs /\
    (in_memory fl rt = true -> r = RCaller res) /\
    (in_memory fl rt = false -> r = RSlot (ty_size rt)).
Proof.
  intros FL (N & NC & RT) PR O LO ZA ZF S0 S16 SB RD ST ZS PT H RES.
  assert (RN : rt = ty_void \/ natural rt) by tauto.
  unfold places, stack_used in *. destruct (assign fl fixed 0 ts (first_reg fl rt) 0 0) as [pls e] eqn:AS. cbn [fst snd] in *.
  set (c := prep fixed rt ts).
  assert (VR : forall j, 0 <= j < 0 + zlen ts -> (k_nfixed c <=? j) = variadic fixed j).
  { intros j J. unfold c, prep. cbn [k_nfixed]. destruct fixed as [n|]; cbn [variadic]; [reflexivity|lia]. }
  assert (RM : room (first_reg fl rt) 0 1).
  { destruct (first_reg_cases fl rt) as [-> | ->]; repeat split; try lia; apply Z.divide_0_r. }
  destruct (uargs_ok fl (s_sp m) (s_fa m) (s_a m) frame (s_read m) FL ZF ZA ltac:(auto) ltac:(intros; eapply RD; eauto) fixed (k_nfixed c) sto ST
     ts objs ptrs 0 (first_reg fl rt) 0 0 pls e 1 RM ltac:(lia) N O VR PR AS LO SB PT H) as (l & u & E & RC).
  unfold closure. change (k_rtype c) with rt. change (k_args c) with ts. rewrite (ref_is_memory fl rt FL RN). rewrite Z.add_0_r in E.
  destruct (in_memory fl rt) eqn:IM.
  - destruct (RES eq_refl) as (RP & X). set (x := le_enc 8 res) in *.
    assert (ZX : zlen x = 8) by apply le_enc_zlen. assert (OX : bytes_ok x) by apply le_enc_ok.
    assert (UM : exists b, unmarshal fl (s_fa m ++ s_a m ++ frame) (s_read m) ty_pointer false slot (USt 0 0 (s_sp m)) = Ok (UData b, USt 1 0 (s_sp m)) /\ get_range b 0 8 = Some x).
    { unfold unmarshal. replace (elements_of fl false _ _ ty_pointer) with (@None (tcode * option (Z * tcode))) by (unfold elements_of; destruct (fl =? 0); reflexivity).
      replace (is_float_code fl (ty_code ty_pointer)) with false by (rewrite is_float_real by auto; reflexivity). rewrite andb_false_r.
      replace (var_float fl false ty_pointer) with false by (unfold var_float; rewrite andb_false_r; reflexivity).
      change (ty_size ty_pointer >? 16) with false. cbv iota. change (is_int_code (ty_code ty_pointer) || tcode_eqb (ty_code ty_pointer) T_POINTER) with true. cbv iota.
      change (ty_code ty_pointer) with T_POINTER.
      pose proof (word_atom fl (s_sp m) (s_fa m) (s_a m) frame (s_read m) FL ZF ZA 0 0 (XR 0) 1 0 (USt 0 0 (s_sp m)) x T_POINTER ltac:(lia) eq_refl eq_refl) as WA.
      cbn [u_stk u_flt word_of csize] in WA. rewrite Z.add_0_r in WA. specialize (WA eq_refl X ZX OX eq_refl). rewrite WA. cbn [bind].
      destruct (RvClosure.store_prefix slot x ltac:(lia)) as (b & SBb & _ & GB). rewrite SBb. cbn [of_option bind]. rewrite ZX in GB. eauto. }
    destruct UM as (b & -> & GB). cbn [bind]. rewrite GB. cbn [of_option bind].
    unfold first_reg in E. rewrite IM in E. rewrite E. cbn [bind]. exists l, (RCaller res).
    split; [|split; [exact RC|split; [auto|discriminate]]].
    unfold x. rewrite le_dec_enc. change (2 ^ (8 * Z.of_nat 8)) with (2 ^ 64). rewrite Z.mod_small by lia. reflexivity.
  - cbn [bind]. unfold first_reg in E. rewrite IM in E. rewrite E. cbn [bind]. exists l, (RSlot (ty_size rt)).
    split; [reflexivity|]. split; [exact RC|]. split; [discriminate|auto].
Qed.

(** The addresses of copies are in their area. *)
Lemma copies_range fl a fa sp rd ts : forall pls objs ptrs lo hi, held fl a fa sp rd ts pls objs ptrs -> copies_down ts pls ptrs lo hi ->
  Forall (fun t => 0 < ty_size t) ts -> 0 <= lo -> hi <= 2 ^ 64 -> Forall (fun p => 0 <= p < 2 ^ 64) ptrs.
Proof.
  induction ts as [|t r IH]; intros pls objs ptrs lo hi H C P L U; cbn [held copies_down] in *.
  - destruct pls, objs; try contradiction. subst. constructor.
  - inversion P as [|? ? P1 P2]; subst. destruct pls as [|pl l]; [contradiction|]. destruct objs as [|o os]; [contradiction|].
    destruct pl; try (destruct H as (_ & H); eapply IH; eauto; fail).
    destruct ptrs as [|p ps]; [contradiction|]. destruct H as (_ & _ & H). destruct C as (C1 & C2 & _ & C3).
    constructor; [lia|]. eapply IH; eauto; lia.
Qed.

(** The round trip. *)
Theorem round_trip fl fixed rt ts rv objs gr chain base blk frame frame2 sto slot :
  let c := prep fixed rt ts in
  la_fl fl -> signature_ok rt ts -> promoted fixed 0 ts -> objects_ok ts objs -> A64Fits.total_size ts < 2 ^ 31 -> ty_size rt < 2 ^ 31 ->
  lone_reals_ok fl fixed 0 ts (places fl fixed rt ts) ->
  stack_used fl fixed rt ts <= copies_end ts (places fl fixed rt ts) (arg_bytes c) ->
  zlen blk = alloc_size fl c rv -> zlen frame = 16 -> (forall i, zlen (gr i) = 16 /\ bytes_ok (gr i)) ->
  0 <= base -> (16 | base) -> base + alloc_size fl c rv < 2 ^ 64 -> (forall a, rv = Some a -> 0 <= a < 2 ^ 64) ->
  (forall i, zlen (sto i) = 16) -> zlen slot = 16 ->
  exists m r l r2, call fl c rv objs gr chain base blk frame = Ok (m, r, in_memory fl rt) /\ s_t2 m = chain /\
    closure fl c m frame2 sto slot = Ok (l, s_fa m ++ s_a m ++ frame2, r2) /\
    received (s_read m) ts l objs /\
    match r2 with RCaller a => in_memory fl rt = true /\ r = Some a | RSlot n => in_memory fl rt = false /\ n = ty_size rt end.
Proof.
  intros c FL SO PR O T TR LO FITS ZB ZF GR B0 B16 BB RV ST ZS.
  destruct (call_ok fl fixed rt ts rv objs gr chain base blk frame FL SO PR O T TR LO FITS ZB ZF GR B0 B16 BB RV)
    as (m & r & ptrs & E & M1 & M2 & M3 & M4 & M5 & M6 & M7).
  pose proof SO as (N & _). 
  assert (SZ : Forall (fun t => 0 < ty_size t) ts).
  { eapply Forall_impl; [|exact N]. intros t Nt. apply (natural_basic _ Nt). }
  fold c in E, M6, M7. pose proof (flcases fl FL).
  assert (R0 : 0 <= rval_bytes c rv).
  { unfold rval_bytes. destruct rv; [lia|]. destruct (ty_size (k_rtype c) >? 16) eqn:B16'; [|lia]. change (k_rtype c) with rt in *.
    assert (P16 : is_pow2 16) by (exists 4; split; [lia|reflexivity]).
    pose proof (round_up_le (ty_size rt) 16 ltac:(lia)). pose proof (round_up_lt (ty_size rt) 16 ltac:(lia)).
    rewrite ffi_align_round by (auto; lia). lia. }
  assert (AS : alloc_size fl c rv = ctx_at c rv + (8 * fl + 64 + 16)) by reflexivity.
  assert (CT : ctx_at c rv = arg_bytes c + rval_bytes c rv) by reflexivity.
  assert (SU0 : 0 <= stack_used fl fixed rt ts).
  { unfold stack_used. destruct (assign fl fixed 0 ts (first_reg fl rt) 0 0) as [pls e] eqn:ASG. cbn [snd].
    assert (RM : room (first_reg fl rt) 0 1).
    { destruct (first_reg_cases fl rt) as [-> | ->]; repeat split; try lia; apply Z.divide_0_r. }
    apply (assign_room _ _ _ _ _ _ _ _ _ _ RM ASG). }
  pose proof (copies_end_le ts N (places fl fixed rt ts) (arg_bytes c)) as CLE.
  assert (PT : Forall (fun p => 0 <= p < 2 ^ 64) ptrs).
  { eapply copies_range; [exact M5|exact M6|exact SZ|lia|lia]. }
  assert (RES : in_memory fl rt = true -> 0 <= (match r with Some a => a | None => 0 end) < 2 ^ 64 /\
     get_range (s_a m) 0 8 = Some (le_enc 8 (match r with Some a => a | None => 0 end))).
  { intros IM. destruct (M7 IM) as (a & -> & GA & H1 & H2). split; [|exact GA].
    destruct rv as [a'|]; [rewrite (H1 a' eq_refl); apply RV; reflexivity|]. specialize (H2 eq_refl).
    pose proof SO as (_ & _ & RT). assert (0 < ty_size rt) by (destruct RT as [-> |(Nr & _)]; [reflexivity|apply (natural_basic _ Nr)]). lia. }
  assert (RD : reads_ok (s_read m)).
  { intros p n x. unfold call in E. revert E. 
    match goal with |- (bind ?X _ = _ -> _) => destruct X as [s1| |]; [cbn [bind]|discriminate|discriminate] end.
    match goal with |- (bind ?X _ = _ -> _) => destruct X as [s2| |]; [cbn [bind]|discriminate|discriminate] end.
    match goal with |- (bind ?X _ = _ -> _) => destruct X as [b| |]; [cbn [bind]|discriminate|discriminate] end.
    match goal with |- (bind ?X _ = _ -> _) => destruct X as [fa| |]; [cbn [bind]|discriminate|discriminate] end.
    match goal with |- (bind ?X _ = _ -> _) => destruct X as [a| |]; [cbn [bind]|discriminate|discriminate] end.
    intros E. injection E as <- _ _. cbn [s_read]. intros X. apply get_range_inv in X. lia. }
  assert (SP0 : 0 <= s_sp m) by lia. assert (SP16 : (16 | s_sp m)) by (rewrite M1; exact B16).
  assert (SPB : s_sp m + stack_used fl fixed rt ts + 32 < 2 ^ 64) by lia.
  destruct (closure_ok fl fixed rt ts m frame2 sto slot objs ptrs (match r with Some a => a | None => 0 end)
    FL SO PR O LO M3 M4 SP0 SP16 SPB RD ST ZS PT M5 RES) as (l & r2 & E2 & RC & H1 & H2).
  exists m, r, l, r2. split; [exact E|]. split; [exact M2|]. split; [exact E2|]. split; [exact RC|].
  destruct (in_memory fl rt) eqn:IM.
  - rewrite (H1 eq_refl). split; [reflexivity|]. destruct (M7 eq_refl) as (a & -> & _). reflexivity.
  - rewrite (H2 eq_refl). auto.
Qed.
