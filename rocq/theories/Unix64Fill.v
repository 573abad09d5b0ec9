(** The argument loops of ffi_prep_cif_machdep and ffi_call_int against the register
    assignment of the psABI. *)
From Coq Require Import ZifyBool ZifyNat.
From Verif Require Import Base BaseFacts Types LayoutSpec NaturalTypes NaturalFacts Unix64Model Unix64Spec Unix64Classify Unix64Call.
Ltac Zify.zify_post_hook ::= Z.div_mod_to_equations.
Local Arguments Z.mul : simpl never.
Local Arguments Z.add : simpl never.
Local Arguments Z.sub : simpl never.
Local Arguments Z.pow : simpl never.
Local Arguments Z.div : simpl never.
Local Arguments Z.modulo : simpl never.
Local Arguments Z.leb : simpl never.
Local Arguments Z.ltb : simpl never.
Local Arguments Z.eqb : simpl never.
Local Arguments Z.gtb : simpl never.

Definition st_align (t : ftype) : Z := Z.max 8 (ty_align t).

Lemma stack_align_eq t : stack_align t = st_align t.
Proof. unfold stack_align, st_align. destruct (Z.ltb_spec (ty_align t) 8); lia. Qed.

Lemma st_align_pow2 t : natural t -> is_pow2 (st_align t) /\ 8 <= st_align t <= 16.
Proof.
  intros N. destruct (natural_basic _ N) as (_ & P & L & _). split; [|unfold st_align; lia].
  apply is_pow2_max; auto. exists 3. split; [lia|reflexivity].
Qed.

Lemma count_nonneg {A} p (l : list A) : 0 <= count p l.
Proof. apply zlen_nonneg. Qed.

(** One step of the assignment, without the rest. *)
Definition step (t : ftype) (g x stk : Z) : location * Z * Z * Z :=
  let mem := (OnStack (round_up stk (st_align t)), g, x, round_up stk (st_align t) + ty_size t) in
  match passing_of t with
  | PRegs cl =>
    if (g + count is_eint cl <=? 6) && (x + count is_esse cl <=? 8)
    then (InRegs (take_regs cl g x), g + count is_eint cl, x + count is_esse cl, stk) else mem
  | _ => mem
  end.

Lemma assign_cons t r g x stk : assign (t :: r) g x stk =
  let '(l, g1, x1, s1) := step t g x stk in
  let '(ls, g', x', s') := assign r g1 x1 s1 in (l :: ls, g', x', s').
Proof.
  cbn [assign]. unfold step, st_align. destruct (passing_of t); cbn zeta; try reflexivity.
  destruct ((g + count is_eint l <=? 6) && (x + count is_esse l <=? 8)); reflexivity.
Qed.

Lemma step_mono t g x stk l g1 x1 s1 : natural t -> 0 <= stk -> step t g x stk = (l, g1, x1, s1) ->
  g <= g1 /\ x <= x1 /\ stk <= s1 /\ (g <= 6 -> g1 <= 6) /\ (x <= 8 -> x1 <= 8) /\
  match l with OnStack o => o = round_up stk (st_align t) /\ stk <= o /\ s1 = o + ty_size t | _ => True end.
Proof.
  intros N S. destruct (st_align_pow2 t N) as [_ A]. destruct (natural_basic _ N) as (Bs & _).
  pose proof (round_up_le stk (st_align t) ltac:(lia)).
  unfold step. destruct (passing_of t) as [|cl| |]; try (intros [= <- <- <- <-]; repeat split; lia).
  pose proof (count_nonneg is_eint cl). pose proof (count_nonneg is_esse cl).
  destruct ((g + count is_eint cl <=? 6) && (x + count is_esse cl <=? 8)) eqn:E; intros [= <- <- <- <-]; repeat split; lia.
Qed.

Lemma assign_mono ts : Forall natural ts -> forall g x stk l g' x' s', 0 <= stk ->
  assign ts g x stk = (l, g', x', s') -> g <= g' /\ x <= x' /\ stk <= s' /\ (g <= 6 -> g' <= 6) /\ (x <= 8 -> x' <= 8) /\ length l = length ts.
Proof.
  induction 1 as [|t ts N F IH]; intros g x stk l g' x' s' S E.
  - cbn in E. injection E as <- <- <- <-. repeat split; lia.
  - rewrite assign_cons in E. destruct (step t g x stk) as [[[l1 g1] x1] s1] eqn:St.
    apply step_mono in St as (A & B & C & D & G & _); auto.
    destruct (assign ts g1 x1 s1) as [[[ls g2] x2] s2] eqn:As. injection E as <- <- <- <-.
    apply IH in As as (A' & B' & C' & D' & G' & Q); [|lia]. cbn. repeat split; try lia.
Qed.

(** ** Preparation *)

Lemma machdep_args_ok ts : Forall natural ts -> forall g x stk l g' x' s', 0 <= stk ->
  assign ts g x stk = (l, g', x', s') -> s' + 16 < 2 ^ 64 -> machdep_args ts g x stk = Ok (s', x').
Proof.
  induction 1 as [|t ts N F IH]; intros g x stk l g' x' s' S E L.
  - cbn in E |- *. injection E as <- <- <- <-. reflexivity.
  - rewrite assign_cons in E. destruct (step t g x stk) as [[[l1 g1] x1] s1] eqn:St.
    destruct (assign ts g1 x1 s1) as [[[ls g2] x2] s2] eqn:As. injection E as <- <- <- <-.
    pose proof (step_mono _ _ _ _ _ _ _ _ N S St) as (A & B & C & _).
    pose proof (assign_mono _ F g1 x1 s1 _ _ _ _ ltac:(lia) As) as (A' & B' & C' & _).
    cbn [machdep_args]. destruct (examine_ok t false N) as (e & Ee & Oe). rewrite Ee. cbn [bind].
    assert (Mem : forall g x, step t g x stk = (OnStack (round_up stk (st_align t)), g, x, round_up stk (st_align t) + ty_size t) ->
      s1 = round_up stk (st_align t) + ty_size t ->
      wrap64 (ffi_align stk (stack_align t) + ty_size t) = s1).
    { intros g0 x0 _ Es. rewrite stack_align_eq. destruct (st_align_pow2 t N) as [P2 P3]. destruct (natural_basic _ N) as (Bs & _).
      pose proof (round_up_le stk (st_align t) ltac:(lia)).
      rewrite ffi_align_round by (auto; lia). rewrite <- Es. apply wrap64_small. lia. }
    unfold exam_ok in Oe. unfold step in St. destruct (passing_of t) as [|cl| |] eqn:P.
    + subst e. injection St as <- <- <- <-. rewrite (Mem g x); [eapply IH; eauto; lia|unfold step; rewrite P; reflexivity|reflexivity].
    + destruct Oe as (cls & -> & _). unfold MAX_GPR, MAX_SSE.
      destruct ((g + count is_eint cl <=? 6) && (x + count is_esse cl <=? 8)) eqn:C1; injection St as <- <- <- <-.
      * replace ((g + count is_eint cl >? 6) || (x + count is_esse cl >? 8)) with false by lia. eapply IH; eauto; lia.
      * replace ((g + count is_eint cl >? 6) || (x + count is_esse cl >? 8)) with true by lia.
        rewrite (Mem g x); [eapply IH; eauto; lia|unfold step; rewrite P, C1; reflexivity|reflexivity].
    + subst e. injection St as <- <- <- <-. rewrite (Mem g x); [eapply IH; eauto; lia|unfold step; rewrite P; reflexivity|reflexivity].
    + subst e. injection St as <- <- <- <-. rewrite (Mem g x); [eapply IH; eauto; lia|unfold step; rewrite P; reflexivity|reflexivity].
Qed.

(** ** Filling *)

Definition cl_ok (t : ftype) (cl : list rclass) : Prop :=
  forallb plain cl = true /\ extents (flatten t 0) (ty_size t) 0 cl = true /\
  map proj cl = words_of t 0 /\ x87_in t = false /\ ty_size t <= 16.

(** What the loop leaves for one argument. *)
Definition placed (gpr : list Z) (sse : list (list Z)) (area : list Z) (t : ftype) (l : location) (v : list Z) : Prop :=
  match l with
  | InRegs rs => exists cl gc sc, rs = take_regs (map proj cl) gc sc /\ passing_of t = PRegs (map proj cl) /\ cl_ok t cl /\
      stored (ty_code t) cl v (ty_size t) gpr sse gc sc
  | OnStack o => get_range area o (ty_size t) = Some v
  end.

Inductive all_placed (gpr : list Z) (sse : list (list Z)) (area : list Z) : list ftype -> list location -> list (list Z) -> Prop :=
| placed_nil : all_placed gpr sse area [] [] []
| placed_cons : forall t ts l ls v vs, placed gpr sse area t l v -> all_placed gpr sse area ts ls vs ->
    all_placed gpr sse area (t :: ts) (l :: ls) (v :: vs).

Lemma stored_keep code cl : forall a size gpr sse gpr' sse' gc sc g1 x1,
  (forall i, i < g1 -> znth gpr' i = znth gpr i) -> (forall i, i < x1 -> znth sse' i = znth sse i) ->
  gc + count is_eint (map proj cl) <= g1 -> sc + count is_esse (map proj cl) <= x1 ->
  stored code cl a size gpr sse gc sc -> stored code cl a size gpr' sse' gc sc.
Proof.
  unfold count. induction cl as [|c cl IH]; intros a size gpr sse gpr' sse' gc sc g1 x1 Hg Hx G X St; [exact I|].
  cbn [map filter] in *. pose proof (zlen_nonneg (filter is_eint (map proj cl))). pose proof (zlen_nonneg (filter is_esse (map proj cl))).
  destruct c; cbn [stored proj is_eint is_esse] in *; try contradiction; rewrite ?zlen_cons in *; destruct St as [H1 St].
  1,2: (split; [destruct H1 as (v & A & B); exists v; rewrite Hg by lia; auto|eapply IH; eauto; lia]).
  all: (split; [destruct H1 as (v & A & B); exists v; rewrite Hx by lia; auto|eapply IH; eauto; lia]).
Qed.

(** Scalars that are sign-extended have the size of their code. *)
Lemma signed_natural t : natural t -> signed_size (ty_code t) = 0 \/ signed_size (ty_code t) = ty_size t.
Proof.
  destruct t as [c s a es]. intros N.
  destruct (natural_inv _ _ _ _ N) as [H|[(t0 & H & -> & -> & -> & ->)|(-> & NE & F & offs & SL)]]; auto.
  apply scalar_cases in H. repeat (destruct H as [H|H]); injection H as -> -> -> ->; cbn; auto.
Qed.

Lemma words_length t : zlen (words_of t 0) = Z.max 0 (eightbytes (ty_size t)).
Proof. unfold words_of. rewrite zlen_map. unfold zlen. rewrite zseq_length, Z.add_0_l. lia. Qed.

Lemma fill_args_ok base ts : (16 | base) -> 0 <= base -> Forall natural ts ->
  forall vs f stk l g' x' s', Forall2 (fun t v => zlen v = ty_size t) ts vs ->
  zlen (f_gpr f) = 6 -> zlen (f_sse f) = 8 -> Forall (fun b => zlen b = 16) (f_sse f) ->
  0 <= f_gc f <= 6 -> 0 <= f_sc f <= 8 -> f_argp f = base + stk -> 0 <= stk ->
  assign ts (f_gc f) (f_sc f) stk = (l, g', x', s') -> s' <= zlen (f_area f) -> base + s' + 16 < 2 ^ 64 ->
  exists f', fill_args base ts vs f = Ok f' /\
    zlen (f_gpr f') = 6 /\ zlen (f_sse f') = 8 /\ Forall (fun b => zlen b = 16) (f_sse f') /\
    zlen (f_area f') = zlen (f_area f) /\ f_gc f' = g' /\ f_sc f' = x' /\ f_argp f' = base + s' /\
    (forall i, i < f_gc f -> znth (f_gpr f') i = znth (f_gpr f) i) /\
    (forall i, i < f_sc f -> znth (f_sse f') i = znth (f_sse f) i) /\
    (forall o n, o + n <= stk -> get_range (f_area f') o n = get_range (f_area f) o n) /\
    (forall o n, s' <= o -> get_range (f_area f') o n = get_range (f_area f) o n) /\
    all_placed (f_gpr f') (f_sse f') (f_area f') ts l vs.
Proof.
  intros Db Pb F. induction F as [|t ts N F IH]; intros vs f stk l g' x' s' FV Lg Ls Fs Hg Hs Ha Hstk As Ar Bd.
  - inversion FV; subst. cbn in As. injection As as <- <- <- <-. exists f. cbn.
    repeat (split; [auto; lia|]). constructor.
  - inversion FV as [|t0 v ts0 vs' Lv FV']; subst. rewrite assign_cons in As.
    destruct (step t (f_gc f) (f_sc f) stk) as [[[l1 g1] x1] s1] eqn:St.
    destruct (assign ts g1 x1 s1) as [[[ls g2] x2] s2] eqn:As'. injection As as <- <- <- <-.
    pose proof (step_mono _ _ _ _ _ _ _ _ N Hstk St) as (A & B & C & D & E & G).
    pose proof (assign_mono _ F g1 x1 s1 _ _ _ _ ltac:(lia) As') as (A' & B' & C' & D' & E' & _).
    destruct (natural_basic _ N) as (Bs & _).
    cbn [fill_args]. destruct (examine_ok t false N) as (e & Ee & Oe). rewrite Ee. cbn [bind].
    (* stack case *)
    assert (Mem : l1 = OnStack (round_up stk (st_align t)) -> g1 = f_gc f -> x1 = f_sc f ->
      exists f', (let argp := ffi_align (f_argp f) (stack_align t) in
        let* d := of_option (get_range v 0 (ty_size t)) in
        let* area := of_option (set_range (f_area f) (argp - base) d) in
        fill_args base ts vs' (Fill (f_gpr f) (f_sse f) area (f_gc f) (f_sc f) (wrap64 (argp + ty_size t)))) = Ok f' /\
      zlen (f_gpr f') = 6 /\ zlen (f_sse f') = 8 /\ Forall (fun b => zlen b = 16) (f_sse f') /\
      zlen (f_area f') = zlen (f_area f) /\ f_gc f' = g2 /\ f_sc f' = x2 /\ f_argp f' = base + s2 /\
      (forall i, i < f_gc f -> znth (f_gpr f') i = znth (f_gpr f) i) /\
      (forall i, i < f_sc f -> znth (f_sse f') i = znth (f_sse f) i) /\
      (forall o n, o + n <= stk -> get_range (f_area f') o n = get_range (f_area f) o n) /\
      (forall o n, s2 <= o -> get_range (f_area f') o n = get_range (f_area f) o n) /\
      all_placed (f_gpr f') (f_sse f') (f_area f') (t :: ts) (l1 :: ls) (v :: vs')).
    { intros -> -> ->. destruct G as (_ & G1 & G2). set (o := round_up stk (st_align t)) in *.
      cbn zeta. rewrite stack_align_eq. destruct (st_align_pow2 t N) as [P2 P3].
      assert (Ea : ffi_align (f_argp f) (st_align t) = base + o).
      { rewrite Ha. assert (Dv : (st_align t | base)).
        { eapply Z.divide_trans; [|exact Db]. apply is_pow2_divide; auto; [|lia]. exists 4. split; [lia|reflexivity]. }
        rewrite ffi_align_round; auto; try lia; rewrite round_up_add by (auto; lia); fold o; lia. }
      rewrite Ea. replace (base + o - base) with o by lia.
      rewrite <- Lv, get_range_all. cbn [of_option bind].
      destruct (set_range_ok (f_area f) o v) as (area & Es & La); [lia|lia|]. rewrite Es. cbn [of_option bind].
      rewrite wrap64_small by lia.
      destruct (IH vs' (Fill (f_gpr f) (f_sse f) area (f_gc f) (f_sc f) (base + o + zlen v)) s1 ls g2 x2 s2) as
        (f' & R & Q1 & Q2 & Q3 & Q4 & Q5 & Q6 & Q7 & Q8 & Q9 & Q10 & Q11 & Q12); cbn [f_gpr f_sse f_area f_gc f_sc f_argp]; auto; try lia.
      cbn [f_gpr f_sse f_area f_gc f_sc f_argp] in *.
      exists f'. rewrite R. split; [reflexivity|]. repeat (split; [auto; lia|]).
      split; [|split].
      - intros o' n Ho. rewrite Q10 by lia. apply (get_set_disjoint _ _ _ _ _ _ Es). lia.
      - intros o' n Ho. rewrite Q11 by lia. apply (get_set_disjoint _ _ _ _ _ _ Es). lia.
      - constructor; [|auto]. cbn [placed]. rewrite Q10 by lia. rewrite <- Lv. apply (get_set_same _ _ _ _ Es). }
    unfold exam_ok in Oe. unfold step in St. destruct (passing_of t) as [|cl| |] eqn:P.
    + subst e. injection St as <- <- <- <-. apply Mem; reflexivity.
    + destruct Oe as (cls & -> & O1 & O2 & O3 & O4 & O5 & O6). unfold MAX_GPR, MAX_SSE.
      destruct ((f_gc f + count is_eint cl <=? 6) && (f_sc f + count is_esse cl <=? 8)) eqn:C1; injection St as <- <- <- <-.
      2: { replace ((f_gc f + count is_eint cl >? 6) || (f_sc f + count is_esse cl >? 8)) with true by lia. apply Mem; reflexivity. }
      replace ((f_gc f + count is_eint cl >? 6) || (f_sc f + count is_esse cl >? 8)) with false by lia. clear Mem.
      assert (Lcl : zlen cls = eightbytes (ty_size t)).
      { rewrite <- (zlen_map proj cls), O1, O4, words_length. unfold eightbytes. lia. }
      destruct (store_words_ok (ty_code t) cls v (ty_size t) (f_gpr f) (f_sse f) (f_gc f) (f_sc f)) as
        (gpr' & sse' & R & Q1 & Q2 & Q3 & Q4 & Q5 & Q6); auto; try lia.
      { rewrite O1, O4. apply words_not_none; auto. }
      { pose proof (extents_fits _ _ _ _ O3) as Hf. replace (ty_size t - 8 * 0) with (ty_size t) in Hf by lia. exact Hf. }
      { destruct (signed_natural t N) as [Z|Z]; [auto|]. right. split; [|lia].
        assert (signed_size (ty_code t) <= 4) by (destruct (ty_code t); cbn; lia). rewrite Lcl. unfold eightbytes. lia. }
      { rewrite O1. lia. } { rewrite O1. lia. }
      rewrite R. cbn [bind]. rewrite O1.
      destruct (IH vs' (Fill gpr' sse' (f_area f) (f_gc f + count is_eint cl) (f_sc f + count is_esse cl) (f_argp f)) stk ls g2 x2 s2) as
        (f' & R' & W1 & W2 & W3 & W4 & W5 & W6 & W7 & W8 & W9 & W10 & W11 & W12); cbn [f_gpr f_sse f_area f_gc f_sc f_argp]; auto; try lia.
      cbn [f_gpr f_sse f_area f_gc f_sc f_argp] in *.
      exists f'. rewrite R'. split; [reflexivity|]. repeat (split; [auto; lia|]).
      split; [|split; [|split; [|split]]].
      * intros i Hi. rewrite W8 by lia. apply Q4. lia.
      * intros i Hi. rewrite W9 by lia. apply Q5. lia.
      * auto.
      * auto.
      * constructor; [|auto]. cbn [placed]. exists cls, (f_gc f), (f_sc f). rewrite O1. split; [reflexivity|]. split; [auto|].
        split; [split; [auto|split; [auto|split; [rewrite O1; auto|split; auto]]]|].
        eapply stored_keep; [exact W8|exact W9| | |exact Q6]; rewrite O1; lia.
    + subst e. injection St as <- <- <- <-. apply Mem; reflexivity.
    + subst e. injection St as <- <- <- <-. apply Mem; reflexivity.
Qed.

(** ** To the specification *)

Lemma placed_held gpr sse area t l v : natural t -> bytes_ok v -> zlen v = ty_size t ->
  placed gpr sse area t l v -> held_at gpr sse area t l v.
Proof.
  intros N B L. destruct (natural_basic _ N) as (Bs & _). destruct l as [rs|o]; cbn [placed].
  - intros (cl & gc & sc & -> & P & (C1 & C2 & C3 & C4 & C5) & St).
    assert (Lcl : zlen cl = eightbytes (ty_size t)).
    { rewrite <- (zlen_map proj cl), C3, words_length. unfold eightbytes. lia. }
    pose proof (extents_fits _ _ _ _ C2) as Hf. replace (ty_size t - 8 * 0) with (ty_size t) in Hf by lia.
    destruct (stored_holds (ty_code t) cl v (ty_size t) gpr sse gc sc) as (w & Lw & Rw & Hw); auto; try lia.
    { destruct (signed_natural t N) as [Z|Z]; [auto|]. right. split; [|lia].
      assert (signed_size (ty_code t) <= 4) by (destruct (ty_code t); cbn; lia). rewrite Lcl. unfold eightbytes. lia. }
    exists w. split; [|auto]. eapply halves_same_value; eauto.
  - intros G. exists v. split; [|rewrite L; auto]. split; [auto|]. intros o' n k I.
    pose proof (flatten_inside t N 0 (Z.divide_0_r _)) as Fi. rewrite Forall_forall in Fi. pose proof (Fi _ I) as (I1 & I2 & I3).
    assert (0 <= value_size n k <= n) by (unfold value_size; destruct k; lia).
    eexists. split; apply get_range_some; lia.
Qed.

Lemma all_placed_held gpr sse area ts ls vs : Forall natural ts -> Forall bytes_ok vs ->
  Forall2 (fun t v => zlen v = ty_size t) ts vs ->
  all_placed gpr sse area ts ls vs -> all_held gpr sse area ts ls vs.
Proof.
  intros N B L P. induction P as [|t ts l ls v vs H P IH]; [constructor|].
  inversion N; subst. inversion B; subst. inversion L; subst. constructor; auto. apply placed_held; auto.
Qed.
