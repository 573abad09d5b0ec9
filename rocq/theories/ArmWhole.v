(** Calls and closures on 32-bit ARM as a whole. *)
From Coq Require Import ZifyBool ZifyNat.
From Verif Require Import Base BaseFacts Types LayoutSpec NaturalTypes NaturalFacts ByteMem ArmModel ArmSpec ArmHfa ArmFp ArmPlan ArmCall ArmPrep ArmCallMem ArmClosure ArmAsmModel ArmAsmFacts ArmAsm ArmJoin ArmMain ArmCloMain ArmTramp.
Local Open Scope Z_scope.
Local Arguments Z.mul : simpl never.
Local Arguments Z.add : simpl never.
Local Arguments Z.sub : simpl never.
Local Arguments Z.pow : simpl never.
Local Arguments Z.of_nat : simpl never.

Definition hard_for (var : bool) (a : abi) : bool := hard_of (if var then SYSV else a).
Lemma prepared_of var a rt ts c : Forall ctype ts -> rtype_ok rt -> total ts < 2 ^ 31 -> prep var a rt ts = Ok c -> prepared c (hard_for var a) rt ts.
Proof.
  intros TS RT TT E. destruct (prep_spec var a rt ts TS RT TT) as (c' & E' & P). rewrite E in E'. injection E' as <-. exact P.
Qed.
Lemma plan_places hard rt ts : Forall ctype ts -> tidy_call hard rt ts -> plan hard ts (first_core hard rt) [] 0 = places hard rt ts.
Proof.
  intros TS T. unfold places. destruct hard; [apply plan_tidy; apply T; reflexivity|]. apply plan_soft; auto.
Qed.

(** ** Registers of homogeneous aggregates *)

Lemma find_full k al : 1 <= k -> find_fp all_fp k al = None.
Proof.
  intros K. apply find_fp_none. intros r R. destruct (free_at all_fp r k al) eqn:F; [|reflexivity]. exfalso. apply free_at_spec in F.
  destruct F as (_ & F2 & F3). apply (F3 r); [lia|]. unfold all_fp. apply range_in. lia.
Qed.
Lemma fp_regs_full ts : Forall ctype ts -> forall n s, fp_regs (fst (assign true ts n all_fp s)) = [].
Proof.
  induction 1 as [|t ts C F IH]; intros n s; cbn [assign]; [reflexivity|].
  destruct (fp_need t) as [[k al]|] eqn:N.
  - destruct (fp_need_size t k al C N) as (_ & _ & K & A). rewrite find_full by lia.
    destruct (assign true ts n all_fp _) as [l e] eqn:E. cbn. specialize (IH n (round_up s (if ty_align t =? 8 then 8 else 4) + words t)). rewrite E in IH. exact IH.
  - destruct (core_arg t n s) as [[p n'] s'] eqn:CA. destruct (assign true ts n' all_fp s') as [l e] eqn:E. specialize (IH n' s'). rewrite E in IH. cbn in IH |- *.
    assert (NF : forall i, p <> Fp i).
    { intros i ->. unfold core_arg in CA. destruct (_ <=? 4); [congruence|]. destruct (_ && _); congruence. }
    destruct p as [i|i|i]; auto. destruct (NF i eq_refl).
Qed.
Lemma fp_regs_places ts : Forall ctype ts -> forall n u s, fp_regs (fst (assign true ts n u s)) = fps u ts.
Proof.
  induction 1 as [|t ts C F IH]; intros n u s; cbn [assign fps]; [reflexivity|].
  destruct (fp_need t) as [[k al]|] eqn:N.
  - destruct (find_fp u k al) as [f|] eqn:FF.
    + specialize (IH n (u ++ range f k) s). destruct (assign true ts n (u ++ range f k) s) as [l e]. cbn in IH |- *. rewrite IH. reflexivity.
    + pose proof (fp_regs_full ts F n (round_up s (if ty_align t =? 8 then 8 else 4) + words t)) as Q. destruct (assign true ts n all_fp _) as [l e]. cbn in Q |- *. exact Q.
  - destruct (core_arg t n s) as [[p n'] s'] eqn:CA. specialize (IH n' u s'). destruct (assign true ts n' u s') as [l e]. cbn in IH |- *.
    assert (NF : forall i, p <> Fp i).
    { intros i ->. unfold core_arg in CA. destruct (_ <=? 4); [congruence|]. destruct (_ && _); congruence. }
    destruct p as [i|i|i]; auto. destruct (NF i eq_refl).
Qed.
Theorem fp_allocation rt ts : Forall ctype ts -> rtype_ok rt -> total ts < 2 ^ 31 ->
  exists c, prep false VFP rt ts = Ok c /\ v_args (k_vfp c) = fp_regs (places true rt ts) /\
    (use_vfp c = true <-> exists t d n, In t ts /\ hfa t d n).
Proof.
  intros TS RT TT. destruct (prep_spec false VFP rt ts TS RT TT) as (c & E & P). exists c. split; [exact E|]. cbn [hard_of] in P.
  split; [|].
  - unfold places. rewrite fp_regs_places by exact TS. apply (pr_vfp _ _ _ _ P eq_refl).
  - rewrite (pr_use _ _ _ _ P). cbn [andb]. rewrite existsb_exists. split.
    + intros (t & I & Q). unfold is_fp, fp_need in Q. destruct (hfa_of t) as [[d n]|] eqn:H; [|discriminate Q]. exists t, d, n. split; [exact I|]. apply hfa_of_spec. exact H.
    + intros (t & d & n & I & H). exists t. split; [exact I|]. apply hfa_of_spec in H. unfold is_fp, fp_need. rewrite H. destruct d; reflexivity.
Qed.
(** The standard's search, by its properties. *)
Theorem lowest_free u n al : match find_fp u n al with
  | Some f => 0 <= f < 16 /\ f mod al = 0 /\ f + n <= 16 /\ (forall k, f <= k < f + n -> ~ In k u) /\
      forall r, 0 <= r < f -> r mod al = 0 -> r + n <= 16 -> exists k, r <= k < r + n /\ In k u
  | None => forall r, 0 <= r < 16 -> r mod al = 0 -> r + n <= 16 -> exists k, r <= k < r + n /\ In k u
  end.
Proof.
  assert (W : forall r, free_at u r n al = false -> r mod al = 0 -> r + n <= 16 -> exists k, r <= k < r + n /\ In k u).
  { intros r F A B. unfold free_at in F. replace (r mod al =? 0) with true in F by lia. replace (r + n <=? 16) with true in F by lia. cbn [andb] in F.
    apply not_true_iff_false in F. rewrite forallb_forall in F.
    destruct (existsb (fun k => existsb (Z.eqb k) u) (range r n)) eqn:X.
    - apply existsb_exists in X. destruct X as (k & K & E). apply range_in in K. exists k. split; [exact K|]. apply existsb_exists in E. destruct E as (j & J & Q). apply Z.eqb_eq in Q. subst j. exact J.
    - exfalso. apply F. intros k K. destruct (existsb (Z.eqb k) u) eqn:E; [|reflexivity]. exfalso. apply not_true_iff_false in X. apply X. apply existsb_exists. exists k. auto. }
  pose proof (find_fp_inv u n al) as I. destruct (find_fp u n al) as [f|].
  - destruct I as (R & FA & LO). apply free_at_spec in FA. destruct FA as (A1 & A2 & A3). repeat (split; [assumption|]). intros r R1 R2 R3. apply W; auto.
  - intros r R1 R2 R3. apply W; auto.
Qed.

(** ** The size of the block *)

Theorem block_fits var a rt ts : Forall ctype ts -> rtype_ok rt -> total ts < 2 ^ 31 -> tidy_call (hard_for var a) rt ts ->
  bad_result (hard_for var a) rt = false \/ Forall (fun t => ty_align t <> 8) ts ->
  exists c, prep var a rt ts = Ok c /\ (8 | k_bytes c) /\ 16 <= k_bytes c /\ Forall2 (fun t l => arg_end t l <= k_bytes c) ts (places (hard_for var a) rt ts).
Proof.
  intros TS RT TT T B. destruct (prep_spec var a rt ts TS RT TT) as (c & E & P). fold (hard_for var a) in P. exists c. split; [exact E|].
  split; [apply (pr_align _ _ _ _ P)|]. split; [apply (pr_min _ _ _ _ P)|]. pose proof (pr_fits _ _ _ _ P B) as F. rewrite plan_places in F by auto.
  clear -F TS. unfold ArmPlan.fits in F. induction F as [|t l ts ls F1 F2 IH]; constructor; inversion TS as [|? ? C TS']; subst; auto.
  destruct (words_ge t C). destruct l; cbn [loc_end arg_end] in *; lia.
Qed.

(** ** Calls *)

(** What ffi_call's caller owes. *)
Definition call_ok (c : acif) (rv : option Z) (closure base : Z) (m : Z -> Z) : Prop :=
  (8 | base) /\ 0 <= base /\ base + alloc_size c rv < 2 ^ 32 /\ (forall p, rv = Some p -> 0 <= p < 2 ^ 32) /\ 0 <= closure < 2 ^ 32 /\ bmem m.
Definition text_ok (org : Z) : Prop := 0 <= org /\ org + 4 * zlen text <= 2 ^ 32.
(** The address for a result in memory. *)
Definition hidden_ok (c : acif) (rt : ftype) (rv : option Z) (base p : Z) : Prop :=
  match rv with Some q => p = q | None => base <= p /\ p + ty_size rt <= base + alloc_size c rv end.

Section Calls.
Variables (var : bool) (a : abi) (rt : ftype) (ts : list ftype) (c : acif).
Hypothesis TS : Forall ctype ts.
Hypothesis RT : rtype_ok rt.
Hypothesis TT : total ts < 2 ^ 31.
Hypothesis PR : prep var a rt ts = Ok c.
Let hard := hard_for var a.
Hypothesis FB : bad_result hard rt = false \/ Forall (fun t => ty_align t <> 8) ts.
Variables (rv : option Z) (objs : list (list Z)) (closure base : Z) (m : Z -> Z).
Hypothesis OB : objects_ok ts objs.
Hypothesis CO : call_ok c rv closure base m.

Lemma hidden_is : in_memory hard rt = true -> hidden_ok c rt rv base (new_rvalue c rv base).
Proof.
  intros I. pose proof (prepared_of _ _ _ _ _ TS RT TT PR) as P. fold hard in P. pose proof (pr_mem _ _ _ _ P) as M. rewrite I in M.
  unfold hidden_ok, new_rvalue, call_rsize. unfold K_STRUCT in M. apply Z.eqb_eq in M. rewrite M, (pr_rtype _ _ _ _ P). cbn [Z.eqb Pos.eqb K_VFP_N K_INT K_STRUCT andb].
  assert (SZ : 4 < ty_size rt).
  { unfold in_memory in I. destruct (ty_code rt); try discriminate I; destruct (if hard then hfa_of rt else None); try discriminate I; lia. }
  destruct rv as [q|]; [reflexivity|]. replace (ty_size rt =? 0) with false by lia.
  unfold alloc_size, frame_at, stack_at, call_rsize. rewrite M, (pr_rtype _ _ _ _ P). cbn [Z.eqb Pos.eqb K_STRUCT]. pose proof (pr_min _ _ _ _ P).
  unfold vfp_size, frame_size. destruct (use_vfp c); lia.
Qed.

Theorem call_plan : exists m', call c rv objs closure base m = Ok m' /\
  forall e org X V le fn, text_ok org -> call_args c base fn X ->
  exists X1 V1 le1 M1, reach e text org (St X V le (org + call_label c) m') (St X1 V1 le1 fn M1) /\
    entered c hard rt ts rv objs closure base (org + 44) X V m X1 V1 M1.
Proof.
  pose proof (prepared_of _ _ _ _ _ TS RT TT PR) as P. fold hard in P. destruct CO as (B1 & B2 & B3 & B4 & B5 & B6).
  destruct (call_entry c hard rt ts P TS RT rv objs closure base OB B1 B2 B3 B4 B5 (pr_fits _ _ _ _ P FB) m B6) as (m' & E & H).
  exists m'. split; [exact E|]. intros e org X V le fn [O0 O1] (A0 & A1 & A2 & A3). apply (H e org X V le fn O0 O1 A0 A1 A2 A3).
Qed.

Theorem call_places : tidy_call hard rt ts -> exists m', call c rv objs closure base m = Ok m' /\
  forall e org X V le fn, text_ok org -> call_args c base fn X ->
  exists X1 V1 le1 M1, reach e text org (St X V le (org + call_label c) m') (St X1 V1 le1 fn M1) /\
    held (words_of X1 [0; 1; 2; 3]) V1 (X1 13) M1 ts (places hard rt ts) objs /\ (8 | X1 13) /\
    (in_memory hard rt = true -> hidden_ok c rt rv base (X1 0)) /\ X1 12 = closure /\ X1 14 = org + 44 /\
    (forall r, 4 <= r < 11 -> X1 r = X r) /\ (forall k, 64 <= k -> V1 k = V k) /\
    (forall x, x < base \/ base + alloc_size c rv <= x -> M1 x = m x).
Proof.
  intros T. pose proof (prepared_of _ _ _ _ _ TS RT TT PR) as P. fold hard in P. destruct call_plan as (m' & E & H). exists m'. split; [exact E|]. intros e org X V le fn O A.
  destruct (H e org X V le fn O A) as (X1 & V1 & le1 & M1 & R & EN). exists X1, V1, le1, M1. split; [exact R|]. destruct EN as [E1 E2 E3 E4 E5 E6 E7 E8 E9 E10 E11].
  rewrite plan_places in E1 by auto. split; [exact E1|]. split; [|split; [|split; [exact E4|split; [exact E5|split; [exact E7|split; [exact E8|]]]]]].
  - rewrite E2. destruct CO as (B1 & _). destruct (stk_8 c base B1) as [q Q]. exists (q + 2). lia.
  - intros I. rewrite (E3 I). apply hidden_is. exact I.
  - intros x L. apply E10. assert (RS : 0 <= call_rsize c rv) by (apply rsize_nonneg; rewrite (pr_rtype _ _ _ _ P); auto).
    unfold alloc_size, frame_size in L. unfold frame_at, stack_at. lia.
Qed.

(** Where the result goes. *)
Definition result_ok : Prop := forall p, rv = Some p -> (4 | p) /\ p + 32 < 2 ^ 32 /\ (p + 32 <= base \/ base + alloc_size c rv <= p).
Lemma room_same : ctype rt -> (ty_code rt = T_COMPLEX -> 4 <= ty_size rt) -> room rt = result_room rt.
Proof.
  intros C H. unfold room, result_room. destruct (ctype_cases rt C) as [I|AG].
  - cbn in I. in_cases I; reflexivity.
  - destruct AG as [(u & _ & ->)|(s & al & es & -> & _)]; cbn [ty_code small_int tcode_eqb ty_size] in *; [|reflexivity].
    specialize (H eq_refl). change (tcode_eqb T_COMPLEX T_STRUCT) with false. cbv iota. lia.
Qed.

Theorem call_and_back : result_ok -> (ty_code rt = T_COMPLEX -> 4 <= ty_size rt) -> exists m', call c rv objs closure base m = Ok m' /\
  forall e org X V le fn, text_ok org -> call_args c base fn X -> 0 <= X 11 < 2 ^ 32 -> 0 <= X 14 < 2 ^ 32 ->
  exists X1 V1 le1 M1, reach e text org (St X V le (org + call_label c) m') (St X1 V1 le1 fn M1) /\
    forall X2 V2 le2 M2, bmem M2 -> (forall r, 4 <= r < 12 -> X2 r = X1 r) ->
      (forall x, frame_at c base <= x < frame_at c base + 20 -> M2 x = M1 x) ->
      exists X3 M3, reach e text org (St X2 V2 le2 (X1 14) M2) (St X3 V2 le2 (X 14) M3) /\
        (forall r, 4 <= r < 12 -> X3 r = X r) /\ X3 13 = frame_at c base + 8 /\
        (forall p, rv = Some p -> ctype rt -> in_memory hard rt = false ->
           rd (copy_back c rv base M3) p (Z.to_nat (ty_size rt)) = result_bytes hard rt (words_of X2 [0; 1]) V2) /\
        (forall x, (forall p, rv = Some p -> ctype rt -> in_memory hard rt = false -> ~ (p <= x < p + result_room rt)) ->
           x < base \/ base + alloc_size c rv <= x -> copy_back c rv base M3 x = M2 x).
Proof.
  intros RO CX. pose proof (prepared_of _ _ _ _ _ TS RT TT PR) as P. fold hard in P. destruct CO as (B1 & B2 & B3 & B4 & B5 & B6).
  destruct call_plan as (m' & E & H). exists m'. split; [exact E|]. intros e org X V le fn O A XF XL.
  destruct (H e org X V le fn O A) as (X1 & V1 & le1 & M1 & R & EN). exists X1, V1, le1, M1. split; [exact R|].
  intros X2 V2 le2 M2 BM KR KF. destruct O as [O0 O1]. pose proof (en_frame _ _ _ _ _ _ _ _ _ _ _ _ _ _ _ EN) as FW.
  pose proof (en_lr _ _ _ _ _ _ _ _ _ _ _ _ _ _ _ EN) as LR. pose proof (en_fp _ _ _ _ _ _ _ _ _ _ _ _ _ _ _ EN) as FP. pose proof (en_saved _ _ _ _ _ _ _ _ _ _ _ _ _ _ _ EN) as SV.
  destruct (call_return c hard rt ts P RT rv base B1 B2 B3 B4 (pr_fits _ _ _ _ P FB) e org X2 V2 le2 M2 (X 11) (X 14) O0 O1 BM) as (X3 & M3 & R3 & Q11 & Q13 & QS & RES & OUT); auto.
  { rewrite KR by lia. exact FP. }
  { rewrite <- FW. apply rd_ext. intros x L. apply KF. lia. }
  exists X3, M3. rewrite LR. split; [exact R3|]. split; [|split; [exact Q13|split; [exact RES|]]].
  - intros r L. destruct (Z.eq_dec r 11) as [-> |N]; [exact Q11|]. rewrite QS, KR, SV by lia. reflexivity.
  - intros x HX L. apply OUT.
    + intros p EP CR IM. rewrite room_same by auto. apply HX; auto.
    + unfold frame_at, stack_at. pose proof (pr_min _ _ _ _ P). unfold vfp_size. destruct (use_vfp c); lia.
Qed.
End Calls.

Theorem call_base var a rt ts c : Forall ctype ts -> rtype_ok rt -> total ts < 2 ^ 31 -> prep var a rt ts = Ok c ->
  bad_result (hard_for var a) rt = false \/ Forall (fun t => ty_align t <> 8) ts ->
  forall rv objs closure base m, objects_ok ts objs -> call_ok c rv closure base m -> hard_for var a = false ->
  exists m', call c rv objs closure base m = Ok m' /\
  forall e org X V le fn, text_ok org -> call_args c base fn X ->
  exists X1 V1 le1 M1, reach e text org (St X V le (org + call_label c) m') (St X1 V1 le1 fn M1) /\
    held (words_of X1 [0; 1; 2; 3]) V1 (X1 13) M1 ts (places false rt ts) objs /\ (8 | X1 13) /\
    (in_memory false rt = true -> hidden_ok c rt rv base (X1 0)) /\ X1 12 = closure /\ X1 14 = org + 44 /\
    (forall r, 4 <= r < 11 -> X1 r = X r) /\ (forall k, 64 <= k -> V1 k = V k) /\
    (forall x, x < base \/ base + alloc_size c rv <= x -> M1 x = m x).
Proof.
  intros TS RT TT PR FB rv objs closure base m OB CO H. rewrite <- H. apply call_places; auto. intros Q. congruence.
Qed.
Theorem call_hard rt ts c : Forall ctype ts -> rtype_ok rt -> total ts < 2 ^ 31 -> prep false VFP rt ts = Ok c ->
  bad_result true rt = false \/ Forall (fun t => ty_align t <> 8) ts ->
  forall rv objs closure base m, objects_ok ts objs -> call_ok c rv closure base m -> tidy_call true rt ts ->
  exists m', call c rv objs closure base m = Ok m' /\
  forall e org X V le fn, text_ok org -> call_args c base fn X ->
  exists X1 V1 le1 M1, reach e text org (St X V le (org + call_label c) m') (St X1 V1 le1 fn M1) /\
    held (words_of X1 [0; 1; 2; 3]) V1 (X1 13) M1 ts (places true rt ts) objs /\ (8 | X1 13) /\
    (in_memory true rt = true -> hidden_ok c rt rv base (X1 0)) /\ X1 12 = closure /\ X1 14 = org + 44 /\
    (forall r, 4 <= r < 11 -> X1 r = X r) /\ (forall k, 64 <= k -> V1 k = V k) /\
    (forall x, x < base \/ base + alloc_size c rv <= x -> M1 x = m x).
Proof.
  intros TS RT TT PR FB rv objs closure base m OB CO T. exact (call_places false VFP rt ts c TS RT TT PR FB rv objs closure base m OB CO T).
Qed.
