(** Closures of 32-bit x86: the assembly code joined with the C code of ffi_closure_inner. *)
From Coq Require Import ZifyBool ZifyNat.
From Verif Require Import Base Types BaseFacts ByteMem X87Model X87Facts I386Model I386Spec I386RetSpec I386RawSpec I386Facts I386Call I386CallOk I386Closure I386Ret I386Raw.
From Verif Require Import I386AsmModel I386AsmFacts I386AsmCall I386AsmClo I386AsmTramp I386AsmRet I386AsmRaw I386AsmEnter I386AsmBack.
Local Open Scope Z_scope.
Local Arguments Z.mul : simpl never.
Local Arguments Z.add : simpl never.
Local Arguments Z.sub : simpl never.
Local Arguments Z.pow : simpl never.
Local Arguments Z.of_nat : simpl never.

(** Arguments are read above the stack pointer only. *)
Lemma up_stk o a ts : Forall (ctype32 o) ts -> forall rg p off, In (Stk off) (fst (assign_up a rg p ts)) -> p <= off.
Proof.
  induction 1 as [|t ts C CT IH]; intros rg p off Hin; cbn [assign_up] in Hin; [contradiction|].
  pose proof (osa_le p t) as OL. pose proof (words_size t) as [W _]. pose proof (ctype32_basic _ _ C) as (Sz & _).
  destruct (small_int (ty_code t)), rg as [|k rg'];
    match type of Hin with context [assign_up a ?x ?q ts] => specialize (IH x q off); destruct (assign_up a x q ts) as [l e0] end; cbn [fst] in *;
    (destruct Hin as [E|Hin]; [first [discriminate E|injection E as <-; exact OL]|specialize (IH Hin); lia]).
Qed.

Lemma down_stk o a ts : Forall (ctype32 o) ts -> forall rg off, In (Stk off) (fst (assign_down a rg ts)) -> 0 <= off.
Proof.
  induction 1 as [|t ts C CT IH]; intros rg off Hin; cbn [assign_down] in Hin; [contradiction|].
  pose proof (fun r => down_nonneg o a ts CT r) as DN.
  destruct (small_int (ty_code t)), rg as [|k rg'];
    match type of Hin with context [assign_down a ?x ts] => specialize (IH x off); specialize (DN x); destruct (assign_down a x ts) as [l e0] end; cbn [fst snd] in *;
    (destruct Hin as [E|Hin]; [first [discriminate E|injection E as <-; exact DN]|exact (IH Hin)]).
Qed.

Lemma places_stk o a rt ts off : Forall (ctype32 o) ts -> In (Stk off) (places o a rt ts) -> 0 <= off.
Proof.
  intros CT. unfold places, assign.
  assert (CH : Forall (ctype32 o) (hidden o rt ++ ts)).
  { unfold hidden. destruct (in_memory o rt); [constructor; [constructor|exact CT]|exact CT]. }
  destruct (last_lowest a); [apply (down_stk o a _ CH)|apply (up_stk o a _ CH)].
Qed.

Lemma held_above regs sp r r' lo : (forall p n, lo <= p -> r' p n = r p n) ->
  forall ts ls objs, (forall off, In (Stk off) ls -> lo <= sp + off) -> held regs sp r ts ls objs -> held regs sp r' ts ls objs.
Proof.
  intros E. induction ts as [|t ts IH]; intros [|l ls] [|d objs] A H; try exact H; try contradiction.
  destruct H as [H1 H2]. split; [|apply IH; [intros off Hin; apply A; right; exact Hin|exact H2]].
  destruct l as [k|off]; [exact H1|]. cbn [at_loc] in *. rewrite !E by (apply A; left; reflexivity). exact H1.
Qed.

Lemma reader_ext M M1 lo : (forall x, lo <= x -> M1 x = M x) -> forall p n, lo <= p -> reader M1 p n = reader M p n.
Proof.
  intros E p n L. unfold reader. destruct (0 <=? n) eqn:N; [|reflexivity]. f_equal. apply rd_ext. intros x Hx. apply E. lia.
Qed.

(** The registers in the frame of ffi_closure_inner (struct closure_frame). *)
Definition frame_regs (M : Z -> Z) (sp r : Z) : Z := le_dec (rd M (sp + 16 + 4 * r) 4).

Lemma frame_zlen w0 w1 w2 w3 w4 w5 : zlen (frame_words w0 w1 w2 w3 w4 w5) = 24.
Proof. unfold frame_words. rewrite !zlen_app, !le_enc_zlen. reflexivity. Qed.

Lemma frame_read M M1 a w0 w1 w2 w3 w4 w5 : (forall x, a <= x < a + 24 -> M1 x = wr M a (frame_words w0 w1 w2 w3 w4 w5) x) ->
  rd M1 a 4 = le_enc 4 w0 /\ rd M1 (a + 4) 4 = le_enc 4 w1 /\ rd M1 (a + 8) 4 = le_enc 4 w2 /\ rd M1 (a + 12) 4 = le_enc 4 w3 /\
  rd M1 (a + 16) 4 = le_enc 4 w4 /\ rd M1 (a + 20) 4 = le_enc 4 w5.
Proof.
  intros E. pose proof (frame_zlen w0 w1 w2 w3 w4 w5) as Z.
  assert (K : forall j, 0 <= j -> j + 4 <= 24 -> rd M1 (a + j) 4 = firstn 4 (skipn (Z.to_nat j) (frame_words w0 w1 w2 w3 w4 w5))).
  { intros j J0 J1. rewrite (rd_ext (wr M a (frame_words w0 w1 w2 w3 w4 w5))) by (intros x Hx; apply E; lia).
    rewrite rd_wr_sub by (rewrite ?Z; lia). do 2 f_equal. lia. }
  pose proof (K 0) as K0. rewrite Z.add_0_r in K0. rewrite K0, !K by lia. repeat split; reflexivity.
Qed.

(** The state in which ffi_closure_inner is called for a closure at [clo]; [sp] is its frame
    argument, above which are the return address of the closure at sp + 44 and the stack
    arguments. *)
Definition inner_ready (g : cfg) (e : env) (org : Z) (plain : bool) (sp : Z) (cf fn ud : list Z) (X M X1 M1 : Z -> Z) : Prop :=
  X1 ECX = sp /\ X1 EDX = sp + 48 /\ X1 ESP = sp - 4 /\ (forall i, 5 <= i -> X1 i = X i) /\
  X1 EBX = (match g_pic g with Plt => e_got e | _ => X EBX end) /\ (g_pic g = Plt -> rd M1 (sp + 40) 4 = le_enc 4 (X EBX)) /\
  rd M1 (sp - 4) 4 = le_enc 4 (at_label (src g) org (back_label plain)) /\
  rd M1 (sp + 28) 4 = cf /\ rd M1 (sp + 32) 4 = fn /\ rd M1 (sp + 36) 4 = ud /\
  (forall x, ~ (sp - 4 <= x < sp + 44) -> M1 x = M x).

Lemma do_inner plain g e org X F M M0 sp w0 w1 w2 w3 w4 w5 :
  0 <= org -> org + 2048 <= 2 ^ 32 -> 0 <= e_got e < 2 ^ 32 -> X ESP = sp -> 4 <= sp -> sp + 48 < 2 ^ 32 ->
  (forall x, M x = wr M0 (sp + 16) (frame_words w0 w1 w2 w3 w4 w5) x) ->
  exists X1 M1,
    reach e (text g) org (St X F false (at_label (src g) org (do_label plain)) M) (St X1 F false (e_inner e) M1) /\
    inner_ready g e org plain sp (le_enc 4 w3) (le_enc 4 w4) (le_enc 4 w5) X M0 X1 M1 /\
    rd M1 (sp + 16) 4 = le_enc 4 w0 /\ rd M1 (sp + 20) 4 = le_enc 4 w1 /\ rd M1 (sp + 24) 4 = le_enc 4 w2.
Proof.
  intros Ho Ho2 HG HS S4 S1 E.
  destruct (inner_call plain g e org X F M sp Ho Ho2 HG HS S4 S1) as (X1 & M1 & R1 & C1 & D1 & P1 & B1 & K1 & W1 & V1 & O1).
  destruct (frame_read M0 M1 (sp + 16) w0 w1 w2 w3 w4 w5) as (F0 & F1 & F2 & F3 & F4 & F5).
  { intros x Hx. rewrite O1 by (intros; lia). apply E. }
  rewrite <- Z.add_assoc in F1, F2, F3, F4, F5.
  exists X1, M1. split; [exact R1|]. split; [|split; [exact F0|split; [exact F1|exact F2]]].
  unfold inner_ready. repeat (split; [assumption|]). intros x N. rewrite O1 by (intros; lia). rewrite E. apply wr_out. rewrite frame_zlen. lia.
Qed.

Lemma group_plain a : last_lowest a = false \/ a = PASCAL -> entry_label (group_of a) = clo_label (plain_entry a) /\ pushes (group_of a) = false /\
  (forall r, In r (reg_params a) -> r = 1 \/ r = 2).
Proof. intros [H|H]; destruct a; try discriminate H; cbn; (split; [reflexivity|split; [reflexivity|]]); intros r Hr; intuition. Qed.

Lemma held_in regs regs' sp r ts : forall ls objs, (forall k, In (Reg k) ls -> regs' k = regs k) -> held regs sp r ts ls objs -> held regs' sp r ts ls objs.
Proof.
  induction ts as [|t ts IH]; intros [|l ls] [|d objs] E H; try exact H; try contradiction.
  destruct H as [H1 H2]. split; [|apply IH; [intros k Hk; apply E; right; exact Hk|exact H2]].
  destruct l as [k|off]; [|exact H1]. cbn [at_loc] in *. rewrite E by (left; reflexivity). exact H1.
Qed.

Lemma places_regs o a rt ts r : In (Reg r) (places o a rt ts) -> In r (reg_params a).
Proof.
  unfold places, assign. assert (R : forall k, In k (reg_params a) -> 0 <= k <= 2) by (intros k Hk; destruct a; cbn in Hk; intuition; lia).
  destruct (last_lowest a); [apply down_regs|apply up_regs]; exact R.
Qed.

Lemma ready_regs g e org plain sp cf fn ud X0 X M X1 M1 : (forall i, i = EBX \/ 5 <= i -> X0 i = X i) ->
  inner_ready g e org plain sp cf fn ud X0 M X1 M1 -> inner_ready g e org plain sp cf fn ud X M X1 M1.
Proof.
  unfold inner_ready. intros E (I1 & I2 & I3 & I4 & I5 & I6 & IR). rewrite (E EBX (or_introl eq_refl)) in I5, I6.
  repeat (split; [assumption|]). split; [intros i Hi; rewrite I4, E by lia; reflexivity|]. repeat (split; [assumption|]). exact IR.
Qed.

(** The handler's arguments of a closure entered with its address in eax. *)
Lemma closure_entered o a rt ts c hp objs g e org clo sp X F k M :
  last_lowest a = false -> Forall (ctype32 o) ts -> Forall passable ts -> (ctype32 o rt \/ ty_code rt = T_VOID) ->
  objects_ok ts objs -> total ts < 2 ^ 28 -> prep o a rt ts = Some c ->
  (16 | sp + 48) -> 4 <= sp -> sp + 48 + stack_align (k_bytes c) < 2 ^ 32 ->
  0 <= org -> org + 2048 <= 2 ^ 32 -> 0 <= e_got e < 2 ^ 32 -> (k = true -> g_cet g = true) -> regs_ok X -> mem_ok M ->
  X EAX = clo -> clo + 28 <= 2 ^ 32 -> X ESP = sp + 44 -> clo + 28 <= sp - 4 \/ sp + 48 <= clo ->
  held (arg_regs X) (sp + 48) (reader M) (hidden o rt ++ ts) (places o a rt ts) (hidden_obj o rt hp ++ objs) ->
  exists X1 M1 vs n,
    reach e (text g) org (St X F k (at_label (src g) org (entry_label (group_of a))) M) (St X1 F false (e_inner e) M1) /\
    inner_ready g e org (plain_entry a) sp (rd M (clo + 16) 4) (rd M (clo + 20) 4) (rd M (clo + 24) 4) X M X1 M1 /\
    closure_args c (frame_regs M1 sp) (sp + 48) (reader M1) = Ok (vs, n, if in_memory o rt then RCaller (hp mod 2 ^ 32) else RTemp) /\
    seen (frame_regs M1 sp) (reader M1) ts vs objs.
Proof.
  intros LL CT PS RT OK TB PR AL S4 SE Ho Ho2 HG Hk HX HM HC C28 HS DJ HH.
  destruct (group_plain a (or_introl LL)) as (EL & _ & RP). rewrite EL.
  pose proof (align_nonneg o a rt ts c CT RT TB PR) as SA. pose proof (HX EAX) as RA. rewrite HC in RA.
  destruct (clo_entry (plain_entry a) g e org X F k M clo sp Ho Ho2 Hk HC ltac:(lia) C28 HS ltac:(lia) ltac:(lia) ltac:(lia)) as (X1 & M1 & R1 & S1 & K1 & E1).
  destruct (do_inner (plain_entry a) g e org X1 F M1 M sp _ _ _ _ _ _ Ho Ho2 HG S1 S4 ltac:(lia) E1) as (X2 & M2 & R2 & IR & V0 & V1 & V2).
  rewrite !rd_back4 in IR by exact HM.
  assert (IR' : inner_ready g e org (plain_entry a) sp (rd M (clo + 16) 4) (rd M (clo + 20) 4) (rd M (clo + 24) 4) X M X2 M2).
  { unfold inner_ready in *. destruct IR as (I1 & I2 & I3 & I4 & I5 & I6 & IR). repeat (split; [assumption|]).
    split; [intros i Hi; rewrite I4, K1 by (rn; lia); reflexivity|]. rewrite (K1 EBX) in I5, I6 by (rn; lia). repeat (split; [assumption|]). exact IR. }
  assert (OUT : forall x, sp + 48 <= x -> M2 x = M x) by (intros x Hx; apply IR'; lia).
  destruct (closure_up o a rt ts c hp objs (arg_regs X) (frame_regs M2 sp) (sp + 48) (reader M2) LL CT PS RT OK TB PR AL ltac:(lia) SE) as (vs & n & CA & SN).
  - intros r Hr. destruct (RP r Hr) as [-> | ->]; unfold frame_regs, arg_regs; cbn [Z.eqb Pos.eqb].
    + replace (sp + 16 + 4 * 1) with (sp + 20) by lia. rewrite V1. apply word_back, HX.
    + replace (sp + 16 + 4 * 2) with (sp + 24) by lia. rewrite V2. apply word_back, HX.
  - apply held_above with (r := reader M) (lo := sp + 48); [apply reader_ext; exact OUT| |exact HH].
    intros off Hin. pose proof (places_stk o a rt ts off CT Hin). lia.
  - exists X2, M2, vs, n. split; [eapply reach_trans; eassumption|]. split; [exact IR'|]. split; [exact CA|exact SN].
Qed.

(** Labels are addresses. *)
Lemma entry_range g org c : 0 <= org -> org + 2048 <= 2 ^ 32 ->
  (0 <= at_label (src g) org (entry_label c) < 2 ^ 32) /\ (0 <= at_label (src g) org (alt_label c) < 2 ^ 32).
Proof.
  intros A C. destruct g as [cet pc og]. destruct og; rewrite ?label_org; destruct c, cet, pc; unfold entry_label, alt_label; labels; lia.
Qed.

(** ** Closures reached through their trampolines *)

Lemma closure_dynamic o a rt ts c hp objs g e org clo sp X F k M :
  last_lowest a = false -> Forall (ctype32 o) ts -> Forall passable ts -> (ctype32 o rt \/ ty_code rt = T_VOID) ->
  objects_ok ts objs -> total ts < 2 ^ 28 -> prep o a rt ts = Some c ->
  (16 | sp + 48) -> 4 <= sp -> sp + 48 + stack_align (k_bytes c) < 2 ^ 32 ->
  0 <= org -> org + 2048 <= 2 ^ 32 -> 0 <= e_got e < 2 ^ 32 -> regs_ok X -> mem_ok M ->
  0 <= clo -> clo + 28 <= 2 ^ 32 -> X ESP = sp + 44 -> clo + 28 <= sp - 4 \/ sp + 48 <= clo ->
  rd M clo 14 = dyn_tramp (pushes (group_of a)) (at_label (src g) org (entry_label (group_of a))) clo ->
  held (arg_regs X) (sp + 48) (reader M) (hidden o rt ++ ts) (places o a rt ts) (hidden_obj o rt hp ++ objs) ->
  exists s X1 M1 vs n,
    dyn_steps 3 (St X F k clo M) = Some s /\ reach e (text g) org s (St X1 F false (e_inner e) M1) /\
    inner_ready g e org (plain_entry a) sp (rd M (clo + 16) 4) (rd M (clo + 20) 4) (rd M (clo + 24) 4) X M X1 M1 /\
    closure_args c (frame_regs M1 sp) (sp + 48) (reader M1) = Ok (vs, n, if in_memory o rt then RCaller (hp mod 2 ^ 32) else RTemp) /\
    seen (frame_regs M1 sp) (reader M1) ts vs objs.
Proof.
  intros LL CT PS RT OK TB PR AL S4 SE Ho Ho2 HG HX HM C0 C28 HS DJ HT HH.
  destruct (group_plain a (or_introl LL)) as (_ & PU & RP). rewrite PU in HT.
  destruct (entry_range g org (group_of a) Ho Ho2) as [ER _].
  pose proof (dyn_run false _ clo X F k M 0 HT C0 ltac:(lia) ER ltac:(intros Q; discriminate Q)) as DR. cbn iota in DR.
  pose (X0 := upd X EAX clo).
  assert (HX0 : regs_ok X0) by (intros i; unfold X0, upd; destruct (i =? EAX); [lia|apply HX]).
  destruct (closure_entered o a rt ts c hp objs g e org clo sp X0 F false M LL CT PS RT OK TB PR AL S4 SE Ho Ho2 HG ltac:(intros Q; discriminate Q) HX0 HM) as (X1 & M1 & vs & n & R & IR & CA & SN).
  - reflexivity.
  - exact C28.
  - exact HS.
  - exact DJ.
  - apply (held_in (arg_regs X)); [|exact HH]. intros r Hr. apply (places_regs o a rt ts) in Hr. destruct (RP r Hr) as [-> | ->]; reflexivity.
  - exists (St X0 F false (at_label (src g) org (entry_label (group_of a))) M), X1, M1, vs, n.
    split; [exact DR|]. split; [exact R|]. split; [|split; [exact CA|exact SN]]. eapply ready_regs; [|exact IR].
    intros i Hi. unfold X0. apply upd_other. rn. lia.
Qed.

Lemma closure_static o a rt ts c hp objs g e org slot clo sp X F k M :
  last_lowest a = false -> Forall (ctype32 o) ts -> Forall passable ts -> (ctype32 o rt \/ ty_code rt = T_VOID) ->
  objects_ok ts objs -> total ts < 2 ^ 28 -> prep o a rt ts = Some c ->
  (16 | sp + 48) -> 4 <= sp -> sp + 48 + stack_align (k_bytes c) < 2 ^ 32 ->
  0 <= org -> org + 2048 <= 2 ^ 32 -> 0 <= e_got e < 2 ^ 32 -> tracked e g -> (k = true -> g_cet g = true) -> regs_ok X -> mem_ok M ->
  0 <= clo -> clo + 28 <= 2 ^ 32 -> X ESP = sp + 44 -> clo + 28 <= sp - 4 \/ sp + 48 <= clo ->
  0 <= slot -> slot + TRAMP_MAP + 8 <= 2 ^ 32 -> sp + 44 <= slot + TRAMP_MAP \/ slot + TRAMP_MAP + 8 <= sp - 4 ->
  rd M (slot + TRAMP_MAP) 4 = le_enc 4 clo -> rd M (slot + TRAMP_MAP + 4) 4 = le_enc 4 (at_label (src g) org (alt_label (group_of a))) ->
  held (arg_regs X) (sp + 48) (reader M) (hidden o rt ++ ts) (places o a rt ts) (hidden_obj o rt hp ++ objs) ->
  exists s X1 M1 vs n,
    reach e (tramp_text g) slot (St X F k slot M) s /\ reach e (text g) org s (St X1 F false (e_inner e) M1) /\
    inner_ready g e org (plain_entry a) sp (rd M (clo + 16) 4) (rd M (clo + 20) 4) (rd M (clo + 24) 4) X M X1 M1 /\
    closure_args c (frame_regs M1 sp) (sp + 48) (reader M1) = Ok (vs, n, if in_memory o rt then RCaller (hp mod 2 ^ 32) else RTemp) /\
    seen (frame_regs M1 sp) (reader M1) ts vs objs.
Proof.
  intros LL CT PS RT OK TB PR AL S4 SE Ho Ho2 HG HTK Hk HX HM C0 C28 HS DJ SL0 SL1 SDJ W0 W1 HH.
  destruct (group_plain a (or_introl LL)) as (_ & PU & RP).
  pose proof (align_nonneg o a rt ts c CT RT TB PR) as SA.
  destruct (entry_range g org (group_of a) Ho Ho2) as [_ ER].
  destruct (tramp_slot g e slot X F k M (sp + 36) clo (at_label (src g) org (alt_label (group_of a)))) as (X1 & M1 & R1 & E1 & V0 & V4 & O1 & B1);
    try assumption; try lia; try (rewrite W0; apply word_back; lia); try (rewrite W1; apply word_back; lia).
  { apply HX. }
  replace (sp + 36 + 4) with (sp + 40) in V4 by lia.
  assert (P1 : X1 ESP = sp + 36) by (rewrite E1; reflexivity).
  destruct (alt_entry (group_of a) g e org X1 F (e_ibt e) M1 (sp + 36) Ho Ho2 HTK P1 ltac:(lia) ltac:(lia)) as (X2 & R2 & E2).
  replace (sp + 36 + 4) with (sp + 40) in E2 by lia. rewrite V4, (word_back clo) in E2 by lia.
  assert (G2 : forall i, X2 i = upd (upd X EAX clo) ESP (sp + 44) i).
  { intros i. rewrite E2. destruct (group_of a) eqn:GE; try discriminate PU; unfold upd; rewrite E1; unfold upd; rn;
      (destruct (i =? 4); [lia|]); destruct (i =? 0); reflexivity. }
  assert (HX2 : regs_ok X2).
  { intros i. rewrite G2. unfold upd. destruct (i =? ESP); [lia|]. destruct (i =? EAX); [lia|apply HX]. }
  assert (HM1 : forall x, ~ (sp - 4 <= x < sp + 44) -> M1 x = M x) by (intros x N; apply O1; lia).
  assert (RM : forall q, 0 <= q -> q + 4 <= 28 -> rd M1 (clo + q) 4 = rd M (clo + q) 4) by (intros q Q0 Q1; apply rd_ext; intros x Hx; apply HM1; lia).
  destruct (closure_entered o a rt ts c hp objs g e org clo sp X2 F false M1 LL CT PS RT OK TB PR AL S4 SE Ho Ho2 HG ltac:(intros Q; discriminate Q) HX2 (B1 HM)) as (X3 & M3 & vs & n & R3 & IR & CA & SN).
  - rewrite G2. reflexivity.
  - exact C28.
  - rewrite G2. reflexivity.
  - exact DJ.
  - apply (held_in (arg_regs X)).
    { intros r Hr. apply (places_regs o a rt ts) in Hr. destruct (RP r Hr) as [-> | ->]; unfold arg_regs; cbn [Z.eqb Pos.eqb]; rewrite G2; reflexivity. }
    apply held_above with (r := reader M) (lo := sp + 48); [apply reader_ext; intros x Hx; apply HM1; lia| |exact HH].
    intros off Hin. pose proof (places_stk o a rt ts off CT Hin). lia.
  - exists (St X1 F (e_ibt e) (at_label (src g) org (alt_label (group_of a))) M1), X3, M3, vs, n.
    split; [exact R1|]. split; [eapply reach_trans; [exact R2|exact R3]|]. split; [|split; [exact CA|exact SN]].
    rewrite !RM in IR by lia. apply (ready_regs g e org _ sp _ _ _ X2 X) in IR; [|intros i Hi; rewrite G2, !upd_other by (rn; lia); reflexivity].
    unfold inner_ready in *. destruct IR as (I1 & I2 & I3 & I4 & I5 & I6 & I7 & I8 & I9 & I10 & I11). repeat (split; [assumption|]).
    intros x N. rewrite I11, HM1 by exact N. reflexivity.
Qed.
