(** Raw closures of 32-bit x86, from their trampolines to the handler and back. *)
From Coq Require Import ZifyBool ZifyNat.
From Verif Require Import Base Types BaseFacts ByteMem X87Model X87Facts I386Model I386Spec I386RetSpec I386RawSpec I386Facts I386Call I386CallOk I386Closure I386Ret I386Raw I386Lemmas.
From Verif Require Import I386AsmModel I386AsmFacts I386AsmCall I386AsmClo I386AsmTramp I386AsmRet I386AsmRaw I386AsmEnter I386AsmBack I386AsmTop I386AsmExit.
Local Open Scope Z_scope.
Local Arguments Z.mul : simpl never.
Local Arguments Z.add : simpl never.
Local Arguments Z.sub : simpl never.
Local Arguments Z.pow : simpl never.
Local Arguments Z.of_nat : simpl never.

Lemma raw_mono o r r' : (forall p n d, 0 <= p -> r p n = Some d -> r' p n = Some d) ->
  forall ts off objs, Forall (ctype32 o) ts -> 0 <= off -> raw_has r off ts objs -> raw_has r' off ts objs.
Proof.
  intros E. induction ts as [|t ts IH]; intros off [|d objs] CT O H; try exact H; try contradiction.
  apply Forall_cons_iff in CT as [C1 C2]. destruct (words_pos o t C1) as (W1 & W2). destruct H as (H1 & H2 & H3).
  split; [apply E; assumption|]. split; [intros S; apply E; [assumption|apply H2, S]|]. apply IH; [exact C2|lia|exact H3].
Qed.

(** Is it THISCALL? *)
Definition is_this (a : abi) : bool := match a with THISCALL => true | _ => false end.

(** The handler is called as fun (cif, rvalue, raw arguments, user data), [sp] being the address
    of its first argument; the result is to go to sp + 16. *)
Definition handler_ready (g : cfg) (org : Z) (this : bool) (sp : Z) (cf ud : list Z) (raw : Z) (X M X1 M1 : Z -> Z) : Prop :=
  X1 ESP = sp - 4 /\ X1 EBX = le_dec cf /\ (forall i, 5 <= i -> X1 i = X i) /\
  rd M1 (sp - 4) 4 = le_enc 4 (at_label (src g) org (raw_back this)) /\
  rd M1 sp 4 = cf /\ rd M1 (sp + 4) 4 = le_enc 4 (sp + 16) /\ rd M1 (sp + 8) 4 = le_enc 4 raw /\ rd M1 (sp + 12) 4 = ud /\
  rd M1 (if this then sp + 36 else sp + 40) 4 = le_enc 4 (X EBX) /\
  rd M1 (if this then sp + 40 else sp + 44) 4 = rd M (sp + 44) 4 /\
  (forall x, ~ (sp - 4 <= x < sp + 48) -> M1 x = M x).

Lemma raw_range g org this : 0 <= org -> org + 2048 <= 2 ^ 32 -> 0 <= at_label (src g) org (raw_label this) < 2 ^ 32.
Proof.
  intros A C. destruct g as [cet pc og]. destruct og; rewrite ?label_org; destruct this, cet, pc; unfold raw_label; labels; lia.
Qed.

Lemma raw_body a g e org clo sp X F M :
  0 <= org -> org + 2048 <= 2 ^ 32 -> regs_ok X -> mem_ok M ->
  X EAX = clo -> clo + 28 <= 2 ^ 32 -> X ESP = sp + 44 -> 4 <= sp -> sp + 48 < 2 ^ 32 -> clo + 28 <= sp - 4 \/ sp + 48 <= clo ->
  exists X1 M1,
    reach e (text g) org (St X F false (at_label (src g) org (raw_label (is_this a))) M) (St X1 F (e_ibt e) (le_dec (rd M (clo + 20) 4)) M1) /\
    handler_ready g org (is_this a) sp (rd M (clo + 16) 4) (rd M (clo + 24) 4) (if is_this a then sp + 44 else sp + 48) X M X1 M1 /\
    (is_this a = true -> rd M1 (sp + 44) 4 = le_enc 4 (X ECX)).
Proof.
  intros Ho Ho2 HX HM HC C28 HS S4 S1 DJ.
  destruct (raw_entry (is_this a) g e org X F false M clo sp Ho Ho2 ltac:(intros Q; discriminate Q) HX HM HC C28 HS S4 S1 ltac:(lia))
    as (X1 & M1 & R1 & P1 & B1 & K1 & W1 & V0 & V4 & V8 & V12 & VB & VT & O1).
  exists X1, M1. split; [exact R1|]. split; [|intros Q; apply VT, Q].
  unfold handler_ready. repeat (split; [assumption|]). split.
  - destruct (is_this a); [apply VT; reflexivity|]. apply rd_ext. intros x Hx. apply O1. lia.
  - intros x N. apply O1. destruct (is_this a); lia.
Qed.

(** SYSV: the raw arguments are the words on the stack. *)
Lemma raw_sysv o rt ts objs g e org clo sp X F M :
  Forall (ctype32 o) ts -> Forall no_struct ts -> in_memory o rt = false ->
  0 <= org -> org + 2048 <= 2 ^ 32 -> regs_ok X -> mem_ok M ->
  0 <= clo -> clo + 28 <= 2 ^ 32 -> X ESP = sp + 44 -> 4 <= sp -> sp + 48 < 2 ^ 32 -> clo + 28 <= sp - 4 \/ sp + 48 <= clo ->
  rd M clo 10 = raw_tramp (at_label (src g) org (raw_label false)) clo ->
  held (arg_regs X) (sp + 48) (reader M) ts (places o SYSV rt ts) objs ->
  exists s X1 M1,
    dyn_steps 2 (St X F false clo M) = Some s /\ reach e (text g) org s (St X1 F (e_ibt e) (le_dec (rd M (clo + 20) 4)) M1) /\
    handler_ready g org false sp (rd M (clo + 16) 4) (rd M (clo + 24) 4) (sp + 48) X M X1 M1 /\
    raw_has (fun off n => reader M1 (sp + 48 + off) n) 0 ts objs.
Proof.
  intros CT NS MEM Ho Ho2 HX HM C0 C28 HS S4 S1 DJ HT HH.
  pose proof (raw_run _ clo X F M HT C0 ltac:(lia) (raw_range g org false Ho Ho2)) as RR.
  pose (X0 := upd X EAX clo).
  assert (HX0 : regs_ok X0) by (intros i; unfold X0, upd; destruct (i =? EAX); [lia|apply HX]).
  destruct (raw_body SYSV g e org clo sp X0 F M Ho Ho2 HX0 HM eq_refl C28 HS S4 S1 DJ) as (X1 & M1 & R1 & HR & _).
  exists (St X0 F false (at_label (src g) org (raw_label false)) M), X1, M1. split; [exact RR|]. split; [exact R1|].
  assert (K0 : forall i, i = EBX \/ 5 <= i -> X0 i = X i) by (intros i Hi; unfold X0; apply upd_other; rn; lia).
  split.
  - unfold handler_ready in *. destruct HR as (H1 & H2 & H3 & H4 & H5 & H6 & H7 & H8 & H9 & HR). cbn [is_this] in *.
    rewrite (K0 EBX) in H9 by auto. repeat (split; [assumption|]). split; [intros i Hi; rewrite H3, K0 by lia; reflexivity|]. repeat (split; [assumption|]). exact HR.
  - pose proof (raw_closure_sysv o rt ts objs (arg_regs X) (sp + 48) (reader M) CT NS MEM HH) as RH.
    apply (raw_mono o (raw_view SYSV (arg_regs X) (sp + 48) (reader M))); [|exact CT|lia|exact RH].
    intros p n d P0 G. cbn [raw_view] in G. rewrite <- G. apply reader_ext with (lo := sp + 48); [|lia].
    intros x Hx. apply HR. lia.
Qed.

(** THISCALL with a first argument that is in ecx: it is put above the return address. *)
Lemma raw_this o rt t ts d objs g e org clo sp X F M :
  small_int (ty_code t) = true -> Forall (ctype32 o) (t :: ts) -> Forall no_struct ts -> in_memory o rt = false -> zlen d = ty_size t -> bytes_ok d ->
  0 <= org -> org + 2048 <= 2 ^ 32 -> regs_ok X -> mem_ok M ->
  0 <= clo -> clo + 28 <= 2 ^ 32 -> X ESP = sp + 44 -> 4 <= sp -> sp + 48 < 2 ^ 32 -> clo + 28 <= sp - 4 \/ sp + 48 <= clo ->
  rd M clo 10 = raw_tramp (at_label (src g) org (raw_label true)) clo ->
  held (arg_regs X) (sp + 48) (reader M) (t :: ts) (places o THISCALL rt (t :: ts)) (d :: objs) ->
  exists s X1 M1,
    dyn_steps 2 (St X F false clo M) = Some s /\ reach e (text g) org s (St X1 F (e_ibt e) (le_dec (rd M (clo + 20) 4)) M1) /\
    handler_ready g org true sp (rd M (clo + 16) 4) (rd M (clo + 24) 4) (sp + 44) X M X1 M1 /\
    raw_has (fun off n => reader M1 (sp + 44 + off) n) 0 (t :: ts) (d :: objs).
Proof.
  intros SI CT NS MEM ZD BD Ho Ho2 HX HM C0 C28 HS S4 S1 DJ HT HH.
  pose proof (raw_run _ clo X F M HT C0 ltac:(lia) (raw_range g org true Ho Ho2)) as RR.
  pose (X0 := upd X EAX clo).
  assert (HX0 : regs_ok X0) by (intros i; unfold X0, upd; destruct (i =? EAX); [lia|apply HX]).
  destruct (raw_body THISCALL g e org clo sp X0 F M Ho Ho2 HX0 HM eq_refl C28 HS S4 S1 DJ) as (X1 & M1 & R1 & HR & HE). specialize (HE eq_refl).
  exists (St X0 F false (at_label (src g) org (raw_label true)) M), X1, M1. split; [exact RR|]. split; [exact R1|].
  assert (K0 : forall i, i = EBX \/ 5 <= i -> X0 i = X i) by (intros i Hi; unfold X0; apply upd_other; rn; lia).
  split.
  - unfold handler_ready in *. destruct HR as (H1 & H2 & H3 & H4 & H5 & H6 & H7 & H8 & H9 & HR). cbn [is_this] in *.
    rewrite (K0 EBX) in H9 by auto. repeat (split; [assumption|]). split; [intros i Hi; rewrite H3, K0 by lia; reflexivity|]. repeat (split; [assumption|]). exact HR.
  - pose proof (raw_closure_this o rt t ts d objs (arg_regs X) (sp + 48) (reader M) SI CT NS MEM ZD BD HH) as RH.
    apply (raw_mono o (raw_view THISCALL (arg_regs X) (sp + 48) (reader M))); [|exact CT|lia|exact RH].
    intros p n d0 P0 G. cbn [raw_view] in G. destruct (4 <=? p) eqn:Q4.
    + rewrite <- G. replace (sp + 48 + p - 4) with (sp + 44 + p) by lia. apply reader_ext with (lo := sp + 48); [|lia].
      intros x Hx. apply HR. lia.
    + destruct (p + n <=? 4) eqn:Q5; [|discriminate G]. pose proof G as G'. apply get_range_inv in G'.
      change (arg_regs X R_ECX) with (X0 ECX) in G. rewrite <- HE in G. apply get_rd in G. unfold reader.
      replace (0 <=? n) with true by lia. rewrite G. reflexivity.
Qed.

(** The return, on a processor that does not track indirect branches. *)
Lemma raw_left o a rt ts c d hp g e org sp cf X F M :
  (a = SYSV \/ a = THISCALL) -> (ctype32 o rt \/ ty_code rt = T_VOID) -> x87_struct o rt -> prep o a rt ts = Some c ->
  0 <= org -> org + 2048 <= 2 ^ 32 -> e_ibt e = false -> mem_ok M ->
  X ESP = sp -> 4 <= sp -> sp + 60 < 2 ^ 32 -> X EBX = cf -> 0 <= cf -> cf + 24 <= 2 ^ 32 -> rd M (cf + 20) 4 = le_enc 4 (ret_num (k_flags c)) -> zlen F < 8 ->
  result_left o rt d hp M (sp + 16) ->
  exists X1 F1 M1,
    reach e (text g) org (St X F false (at_label (src g) org (raw_back (is_this a))) M)
      (St X1 F1 false (le_dec (rd M (if is_this a then sp + 40 else sp + 44) 4)) M1) /\
    result_out o rt d hp X1 F1 F /\ (a = SYSV -> X1 ESP = sp + 48 + pops o a rt ts) /\ (a = THISCALL -> X1 ESP = sp + 48) /\
    X1 EBX = le_dec (rd M (if is_this a then sp + 36 else sp + 40) 4) /\ (forall i, 5 <= i -> X1 i = X i) /\
    (forall x, ~ (sp - 4 <= x < sp) -> M1 x = M x).
Proof.
  intros AB RT XS PR Ho Ho2 HE HM HS S4 SE HB C0 C24 HC HF RL.
  assert (RN : 0 <= ret_num (k_flags c) < 14) by (destruct (k_flags c); cbn; lia).
  assert (V : le_dec (rd M (cf + 20) 4) = ret_num (k_flags c)) by (rewrite HC; apply word_back; lia).
  destruct (raw_leave (is_this a) g e org X F M sp cf _ (ret_num (k_flags c)) Ho Ho2 HE HM HS S4 SE HB C0 C24 V ltac:(lia) ltac:(apply Z.mod_small; lia) RN HF)
    as (X1 & M1 & R1 & A1 & D1 & S1 & B1 & K1 & O1).
  exists X1, (load_st (ret_num (k_flags c)) M (sp + 16) ++ F), M1.
  split; [|split; [|split; [|split; [|split; [exact B1|split; [exact K1|exact O1]]]]]].
  - replace (if is_this a then sp + 40 else sp + 44) with (sp + tab_frame (raw_tab (is_this a))) by (destruct (is_this a); reflexivity). exact R1.
  - apply (loaded o a rt ts c d hp M (sp + 16) X1 F RT XS PR HM RL A1). intros Q. rewrite (D1 Q). do 2 f_equal. lia.
  - intros ->. rewrite S1. pose proof (raw_closure_pops o rt ts c (rd M (sp + 16) 16) 0 _ RT PR (load_is (k_flags c) M (sp + 16) 0 _)) as PP. cbn [r_pop] in PP.
    rewrite <- PP. unfold plain_pop. destruct (k_flags c); reflexivity.
  - intros ->. rewrite S1. pose proof (flags_of o THISCALL rt ts c PR) as RF. destruct (flags_memory o THISCALL rt _ RT RF) as [_ SF].
    destruct (k_flags c); cbn [ret_num Z.eqb Pos.eqb]; try lia. specialize (SF eq_refl). discriminate SF.
Qed.

(** With tracking, the jump into the table faults: the state reached has no next step. *)
Lemma raw_faults this g e org sp cf X F M v :
  0 <= org -> org + 2048 <= 2 ^ 32 -> e_ibt e = true -> mem_ok M ->
  X ESP = sp -> 4 <= sp -> sp + 60 < 2 ^ 32 -> X EBX = cf -> 0 <= cf -> cf + 24 <= 2 ^ 32 -> le_dec (rd M (cf + 20) 4) = v -> 0 <= v < 14 ->
  exists s, reach e (text g) org (St X F false (at_label (src g) org (raw_back this)) M) s /\ step e (text g) org s = None.
Proof.
  intros Ho Ho2 HE HM HS S4 SE HB C0 C24 V RV.
  destruct (raw_jump this g e org X F M sp cf v Ho Ho2 HM HS S4 ltac:(lia) HB C0 C24 V ltac:(lia)) as (X1 & M1 & R1 & _).
  rewrite HE in R1. eexists. split; [exact R1|]. apply raw_stuck. rewrite Z.mod_small; lia.
Qed.
