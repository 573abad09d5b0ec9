(** Raw closures in src/x86/sysv.S. *)
From Coq Require Import ZifyBool ZifyNat.
From Verif Require Import Base BaseFacts ByteMem X87Model I386AsmModel I386AsmFacts I386AsmCall I386AsmClo I386AsmRet.
Local Open Scope Z_scope.
Local Arguments Z.mul : simpl never.
Local Arguments Z.add : simpl never.
Local Arguments Z.sub : simpl never.
Local Arguments Z.pow : simpl never.
Local Arguments Z.of_nat : simpl never.

(** ffi_closure_raw_SYSV or ffi_closure_raw_THISCALL. *)
Definition raw_label (this : bool) : Z := if this then 50 else 40.
Definition raw_back (this : bool) : Z := if this then 54 else 44.
Definition raw_tab (this : bool) : tab := if this then TRawT else TRawS.

(** Entry to the handler: [sp] is the stack pointer in the body; the return address was at sp + 44.
    THISCALL puts ecx above it. *)
Lemma raw_entry this g e org X F k M clo sp :
  0 <= org -> org + 2048 <= 2 ^ 32 -> (k = true -> g_cet g = true) -> regs_ok X -> mem_ok M ->
  X EAX = clo -> clo + 28 <= 2 ^ 32 -> X ESP = sp + 44 -> 4 <= sp -> sp + 48 < 2 ^ 32 -> clo + 28 <= sp - 4 \/ sp + 48 <= clo + 16 ->
  exists X1 M1,
    reach e (text g) org (St X F k (at_label (src g) org (raw_label this)) M) (St X1 F (e_ibt e) (le_dec (rd M (clo + 20) 4)) M1) /\
    X1 ESP = sp - 4 /\ X1 EBX = le_dec (rd M (clo + 16) 4) /\ (forall i, 5 <= i -> X1 i = X i) /\
    rd M1 (sp - 4) 4 = le_enc 4 (at_label (src g) org (raw_back this)) /\
    rd M1 sp 4 = rd M (clo + 16) 4 /\ rd M1 (sp + 4) 4 = le_enc 4 (sp + 16) /\
    rd M1 (sp + 8) 4 = le_enc 4 (if this then sp + 44 else sp + 48) /\ rd M1 (sp + 12) 4 = rd M (clo + 24) 4 /\
    rd M1 (if this then sp + 36 else sp + 40) 4 = le_enc 4 (X EBX) /\
    (this = true -> rd M1 (sp + 40) 4 = rd M (sp + 44) 4 /\ rd M1 (sp + 44) 4 = le_enc 4 (X ECX)) /\
    (forall x, ~ (sp - 4 <= x < sp + (if this then 48 else 44)) -> M1 x = M x).
Proof.
  intros Ho Ho2. revert k X M. destruct this; unfold raw_label, raw_back; cfg_cases g; intros k X M Hk HX HM HC HC1 HS HS0 HS1 HD; cbn [g_cet] in Hk; rn.
  all: pose proof (HX 0) as RA; rewrite HC in RA.
  all: pose proof (word_range M (clo + 16) HM) as W16; pose proof (word_range M (clo + 20) HM) as W20; pose proof (word_range M (clo + 24) HM) as W24; pose proof (word_range M (sp + 44) HM) as W44.
  all: destruct k; [try (specialize (Hk eq_refl); discriminate Hk)|clear Hk].
  all: eexists; eexists; split; [repeat (step2 org ltac:(rewrite ?HS, ?HC; try replace (sp + 44 - 44) with sp by lia; try replace (sp + 44 + 4 + -4 + -4 - 40) with sp by lia; rds; rewrite ?Z.add_0_r; rdo)); apply reach_refl|].
  all: regs; split; [lia|]; split; [reflexivity|]; split; [others|].
  all: split; [rdo2; f_equal; lia|]; split; [rdo2; apply rd_back4, HM|]; split; [rdo2; f_equal; lia|]; split; [rdo2; f_equal; lia|]; split; [rdo2; apply rd_back4, HM|]; split; [rdo2; reflexivity|].
  all: split; [intros HH; first [discriminate HH|split; rdo2; [apply rd_back4, HM|reflexivity]]|].
  all: intros x N; rewrite !wr_out by (rewrite le_enc_zlen; lia); reflexivity.
Qed.

(** Return from the handler, up to the jump into the table; the jump is tracked if the
    processor tracks indirect branches. *)
Lemma raw_jump this g e org X F M sp cf v :
  0 <= org -> org + 2048 <= 2 ^ 32 -> mem_ok M -> X ESP = sp -> 4 <= sp -> sp + 48 < 2 ^ 32 ->
  X EBX = cf -> 0 <= cf -> cf + 24 <= 2 ^ 32 -> le_dec (rd M (cf + 20) 4) = v -> 0 <= v < 2 ^ 32 ->
  exists X1 M1,
    reach e (text g) org (St X F false (at_label (src g) org (raw_back this)) M)
      (St X1 F (e_ibt e) (at_label (src g) org (tab_label (raw_tab this)) + 8 * (v mod 16)) M1) /\
    X1 EAX = le_dec (rd M (sp + 16) 4) /\ X1 ESP = sp /\
    X1 EBX = le_dec (rd M (if this then sp + 36 else sp + 40) 4) /\ (forall i, 5 <= i -> X1 i = X i) /\
    (forall x, ~ (sp - 4 <= x < sp) -> M1 x = M x).
Proof.
  intros Ho Ho2. revert X M. destruct this; unfold raw_back, raw_tab, tab_label; cfg_cases g; intros X M HM HS HS4 HS2 HB C0 C1 HV RV; cbn [g_pic] in *; rn.
  all: pose proof (Z.mod_pos_bound v 16 eq_refl) as RM.
  all: eexists; eexists; split; [repeat (step2 org ltac:(rewrite ?HS, ?HV, ?HB, ?HV, ?Z.add_0_r; rds; rewrite ?HV, ?land15)); apply reach_done; [lia|reflexivity]|].
  all: regs.
  all: split; [rewrite ?Z.add_0_r; rdo; try (replace (sp + -4 + 4 + 16) with (sp + 16) by lia); reflexivity|]; split; [lia|].
  all: split; [rewrite ?Z.add_0_r; rdo; first [reflexivity|match goal with |- le_dec (rd _ ?a 4) = le_dec (rd _ ?b 4) => replace a with b by lia end; reflexivity]|]; split; [others|].
  all: intros x N1; rewrite ?wr_out by (rewrite le_enc_zlen; lia); reflexivity.
Qed.

(** The slots of the table do not begin with ENDBR32. *)
Lemma raw_stuck this g e org X F M c : 0 <= c < 14 -> step e (text g) org (St X F true (at_label (src g) org (tab_label (raw_tab this)) + 8 * c) M) = None.
Proof.
  intros Hc. unfold step. cbn [spc].
  assert (K : exists i, at_off (text g) (at_label (src g) org (tab_label (raw_tab this)) + 8 * c - org) = Some i /\ i <> Endbr).
  { revert X M. destruct this; unfold raw_tab, tab_label; cfg_cases g; intros X M.
    all: apply code_cases in Hc; repeat (destruct Hc as [-> | Hc]); [..|subst c].
    all: match goal with |- context [at_off _ (?o + ?p + ?q - ?o)] => replace (o + p + q - o) with (p + q) by lia end.
    all: eexists; split; [vm_compute; reflexivity|discriminate]. }
  destruct K as (i & -> & NE). destruct i; try reflexivity. contradiction NE. reflexivity.
Qed.

Lemma raw_leave this g e org X F M sp cf v c :
  0 <= org -> org + 2048 <= 2 ^ 32 -> e_ibt e = false -> mem_ok M -> X ESP = sp -> 4 <= sp -> sp + 60 < 2 ^ 32 ->
  X EBX = cf -> 0 <= cf -> cf + 24 <= 2 ^ 32 -> le_dec (rd M (cf + 20) 4) = v -> 0 <= v < 2 ^ 32 -> v mod 16 = c -> 0 <= c < 14 -> zlen F < 8 ->
  exists X1 M1,
    reach e (text g) org (St X F false (at_label (src g) org (raw_back this)) M)
      (St X1 (load_st c M (sp + 16) ++ F) false (le_dec (rd M (sp + tab_frame (raw_tab this)) 4)) M1) /\
    X1 EAX = load_eax c (le_dec (rd M (sp + 16) 4)) /\ (c = 7 -> X1 EDX = le_dec (rd M (sp + 20) 4)) /\
    X1 ESP = sp + 48 + (if c =? 10 then 4 else 0) /\
    X1 EBX = le_dec (rd M (if this then sp + 36 else sp + 40) 4) /\ (forall i, 5 <= i -> X1 i = X i) /\
    (forall x, ~ (sp - 4 <= x < sp) -> M1 x = M x).
Proof.
  intros Ho Ho2 HE HM HS HS4 HS1 HB C0 C1 HV RV Hc RC HF.
  destruct (raw_jump this g e org X F M sp cf v Ho Ho2 HM HS HS4 ltac:(lia) HB C0 C1 HV RV) as (X1 & M1 & R1 & A1 & S1 & B1 & K1 & E1). rewrite HE in R1.
  assert (RW : forall a n, sp <= a -> rd M1 a n = rd M a n).
  { intros a n G1. apply rd_ext. intros x Hx. apply E1. lia. }
  assert (OFF : tab_off (raw_tab this) = 16) by (destruct this; reflexivity).
  assert (FR : 40 <= tab_frame (raw_tab this) <= 44) by (destruct this; cbn; lia).
  destruct (slot_exit (raw_tab this) g e org c X1 F M1 sp (sp + tab_frame (raw_tab this)) Ho Ho2 RC S1 ltac:(lia) ltac:(lia) HF) as (X2 & R2 & A2 & D2 & S2 & K2).
  { destruct this; reflexivity. }
  { lia. }
  { lia. }
  { rewrite OFF, RW by lia. exact A1. }
  rewrite OFF in *. rewrite RW in A2 by lia. rewrite RW in D2 by lia.
  exists X2, M1. split; [|split; [|split; [|split; [|split; [|split]]]]].
  - eapply reach_trans; [exact R1|]. rewrite Hc. replace (load_st c M (sp + 16)) with (load_st c M1 (sp + 16)) by (unfold load_st; rewrite !RW by lia; reflexivity).
    rewrite (RW (sp + tab_frame (raw_tab this))) in R2 by lia. exact R2.
  - exact A2.
  - intros Q. rewrite (D2 Q). replace (sp + 16 + 4) with (sp + 20) by lia. reflexivity.
  - rewrite S2. destruct this; cbn [raw_tab tab_frame tab_pop]; destruct (c =? 10); lia.
  - rewrite K2, B1 by (rn; lia). reflexivity.
  - intros i Hi. rewrite K2, K1 by (rn; lia). reflexivity.
  - exact E1.
Qed.
