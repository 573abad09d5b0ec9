(** Return of the closure code. *)
From Coq Require Import ZifyBool ZifyNat.
From Verif Require Import Base BaseFacts ByteMem Types Unix64Model X64AsmModel X64AsmFacts X64AsmCall X64AsmRet X64AsmSpec.
Local Open Scope Z_scope.
Local Arguments Z.mul : simpl never.
Local Arguments Z.add : simpl never.
Local Arguments Z.sub : simpl never.
Local Arguments Z.pow : simpl never.
Local Arguments Z.of_nat : simpl never.
Local Arguments le_enc : simpl never.

Lemma exit_head k inner org X V F c z M f n :
  0 <= org -> org + 2048 <= 2 ^ 64 -> X RSP = f -> 0 <= f -> f + 224 <= 2 ^ 64 -> X RAX mod 256 = n -> n <= 15 ->
  exists X1 c1 z1,
    reach inner (text k) org (St X V F c z (at_label (src k) org 19) M)
      (St X1 V F c1 z1 (at_label (src k) org 15 + slot_size k * n) M) /\
    X1 RSP = f + 216 /\ X1 RSI = f + 176 /\ (forall i, i <> RSP -> i <> RSI -> i <> R10 -> i <> R11 -> X1 i = X i).
Proof.
  intros Ho Ho2 HP P0 P1 En Hc. rn.
  pose proof (Z.mod_pos_bound (X 0) 256 ltac:(lia)) as B. rewrite En in B.
  assert (C : (n <? 15) || (n =? 15) = true) by lia.
  assert (W : wrap32 (n + n) = 2 * n).
  { unfold wrap32, wrap. rewrite Z.mod_small by (change (2 ^ 32) with 4294967296; lia). lia. }
  assert (E1 : f + 216 + (176 - 216) = f + 176) by lia.
  revert C W. pattern k. apply flavours; [| |rewrite text_clang, ?label_clang; intros Hgnu; exact Hgnu]; intros C W; cbn [slot_size]; labels.
  all: do 3 eexists; (split; [repeat step2 org ltac:(change OFS_RVALUE with 176; change FS with 216; rewrite ?HP, ?C, ?W; change (2 ^ 8) with 256; rewrite ?En, ?C, ?W, ?E1)|]).
  1: match goal with |- reach _ _ _ (St _ _ _ _ _ ?p _) (St _ _ _ _ _ ?q _) => replace p with q by lia; apply reach_refl end.
  2: match goal with |- reach _ _ _ (St _ _ _ _ _ ?p _) (St _ _ _ _ _ ?q _) => replace p with q by lia; apply reach_refl end.
  all: regs; repeat (split; [first [reflexivity|lia]|]); intros i H1 H2 H3 H4; rewrite !upd_other by lia; reflexivity.
Qed.

Lemma slot_get M S off n : 0 <= off -> 0 <= n -> off + n <= 32 -> get_range (rd M S 32) off n = Some (rd M (S + off) (Z.to_nat n)).
Proof.
  intros H1 H2 H3. destruct (get_range_ok (rd M S 32) off n) as (d & E & _); [lia|lia|rewrite rd_zlen; lia|].
  pose proof (get_rd _ _ _ _ _ _ E) as R. rewrite E, R. reflexivity.
Qed.

Lemma dec_low M a n : (forall x, byte_ok (M x)) -> zext (8 * Z.of_nat n) (le_dec (rd M a n)) = le_dec (rd M a n).
Proof.
  intros H. unfold zext. apply Z.mod_small. rewrite <- (rd_zlen M a n). apply le_dec_bound.
  apply Forall_forall. intros x Hx. apply In_nth with (d := 0) in Hx. destruct Hx as (j & Hj & <-). rewrite rd_length in Hj. rewrite rd_nth by exact Hj. apply H.
Qed.

(** What is in the registers after the table. *)
Definition exits (k : flavour) (inner org : Z) (X : Z -> Z) (V : Z -> list Z) (F : list (list Z)) (c z : bool) (p : Z) (M : Z -> Z)
  (sp ra : Z) (r : rstate) (push : Z) : Prop :=
  exists X1 V1 F1,
    reach inner (text k) org (St X V F c z p M) (St X1 V1 (F1 ++ F) c z ra M) /\ zlen F1 = push /\ Forall (fun r => zlen r = 10) F1 /\
    result_regs X1 V1 (F1 ++ F) = r /\ X1 RSP = sp + 8 /\ (forall i, callee_saved i -> X1 i = X i).

Ltac exit_cases k := pattern k; apply flavours; [| |unfold exits; rewrite text_clang, ?label_clang; intros Hgnu; exact Hgnu]; labels; cbn [slot_size].

Lemma exit_slot k inner org X V F c z M S ra r n :
  0 <= org -> org + 2048 <= 2 ^ 64 -> X RSP = S + 40 -> X RSI = S -> 0 <= S -> S + 48 < 2 ^ 64 ->
  le_dec (rd M (S + 40) 8) = ra -> (forall x, byte_ok (M x)) -> x87_used n + zlen F <= 8 -> 0 <= n <= 15 ->
  load_ret n (rd M S 32) (result_regs X V F) = Ok r ->
  exits k inner org X V F c z (at_label (src k) org 15 + slot_size k * n) M (S + 40) ra r (x87_used n).
Proof.
  intros Ho Ho2 Hsp Hsi S0 S1 Hra HM Hx Hn E. rn.
  assert (C : n = 0 \/ n = 1 \/ n = 2 \/ n = 3 \/ n = 4 \/ n = 5 \/ n = 6 \/ n = 7 \/ n = 8 \/ n = 9 \/ n = 10 \/ n = 11 \/ n = 12 \/ n = 13 \/ n = 14 \/ n = 15) by lia.
  clear Hn. unfold load_ret in E.
  repeat rewrite (slot_get M S) in E by lia. rewrite !Z.add_0_r in E.
  change (Z.to_nat 1) with 1%nat in E. change (Z.to_nat 2) with 2%nat in E. change (Z.to_nat 4) with 4%nat in E. change (Z.to_nat 8) with 8%nat in E. change (Z.to_nat 10) with 10%nat in E.
  cbn [of_option bind] in E.
  pose proof (dec_low M S 1 HM : zext 8 _ = _) as D1. pose proof (dec_low M S 2 HM : zext 16 _ = _) as D2. pose proof (dec_low M S 4 HM : zext 32 _ = _) as D4.
  rewrite D1, D2, D4 in E. clear D1 D2 D4 HM.
  assert (Inj : forall (A : Type) (a b : A), Ok a = Ok b -> a = b) by congruence.
  repeat (destruct C as [C|C]); rewrite C in E, Hx |- *;
    match type of E with context [?a mod 256] => change (a mod 256) with a in E end;
    cbn [Z.eqb Pos.eqb RET_VOID RET_UINT8 RET_UINT16 RET_UINT32 RET_SINT8 RET_SINT16 RET_SINT32 RET_INT64 RET_XMM32 RET_XMM64 RET_X87 RET_X87_2 RET_ST_XMM0_RAX RET_ST_RAX_XMM0 RET_ST_XMM0_XMM1 RET_ST_RAX_RDX] in E;
    apply Inj in E; clear C n Inj; subst r;
    match goal with |- exits _ _ _ _ _ _ _ _ _ _ _ _ _ (x87_used ?c) => let v := eval vm_compute in (x87_used c) in change (x87_used c) with v in * end.
  all: lazymatch goal with
    | |- exits _ _ _ _ _ _ _ _ _ _ _ _ _ 0 => exit_cases k; unfold exits; do 2 eexists; exists []
    | |- exits _ _ _ _ _ _ _ _ _ _ _ _ _ 1 => exit_cases k; unfold exits; do 2 eexists; exists [rd M S 10]
    | |- exits _ _ _ _ _ _ _ _ _ _ _ _ _ 2 => exit_cases k; unfold exits; do 2 eexists; exists [rd M S 10; rd M (S + 16) 10]
    end; cbn [app].
  all: (split; [pcn org; repeat step2 org ltac:(rewrite ?Hsp, ?Hsi, ?Hra, ?Z.add_0_r;
       repeat match goal with |- context [zlen ?l <? 8] => replace (zlen l <? 8) with true by (unfold zlen in *; cbn [length]; lia) end); apply reach_refl|]).
  all: split; [reflexivity|]; split; [repeat constructor|].
  all: unfold result_regs, callee_saved; rn; regs.
  all: split; [reflexivity|]; split; [lia|intros i Hi; rewrite !upd_other by lia; reflexivity].
Qed.

(** From the return of the inner function to the caller of the closure. *)
Lemma clo_exit k inner org X V F c z M f ra r n :
  0 <= org -> org + 2048 <= 2 ^ 64 -> X RSP = f -> 0 <= f -> f + 224 < 2 ^ 64 ->
  le_dec (rd M (f + 216) 8) = ra -> (forall x, byte_ok (M x)) -> X RAX mod 256 = n -> n <= 15 -> x87_used n + zlen F <= 8 ->
  load_ret n (rd M (f + 176) 32) (result_regs X V F) = Ok r ->
  exists X1 V1 F1 c1 z1,
    reach inner (text k) org (St X V F c z (at_label (src k) org 19) M) (St X1 V1 (F1 ++ F) c1 z1 ra M) /\
    zlen F1 = x87_used n /\ Forall (fun r => zlen r = 10) F1 /\
    result_regs X1 V1 (F1 ++ F) = r /\ X1 RSP = f + 224 /\ (forall i, callee_saved i -> X1 i = X i).
Proof.
  intros Ho Ho2 Hsp F0 F1 Hra HM En Hn Hx E.
  pose proof (Z.mod_pos_bound (X RAX) 256 ltac:(lia)) as B. rewrite En in B.
  destruct (exit_head k inner org X V F c z M f n) as (X1 & c1 & z1 & R1 & A1 & A2 & A3); auto; try lia.
  destruct (exit_slot k inner org X1 V F c1 z1 M (f + 176) ra r n) as (X2 & V2 & F2 & R2 & B1 & B2 & B3 & B4 & B5); auto; try lia.
  { replace (f + 176 + 40) with (f + 216) by lia. exact Hra. }
  { unfold result_regs in *. rewrite !A3 by (rn; lia). exact E. }
  exists X2, V2, F2, c1, z1. split; [eapply reach_trans; [exact R1|exact R2]|]. split; [exact B1|]. split; [exact B2|]. split; [exact B3|].
  split; [lia|]. intros i Hi. rewrite B5 by exact Hi. unfold callee_saved in Hi. apply A3; rn; lia.
Qed.
