(** Closures of src/x86/win64.S, run. *)
From Coq Require Import ZifyBool ZifyNat.
From Verif Require Import Base BaseFacts ByteMem W64AsmModel W64AsmFacts W64AsmSpec.
Local Open Scope Z_scope.
Local Arguments Z.mul : simpl never.
Local Arguments Z.add : simpl never.
Local Arguments Z.sub : simpl never.
Local Arguments Z.pow : simpl never.
Local Arguments Z.of_nat : simpl never.
Local Arguments le_enc : simpl never.

(** Where cif, function and data of a closure are. *)

Lemma run_closure go g ib inner org X V c z k M sp cl :
  0 <= org -> org + 2048 <= 2 ^ 64 -> (k = true -> g_cet g = true) ->
  X RSP = sp -> 96 <= sp -> sp + 40 < 2 ^ 64 -> X R10 = cl -> 0 <= cl -> cl + clo_size go <= 2 ^ 64 ->
  cl + clo_size go <= sp + 8 \/ sp + 40 <= cl -> (forall i, length (V i) = 16%nat) ->
  exists X1 c1 z1 M1,
    reach ib inner (text g) org (St X V c z k (at_label (src g) org (clo_label go)) M) (St X1 V c1 z1 false inner M1) /\
    X1 RCX = clo_cif go M cl /\ X1 RDX = clo_fun go M cl /\ X1 R8 = clo_data go M cl /\ X1 R9 = sp - 48 /\ X1 RSP = sp - 96 /\
    (forall i, i = 0 \/ i = 3 \/ i = 5 \/ i = 6 \/ i = 7 \/ 10 <= i -> X1 i = X i) /\
    rd M1 (sp - 96) 8 = le_enc 8 (at_label (src g) org 14) /\
    rd M1 (sp - 32) 32 = firstn 8 (V 0) ++ firstn 8 (V 1) ++ firstn 8 (V 2) ++ firstn 8 (V 3) /\
    rd M1 (sp + 8) 32 = le_enc 8 (X RCX) ++ le_enc 8 (X RDX) ++ le_enc 8 (X R8) ++ le_enc 8 (X R9) /\
    (forall x, ~ (sp - 96 <= x < sp - 88) -> ~ (sp - 32 <= x < sp) -> ~ (sp + 8 <= x < sp + 40) -> M1 x = M x).
Proof.
  intros Ho Ho2 Hk HS S0 S1 H10 C0 C1 Dj V16. rn.
  set (m1 := wr (wr (wr (wr M (sp + 8) (le_enc 8 (X 1))) (sp + 16) (le_enc 8 (X 2))) (sp + 24) (le_enc 8 (X 8))) (sp + 32) (le_enc 8 (X 9))).
  assert (Lf : forall i, zlen (firstn 8 (V i)) = 8) by (intros i; apply zlen_firstn; rewrite V16; lia).
  assert (Lo : forall x, ~ (sp + 8 <= x < sp + 40) -> m1 x = M x).
  { intros x Hx. unfold m1. rewrite !wr_out by (rewrite ?zlen_enc; lia). reflexivity. }
  assert (Sv : rd m1 (sp + 8) 32 = le_enc 8 (X 1) ++ le_enc 8 (X 2) ++ le_enc 8 (X 8) ++ le_enc 8 (X 9)).
  { unfold m1. rewrite (rd_app _ 8 24), (rd_app _ 8 16), (rd_app _ 8 8). change (Z.of_nat 8) with 8.
    replace (sp + 8 + 8) with (sp + 16) by lia. replace (sp + 16 + 8) with (sp + 24) by lia. replace (sp + 24 + 8) with (sp + 32) by lia.
    f_equal; [|f_equal; [|f_equal]]; repeat first [rewrite rd_wr_same by (rewrite le_enc_length; reflexivity) | rewrite rd_wr_other by (rewrite ?zlen_enc; lia)]; reflexivity. }
  assert (Rd : forall a n, a + Z.of_nat n <= sp + 8 \/ sp + 40 <= a -> rd m1 a n = rd M a n) by (intros a n Ha; apply rd_ext; intros x Hx; apply Lo; lia).
  set (m2 := wr (wr (wr (wr m1 (sp - 88 + 56) (firstn 8 (V 0))) (sp - 88 + 64) (firstn 8 (V 1))) (sp - 88 + 72) (firstn 8 (V 2))) (sp - 88 + 80) (firstn 8 (V 3))).
  assert (Lo2 : forall x, ~ (sp - 32 <= x < sp) -> m2 x = m1 x).
  { intros x Hx. unfold m2. rewrite !wr_out by (rewrite ?Lf; lia). reflexivity. }
  assert (Sv2 : rd m2 (sp - 32) 32 = firstn 8 (V 0) ++ firstn 8 (V 1) ++ firstn 8 (V 2) ++ firstn 8 (V 3)).
  { unfold m2. rewrite (rd_app _ 8 24), (rd_app _ 8 16), (rd_app _ 8 8). change (Z.of_nat 8) with 8.
    replace (sp - 32 + 8 + 8 + 8) with (sp - 88 + 80) by lia. replace (sp - 32 + 8 + 8) with (sp - 88 + 72) by lia.
    replace (sp - 32 + 8) with (sp - 88 + 64) by lia. replace (sp - 32) with (sp - 88 + 56) by lia.
    assert (L8 : forall i, length (firstn 8 (V i)) = 8%nat) by (intros i; rewrite firstn_length, V16; reflexivity).
    f_equal; [|f_equal; [|f_equal]]; repeat first [rewrite rd_wr_same by (rewrite L8; reflexivity) | rewrite rd_wr_other by (rewrite ?Lf; lia)]; reflexivity. }
  assert (Em : wr (wr (wr (wr M (sp + 8) (le_enc 8 (X 1))) (sp + 16) (le_enc 8 (X 2))) (sp + 24) (le_enc 8 (X 8))) (sp + 32) (le_enc 8 (X 9)) = m1) by reflexivity.
  assert (Em2 : wr (wr (wr (wr m1 (sp - 88 + 56) (firstn 8 (V 0))) (sp - 88 + 64) (firstn 8 (V 1))) (sp - 88 + 72) (firstn 8 (V 2))) (sp - 88 + 80) (firstn 8 (V 3)) = m2) by reflexivity.
  clearbody m1 m2.
  set (X1 := upd (upd (upd (upd (upd (upd X 1 (clo_cif go M cl)) 2 (clo_fun go M cl)) 8 (clo_data go M cl)) 4 (sp - 88)) 9 (sp - 88 + 40)) 4 (sp - 96)).
  exists X1, (sp <? 88), (sp - 88 =? 0), (wr m2 (sp - 96) (le_enc 8 (at_label (src g) org 14))).
  split.
  { unfold X1, clo_label, clo_cif, clo_fun, clo_data, clo_size in *. clear X1 Lo Lo2 Sv Sv2 Lf.
    assert (E8 : sp - 88 + -8 = sp - 96) by lia.
    assert (K : k = false \/ (k = true /\ g_cet g = true)) by (destruct k; auto).
    destruct go.
    - assert (R0 := Rd (cl + 8) 8%nat). assert (R1 := Rd (cl + 16) 8%nat). change (Z.of_nat 8) with 8 in *.
      specialize (R0 ltac:(lia)). specialize (R1 ltac:(lia)).
      destruct K as [->|[-> Gc]]; cfg_cases g; try discriminate Gc.
      all: repeat step2 org ltac:(rewrite ?HS, ?H10, ?E8, ?Em, ?Em2, ?R0, ?R1).
      all: replace (org + 373 + 5) with (org + 378) by lia; replace (org + 361 + 5) with (org + 366) by lia; apply reach_refl.
    - assert (R0 := Rd (cl + 32) 8%nat). assert (R1 := Rd (cl + 40) 8%nat). assert (R2 := Rd (cl + 48) 8%nat). change (Z.of_nat 8) with 8 in *.
      specialize (R0 ltac:(lia)). specialize (R1 ltac:(lia)). specialize (R2 ltac:(lia)).
      destruct K as [->|[-> Gc]]; cfg_cases g; try discriminate Gc.
      all: repeat step2 org ltac:(rewrite ?HS, ?H10, ?E8, ?Em, ?Em2, ?R0, ?R1, ?R2).
      all: replace (org + 373 + 5) with (org + 378) by lia; replace (org + 361 + 5) with (org + 366) by lia; apply reach_refl. }
  unfold X1. rn. regs. repeat (split; [first [reflexivity|lia|intros i Hi; rewrite !upd_other by lia; reflexivity]|]).
  split; [apply rd_wr_same; rewrite le_enc_length; reflexivity|].
  split; [rewrite rd_wr_other by (rewrite zlen_enc; lia); exact Sv2|].
  split; [rewrite rd_wr_other by (rewrite zlen_enc; lia); rewrite <- Sv; apply rd_ext; intros x Hx; apply Lo2; lia|].
  intros x N1 N2 N3. rewrite wr_out by (rewrite zlen_enc; lia). rewrite Lo2 by exact N2. apply Lo, N3.
Qed.

(** Back to the caller of a closure. *)
Lemma run_return g ib inner org X V c z M sp ra :
  0 <= org -> org + 2048 <= 2 ^ 64 -> X RSP = sp - 88 -> 88 <= sp -> sp + 8 < 2 ^ 64 -> le_dec (rd M sp 8) = ra ->
  exists X1 V1 c1 z1,
    reach ib inner (text g) org (St X V c z false (at_label (src g) org 14) M) (St X1 V1 c1 z1 false ra M) /\
    X1 RAX = le_dec (rd M (sp - 48) 8) /\ V1 0 = rd M (sp - 48) 8 ++ repeat 0 8 /\ X1 RSP = sp + 8 /\
    (forall i, 1 <= i -> i <> RSP -> X1 i = X i) /\ (forall i, 1 <= i -> V1 i = V i).
Proof.
  intros Ho Ho2 HS S0 S1 Ra. rn.
  assert (E1 : sp - 88 + 40 = sp - 48) by lia. assert (E2 : sp - 88 + 88 = sp) by lia.
  cfg_cases g; eexists _, _, _, _; (split; [repeat step2 org ltac:(rewrite ?HS, ?E1, ?E2, ?Ra); apply reach_refl|]).
  all: regs; repeat (split; [first [reflexivity|intros i I1 I2; rewrite !upd_other by lia; reflexivity]|]); intros i I1; rewrite !upd_other by lia; reflexivity.
Qed.

(** The entry behind static trampolines. *)
Lemma run_alt g ib inner org X V c z k M sp :
  0 <= org -> org + 2048 <= 2 ^ 64 -> (k = true -> g_cet g = true) -> X RSP = sp - 16 -> 16 <= sp -> sp < 2 ^ 64 ->
  exists X1 c1 z1,
    reach ib inner (text g) org (St X V c z k (at_label (src g) org 13) M) (St X1 V c1 z1 false (at_label (src g) org 11) M) /\
    X1 R10 = le_dec (rd M (sp - 8) 8) /\ X1 RSP = sp /\ (forall i, i <> R10 -> i <> RSP -> X1 i = X i).
Proof.
  intros Ho Ho2 Hk HS S0 S1. rn. assert (E1 : sp - 16 + 8 = sp - 8) by lia. assert (E2 : sp - 16 + 16 = sp) by lia.
  assert (K : k = false \/ (k = true /\ g_cet g = true)) by (destruct k; auto).
  destruct K as [->|[-> Gc]]; cfg_cases g; try discriminate Gc.
  all: eexists _, _, _; split; [repeat first [apply reach_refl|step2 org ltac:(rewrite ?HS, ?E1, ?E2)]|].
  all: regs; repeat (split; [reflexivity|]); intros i I1 I2; rewrite !upd_other by lia; reflexivity.
Qed.
