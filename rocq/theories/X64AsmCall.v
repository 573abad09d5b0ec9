(** ffi_call_unix64 up to the call. *)
From Coq Require Import ZifyBool ZifyNat.
From Verif Require Import Base BaseFacts ByteMem X64AsmModel X64AsmFacts.
Local Open Scope Z_scope.
Local Arguments Z.mul : simpl never.
Local Arguments Z.add : simpl never.
Local Arguments Z.sub : simpl never.
Local Arguments Z.pow : simpl never.
Local Arguments Z.of_nat : simpl never.

(** The four words ffi_call_unix64 keeps above the arguments. *)
Definition saved (X : Z -> Z) (ra : Z) : list Z := le_enc 8 (X RDX) ++ le_enc 8 (X RCX) ++ le_enc 8 (X RBP) ++ le_enc 8 ra.

Lemma saved_len X ra : zlen (saved X ra) = 32.
Proof. unfold saved. rewrite !zlen_app, !zlen_enc. reflexivity. Qed.

Ltac rdo := rewrite ?rd_wr_other by (rewrite ?zlen_enc; change (Z.of_nat 8) with 8; change (Z.of_nat 4) with 4; change (Z.of_nat 16) with 16; lia).

Lemma dec4_range M a : (forall x, byte_ok (M x)) -> 0 <= le_dec (rd M a 4) < 2 ^ 32.
Proof.
  intros H. assert (B : bytes_ok (rd M a 4)) by (cbn [rd]; repeat constructor; apply H).
  pose proof (le_dec_bound _ B) as R. rewrite rd_zlen in R. exact R.
Qed.

(** Vector registers are loaded. *)
Lemma load_vectors k inner org X V F c z M A :
  0 <= org -> org + 2048 <= 2 ^ 64 -> X R10 = A -> 0 <= A -> A + 176 <= 2 ^ 64 -> A mod 16 = 0 ->
  exists V1, reach inner (text k) org (St X V F c z (at_label (src k) org 7) M) (St X V1 F c z (at_label (src k) org 2) M) /\
    (forall i, 0 <= i < 8 -> V1 i = rd M (A + 48 + 16 * i) 16) /\ (forall i, 8 <= i -> V1 i = V i).
Proof.
  intros Ho Ho2 HA A0 A1 A16. rn.
  pose proof (al16_plus A 48 A16 eq_refl) as Al3. pose proof (al16_plus A 64 A16 eq_refl) as Al4.
  pose proof (al16_plus A 80 A16 eq_refl) as Al5. pose proof (al16_plus A 96 A16 eq_refl) as Al6.
  pose proof (al16_plus A 112 A16 eq_refl) as Al7. pose proof (al16_plus A 128 A16 eq_refl) as Al8.
  pose proof (al16_plus A 144 A16 eq_refl) as Al9. pose proof (al16_plus A 160 A16 eq_refl) as Al10. clear A16.
  flavour_cases k; eexists; (split; [do 9 step2 org ltac:(rewrite ?HA; aligned); apply reach_refl|]).
  all: split; [|intros i Hi; rewrite !upd_other by lia; reflexivity].
  all: intros i Hi; assert (C : i = 0 \/ i = 1 \/ i = 2 \/ i = 3 \/ i = 4 \/ i = 5 \/ i = 6 \/ i = 7) by lia.
  all: destruct C as [->|[->|[->|[->|[->|[->|[->| ->]]]]]]]; regs; f_equal; lia.
Qed.

(** The first half, up to the test of the number of vector registers. *)
Lemma enter_head k inner org X V F c z M A B ra :
  0 <= org -> org + 2048 <= 2 ^ 64 -> X RDI = A -> X RSI = B -> 0 <= A -> 192 <= B -> A + B + 32 <= 2 ^ 64 ->
  0 <= X RSP -> X RSP + 8 <= 2 ^ 64 -> le_dec (rd M (X RSP) 8) = ra -> 
  exists X1 M1,
    (forall r, r = le_dec (rd M (A + 176) 4) -> 0 <= r < 2 ^ 32 ->
      reach inner (text k) org (St X V F c z org M) (St X1 V F false (r =? 0) (at_label (src k) org (if r =? 0 then 2 else 7)) M1)) /\
    X1 RDI = le_dec (rd M A 8) /\ X1 RSI = le_dec (rd M (A + 8) 8) /\ X1 RDX = le_dec (rd M (A + 16) 8) /\
    X1 RCX = le_dec (rd M (A + 24) 8) /\ X1 R8 = le_dec (rd M (A + 32) 8) /\ X1 R9 = le_dec (rd M (A + 40) 8) /\
    X1 RAX = le_dec (rd M (A + 176) 4) /\ X1 R10 = A /\ X1 R11 = X R8 /\ X1 RBP = A + B /\
    (forall i, i = 3 \/ 12 <= i -> X1 i = X i) /\
    rd M1 (A + B) 32 = saved X ra /\ (forall x, ~ (A + B <= x < A + B + 32) -> M1 x = M x).
Proof.
  intros Ho Ho2 HA HB A0 B0 AB S0 S8 Ra. unfold RDI, RSI, RSP in HA, HB, S0, S8, Ra.
  set (m1 := wr (wr (wr (wr M (A + B) (le_enc 8 (X 2))) (A + B + 8) (le_enc 8 (X 1))) (A + B + 16) (le_enc 8 (X 5))) (A + B + 24) (le_enc 8 ra)).
  assert (Lo : forall x, ~ (A + B <= x < A + B + 32) -> m1 x = M x).
  { intros x Hx. unfold m1. rewrite !wr_out by (rewrite ?zlen_enc; lia). reflexivity. }
  assert (Rd : forall a n, a + Z.of_nat n <= A + B -> rd m1 a n = rd M a n) by (intros a n Ha; apply rd_ext; intros x Hx; apply Lo; lia).
  assert (Fr : rd m1 (A + B) 32 = saved X ra).
  { unfold m1, saved. rewrite (rd_app _ 8 24), (rd_app _ 8 16), (rd_app _ 8 8). change (Z.of_nat 8) with 8.
    replace (A + B + 8 + 8) with (A + B + 16) by lia. replace (A + B + 16 + 8) with (A + B + 24) by lia.
    f_equal; [|f_equal; [|f_equal]]; repeat first [rewrite rd_wr_same by (rewrite le_enc_length; reflexivity) | progress rdo]; reflexivity. }
  set (X1 := upd (upd (upd (upd (upd (upd (upd (upd (upd (upd (upd (upd X 10 ra) 0 (A + B)) 5 (A + B)) 10 A) 11 (X 8)) 7 (le_dec (rd M A 8))) 6 (le_dec (rd M (A + 8) 8)))
    2 (le_dec (rd M (A + 16) 8))) 1 (le_dec (rd M (A + 24) 8))) 8 (le_dec (rd M (A + 32) 8))) 9 (le_dec (rd M (A + 40) 8))) 0 (le_dec (rd M (A + 176) 4))).
  exists X1, m1. split.
  - intros r Hr Rr. assert (T : (r mod 2 ^ 32 =? 0) = (r =? 0)) by (rewrite Z.mod_small by lia; reflexivity).
    replace (St X V F c z org M) with (St X V F c z (org + 0) M) by (f_equal; lia). clear Fr Lo.
    assert (Rd1 := Rd A 8%nat). assert (Rd2 := Rd (A + 8) 8%nat). assert (Rd3 := Rd (A + 16) 8%nat). assert (Rd4 := Rd (A + 24) 8%nat).
    assert (Rd5 := Rd (A + 32) 8%nat). assert (Rd6 := Rd (A + 40) 8%nat). assert (Rd7 := Rd (A + 176) 4%nat).
    change (Z.of_nat 8) with 8 in *. change (Z.of_nat 4) with 4 in *.
    specialize (Rd1 ltac:(lia)). specialize (Rd2 ltac:(lia)). specialize (Rd3 ltac:(lia)). specialize (Rd4 ltac:(lia)).
    specialize (Rd5 ltac:(lia)). specialize (Rd6 ltac:(lia)). specialize (Rd7 ltac:(lia)). clear Rd.
    assert (Em : wr (wr (wr (wr M (A + B) (le_enc 8 (X 2))) (A + B + 8) (le_enc 8 (X 1))) (A + B + 16) (le_enc 8 (X 5))) (A + B + 24) (le_enc 8 ra) = m1) by reflexivity.
    unfold X1. clear X1. clearbody m1.
    subst r.
    destruct (le_dec (rd M (A + 176) 4) =? 0) eqn:Er; flavour_cases k.
    all: repeat first [apply reach_refl|step2 org ltac:(rewrite ?HA, ?HB, ?Z.mul_1_r, ?Z.add_0_r, ?Ra, ?Rd1, ?Rd2, ?Rd3, ?Rd4, ?Rd5, ?Rd6, ?Rd7, ?T); rewrite ?Em].
  - unfold X1. rn. regs. repeat (split; [first [reflexivity|assumption|intros i Hi; rewrite !upd_other by lia; reflexivity]|]). exact Lo.
Qed.

(** The second half. *)
Lemma enter_tail k inner org X V F c z M A :
  0 <= org -> org + 2048 <= 2 ^ 64 -> X R10 = A -> 0 <= A -> A + 192 < 2 ^ 64 ->
  exists X1,
    reach inner (text k) org (St X V F c z (at_label (src k) org 2) M)
      (St X1 V F c z (X R11) (wr M (A + 184) (le_enc 8 (at_label (src k) org 8)))) /\
    X1 RSP = A + 184 /\ X1 R10 = le_dec (rd M (A + 184) 8) /\ (forall i, i <> RSP -> i <> R10 -> X1 i = X i).
Proof.
  intros Ho Ho2 HA A0 A1. rn.
  assert (E : A + 192 - 8 = A + 184) by lia.
  exists (upd (upd (upd (upd X 4 (A + 184)) 4 (A + 184 + 8)) 10 (le_dec (rd M (A + 184) 8))) 4 (A + 184)).
  split; [|regs; repeat split; intros i H1 H2; rewrite !upd_other by lia; reflexivity].
  assert (E2 : A + 184 + 8 + -8 = A + 184) by lia.
  flavour_cases k.
  - assert (E1 : org + 83 + 3 = org + 86) by lia. do 3 step2 org ltac:(rewrite ?HA, ?E2, ?E1). rewrite ?E2, ?E1. apply reach_refl.
  - assert (E1 : org + 79 + 3 = org + 82) by lia. do 3 step2 org ltac:(rewrite ?HA, ?E2, ?E1). rewrite ?E2, ?E1. apply reach_refl.
Qed.

Lemma call_enter k inner org X V F c z M A B ra :
  0 <= org -> org + 2048 <= 2 ^ 64 -> X RDI = A -> X RSI = B -> 0 <= A -> A mod 16 = 0 -> 192 <= B -> A + B + 32 <= 2 ^ 64 ->
  0 <= X RSP -> X RSP + 8 <= 2 ^ 64 -> le_dec (rd M (X RSP) 8) = ra -> (forall x, byte_ok (M x)) ->
  exists X1 V1 c1 z1 M1,
    reach inner (text k) org (St X V F c z org M) (St X1 V1 F c1 z1 (X R8) M1) /\
    X1 RDI = le_dec (rd M A 8) /\ X1 RSI = le_dec (rd M (A + 8) 8) /\ X1 RDX = le_dec (rd M (A + 16) 8) /\
    X1 RCX = le_dec (rd M (A + 24) 8) /\ X1 R8 = le_dec (rd M (A + 32) 8) /\ X1 R9 = le_dec (rd M (A + 40) 8) /\
    X1 RAX = le_dec (rd M (A + 176) 4) /\ X1 R10 = le_dec (rd M (A + 184) 8) /\
    X1 RSP = A + 184 /\ X1 RBP = A + B /\ (forall i, i = 3 \/ 12 <= i -> X1 i = X i) /\
    (X1 RAX = 0 -> forall i, V1 i = V i) /\
    (X1 RAX <> 0 -> forall i, 0 <= i < 8 -> V1 i = rd M (A + 48 + 16 * i) 16) /\ (forall i, 8 <= i -> V1 i = V i) /\
    rd M1 (A + B) 32 = saved X ra /\ rd M1 (A + 184) 8 = le_enc 8 (at_label (src k) org 8) /\
    (forall x, ~ (A + B <= x < A + B + 32) -> ~ (A + 184 <= x < A + 192) -> M1 x = M x).
Proof.
  intros Ho Ho2 HA HB A0 A16 B0 AB S0 S8 Ra Hb.
  destruct (enter_head k inner org X V F c z M A B ra) as (X1 & M1 & R1 & D1 & D2 & D3 & D4 & D5 & D6 & Da & D10 & D11 & Db & Dk & Fr & Lo); try assumption.
  pose proof (dec4_range M (A + 176) Hb) as Rg. specialize (R1 _ eq_refl Rg).
  assert (Rd : forall a n, a + Z.of_nat n <= A + B -> rd M1 a n = rd M a n) by (intros a n Ha; apply rd_ext; intros x Hx; apply Lo; lia).
  assert (V1 : exists V1, reach inner (text k) org (St X V F c z org M) (St X1 V1 F false (le_dec (rd M (A + 176) 4) =? 0) (at_label (src k) org 2) M1) /\
     (le_dec (rd M (A + 176) 4) = 0 -> forall i, V1 i = V i) /\
     (le_dec (rd M (A + 176) 4) <> 0 -> forall i, 0 <= i < 8 -> V1 i = rd M (A + 48 + 16 * i) 16) /\ (forall i, 8 <= i -> V1 i = V i)).
  { destruct (le_dec (rd M (A + 176) 4) =? 0) eqn:Er.
    - exists V. split; [exact R1|]. repeat split; lia.
    - destruct (load_vectors k inner org X1 V F false false M1 A) as (V1 & R2 & L1 & L2); try assumption; [lia|].
      exists V1. split; [eapply reach_trans; [exact R1|exact R2]|]. split; [lia|]. split; [|exact L2].
      intros _ i Hi. rewrite L1 by lia. apply Rd. lia. }
  destruct V1 as (V1 & R2 & G1 & G2 & G3).
  destruct (enter_tail k inner org X1 V1 F false (le_dec (rd M (A + 176) 4) =? 0) M1 A) as (X2 & R3 & T1 & T2 & T3); try assumption; [lia|].
  exists X2, V1, false, (le_dec (rd M (A + 176) 4) =? 0), (wr M1 (A + 184) (le_enc 8 (at_label (src k) org 8))).
  split; [rewrite <- D11; eapply reach_trans; [exact R2|exact R3]|].
  rewrite !T3 by (rn; lia). rewrite T2, Rd by lia.
  repeat (split; [first [assumption|reflexivity]|]).
  split; [rewrite T3 by (rn; lia); exact Db|]. split; [intros i Hi; rewrite T3 by (rn; lia); apply Dk, Hi|]. rewrite Da.
  split; [exact G1|]. split; [exact G2|]. split; [exact G3|].
  split; [rewrite rd_wr_other by (rewrite zlen_enc; lia); exact Fr|].
  split; [apply rd_wr_same; rewrite le_enc_length; reflexivity|].
  intros x H1 H2. rewrite wr_out by (rewrite zlen_enc; lia). apply Lo, H1.
Qed.
