(** Entry of the closure code. *)
From Coq Require Import ZifyBool ZifyNat.
From Verif Require Import Base BaseFacts ByteMem Types X64AsmModel X64AsmFacts X64AsmCall X64AsmSpec.
Local Open Scope Z_scope.
Local Arguments Z.mul : simpl never.
Local Arguments Z.add : simpl never.
Local Arguments Z.sub : simpl never.
Local Arguments Z.pow : simpl never.
Local Arguments Z.of_nat : simpl never.
Local Arguments le_enc : simpl never.

(** Memory with the vector registers saved, and with the general registers saved. *)
Definition with_v (M : Z -> Z) (f : Z) (V : Z -> list Z) : Z -> Z :=
  wr (wr (wr (wr (wr (wr (wr (wr M (f + 48) (V 0)) (f + 64) (V 1)) (f + 80) (V 2)) (f + 96) (V 3)) (f + 112) (V 4)) (f + 128) (V 5)) (f + 144) (V 6)) (f + 160) (V 7).
Definition with_x (M : Z -> Z) (f : Z) (X : Z -> Z) : Z -> Z :=
  wr (wr (wr (wr (wr (wr M f (le_enc 8 (X 7))) (f + 8) (le_enc 8 (X 6))) (f + 16) (le_enc 8 (X 2))) (f + 24) (le_enc 8 (X 1))) (f + 32) (le_enc 8 (X 8))) (f + 40) (le_enc 8 (X 9)).

Ltac same := rewrite rd_wr_same by (rewrite ?le_enc_length; unfold zlen in *; lia).
Ltac other := rewrite rd_wr_other by (rewrite ?zlen_enc; change (Z.of_nat 8) with 8; change (Z.of_nat 16) with 16; lia).

Lemma with_v_rd M f V : (forall i, zlen (V i) = 16) -> rd (with_v M f V) (f + 48) 128 = concat (xmm_args V).
Proof.
  intros H. unfold xmm_args. cbn [map concat]. rewrite app_nil_r.
  pose proof (H 0). pose proof (H 1). pose proof (H 2). pose proof (H 3). pose proof (H 4). pose proof (H 5). pose proof (H 6). pose proof (H 7).
  rewrite (rd_app _ 16 112), (rd_app _ 16 96), (rd_app _ 16 80), (rd_app _ 16 64), (rd_app _ 16 48), (rd_app _ 16 32), (rd_app _ 16 16).
  change (Z.of_nat 16) with 16.
  replace (f + 48 + 16) with (f + 64) by lia. replace (f + 64 + 16) with (f + 80) by lia. replace (f + 80 + 16) with (f + 96) by lia.
  replace (f + 96 + 16) with (f + 112) by lia. replace (f + 112 + 16) with (f + 128) by lia. replace (f + 128 + 16) with (f + 144) by lia.
  replace (f + 144 + 16) with (f + 160) by lia. unfold with_v.
  repeat (apply f_equal2; [repeat first [same|other]; reflexivity|]). repeat first [same|other]. reflexivity.
Qed.
Lemma with_v_out M f V x : (forall i, zlen (V i) = 16) -> ~ (f + 48 <= x < f + 176) -> with_v M f V x = M x.
Proof.
  intros H Hx. pose proof (H 0). pose proof (H 1). pose proof (H 2). pose proof (H 3). pose proof (H 4). pose proof (H 5). pose proof (H 6). pose proof (H 7).
  unfold with_v. rewrite !wr_out by lia. reflexivity.
Qed.
Lemma with_x_rd M f X : rd (with_x M f X) f 48 = concat (map (le_enc 8) (gpr_args X)).
Proof.
  unfold gpr_args. cbn [map concat]. rewrite app_nil_r. rn.
  rewrite (rd_app _ 8 40), (rd_app _ 8 32), (rd_app _ 8 24), (rd_app _ 8 16), (rd_app _ 8 8). change (Z.of_nat 8) with 8.
  replace (f + 8 + 8) with (f + 16) by lia. replace (f + 16 + 8) with (f + 24) by lia. replace (f + 24 + 8) with (f + 32) by lia. replace (f + 32 + 8) with (f + 40) by lia.
  unfold with_x. repeat (apply f_equal2; [repeat first [same|other]; reflexivity|]). repeat first [same|other]. reflexivity.
Qed.
Lemma with_x_out M f X x : ~ (f <= x < f + 48) -> with_x M f X x = M x.
Proof. intros Hx. unfold with_x. rewrite !wr_out by (rewrite zlen_enc; lia). reflexivity. Qed.

(** The entry points: room on the stack, vector registers saved or not. *)
Definition entry_label (go vec : bool) : Z := match go, vec with false, true => 11 | false, false => 12 | true, true => 21 | true, false => 22 end.
Definition saves_label (go : bool) : Z := if go then 23 else 13.

Lemma entry_room (go vec : bool) k inner org X V F c z M f :
  0 <= org -> org + 2048 <= 2 ^ 64 -> X RSP = f + 216 -> 0 <= f -> f + 216 < 2 ^ 64 -> f mod 16 = 0 ->
  exists c1 z1,
    reach inner (text k) org (St X V F c z (at_label (src k) org (entry_label go vec)) M)
      (St (upd X RSP f) V F c1 z1 (at_label (src k) org (saves_label go)) (if vec then with_v M f V else M)).
Proof.
  intros Ho Ho2 Hsp F0 F1 F16. rn.
  pose proof (al16_plus f 48 F16 eq_refl) as Al3. pose proof (al16_plus f 64 F16 eq_refl) as Al4.
  pose proof (al16_plus f 80 F16 eq_refl) as Al5. pose proof (al16_plus f 96 F16 eq_refl) as Al6.
  pose proof (al16_plus f 112 F16 eq_refl) as Al7. pose proof (al16_plus f 128 F16 eq_refl) as Al8.
  pose proof (al16_plus f 144 F16 eq_refl) as Al9. pose proof (al16_plus f 160 F16 eq_refl) as Al10. clear F16.
  assert (E : f + 216 - 216 = f) by lia.
  change FS with 216 in *. unfold with_v.
  destruct go, vec; unfold entry_label, saves_label; flavour_cases k; do 2 eexists.
  all: repeat first [apply reach_refl|step2 org ltac:(change OFS_V with 48; change FS with 216; rewrite ?Hsp, ?E; 
    change (48 + 0) with 48; change (48 + 16) with 64; change (48 + 32) with 80; change (48 + 48) with 96; change (48 + 64) with 112; change (48 + 80) with 128; change (48 + 96) with 144; change (48 + 112) with 160; aligned)].
Qed.

Lemma inner_call k inner org X V F c z M f :
  0 <= org -> org + 2048 <= 2 ^ 64 -> X RSP = f -> 8 <= f -> f + 224 < 2 ^ 64 ->
  reach inner (text k) org (St X V F c z (at_label (src k) org 14) M)
    (St (upd (upd (upd (upd X RCX (f + 176)) R8 f) R9 (f + 224)) RSP (f - 8)) V F c z inner (wr M (f - 8) (le_enc 8 (at_label (src k) org 19)))).
Proof.
  intros Ho Ho2 Hsp F0 F1. rn. assert (E : f + -8 = f - 8) by lia.
  flavour_cases k.
  - assert (E1 : org + 627 + 5 = org + 632) by lia. repeat step2 org ltac:(change OFS_RVALUE with 176; change (FS + 8) with 224; rewrite ?Hsp, ?E, ?E1). apply reach_refl.
  - assert (E1 : org + 483 + 5 = org + 488) by lia. repeat step2 org ltac:(change OFS_RVALUE with 176; change (FS + 8) with 224; rewrite ?Hsp, ?E, ?E1). apply reach_refl.
Qed.

(** What the closure code passes to the inner function: cif, fun, user data. *)
Definition closure_words (go : bool) (M : Z -> Z) (cl : Z) : Z * Z * Z :=
  if go then (le_dec (rd M (cl + 8) 8), le_dec (rd M (cl + 16) 8), cl)
  else (le_dec (rd M (cl + 32) 8), le_dec (rd M (cl + 40) 8), le_dec (rd M (cl + 48) 8)).

Lemma save_regs (go : bool) k inner org X V F c z M f cl :
  0 <= org -> org + 2048 <= 2 ^ 64 -> X RSP = f -> 0 <= f -> f + 224 < 2 ^ 64 ->
  X R10 = cl -> 0 <= cl -> cl + 56 <= 2 ^ 64 -> cl + 56 <= f \/ f + 48 <= cl ->
  exists X1,
    reach inner (text k) org (St X V F c z (at_label (src k) org (saves_label go)) M)
      (St X1 V F c z (at_label (src k) org 14) (with_x M f X)) /\
    (X1 RDI, X1 RSI, X1 RDX) = closure_words go M cl /\ (forall i, i <> RDI -> i <> RSI -> i <> RDX -> X1 i = X i).
Proof.
  intros Ho Ho2 Hsp F0 F1 Hcl C0 C1 Hd. rn.
  assert (Em : wr (wr (wr (wr (wr (wr M f (le_enc 8 (X 7))) (f + 8) (le_enc 8 (X 6))) (f + 16) (le_enc 8 (X 2))) (f + 24) (le_enc 8 (X 1))) (f + 32) (le_enc 8 (X 8))) (f + 40) (le_enc 8 (X 9)) = with_x M f X) by reflexivity.
  assert (Rd : forall a, cl <= a -> a + 8 <= cl + 56 -> rd (with_x M f X) a 8 = rd M a 8).
  { intros a H1 H2. apply rd_ext. intros x Hx. apply with_x_out. change (Z.of_nat 8) with 8 in Hx. lia. }
  pose proof (Rd (cl + 8) ltac:(lia) ltac:(lia)) as R1. pose proof (Rd (cl + 16) ltac:(lia) ltac:(lia)) as R2.
  pose proof (Rd (cl + 32) ltac:(lia) ltac:(lia)) as R3. pose proof (Rd (cl + 40) ltac:(lia) ltac:(lia)) as R4. pose proof (Rd (cl + 48) ltac:(lia) ltac:(lia)) as R5. clear Rd.
  remember (with_x M f X) as m1 eqn:E1. clear E1.
  destruct go; unfold saves_label, closure_words.
  - exists (upd (upd (upd X 7 (le_dec (rd M (cl + 8) 8))) 6 (le_dec (rd M (cl + 16) 8))) 2 cl). split.
    2: regs; split; [reflexivity|intros i H1 H2 H3; rewrite !upd_other by lia; reflexivity].
    flavour_cases k; repeat first [apply reach_refl|step2 org ltac:(change TRAMP with 32; rewrite ?Hsp, ?Hcl, ?Z.add_0_r, ?R1, ?R2); rewrite ?Em].
  - exists (upd (upd (upd X 7 (le_dec (rd M (cl + 32) 8))) 6 (le_dec (rd M (cl + 40) 8))) 2 (le_dec (rd M (cl + 48) 8))). split.
    2: regs; split; [reflexivity|intros i H1 H2 H3; rewrite !upd_other by lia; reflexivity].
    flavour_cases k; repeat first [apply reach_refl|step2 org ltac:(change TRAMP with 32; change (32 + 8) with 40; change (32 + 16) with 48; rewrite ?Hsp, ?Hcl, ?Z.add_0_r, ?R3, ?R4, ?R5); rewrite ?Em].
Qed.

(** The whole entry. *)
Lemma clo_enter (go vec : bool) k inner org X V F c z M f cl :
  0 <= org -> org + 2048 <= 2 ^ 64 -> X RSP = f + 216 -> 8 <= f -> f + 224 < 2 ^ 64 -> f mod 16 = 0 -> (forall i, zlen (V i) = 16) ->
  X R10 = cl -> 0 <= cl -> cl + 56 <= 2 ^ 64 -> cl + 56 <= f \/ f + 176 <= cl ->
  exists X1 c1 z1 M1,
    reach inner (text k) org (St X V F c z (at_label (src k) org (entry_label go vec)) M) (St X1 V F c1 z1 inner M1) /\
    (X1 RDI, X1 RSI, X1 RDX) = closure_words go M cl /\ X1 RCX = f + 176 /\ X1 R8 = f /\ X1 R9 = f + 224 /\ X1 RSP = f - 8 /\
    (forall i, callee_saved i -> X1 i = X i) /\
    rd M1 (f - 8) 8 = le_enc 8 (at_label (src k) org 19) /\
    rd M1 f 48 = concat (map (le_enc 8) (gpr_args X)) /\
    rd M1 (f + 48) 128 = (if vec then concat (xmm_args V) else rd M (f + 48) 128) /\
    (forall x, ~ (f - 8 <= x < f + 176) -> M1 x = M x).
Proof.
  intros Ho Ho2 Hsp F0 F1 F16 HV Hcl C0 C1 Hd.
  destruct (entry_room go vec k inner org X V F c z M f) as (c1 & z1 & R1); auto; try lia.
  set (M0 := if vec then with_v M f V else M) in *.
  assert (O0 : forall x, ~ (f + 48 <= x < f + 176) -> M0 x = M x).
  { intros x Hx. unfold M0. destruct vec; [apply with_v_out; assumption|reflexivity]. }
  destruct (save_regs go k inner org (upd X RSP f) V F c1 z1 M0 f cl) as (X1 & R2 & W & K1); auto; try lia.
  assert (W' : closure_words go M0 cl = closure_words go M cl).
  { unfold closure_words. destruct go; rewrite !(rd_ext M M0) by (intros x Hx; apply O0; change (Z.of_nat 8) with 8 in *; lia); reflexivity. }
  pose proof (inner_call k inner org X1 V F c1 z1 (with_x M0 f (upd X RSP f)) f Ho Ho2) as R3.
  rewrite K1 in R3 by (rn; lia). specialize (R3 (upd_same _ _ _) F0 F1).
  do 4 eexists. split; [eapply reach_trans; [exact R1|eapply reach_trans; [exact R2|exact R3]]|].
  rewrite <- W', <- W. rn. regs. split; [reflexivity|]. repeat (split; [reflexivity|]).
  split; [unfold callee_saved; rn; intros i Hi; rewrite !upd_other by lia; rewrite K1 by lia; rewrite upd_other by lia; reflexivity|].
  split; [same; reflexivity|].
  split; [rewrite rd_wr_other by (rewrite zlen_enc; lia); rewrite with_x_rd; reflexivity|].
  split.
  { rewrite rd_wr_other by (rewrite zlen_enc; lia). rewrite (rd_ext M0) by (intros x Hx; apply with_x_out; lia).
    unfold M0. destruct vec; [apply with_v_rd, HV|reflexivity]. }
  intros x Hx. rewrite wr_out by (rewrite zlen_enc; lia). rewrite with_x_out by lia. apply O0. lia.
Qed.
