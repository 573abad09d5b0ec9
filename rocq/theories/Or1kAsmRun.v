(** ffi_call_SYSV of src/or1k/sysv.S, run; and the trampoline. *)
From Coq Require Import ZifyBool ZifyNat.
From Verif Require Import Base BaseFacts ByteMem S390Model S390Facts Or1kModel Or1kSpec Or1kAsmModel.
Local Open Scope Z_scope.
Local Arguments Z.mul : simpl never.
Local Arguments Z.add : simpl never.
Local Arguments Z.sub : simpl never.
Local Arguments Z.pow : simpl never.
Local Arguments Z.of_nat : simpl never.
Local Arguments be_enc : simpl never.
Local Arguments be_dec : simpl never.
Local Arguments rd : simpl never.

Lemma reach_refl org s : reach org s s.
Proof. exists O. reflexivity. Qed.
Lemma reach_trans org a b c : reach org a b -> reach org b c -> reach org a c.
Proof.
  intros [n Hn] [k Hk]. exists (n + k)%nat. revert a Hn. induction n as [|n IH]; intros a Hn.
  - injection Hn as ->. exact Hk.
  - cbn [steps Nat.add] in *. destruct (step org a); [|discriminate]. apply IH, Hn.
Qed.
Lemma reach_step org i k X p N f M s1 s' :
  p = org + 4 * Z.of_nat k -> nth_error text k = Some i -> exec org i (St X p N f M) = Some s1 -> reach org s1 s' -> reach org (St X p N f M) s'.
Proof.
  intros -> A E [n H]. exists (S n). cbn [steps]. unfold step. cbn [spc].
  replace (org + 4 * Z.of_nat k - org) with (Z.of_nat k * 4) by lia. rewrite Z.mod_mul, Z.div_mul by lia.
  replace (0 <=? Z.of_nat k * 4) with true by lia. rewrite Nat2Z.id, A. cbn [andb Z.eqb]. rewrite E. exact H.
Qed.

Lemma wrap32_small a : 0 <= a < 2 ^ 32 -> wrap32 a = a.
Proof. unfold wrap32, wrap. apply Z.mod_small. Qed.
Lemma upd_same f r v : upd f r v r = v.
Proof. unfold upd. rewrite Z.eqb_refl. reflexivity. Qed.
Lemma upd_other f r v x : (x =? r) = false -> upd f r v x = f x.
Proof. intros H. unfold upd. rewrite H. reflexivity. Qed.
Lemma fits_ok a : 0 <= a -> a + 4 <= 2 ^ 32 -> fits a = true.
Proof. unfold fits. lia. Qed.

Ltac regs := repeat first [rewrite upd_same | rewrite upd_other by reflexivity].
Ltac nowrap := repeat match goal with |- context [wrap32 ?a] => rewrite (wrap32_small a) by lia end.
Ltac exec1 tac :=
  unfold exec; cbn [sx spc snpc sfl sm]; regs; tac; rewrite ?Z.lor_0_r; nowrap; tac; rewrite ?Z.lor_0_r;
  repeat match goal with |- context [fits ?a] => rewrite (fits_ok a) by lia end;
  reflexivity.
(** Instruction [k], at [org + 4 * k]. *)
Ltac step2 k tac :=
  lazymatch goal with
  | |- reach ?org (St ?X ?p ?N ?f ?M) _ =>
    let i := eval vm_compute in (nth_error text k) in
    lazymatch i with
    | Some ?i => eapply (reach_step org i k X p N f M); [lia|vm_compute; reflexivity|exec1 tac|regs]
    end
  end.

Ltac ze := rewrite ?be_enc_zlen; change (Z.of_nat 4) with 4.
Ltac rs := apply rd_wr_same; rewrite be_enc_length; reflexivity.
Ltac ro := rewrite rd_wr_other by (ze; lia).

(** The registers ffi_call_SYSV saves below [sp]. *)
Definition saves (X M : Z -> Z) (sp : Z) : Prop :=
  rd M (sp - 4) 4 = be_enc 4 (X 9) /\ rd M (sp - 8) 4 = be_enc 4 sp /\ rd M (sp - 12) 4 = be_enc 4 (X 14) /\
  rd M (sp - 16) 4 = be_enc 4 (X 16) /\ rd M (sp - 20) 4 = be_enc 4 (X 18) /\ rd M (sp - 24) 4 = be_enc 4 (X 20).

(** Up to the call of ffi_prep_args. *)
Lemma run_enter org X f M sp size :
  0 <= org -> org + 256 <= 2 ^ 32 -> X 1 = sp -> X 3 = size -> 0 <= size -> 0 <= sp - 24 - size -> sp <= 2 ^ 32 - 1 -> 0 <= X 5 -> X 5 + 4 < 2 ^ 32 ->
  exists X1 M1,
    reach org (St X org (org + 4) f M) (St X1 (X 5) (X 5 + 4) f M1) /\
    X1 1 = sp - 24 - size /\ X1 3 = sp - 24 - size /\ X1 4 = X 4 /\ X1 9 = org + 60 /\ X1 14 = sp /\ X1 16 = X 7 /\ X1 18 = X 6 /\ X1 20 = X 8 /\
    (forall r, r <> 1 -> r <> 3 -> r <> 9 -> r <> 14 -> r <> 16 -> r <> 18 -> r <> 20 -> X1 r = X r) /\
    saves X M1 sp /\ (forall x, ~ (sp - 24 <= x < sp) -> M1 x = M x) /\ (bytes_in M -> bytes_in M1).
Proof.
  intros Ho Ho2 H1 H3 Hs Hlo Hhi H5 H5'.
  set (m1 := wr (wr (wr (wr (wr (wr M (sp + -4) (be_enc 4 (X 9))) (sp + -8) (be_enc 4 sp)) (sp + -12) (be_enc 4 (X 14))) (sp + -16) (be_enc 4 (X 16))) (sp + -20) (be_enc 4 (X 18))) (sp + -24) (be_enc 4 (X 20))).
  set (X1 := upd (upd (upd (upd (upd (upd (upd (upd X 14 sp) 1 (sp + -24)) 16 (X 7)) 18 (X 6)) 20 (X 8)) 1 (sp + -24 - size)) 3 (sp + -24 - size)) 9 (org + 52 + 8)).
  exists X1, m1. split.
  { step2 0%nat ltac:(rewrite ?H1).
    step2 1%nat ltac:(rewrite ?H1). rewrite ?H1.
    step2 2%nat ltac:(rewrite ?H1).
    step2 3%nat ltac:(rewrite ?H1).
    step2 4%nat ltac:(rewrite ?H1).
    step2 5%nat ltac:(rewrite ?H1). fold m1.
    step2 6%nat ltac:(rewrite ?H1).
    step2 7%nat ltac:(rewrite ?H1).
    step2 8%nat idtac.
    step2 9%nat idtac.
    step2 10%nat idtac.
    step2 11%nat ltac:(rewrite ?H3).
    step2 12%nat idtac.
    step2 13%nat idtac. 
    step2 14%nat idtac.
    match goal with |- reach _ (St ?Y _ _ _ _) _ => replace Y with X1 end. { apply reach_refl. }
    unfold X1. rewrite ?H1, ?H3. f_equal; try lia. }
  unfold X1. regs. split; [lia|]. split; [lia|]. split; [reflexivity|]. split; [lia|]. split; [reflexivity|]. split; [reflexivity|]. split; [reflexivity|]. split; [reflexivity|].
  split. { intros r. intros. rewrite !upd_other by lia. reflexivity. }
  split.
  { unfold saves, m1. replace (sp - 4) with (sp + -4) by lia. replace (sp - 8) with (sp + -8) by lia. replace (sp - 12) with (sp + -12) by lia.
    replace (sp - 16) with (sp + -16) by lia. replace (sp - 20) with (sp + -20) by lia. replace (sp - 24) with (sp + -24) by lia.
    repeat split; repeat ro; rs. }
  split. { intros x Hx. unfold m1. rewrite !wr_out by (ze; lia). reflexivity. }
  intros B. unfold m1. repeat (apply wr_bytes; [|apply be_enc_ok]). exact B.
Qed.

(** From the return of ffi_prep_args to the call of the function. *)
Lemma run_call org X f M :
  0 <= org -> org + 256 <= 2 ^ 32 -> 0 <= X 1 -> X 1 + 24 <= 2 ^ 32 -> 0 <= X 16 -> X 16 + 4 < 2 ^ 32 ->
  exists X1,
    reach org (St X (org + 60) (org + 64) f M) (St X1 (X 16) (X 16 + 4) f M) /\
    (forall r, 3 <= r <= 8 -> X1 r = be_dec (rd M (X 1 + 4 * (r - 3)) 4)) /\ X1 1 = X 11 /\ X1 9 = org + 96 /\
    (forall r, 10 <= r \/ r = 2 -> X1 r = X r).
Proof.
  intros Ho Ho2 H1 H1' H16 H16'.
  set (Y := upd (upd (upd (upd (upd (upd X 3 (be_dec (rd M (X 1 + 0) 4))) 4 (be_dec (rd M (X 1 + 4) 4))) 5 (be_dec (rd M (X 1 + 8) 4))) 6 (be_dec (rd M (X 1 + 12) 4))) 7 (be_dec (rd M (X 1 + 16) 4))) 8 (be_dec (rd M (X 1 + 20) 4))).
  set (X1 := upd (upd Y 1 (X 11)) 9 (org + 88 + 8)).
  exists X1. split.
  { step2 15%nat idtac. step2 16%nat idtac. step2 17%nat idtac. step2 18%nat idtac. step2 19%nat idtac. step2 20%nat idtac. fold Y.
    assert (Y11 : Y 11 = X 11) by reflexivity. assert (Y16 : Y 16 = X 16) by reflexivity.
    step2 21%nat ltac:(rewrite ?Y11). step2 22%nat ltac:(rewrite ?Y16). step2 23%nat ltac:(rewrite ?Y16). rewrite ?Y16, ?Y11.
    match goal with |- reach _ (St ?Z _ _ _ _) _ => replace Z with X1 end. { apply reach_refl. }
    unfold X1. f_equal; try lia. }
  unfold X1. split.
  { intros r Hr. rewrite !upd_other by lia. assert (D : r = 3 \/ r = 4 \/ r = 5 \/ r = 6 \/ r = 7 \/ r = 8) by lia. unfold Y.
    destruct D as [D|[D|[D|[D|[D|D]]]]]; subst r; regs; reflexivity. }
  regs. split; [reflexivity|]. split; [lia|]. intros r Hr. unfold Y. rewrite !upd_other by lia. reflexivity.
Qed.

(** What is stored at the result pointer. *)
Definition store_result (flags rv : Z) (X M : Z -> Z) : Z -> Z :=
  if flags =? 13 then M
  else if flags =? 11 then wr (wr M (rv + 4) (be_enc 4 (X 12))) rv (be_enc 4 (X 11))
  else wr M rv (be_enc 4 (X 11)).

(** From the return of the function to the return to ffi_call. *)
Lemma run_leave org X f M X0 sp :
  0 <= org -> org + 256 <= 2 ^ 32 -> X 14 = sp -> 24 <= sp < 2 ^ 32 -> words_in X0 ->
  saves X0 M sp ->
  (X 20 <> 13 -> let n := if X 20 =? 11 then 8 else 4 in 0 <= X 18 /\ X 18 + n <= 2 ^ 32 /\ (X 18 + n <= sp - 24 \/ sp <= X 18)) ->
  X0 9 + 4 < 2 ^ 32 ->
  exists X1 f1,
    reach org (St X (org + 96) (org + 100) f M) (St X1 (X0 9) (X0 9 + 4) f1 (store_result (X 20) (X 18) X M)) /\
    X1 1 = sp /\ X1 14 = X0 14 /\ X1 16 = X0 16 /\ X1 18 = X0 18 /\ X1 20 = X0 20 /\
    (forall r, r <> 1 -> r <> 9 -> r <> 14 -> r <> 16 -> r <> 18 -> r <> 20 -> X1 r = X r).
Proof.
  intros Ho Ho2 H14 Hsp W SV D Hr.
  pose (Y := upd (upd (upd (upd (upd (upd (upd X 1 sp) 9 (X0 9)) 1 sp) 14 (X0 14)) 16 (X0 16)) 18 (X0 18)) 20 (X0 20) : Z -> Z).
  assert (DE : forall z, be_dec (be_enc 4 (X0 z)) = X0 z) by (intros z; rewrite be_dec_enc; apply Z.mod_small, W).
  assert (DS : be_dec (be_enc 4 sp) = sp) by (rewrite be_dec_enc; apply Z.mod_small; lia).
  assert (Tail : forall M1 f1 p n, p = org + 128 -> n = org + 132 -> saves X0 M1 sp -> reach org (St X p n f1 M1) (St Y (X0 9) (X0 9 + 4) f1 M1)).
  { intros M1 f1 p n -> -> (S1 & S2 & S3 & S4 & S5 & S6).
    replace (sp - 4) with (sp + -4) in S1 by lia. replace (sp - 8) with (sp + -8) in S2 by lia. replace (sp - 12) with (sp + -12) in S3 by lia.
    replace (sp - 16) with (sp + -16) in S4 by lia. replace (sp - 20) with (sp + -20) in S5 by lia. replace (sp - 24) with (sp + -24) in S6 by lia.
    pose proof (W 9) as W9.
    step2 32%nat ltac:(rewrite ?H14).
    step2 33%nat ltac:(rewrite ?H14, ?S1, ?DE).
    step2 34%nat ltac:(rewrite ?H14, ?S2, ?DS).
    step2 35%nat ltac:(rewrite ?H14, ?S3, ?DE).
    step2 36%nat ltac:(rewrite ?H14, ?S4, ?DE).
    step2 37%nat ltac:(rewrite ?H14, ?S5, ?DE).
    step2 38%nat ltac:(rewrite ?H14, ?S6, ?DE).
    step2 39%nat idtac.
    step2 40%nat idtac.
    rewrite ?H14, ?S1, ?S2, ?S3, ?S4, ?S5, ?S6, ?DE, ?DS. apply reach_refl. }
  assert (Keep : forall d a, a = X 18 \/ a = X 18 + 4 /\ X 20 = 11 -> zlen d = 4 -> X 20 <> 13 -> forall M1, saves X0 M1 sp -> saves X0 (wr M1 a d) sp).
  { intros d a Ha Ld N M1 (S1 & S2 & S3 & S4 & S5 & S6). specialize (D N). cbv zeta in D. unfold saves.
    repeat split; rewrite rd_wr_other; auto; rewrite Ld; change (Z.of_nat 4) with 4; destruct (X 20 =? 11) eqn:E; lia. }
  assert (Z4 : forall z, zlen (be_enc 4 z) = 4) by (intros z; apply be_enc_zlen).
  exists Y. unfold store_result.
  destruct (X 20 =? 13) eqn:E13.
  - exists true. split.
    { step2 24%nat idtac. rewrite E13. step2 25%nat idtac. step2 26%nat idtac.
      apply Tail; [lia|lia|]. exact SV. }
    unfold Y. regs. repeat (split; [reflexivity|]). intros r. intros. rewrite !upd_other by lia. reflexivity.
  - assert (N13 : X 20 <> 13) by lia. specialize (D N13). cbv zeta in D. destruct (X 20 =? 11) eqn:E11.
    + exists true. split.
      { step2 24%nat idtac. rewrite E13. step2 25%nat idtac. step2 26%nat idtac. step2 27%nat idtac. rewrite E11. step2 28%nat idtac. step2 29%nat idtac.
        step2 30%nat idtac. step2 31%nat idtac. replace (X 18 + 0) with (X 18) by lia.
      apply Tail; [lia|lia|]. apply Keep; [left; reflexivity|apply Z4|lia|]. apply Keep; [right; split; [reflexivity|lia]|apply Z4|lia|exact SV]. }
      unfold Y. regs. repeat (split; [reflexivity|]). intros r. intros. rewrite !upd_other by lia. reflexivity.
    + exists false. split.
      { step2 24%nat idtac. rewrite E13. step2 25%nat idtac. step2 26%nat idtac. step2 27%nat idtac. rewrite E11. step2 28%nat idtac. step2 29%nat idtac.
        step2 31%nat idtac. replace (X 18 + 0) with (X 18) by lia.
      apply Tail; [lia|lia|]. apply Keep; [left; reflexivity|apply Z4|lia|exact SV]. }
      unfold Y. regs. repeat (split; [reflexivity|]). intros r. intros. rewrite !upd_other by lia. reflexivity.
Qed.
