(** ffi_call_SYSV of src/bfin/sysv.S, run. *)
From Coq Require Import ZifyBool ZifyNat.
From Verif Require Import Base BaseFacts Types ByteMem S390Facts ArmModel BfinModel BfinSpec BfinFacts.
Local Open Scope Z_scope.
Local Arguments Z.mul : simpl never.
Local Arguments Z.add : simpl never.
Local Arguments Z.sub : simpl never.
Local Arguments Z.pow : simpl never.
Local Arguments Z.of_nat : simpl never.
Local Arguments le_enc : simpl never.
Local Arguments le_dec : simpl never.
Local Arguments rd : simpl never.

Lemma reach_refl c org s : reach c org s s.
Proof. exists O. reflexivity. Qed.
Lemma reach_trans c org s1 s2 s3 : reach c org s1 s2 -> reach c org s2 s3 -> reach c org s1 s3.
Proof.
  intros [n Hn] [k Hk]. exists (n + k)%nat. revert s1 Hn. induction n as [|n IH]; intros s1 Hn.
  - injection Hn as ->. exact Hk.
  - cbn [steps Nat.add] in *. destruct (step c org s1); [|discriminate]. apply IH, Hn.
Qed.
Lemma reach_step c org i k X p M s1 s' :
  p = org + 4 * Z.of_nat k -> nth_error text k = Some i -> exec c org i (St X p M) = Some s1 -> reach c org s1 s' -> reach c org (St X p M) s'.
Proof.
  intros -> A E [n H]. exists (S n). cbn [steps]. unfold step. cbn [spc].
  replace (org + 4 * Z.of_nat k - org) with (Z.of_nat k * 4) by lia. rewrite Z.mod_mul, Z.div_mul by lia.
  replace (0 <=? Z.of_nat k * 4) with true by lia. rewrite Nat2Z.id, A. cbn [andb Z.eqb]. rewrite E. exact H.
Qed.
Lemma wrap32_small a : 0 <= a < 2 ^ 32 -> wrap32 a = a.
Proof. unfold wrap32, wrap. apply Z.mod_small. Qed.
Lemma upd_same f r v : upd f r v r = v.
Proof. unfold upd. rewrite Z.eqb_refl. reflexivity. Qed.
Lemma upd_other f r v x : (x =? r) = false -> upd f r v x = f x.
Proof. intros H. unfold upd. rewrite H. reflexivity. Qed.
Lemma fits_ok a : 0 <= a -> a + 4 <= 2 ^ 32 -> fits a = true.
Proof. unfold fits. lia. Qed.
Lemma ld_same m a b x : b = a -> 0 <= x < 2 ^ 32 -> ld (stw m a x) b = x.
Proof. intros -> H. unfold ld, stw. rewrite rd_wr_same by (rewrite le_enc_length; reflexivity). rewrite le_dec_enc. apply Z.mod_small, H. Qed.
Lemma ld_other m a b x : b + 4 <= a \/ a + 4 <= b -> ld (stw m a x) b = ld m b.
Proof. intros H. unfold ld, stw. rewrite rd_wr_other; [reflexivity|]. rewrite le_enc_zlen. exact H. Qed.
Lemma stw_out m a v x : ~ (a <= x < a + 4) -> stw m a v x = m x.
Proof. intros H. unfold stw. apply wr_out. rewrite le_enc_zlen. exact H. Qed.
Lemma ld_ext m m' a : (forall x, a <= x < a + 4 -> m' x = m x) -> ld m' a = ld m a.
Proof. intros H. unfold ld. f_equal. apply rd_ext. exact H. Qed.

Ltac regs := repeat first [rewrite upd_same | rewrite upd_other by reflexivity].
Ltac nowrap := repeat match goal with |- context [wrap32 ?a] => rewrite (wrap32_small a) by lia end.
Ltac loads := repeat first [rewrite ld_same by lia | rewrite ld_other by lia].
Ltac exec1 tac :=
  unfold exec; cbn [sx spc sm]; regs; tac; nowrap; tac;
  repeat match goal with |- context [fits ?a] => rewrite (fits_ok a) by lia end; cbn [andb]; loads; tac;
  reflexivity.
(** Instruction [k], at [org + 4 * k]. *)
Ltac step2 k tac :=
  lazymatch goal with
  | |- reach ?c ?org (St ?X ?p ?M) _ =>
    let i := eval vm_compute in (nth_error text k) in
    lazymatch i with
    | Some ?i => eapply (reach_step c org i k X p M); [lia|vm_compute; reflexivity|exec1 tac|regs]
    end
  end.

(** The frame of ffi_call_SYSV below and at [sp]. *)
Definition frame (X M : Z -> Z) (sp stack : Z) : Prop :=
  ld M (sp - 4) = X 16 /\ ld M (sp - 8) = X 15 /\ ld M (sp - 28) = X 11 /\ ld M sp = X 0 /\ ld M (sp + 4) = X 1 /\ ld M (sp + 8) = X 2 /\
  ld M (sp - 20) = sp - 28 /\ ld M (sp - 24) = stack.
Lemma frame_ext X M M' sp stack : (forall x, sp - 28 <= x < sp + 12 -> M' x = M x) -> frame X M sp stack -> frame X M' sp stack.
Proof. intros E (F1 & F2 & F3 & F4 & F5 & F6 & F7 & F8). repeat split; rewrite (ld_ext M M') by (intros; apply E; lia); assumption. Qed.

(** Up to the call of ffi_prep_args. *)
Lemma run_enter c org X M sp ga D :
  0 <= org -> org + 288 <= 2 ^ 32 -> words_in X -> X 14 = sp -> 32 + X 0 <= sp -> sp + 28 <= 2 ^ 32 ->
  wrap32 (X 11 + g_prep c) = ga -> ga + 4 <= 2 ^ 32 -> ga + 4 <= sp - 28 \/ sp + 12 <= ga ->
  ld M ga = D -> 0 <= D -> D + 8 <= 2 ^ 32 -> D + 8 <= sp - 28 \/ sp + 12 <= D ->
  exists X1 M1,
    reach c org (St X org M) (St X1 (ld M D) M1) /\
    X1 0 = sp - 32 - X 0 /\ X1 1 = X 1 /\ X1 11 = ld M (D + 4) /\ X1 14 = sp - 32 - X 0 /\ X1 15 = sp - 8 /\ X1 16 = org + 76 /\
    (forall r, 4 <= r <= 7 \/ 12 <= r <= 13 -> X1 r = X r) /\
    frame X M1 sp (sp - 32 - X 0) /\ (forall x, ~ (sp - 28 <= x < sp + 12) -> M1 x = M x) /\ (bytes_in M -> bytes_in M1).
Proof.
  intros Ho Ho2 W H14 Hlo Hhi Ega Hga Dga ED HD HD' DD.
  assert (Hg0 : 0 <= ga) by (subst ga; unfold wrap32, wrap; apply Z.mod_pos_bound; lia).
  pose proof (W 0) as W0. pose proof (W 1) as W1. pose proof (W 2) as W2. pose proof (W 11) as W11. pose proof (W 15) as W15. pose proof (W 16) as W16.
  set (M1 := stw (stw (stw (stw (stw (stw (stw (stw M (sp - 4) (X 16)) (sp - 8) (X 15)) (sp - 8 + -20) (X 11)) (sp - 8 + 8) (X 0)) (sp - 8 + 12) (X 1)) (sp - 8 + 16) (X 2)) (sp - 8 + -12) (sp - 8 - 20)) (sp - 8 + -16) (sp - 8 - 20 - X 0 - 4)).
  assert (R : exists X1, reach c org (St X org M) (St X1 (ld M D) M1) /\
    X1 0 = sp - 32 - X 0 /\ X1 1 = X 1 /\ X1 11 = ld M (D + 4) /\ X1 14 = sp - 32 - X 0 /\ X1 15 = sp - 8 /\ X1 16 = org + 76 /\
    (forall r, 4 <= r <= 7 \/ 12 <= r <= 13 -> X1 r = X r)).
  { eexists. split.
    { step2 0%nat ltac:(rewrite ?H14). step2 1%nat idtac. step2 2%nat idtac. step2 3%nat idtac. step2 4%nat idtac.
      step2 5%nat idtac. step2 6%nat idtac. step2 7%nat idtac. step2 8%nat idtac. step2 9%nat idtac. step2 10%nat idtac. step2 11%nat idtac. step2 12%nat idtac. fold M1.
      assert (LO : forall a, a + 4 <= sp - 28 \/ sp + 12 <= a -> ld M1 a = ld M a) by (intros a Ha; unfold M1; rewrite !ld_other by lia; reflexivity).
      assert (L1 : ld M1 (sp - 8 + -16) = sp - 8 - 20 - X 0 - 4) by (unfold M1; loads; reflexivity).
      assert (L2 : ld M1 (sp - 8 + 12) = X 1) by (unfold M1; loads; reflexivity).
      assert (L0 : ld M1 (D + 0) = ld M D) by (rewrite Z.add_0_r; apply LO; lia).
      step2 13%nat ltac:(rewrite ?Ega, ?(LO ga), ?ED by lia).
      step2 14%nat ltac:(rewrite ?L0). step2 15%nat ltac:(rewrite ?(LO (D + 4)) by lia). step2 16%nat ltac:(rewrite ?L1). step2 17%nat ltac:(rewrite ?L2).
      step2 18%nat idtac. apply reach_refl. }
    regs. split; [lia|]. split; [reflexivity|]. split; [reflexivity|]. split; [lia|]. split; [reflexivity|]. split; [lia|].
    intros r Hr. rewrite !upd_other by lia. reflexivity. }
  destruct R as (X1 & R & P1 & P2 & P3 & P4 & P5 & P6 & P7). exists X1, M1. repeat (split; [assumption|]).
  split. { unfold frame, M1. repeat split; loads; lia. }
  split. { intros x Hx. unfold M1. rewrite !stw_out by lia. reflexivity. }
  intros B. unfold M1. repeat apply stw_bytes. exact B.
Qed.

(** From the return of ffi_prep_args to the call of the function. *)
Lemma run_call c org X M sp stack fd :
  0 <= org -> org + 288 <= 2 ^ 32 -> X 15 = sp - 8 -> 28 <= sp -> sp + 28 <= 2 ^ 32 -> ld M (sp - 24) = stack -> 0 <= stack -> stack + 12 <= 2 ^ 32 ->
  ld M (sp + 20) = fd -> 0 <= fd -> fd + 4 <= 2 ^ 32 ->
  exists X1,
    reach c org (St X (org + 76) M) (St X1 (ld M fd) M) /\
    (forall r, 0 <= r <= 2 -> X1 r = ld M (stack + 4 * r)) /\ X1 8 = ld M (sp + 16) /\ X1 11 = ld M (sp + 24) /\ X1 14 = stack /\ X1 15 = sp - 8 /\ X1 16 = org + 120 /\
    (forall r, 4 <= r <= 7 \/ 12 <= r <= 13 -> X1 r = X r).
Proof.
  intros Ho Ho2 H15 Hlo Hhi Es Hs Hs' Ef Hf Hf'. eexists. split.
  { replace (sp - 24) with (sp - 8 + -16) in Es by lia. replace (sp + 20) with (sp - 8 + 28 + 0) in Ef by lia. replace (ld M fd) with (ld M (fd + 0)) by (f_equal; lia).
    step2 19%nat ltac:(rewrite ?H15, ?Es). step2 20%nat idtac. step2 21%nat idtac. step2 22%nat idtac.
    step2 23%nat ltac:(rewrite ?H15). step2 24%nat idtac. step2 25%nat ltac:(rewrite ?Ef). step2 26%nat idtac.
    step2 27%nat idtac. step2 28%nat ltac:(rewrite ?H15). step2 29%nat idtac. apply reach_refl. }
  split.
  { intros r Hr. assert (D : r = 0 \/ r = 1 \/ r = 2) by lia. destruct D as [-> | [-> | ->]]; regs; reflexivity. }
  regs. split; [f_equal; lia|]. split; [f_equal; lia|]. split; [reflexivity|]. split; [exact H15|]. split; [lia|].
  intros r Hr. rewrite !upd_other by lia. reflexivity.
Qed.

(** What is stored. *)
Definition store_result (c : cfg) (flags rv sp : Z) (X M : Z -> Z) : Z -> Z :=
  let M1 := stw (stw M (sp - 16) (X 0)) (sp - 12) (X 1) in
  if flags =? 0 then M1
  else if flags =? 1 then stw M1 rv (X 0 mod 256)
  else if flags =? 2 then stw M1 rv (wrap32 (if g_sign c then to_signed 16 (X 0 mod 65536) else X 0 mod 65536))
  else if flags =? 3 then stw (stw M1 rv (X 0)) (rv + 4) (X 1)
  else stw M1 rv (X 0).

(** From the return of the function to the return to ffi_call. *)
Lemma run_leave c org X M X0 sp stack flags rv ta :
  0 <= org -> org + 288 <= 2 ^ 32 -> X 15 = sp - 8 -> 28 <= sp -> sp + 28 <= 2 ^ 32 -> words_in X -> words_in X0 -> frame X0 M sp stack ->
  ld M (sp + 12) = flags -> ld M (sp + 16) = rv -> 0 <= flags <= 4 ->
  (flags <> 0 -> 0 <= rv /\ rv + (if flags =? 3 then 8 else 4) <= 2 ^ 32 /\ (rv + (if flags =? 3 then 8 else 4) <= sp - 28 \/ sp + 12 <= rv)) ->
  wrap32 (X0 11 + g_tab c) = ta -> ta + 4 <= 2 ^ 32 -> ta + 4 <= sp - 28 \/ sp + 12 <= ta -> ld M ta = org + 188 -> table_in org M ->
  org + 208 <= sp - 28 \/ sp + 12 <= org + 188 ->
  exists X1,
    reach c org (St X (org + 120) M) (St X1 (X0 16) (store_result c flags rv sp X M)) /\
    X1 11 = X0 11 /\ X1 14 = sp /\ X1 15 = X0 15 /\ (forall r, 4 <= r <= 7 \/ 12 <= r <= 13 -> X1 r = X r).
Proof.
  intros Ho Ho2 H15 Hlo Hhi W W0' (F1 & F2 & F3 & F4 & F5 & F6 & F7 & F8) Ef Er Hf Hrv Eta Hta Dta ET TI DT.
  assert (Hg0 : 0 <= ta) by (subst ta; unfold wrap32, wrap; apply Z.mod_pos_bound; lia).
  pose proof (W 0) as W0. pose proof (W 1) as W1.
  set (M1 := stw (stw M (sp - 16) (X 0)) (sp - 12) (X 1)).
  assert (LM : forall a, a + 4 <= sp - 16 \/ sp - 8 <= a -> ld M1 a = ld M a) by (intros a Ha; unfold M1; rewrite !ld_other by lia; reflexivity).
  assert (Tail : forall Y M2, Y 15 = sp - 8 -> (forall r, 4 <= r <= 7 \/ 12 <= r <= 13 -> Y r = X r) -> (forall a, sp - 28 <= a -> a + 4 <= sp + 12 -> ld M2 a = ld M1 a) ->
    exists X1, reach c org (St Y (org + 264) M2) (St X1 (X0 16) M2) /\ X1 11 = X0 11 /\ X1 14 = sp /\ X1 15 = X0 15 /\ (forall r, 4 <= r <= 7 \/ 12 <= r <= 13 -> X1 r = X r)).
  { intros Y M2 Y15 YS E. eexists. split.
    { assert (G3 : ld M2 (sp - 8 + -20) = X0 11) by (rewrite E, LM by lia; rewrite <- F3; f_equal; lia).
      assert (G2 : ld M2 (sp - 8) = X0 15) by (rewrite E, LM by lia; exact F2).
      assert (G1 : ld M2 (sp - 8 + 4) = X0 16) by (rewrite E, LM by lia; rewrite <- F1; f_equal; lia).
      step2 66%nat ltac:(rewrite ?Y15). step2 67%nat ltac:(rewrite ?Y15). step2 68%nat ltac:(rewrite ?Y15). step2 69%nat ltac:(rewrite ?Y15, ?G3).
      step2 70%nat ltac:(rewrite ?Y15, ?G2, ?G1). rewrite ?Y15, ?G1, ?G2. step2 71%nat idtac. apply reach_refl. }
    regs. split; [reflexivity|]. split; [lia|]. split; [reflexivity|]. intros r Hr. rewrite !upd_other by lia. apply YS, Hr. }
  assert (TW : forall k w, nth_error text k = Some (Word w) -> (47 <= Z.of_nat k <= 51) -> ld M1 (org + 4 * Z.of_nat k) = 4 * w).
  { intros k w Hk Kb. rewrite LM by lia. apply TI, Hk. }
  assert (Mid : forall w, nth_error text (Z.to_nat (47 + flags)) = Some (Word w) -> 0 <= w <= 19 -> exists Y, reach c org (St X (org + 120) M) (St Y (org + 188 + 4 * w) M1) /\ Y 0 = X 0 /\ Y 1 = X 1 /\ Y 15 = sp - 8 /\ (forall r, 4 <= r <= 7 \/ 12 <= r <= 13 -> Y r = X r)).
  { intros w Hw Bw. assert (T : ld M1 (flags * 4 + (org + 188)) = 4 * w) by (rewrite <- (TW _ _ Hw) by lia; f_equal; lia).
    assert (T0 : ld M1 (flags * 4 + (org + 188) + 0) = 4 * w) by (rewrite Z.add_0_r; exact T).
    assert (G3 : ld M (sp - 8 + -20) = X0 11) by (rewrite <- F3; f_equal; lia).
    assert (G3' : ld M1 (sp - 8 + -20) = X0 11) by (rewrite LM by lia; exact G3).
    assert (G4 : ld M1 (sp - 8 + 20) = flags) by (rewrite LM by lia; rewrite <- Ef; f_equal; lia).
    assert (G5 : ld M1 ta = org + 188) by (rewrite LM by lia; exact ET).
    assert (K1 : sp - 8 + -8 = sp - 16) by lia. assert (K2 : sp - 8 + -4 = sp - 12) by lia.
    assert (G6 : ld M1 (sp - 8 + -8) = X 0) by (unfold M1; loads; reflexivity).
    assert (G7 : ld M1 (sp - 8 + -4) = X 1) by (unfold M1; loads; reflexivity).
    eexists. split.
    { step2 30%nat ltac:(rewrite ?H15). step2 31%nat ltac:(rewrite ?H15, ?G3). step2 32%nat ltac:(rewrite ?H15, ?K1). step2 33%nat ltac:(rewrite ?H15, ?K2). rewrite ?H15, ?K1, ?K2. fold M1.
      step2 34%nat ltac:(rewrite ?H15, ?G4). step2 35%nat ltac:(change (2 ^ 2) with 4). step2 36%nat ltac:(rewrite ?Eta, ?G5). step2 37%nat idtac. step2 38%nat idtac. step2 39%nat ltac:(rewrite ?T0).
      step2 40%nat ltac:(rewrite ?H15, ?G3'). step2 41%nat ltac:(rewrite ?Eta, ?G5). step2 42%nat idtac. step2 43%nat idtac.
      step2 44%nat ltac:(rewrite ?H15, ?G6). step2 45%nat ltac:(rewrite ?H15, ?G7). step2 46%nat idtac.
      replace (4 * w + (org + 188)) with (org + 188 + 4 * w) by lia. apply reach_refl. }
    regs. split; [reflexivity|]. split; [reflexivity|]. split; [exact H15|]. intros r Hr. rewrite !upd_other by lia. reflexivity. }
  assert (GR : ld M1 (sp - 8 + 24) = rv) by (rewrite LM by lia; rewrite <- Er; f_equal; lia).
  assert (Fin : forall Y p M2, p = org + 264 -> M2 = store_result c flags rv sp X M -> Y 15 = sp - 8 -> (forall r, 4 <= r <= 7 \/ 12 <= r <= 13 -> Y r = X r) -> (forall a, sp - 28 <= a -> a + 4 <= sp + 12 -> ld M2 a = ld M1 a) ->
    reach c org (St X (org + 120) M) (St Y p M2) -> exists X1, reach c org (St X (org + 120) M) (St X1 (X0 16) (store_result c flags rv sp X M)) /\
    X1 11 = X0 11 /\ X1 14 = sp /\ X1 15 = X0 15 /\ (forall r, 4 <= r <= 7 \/ 12 <= r <= 13 -> X1 r = X r)).
  { intros Y p M2 -> <- Y15 YS E R. destruct (Tail Y M2 Y15 YS E) as (X1 & R2 & Q). exists X1. split; [eapply reach_trans; eauto|exact Q]. }
  assert (C : flags = 0 \/ flags = 1 \/ flags = 2 \/ flags = 3 \/ flags = 4) by lia.
  unfold store_result in Fin |- *. cbv zeta in Fin |- *. fold M1 in Fin |- *.
  destruct C as [C|[C|[C|[C|C]]]]; rewrite C in Mid, Fin, Hrv |- *; cbn [Z.eqb Pos.eqb] in *.
  - destruct (Mid 19 eq_refl ltac:(lia)) as (Y & R & Y0 & Y1 & Y15 & YS). apply (Fin Y (org + 188 + 4 * 19) M1); auto. lia.
  - destruct (Mid 5 eq_refl ltac:(lia)) as (Y & R & Y0 & Y1 & Y15 & YS). destruct Hrv as (V1 & V2 & V3); [lia|].
    assert (N : exists Z, reach c org (St Y (org + 188 + 4 * 5) M1) (St Z (org + 264) (stw M1 rv (X 0 mod 256))) /\ Z 15 = sp - 8 /\ (forall r, 4 <= r <= 7 \/ 12 <= r <= 13 -> Z r = X r)).
    { eexists. split.
      { step2 52%nat ltac:(rewrite ?Y15, ?GR). step2 53%nat ltac:(rewrite ?Y0). step2 54%nat ltac:(rewrite ?Z.add_0_r). step2 55%nat idtac. rewrite ?Z.add_0_r, ?Y0, ?Y1. replace (org + 4 * 66) with (org + 264) by lia. apply reach_refl. }
      regs. split; [exact Y15|]. intros r Hr. rewrite !upd_other by lia. apply YS, Hr. }
    destruct N as (Z & R2 & Z15 & ZS). eapply (Fin Z _ _ eq_refl eq_refl Z15 ZS); [|eapply reach_trans; [exact R|exact R2]].
    intros b A1 A2. apply ld_other. lia.
  - destruct (Mid 9 eq_refl ltac:(lia)) as (Y & R & Y0 & Y1 & Y15 & YS). destruct Hrv as (V1 & V2 & V3); [lia|].
    assert (N : exists Z, reach c org (St Y (org + 188 + 4 * 9) M1) (St Z (org + 264) (stw M1 rv (wrap32 (if g_sign c then to_signed 16 (X 0 mod 65536) else X 0 mod 65536)))) /\ Z 15 = sp - 8 /\ (forall r, 4 <= r <= 7 \/ 12 <= r <= 13 -> Z r = X r)).
    { eexists. split.
      { step2 56%nat ltac:(rewrite ?Y15, ?GR). eapply (reach_step c org (Half 0) 57%nat); [lia|reflexivity|unfold exec; cbn [sx spc sm]; regs; rewrite Y0; reflexivity|]. rewrite (wrap32_small (org + 188 + 4 * 9 + 4 + 4)) by lia. step2 58%nat ltac:(rewrite ?Z.add_0_r). step2 59%nat idtac. rewrite ?Z.add_0_r, ?Y0, ?Y1. replace (org + 4 * 66) with (org + 264) by lia. apply reach_refl. }
      regs. split; [exact Y15|]. intros r Hr. rewrite !upd_other by lia. apply YS, Hr. }
    destruct N as (Z & R2 & Z15 & ZS). eapply (Fin Z _ _ eq_refl eq_refl Z15 ZS); [|eapply reach_trans; [exact R|exact R2]].
    intros b A1 A2. apply ld_other. lia.
  - destruct (Mid 13 eq_refl ltac:(lia)) as (Y & R & Y0 & Y1 & Y15 & YS). destruct Hrv as (V1 & V2 & V3); [lia|].
    assert (N : exists Z, reach c org (St Y (org + 188 + 4 * 13) M1) (St Z (org + 264) (stw (stw M1 rv (X 0)) (rv + 4) (X 1))) /\ Z 15 = sp - 8 /\ (forall r, 4 <= r <= 7 \/ 12 <= r <= 13 -> Z r = X r)).
    { eexists. split.
      { step2 60%nat ltac:(rewrite ?Y15, ?GR). step2 61%nat ltac:(rewrite ?Y0, ?Z.add_0_r). step2 62%nat ltac:(rewrite ?Y1). step2 63%nat idtac. rewrite ?Z.add_0_r, ?Y0, ?Y1. replace (org + 4 * 66) with (org + 264) by lia. apply reach_refl. }
      regs. split; [exact Y15|]. intros r Hr. rewrite !upd_other by lia. apply YS, Hr. }
    destruct N as (Z & R2 & Z15 & ZS). eapply (Fin Z _ _ eq_refl eq_refl Z15 ZS); [|eapply reach_trans; [exact R|exact R2]].
    intros b A1 A2. rewrite !ld_other by lia. reflexivity.
  - destruct (Mid 17 eq_refl ltac:(lia)) as (Y & R & Y0 & Y1 & Y15 & YS). destruct Hrv as (V1 & V2 & V3); [lia|].
    assert (N : exists Z, reach c org (St Y (org + 188 + 4 * 17) M1) (St Z (org + 264) (stw M1 rv (X 0))) /\ Z 15 = sp - 8 /\ (forall r, 4 <= r <= 7 \/ 12 <= r <= 13 -> Z r = X r)).
    { eexists. split.
      { step2 64%nat ltac:(rewrite ?Y15, ?GR). step2 65%nat ltac:(rewrite ?Y0, ?Z.add_0_r). rewrite ?Z.add_0_r, ?Y0, ?Y1. replace (org + 188 + 4 * 17 + 4 + 4) with (org + 264) by lia. apply reach_refl. }
      regs. split; [exact Y15|]. intros r Hr. rewrite !upd_other by lia. apply YS, Hr. }
    destruct N as (Z & R2 & Z15 & ZS). eapply (Fin Z _ _ eq_refl eq_refl Z15 ZS); [|eapply reach_trans; [exact R|exact R2]].
    intros b A1 A2. apply ld_other. lia.
Qed.
