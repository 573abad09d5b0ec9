(** The routines of src/s390/sysv.S, run. *)
From Coq Require Import ZifyBool ZifyNat.
From Verif Require Import Base BaseFacts ByteMem S390Model S390Spec S390Facts S390AsmModel.
Local Open Scope Z_scope.
Local Arguments Z.mul : simpl never.
Local Arguments Z.add : simpl never.
Local Arguments Z.sub : simpl never.
Local Arguments Z.pow : simpl never.
Local Arguments Z.of_nat : simpl never.
Local Arguments be_enc : simpl never.
Local Arguments be_dec : simpl never.
Local Arguments rd : simpl never.

Lemma reach_refl e t org s : reach e t org s s.
Proof. exists O. reflexivity. Qed.
Lemma reach_trans e t org a b c : reach e t org a b -> reach e t org b c -> reach e t org a c.
Proof.
  intros [n Hn] [k Hk]. exists (n + k)%nat. revert a Hn. induction n as [|n IH]; intros a Hn.
  - injection Hn as ->. exact Hk.
  - cbn [steps Nat.add] in *. destruct (step e t org a); [|discriminate]. apply IH, Hn.
Qed.
Lemma reach_step e t org i k X F M s1 s' :
  at_off t k = Some i -> exec e i (St X F (org + k) M) = Some s1 -> reach e t org s1 s' -> reach e t org (St X F (org + k) M) s'.
Proof.
  intros A E [n H]. exists (S n). cbn [steps]. unfold step. cbn [spc].
  replace (org + k - org) with k by lia. rewrite A, E. exact H.
Qed.

Lemma wrap64_small a : 0 <= a < 2 ^ 64 -> wrap64 a = a.
Proof. unfold wrap64, wrap. apply Z.mod_small. Qed.
Lemma upd_same f r v : upd f r v r = v.
Proof. unfold upd. rewrite Z.eqb_refl. reflexivity. Qed.
Lemma upd_other f r v x : (x =? r) = false -> upd f r v x = f x.
Proof. intros H. unfold upd. rewrite H. reflexivity. Qed.
Lemma fits_ok a n : 0 <= a -> a + n <= 2 ^ 64 -> fits a n = true.
Proof. unfold fits. lia. Qed.

Ltac regs := repeat first [rewrite upd_same | rewrite upd_other by reflexivity].
Ltac nowrap := repeat match goal with |- context [wrap64 ?a] => rewrite (wrap64_small a) by lia end.
Ltac lens := repeat match goal with |- context [len ?i] => let n := eval vm_compute in (len i) in change (len i) with n end.
Ltac pcn org :=
  let go p c :=
    let n := eval vm_compute in c in
    lazymatch n with Z0 => replace p with (org + n) by lia | Zpos _ => replace p with (org + n) by lia | _ => idtac end in
  lazymatch goal with
  | |- reach _ _ _ (St _ _ (org + ?c) _) _ => idtac
  | |- reach _ _ _ (St _ _ (org + ?c + ?d) _) _ => go (org + c + d) (c + d)
  | _ => idtac
  end.
(** Numbers that come from register lists. *)
Ltac counts := repeat match goal with
  | |- context [?a - ?b + 1] => let n := eval vm_compute in (a - b + 1) in lazymatch n with Zpos _ => change (a - b + 1) with n end
  end;
  repeat match goal with |- context [Z.to_nat (Zpos ?p)] => let n := eval vm_compute in (Z.to_nat (Zpos p)) in change (Z.to_nat (Zpos p)) with n end;
  repeat match goal with |- context [8 * Zpos ?p] => let n := eval vm_compute in (8 * Zpos p) in change (8 * Zpos p) with n end;
  repeat match goal with |- context [0 <? Zpos ?p] => change (0 <? Zpos p) with true end.

Ltac exec1 tac :=
  unfold exec; cbn [sx sf spc sm andb]; regs;
  repeat match goal with |- context [Zpos ?p =? 0] => change (Zpos p =? 0) with false end; cbn match; regs;
  lens; tac; nowrap; tac; counts;
  repeat match goal with |- context [fits ?a ?n] => rewrite (fits_ok a n) by lia end;
  cbn [andb];
  reflexivity.
Ltac step2 org tac :=
  lazymatch goal with
  | |- reach ?e ?t org (St ?X ?F (org + ?k) ?M) _ =>
    let i := eval vm_compute in (at_off t k) in
    lazymatch i with
    | Some ?i => eapply (reach_step e t org i k X F M); [vm_compute; reflexivity|exec1 tac|regs; pcn org]
    end
  end.

Lemma label_1 org : at_label src org 1 = org.
Proof. change (at_label src org 1) with (org + 0). lia. Qed.
Lemma label_2 org : at_label src org 2 = org + 80.
Proof. reflexivity. Qed.
Lemma label_4 org : at_label src org 4 = org + 144.
Proof. reflexivity. Qed.
Lemma label_5 org : at_label src org 5 = org + 176.
Proof. reflexivity. Qed.
Lemma label_7 org : at_label src org 7 = org + 264.
Proof. reflexivity. Qed.

Ltac ze := rewrite ?be_enc_zlen; change (Z.of_nat 8) with 8; change (Z.of_nat 4) with 4.
Ltac rs := apply rd_wr_same; rewrite be_enc_length; reflexivity.
Ltac ro := rewrite rd_wr_other by (ze; lia).

(** ffi_call_SYSV up to the call. *)
Lemma run_enter e org X F M fr code fn :
  0 <= org -> org + 512 <= 2 ^ 64 ->
  X 2 = fr -> X 3 = code -> X 5 = fn -> 0 <= code <= 4 -> 0 <= X 15 -> X 15 + 8 <= fr -> fr + 160 <= 2 ^ 64 ->
  exists X1 F1 M1,
    reach e text org (St X F (at_label src org 1) M) (St X1 F1 fn M1) /\
    X1 0 = X 6 /\ X1 12 = X 4 /\ X1 13 = fr /\ X1 14 = at_label src org 2 + 8 * code /\
    (forall r, 2 <= r <= 6 -> X1 r = be_dec (rd M (fr + 16 + 8 * (r - 2)) 8)) /\
    (forall r, 7 <= r <= 11 \/ r = 15 -> X1 r = X r) /\
    F1 0 = be_dec (rd M (fr + 128) 8) /\ F1 2 = be_dec (rd M (fr + 136) 8) /\ F1 4 = be_dec (rd M (fr + 144) 8) /\ F1 6 = be_dec (rd M (fr + 152) 8) /\
    (forall r, 8 <= r -> F1 r = F r) /\
    rd M1 (fr + 88) 32 = be_enc 8 (X 6) ++ be_enc 8 (X 12) ++ be_enc 8 (X 13) ++ be_enc 8 (X 14) /\
    (forall x, ~ (X 15 <= x < X 15 + 8) -> ~ (fr + 88 <= x < fr + 120) -> M1 x = M x) /\
    (bytes_in M -> bytes_in M1).
Proof.
  intros Ho Ho2 H2 H3 H5 Hc S0 Sf Hf.
  set (m1 := wr (wr (wr (wr (wr M (fr + 88) (be_enc 8 (X 6))) (fr + 96) (be_enc 8 (X 12))) (fr + 96 + 8) (be_enc 8 (X 13))) (fr + 96 + 8 + 8) (be_enc 8 (X 14))) (X 15 + 0) (be_enc 8 fr)).
  assert (Lo : forall x, ~ (X 15 <= x < X 15 + 8) -> ~ (fr + 88 <= x < fr + 120) -> m1 x = M x).
  { intros x N1 N2. unfold m1. rewrite !wr_out by (ze; lia). reflexivity. }
  assert (Sv : rd m1 (fr + 88) 32 = be_enc 8 (X 6) ++ be_enc 8 (X 12) ++ be_enc 8 (X 13) ++ be_enc 8 (X 14)).
  { unfold m1. ro. change 32%nat with (8 + (8 + (8 + 8)))%nat. rewrite !rd_app. change (Z.of_nat 8) with 8.
    repeat f_equal.
    - do 3 ro. rs.
    - replace (fr + 88 + 8) with (fr + 96) by lia. do 2 ro. rs.
    - replace (fr + 88 + 8 + 8) with (fr + 96 + 8) by lia. ro. rs.
    - replace (fr + 88 + 8 + 8 + 8) with (fr + 96 + 8 + 8) by lia. rs. }
  assert (Rd : forall k, 16 <= k <= 48 \/ 128 <= k <= 152 -> rd m1 (fr + k) 8 = rd M (fr + k) 8).
  { intros k Hk. apply rd_ext. change (Z.of_nat 8) with 8. intros x Hx. apply Lo; lia. }
  assert (Em : wr (wr (wr (wr (wr M (fr + 88) (be_enc 8 (X 6))) (fr + 96) (be_enc 8 (X 12))) (fr + 96 + 8) (be_enc 8 (X 13))) (fr + 96 + 8 + 8) (be_enc 8 (X 14))) (X 15 + 0) (be_enc 8 fr) = m1) by reflexivity.
  assert (Bm : bytes_in M -> bytes_in m1) by (intros B; unfold m1; repeat (apply wr_bytes; [|apply be_enc_ok]); exact B).
  clearbody m1.
  set (Xa := upd (upd (upd (upd (upd (upd (upd X 13 fr) 14 (org + 80)) 3 (8 * code)) 12 (X 4)) 1 fn) 0 (X 6)) 14 (org + 80 + 8 * code)).
  set (X1 := lmg m1 2 (fr + 16) 5 Xa).
  set (F1 := upd (upd (upd (upd F 0 (be_dec (rd m1 (fr + 128) 8))) 2 (be_dec (rd m1 (fr + 136) 8))) 4 (be_dec (rd m1 (fr + 144) 8))) 6 (be_dec (rd m1 (fr + 152) 8))).
  exists X1, F1, m1. split.
  { rewrite label_1. replace (St X F org M) with (St X F (org + 0) M) by (f_equal; lia).
    assert (Sl : Z.shiftl code 3 = 8 * code) by (rewrite Z.shiftl_mul_pow2 by lia; lia).
    step2 org ltac:(rewrite ?H2).
    step2 org ltac:(rewrite ?H2). cbn [stmg]. change (12 + 1) with 13. change (13 + 1) with 14.
    step2 org ltac:(rewrite ?H2).
    step2 org ltac:(rewrite ?H2). rewrite ?H2, Em.
    step2 org idtac.
    step2 org ltac:(rewrite ?H3, ?Sl).
    step2 org idtac.
    step2 org ltac:(rewrite ?H5).
    step2 org idtac.
    step2 org idtac. replace (org + 22 + 58) with (org + 80) by lia. fold Xa.
    assert (A13 : Xa 13 = fr) by reflexivity.
    step2 org ltac:(rewrite ?A13). fold X1.
    assert (B13 : X1 13 = fr) by reflexivity. assert (B1 : X1 1 = fn) by reflexivity.
    do 4 (step2 org ltac:(rewrite ?B13)).
    step2 org ltac:(rewrite ?B1). fold F1. rewrite B1 || idtac. apply reach_refl. }
  split; [reflexivity|]. split; [reflexivity|]. split; [reflexivity|]. split; [rewrite label_2; reflexivity|].
  split.
  { intros r Hr. assert (D : r = 2 \/ r = 3 \/ r = 4 \/ r = 5 \/ r = 6) by lia.
    unfold X1. cbn [lmg].
    destruct D as [D|[D|[D|[D|D]]]]; subst r; change (2 + 1) with 3; change (3 + 1) with 4; change (4 + 1) with 5; change (5 + 1) with 6; regs; f_equal; rewrite <- !Z.add_assoc; apply Rd; lia. }
  split. { intros r Hr. unfold X1, Xa. cbn [lmg]. rewrite !upd_other by lia. reflexivity. }
  unfold F1. regs. split; [f_equal; apply Rd; lia|]. split; [f_equal; apply Rd; lia|]. split; [f_equal; apply Rd; lia|]. split; [f_equal; apply Rd; lia|].
  split. { intros r Hr. rewrite !upd_other by lia. reflexivity. }
  split; [exact Sv|]. split; [exact Lo|exact Bm].
Qed.

Lemma rd32 M a p q r s : rd M a 32 = be_enc 8 p ++ be_enc 8 q ++ be_enc 8 r ++ be_enc 8 s ->
  rd M a 8 = be_enc 8 p /\ rd M (a + 8) 8 = be_enc 8 q /\ rd M (a + 16) 8 = be_enc 8 r /\ rd M (a + 24) 8 = be_enc 8 s.
Proof.
  change 32%nat with (8 + (8 + (8 + 8)))%nat. rewrite !rd_app. change (Z.of_nat 8) with 8. intros H.
  assert (Sp : forall A (a b c d : list A), length a = length c -> a ++ b = c ++ d -> a = c /\ b = d).
  { intros A. induction a0 as [|x a0 IH]; intros b [|y c] d Hl He; try discriminate Hl; [auto|]. cbn in He. injection He as -> He. cbn in Hl. destruct (IH b c d) as [-> ->]; auto. }
  apply Sp in H; [|rewrite rd_length, be_enc_length; reflexivity]. destruct H as [H1 H].
  apply Sp in H; [|rewrite rd_length, be_enc_length; reflexivity]. destruct H as [H2 H].
  apply Sp in H; [|rewrite rd_length, be_enc_length; reflexivity]. destruct H as [H3 H].
  replace (a + 16) with (a + 8 + 8) by lia. replace (a + 24) with (a + 8 + 8 + 8) by lia. auto.
Qed.
Lemma dec_enc8 x : 0 <= x < 2 ^ 64 -> be_dec (be_enc 8 x) = x.
Proof. intros H. rewrite be_dec_enc. apply Z.mod_small. exact H. Qed.

(** The table and the way back. *)
Definition table_bytes (code : Z) (x2 f0 : Z) : list Z :=
  match code with 0 => be_enc 8 f0 | 1 => be_enc 4 (Z.shiftr f0 32) | 2 => be_enc 8 x2 | _ => [] end.

Lemma run_leave e org X F M fr code P a6 a12 a13 ra :
  0 <= org -> org + 512 <= 2 ^ 64 ->
  X 13 = fr -> X 12 = P -> (code = 0 \/ code = 1 \/ code = 2 \/ code = 4) -> 0 <= fr -> fr + 160 <= 2 ^ 64 ->
  (code <> 4 -> 0 <= P /\ P + 8 <= 2 ^ 64 /\ (P + 8 <= fr + 88 \/ fr + 120 <= P)) ->
  rd M (fr + 88) 32 = be_enc 8 a6 ++ be_enc 8 a12 ++ be_enc 8 a13 ++ be_enc 8 ra ->
  0 <= a6 < 2 ^ 64 -> 0 <= a12 < 2 ^ 64 -> 0 <= a13 < 2 ^ 64 -> 0 <= ra < 2 ^ 64 ->
  exists X1 M1,
    reach e text org (St X F (at_label src org 2 + 8 * code) M) (St X1 F ra M1) /\
    X1 6 = a6 /\ X1 12 = a12 /\ X1 13 = a13 /\ (forall r, r <> 6 -> r <> 12 -> r <> 13 -> r <> 14 -> X1 r = X r) /\
    rd M1 P (length (table_bytes code (X 2) (F 0))) = table_bytes code (X 2) (F 0) /\
    (forall x, ~ (P <= x < P + zlen (table_bytes code (X 2) (F 0))) -> M1 x = M x).
Proof.
  intros Ho Ho2 H13 H12 Hc F0 Hf Hp Sv R6 R12 R13 Rra.
  destruct (rd32 _ _ _ _ _ _ Sv) as (S6 & S12 & S13 & S14).
  replace (fr + 88 + 8) with (fr + 96) in S12 by lia. replace (fr + 88 + 16) with (fr + 104) in S13 by lia. replace (fr + 88 + 24) with (fr + 112) in S14 by lia.
  set (M1 := if code =? 4 then M else wr M P (table_bytes code (X 2) (F 0))).
  assert (Lb : zlen (table_bytes code (X 2) (F 0)) <= 8).
  { destruct Hc as [->|[->|[->| ->]]]; cbn [table_bytes]; rewrite ?be_enc_zlen; unfold zlen; cbn; lia. }
  assert (Rd : forall k, 88 <= k <= 112 -> rd M1 (fr + k) 8 = rd M (fr + k) 8).
  { intros k Hk. unfold M1. destruct (code =? 4) eqn:E; [reflexivity|]. apply rd_wr_other. change (Z.of_nat 8) with 8. lia. }
  assert (T6 : be_dec (rd M1 (fr + 88) 8) = a6) by (rewrite Rd, S6 by lia; apply dec_enc8, R6).
  assert (T12 : be_dec (rd M1 (fr + 96) 8) = a12) by (rewrite Rd, S12 by lia; apply dec_enc8, R12).
  assert (T13 : be_dec (rd M1 (fr + 104) 8) = a13) by (rewrite Rd, S13 by lia; apply dec_enc8, R13).
  assert (T14 : be_dec (rd M1 (fr + 112) 8) = ra) by (rewrite Rd, S14 by lia; apply dec_enc8, Rra).
  set (X1 := upd (upd (upd (upd X 14 ra) 12 a12) 6 a6) 13 a13).
  assert (Done : reach e text org (St X F (org + 112) M1) (St X1 F ra M1)).
  { step2 org ltac:(rewrite ?H13). rewrite T14.
    step2 org ltac:(rewrite ?H13). rewrite T12.
    step2 org ltac:(rewrite ?H13). rewrite T6.
    step2 org ltac:(rewrite ?H13). rewrite T13.
    step2 org idtac. apply reach_refl. }
  exists X1, M1. split.
  { rewrite label_2. revert Done. unfold M1. destruct Hc as [->|[->|[->| ->]]]; cbn [table_bytes Z.eqb Pos.eqb]; intros Done.
    - replace (org + 80 + 8 * 0) with (org + 80) by lia. step2 org ltac:(rewrite ?H12, ?Z.add_0_r). step2 org idtac. exact Done.
    - replace (org + 80 + 8 * 1) with (org + 88) by lia. step2 org ltac:(rewrite ?H12, ?Z.add_0_r). step2 org idtac. exact Done.
    - replace (org + 80 + 8 * 2) with (org + 96) by lia. step2 org ltac:(rewrite ?H12, ?Z.add_0_r). do 3 step2 org idtac. exact Done.
    - replace (org + 80 + 8 * 4) with (org + 112) by lia. exact Done. }
  split; [reflexivity|]. split; [reflexivity|]. split; [reflexivity|].
  split. { intros r N1 N2 N3 N4. unfold X1. rewrite !upd_other by lia. reflexivity. }
  unfold M1. destruct (code =? 4) eqn:E.
  - assert (code = 4) as -> by lia. cbn. split; [reflexivity|auto].
  - split; [apply rd_wr_same; reflexivity|]. intros x Hx. apply wr_out, Hx.
Qed.

(** Closure entry, up to the call of the helper.  [o] tells a Go closure from another one. *)
Lemma run_closure (o : bool) e org X F M clo :
  0 <= org -> org + 512 <= 2 ^ 64 -> 0 <= e < 2 ^ 64 ->
  X 0 = clo -> 0 <= clo -> clo + 56 <= 2 ^ 64 -> 176 <= X 15 -> X 15 + 168 <= 2 ^ 64 ->
  (clo + 56 <= X 15 + 16 \/ X 15 + 56 <= clo) ->
  let sp := X 15 in
  exists X1 M1,
    reach e text org (St X F (at_label src org (if o then 4 else 5)) M) (St X1 F e M1) /\
    X1 2 = be_dec (rd M (clo + (if o then 8 else 32)) 8) /\ X1 3 = be_dec (rd M (clo + (if o then 16 else 40)) 8) /\
    X1 4 = (if o then clo else be_dec (rd M (clo + 48) 8)) /\
    X1 5 = sp + 16 /\ X1 6 = sp + 128 /\ be_dec (rd M1 (X1 15 + 160) 8) = sp + 160 /\ X1 14 = at_label src org 7 /\
    X1 13 = sp /\ X1 15 = sp - 176 /\ (forall r, 7 <= r <= 12 -> X1 r = X r) /\
    (forall r, 2 <= r <= 6 -> rd M1 (sp + 16 + 8 * (r - 2)) 8 = be_enc 8 (X r)) /\
    rd M1 (sp + 128) 8 = be_enc 8 (F 0) /\ rd M1 (sp + 136) 8 = be_enc 8 (F 2) /\ rd M1 (sp + 144) 8 = be_enc 8 (F 4) /\ rd M1 (sp + 152) 8 = be_enc 8 (F 6) /\
    rd M1 (sp + 104) 8 = be_enc 8 (X 13) /\ rd M1 (sp + 112) 8 = be_enc 8 (X 14) /\
    (forall x, ~ (sp - 176 <= x < sp - 168) -> ~ (sp - 16 <= x < sp - 8) -> ~ (sp + 16 <= x < sp + 56) -> ~ (sp + 104 <= x < sp + 160) -> M1 x = M x).
Proof.
  intros Ho Ho2 He Hclo C0 C1 S0 S1 Dis sp. unfold sp.
  set (ma := stmg X 2 (X 15 + 16) 5 M).
  assert (Ea : ma = wr (wr (wr (wr (wr M (X 15 + 16) (be_enc 8 (X 2))) (X 15 + 24) (be_enc 8 (X 3))) (X 15 + 32) (be_enc 8 (X 4))) (X 15 + 40) (be_enc 8 (X 5))) (X 15 + 48) (be_enc 8 (X 6))).
  { unfold ma. cbn [stmg]. change (2 + 1) with 3. change (3 + 1) with 4. change (4 + 1) with 5. change (5 + 1) with 6. rewrite <- !Z.add_assoc. reflexivity. }
  assert (La : forall x, ~ (X 15 + 16 <= x < X 15 + 56) -> ma x = M x).
  { intros x Hx. rewrite Ea. rewrite !wr_out by (ze; lia). reflexivity. }
  assert (Rc : forall k, 0 <= k <= 48 -> rd ma (clo + k) 8 = rd M (clo + k) 8).
  { intros k Hk. apply rd_ext. change (Z.of_nat 8) with 8. intros x Hx. apply La. lia. }
  set (Xb := upd (upd (upd X 4 (if o then clo else be_dec (rd M (clo + 48) 8))) 2 (be_dec (rd M (clo + (if o then 8 else 32)) 8))) 3 (be_dec (rd M (clo + (if o then 16 else 40)) 8))).
  (* common part *)
  assert (Mid : forall Xc, (forall r, Xc r = Xb r) -> exists X1 M1,
    reach e text org (St Xc F (org + 204) ma) (St X1 F e M1) /\
    (forall r, r <> 5 -> r <> 6 -> r <> 13 -> r <> 14 -> r <> 15 -> X1 r = Xb r) /\ X1 5 = X 15 + 16 /\ X1 6 = X 15 + 128 /\ X1 13 = X 15 /\ X1 14 = org + 264 /\ X1 15 = X 15 - 176 /\
    M1 = wr (wr (wr (wr (wr (wr (wr (wr (wr ma (X 15 + 104) (be_enc 8 (X 13))) (X 15 + 112) (be_enc 8 (X 14))) (X 15 + 120) (be_enc 8 (X 15))) (X 15 - 176) (be_enc 8 (X 15)))
      (X 15 + 128) (be_enc 8 (F 0))) (X 15 + 136) (be_enc 8 (F 2))) (X 15 + 144) (be_enc 8 (F 4))) (X 15 + 152) (be_enc 8 (F 6))) (X 15 - 16) (be_enc 8 (X 15 + 160))).
  { intros Xc Ec. assert (E13 : Xc 13 = X 13) by (rewrite Ec; reflexivity). assert (E14 : Xc 14 = X 14) by (rewrite Ec; reflexivity). assert (E15 : Xc 15 = X 15) by (rewrite Ec; reflexivity).
    eexists _, _. split.
    { step2 org ltac:(rewrite ?E15). cbn [stmg]. change (13 + 1) with 14. change (14 + 1) with 15. rewrite E13, E14, E15.
      step2 org ltac:(rewrite ?E15). rewrite ?E15.
      step2 org ltac:(rewrite ?E15).
      step2 org ltac:(rewrite ?E15).
      do 4 (step2 org ltac:(rewrite ?E15)).
      step2 org ltac:(rewrite ?E15).
      step2 org ltac:(rewrite ?E15).
      step2 org ltac:(rewrite ?E15).
      step2 org ltac:(rewrite ?E15).
      step2 org ltac:(rewrite ?E15).
      apply reach_refl. }
    split. { intros r N1 N2 N3 N4 N5. rewrite !upd_other by lia. apply Ec. }
    regs. split; [reflexivity|]. split; [reflexivity|]. split; [reflexivity|]. split; [lia|]. split; [lia|].
    rewrite <- !Z.add_assoc. replace (X 15 + (-176 + 0)) with (X 15 - 176) by lia. replace (X 15 + (-176 + 160)) with (X 15 - 16) by lia. reflexivity. }
  assert (Start : exists Xc, (forall r, Xc r = Xb r) /\ reach e text org (St X F (at_label src org (if o then 4 else 5)) M) (St Xc F (org + 204) ma)).
  { destruct o.
    - eexists. split; [|rewrite label_4; step2 org idtac; fold ma; step2 org idtac; step2 org ltac:(rewrite ?Hclo); step2 org ltac:(rewrite ?Hclo); step2 org idtac; apply reach_refl].
      intros r. unfold Xb. rewrite ?Hclo, !Rc by lia. unfold upd.
      destruct (r =? 2) eqn:E2, (r =? 3) eqn:E3, (r =? 4) eqn:E4; try lia; reflexivity.
    - eexists. split; [|rewrite label_5; step2 org idtac; fold ma; step2 org idtac; step2 org ltac:(rewrite ?Hclo); step2 org ltac:(rewrite ?Hclo); step2 org ltac:(rewrite ?Hclo); apply reach_refl].
      intros r. unfold Xb. rewrite ?Hclo, !Rc by lia. unfold upd.
      destruct (r =? 2) eqn:E2, (r =? 3) eqn:E3, (r =? 4) eqn:E4; try lia; reflexivity. }
  destruct Start as (Xc & Ec & R1). destruct (Mid Xc Ec) as (X1 & M1 & R2 & Xo & X5 & X6 & X13 & X14 & X15 & EM).
  exists X1, M1. split; [eapply reach_trans; eauto|].
  split; [rewrite Xo by lia; reflexivity|]. split; [rewrite Xo by lia; reflexivity|]. split; [rewrite Xo by lia; reflexivity|].
  split; [exact X5|]. split; [exact X6|].
  split. { rewrite X15. replace (X 15 - 176 + 160) with (X 15 - 16) by lia. rewrite EM, rd_wr_same by (rewrite be_enc_length; reflexivity). apply dec_enc8. lia. }
  split; [rewrite label_7; exact X14|]. split; [exact X13|]. split; [exact X15|].
  split. { intros r Hr. rewrite Xo by lia. unfold Xb. rewrite !upd_other by lia. reflexivity. }
  split.
  { intros r Hr. rewrite EM. do 9 ro. rewrite Ea. assert (D : r = 2 \/ r = 3 \/ r = 4 \/ r = 5 \/ r = 6) by lia.
    destruct D as [D|[D|[D|[D|D]]]]; subst r.
    - replace (X 15 + 16 + 8 * (2 - 2)) with (X 15 + 16) by lia. do 4 ro. rs.
    - replace (X 15 + 16 + 8 * (3 - 2)) with (X 15 + 24) by lia. do 3 ro. rs.
    - replace (X 15 + 16 + 8 * (4 - 2)) with (X 15 + 32) by lia. do 2 ro. rs.
    - replace (X 15 + 16 + 8 * (5 - 2)) with (X 15 + 40) by lia. do 1 ro. rs.
    - replace (X 15 + 16 + 8 * (6 - 2)) with (X 15 + 48) by lia. rs. }
  rewrite EM. split; [do 4 ro; rs|]. split; [do 3 ro; rs|]. split; [do 2 ro; rs|]. split; [do 1 ro; rs|].
  split; [do 8 ro; rs|]. split; [do 7 ro; rs|].
  intros x N1 N2 N3 N4. rewrite !wr_out by (ze; lia). apply La. lia.
Qed.

(** Back from the helper. *)
Lemma run_back e org X F M sp a13 ra :
  0 <= org -> org + 512 <= 2 ^ 64 ->
  X 13 = sp -> 0 <= sp -> sp + 160 <= 2 ^ 64 ->
  rd M (sp + 104) 8 = be_enc 8 a13 -> rd M (sp + 112) 8 = be_enc 8 ra -> 0 <= a13 < 2 ^ 64 -> 0 <= ra < 2 ^ 64 ->
  exists X1 F1,
    reach e text org (St X F (at_label src org 7) M) (St X1 F1 ra M) /\
    X1 2 = be_dec (rd M (sp + 16) 8) /\ X1 6 = be_dec (rd M (sp + 48) 8) /\ X1 13 = a13 /\ X1 15 = sp /\
    (forall r, 7 <= r <= 12 -> X1 r = X r) /\ F1 0 = be_dec (rd M (sp + 128) 8) /\ (forall r, r <> 0 -> F1 r = F r).
Proof.
  intros Ho Ho2 H13 S0 S1 R13 R14 B13 B14.
  eexists _, _. split.
  { rewrite label_7. step2 org ltac:(rewrite ?H13). rewrite ?H13.
    step2 org ltac:(rewrite ?H13). cbn [lmg]. change (13 + 1) with 14. rewrite <- !Z.add_assoc. change (104 + 8) with 112.
    rewrite R13, R14, !dec_enc8 by assumption.
    do 4 (step2 org idtac). apply reach_refl. }
  regs. split; [reflexivity|]. split; [reflexivity|]. split; [reflexivity|]. split; [reflexivity|].
  split. { intros r Hr. rewrite !upd_other by lia. reflexivity. }
  split; [reflexivity|]. intros r Hr. rewrite !upd_other by lia. reflexivity.
Qed.

(** A dynamic trampoline. *)
Lemma run_dynamic X F M code p q : 0 <= code -> code + 32 <= 2 ^ 64 ->
  rd M code 10 = template -> rd M (code + 16) 8 = be_enc 8 p -> rd M (code + 24) 8 = be_enc 8 q -> 0 <= p < 2 ^ 64 -> 0 <= q < 2 ^ 64 ->
  exists X1, msteps 3 (St X F code M) = Some (St X1 F q M) /\ X1 0 = p /\ X1 1 = q /\ (forall r, 2 <= r -> X1 r = X r).
Proof.
  intros C0 C1 T Rp Rq Bp Bq.
  assert (Tb : forall k, (k < 10)%nat -> M (code + Z.of_nat k) = nth k template 0).
  { intros k Hk. rewrite <- T, rd_nth by lia. reflexivity. }
  assert (T0 := Tb 0%nat ltac:(lia)). assert (T1 := Tb 1%nat ltac:(lia)). assert (T2 := Tb 2%nat ltac:(lia)). assert (T3 := Tb 3%nat ltac:(lia)). assert (T4 := Tb 4%nat ltac:(lia)).
  assert (T5 := Tb 5%nat ltac:(lia)). assert (T6 := Tb 6%nat ltac:(lia)). assert (T7 := Tb 7%nat ltac:(lia)). assert (T8 := Tb 8%nat ltac:(lia)). assert (T9 := Tb 9%nat ltac:(lia)).
  clear Tb T. change (Z.of_nat 0) with 0 in T0. change (Z.of_nat 1) with 1 in T1. change (Z.of_nat 2) with 2 in T2. change (Z.of_nat 3) with 3 in T3. change (Z.of_nat 4) with 4 in T4.
  change (Z.of_nat 5) with 5 in T5. change (Z.of_nat 6) with 6 in T6. change (Z.of_nat 7) with 7 in T7. change (Z.of_nat 8) with 8 in T8. change (Z.of_nat 9) with 9 in T9.
  cbn [nth template] in *.
  assert (D0 : decode M code = Some (Basr 1)).
  { unfold decode. rewrite T0, T1. reflexivity. }
  assert (D1 : decode M (code + 2) = Some (Lmg 0 1 14 1)).
  { unfold decode. rewrite Z.add_0_r. rewrite <- !Z.add_assoc. change (2 + 1) with 3. change (2 + 2) with 4. change (2 + 3) with 5. change (2 + 4) with 6. change (2 + 5) with 7.
    rewrite T2, T3, T4, T5, T6, T7. reflexivity. }
  assert (D2 : decode M (code + 8) = Some (Br 1)).
  { unfold decode. rewrite Z.add_0_r. rewrite <- !Z.add_assoc. change (8 + 1) with 9. rewrite T8, T9. reflexivity. }
  eexists. split.
  { cbn [msteps sm spc]. rewrite D0. unfold exec at 1. cbn [sx sf spc sm]. lens. nowrap. cbn [sm spc]. rewrite D1.
    unfold exec at 1. cbn [sx sf spc sm]. change (1 =? 0) with false. cbn match. regs. lens. nowrap. change (1 - 0 + 1) with 2. change (0 <? 2) with true. change (8 * 2) with 16.
    rewrite fits_ok by lia. cbn [andb sm spc]. replace (code + 2 + 6) with (code + 8) by lia. rewrite D2.
    unfold exec. cbn [sx sf spc sm]. change (Z.to_nat 2) with 2%nat. cbn [lmg]. change (0 + 1) with 1. regs.
    replace (code + 2 + 14) with (code + 16) by lia. replace (code + 16 + 8) with (code + 24) by lia. rewrite Rp, Rq, !dec_enc8 by assumption. reflexivity. }
  regs. split; [reflexivity|]. split; [reflexivity|]. intros r Hr. rewrite !upd_other by lia. reflexivity.
Qed.

(** A static trampoline. *)
Definition slot_b (tx : list (Z * instr)) (i : Z) : bool :=
  match at_off tx (16 * i), at_off tx (16 * i + 2), at_off tx (16 * i + 8) with
  | Some (Basr a), Some (Lmg b c d x), Some (Br r) => (a =? 1) && (b =? 0) && (c =? 1) && (d =? 4094) && (x =? 1) && (r =? 1)
  | _, _, _ => false
  end.
Lemma all_slots : forallb (fun k => slot_b table_text (Z.of_nat k)) (seq 0 256) = true.
Proof. vm_compute. reflexivity. Qed.
Lemma slot_any tx i : slot_b tx i = true ->
  at_off tx (16 * i) = Some (Basr 1) /\ at_off tx (16 * i + 2) = Some (Lmg 0 1 4094 1) /\ at_off tx (16 * i + 8) = Some (Br 1).
Proof.
  unfold slot_b.
  destruct (at_off tx (16 * i)) as [[]|]; try discriminate.
  destruct (at_off tx (16 * i + 2)) as [[]|]; try discriminate.
  destruct (at_off tx (16 * i + 8)) as [[]|]; try discriminate.
  intros B. repeat (apply andb_prop in B; destruct B as [B ?]).
  repeat match goal with H : (_ =? _) = true |- _ => apply Z.eqb_eq in H; subst end. auto.
Qed.
Lemma slot_text i : 0 <= i < 256 -> slot_b table_text i = true.
Proof.
  intros H. pose proof all_slots as A. rewrite forallb_forall in A. specialize (A (Z.to_nat i)). rewrite Z2Nat.id in A by lia.
  apply A, in_seq. lia.
Qed.
Lemma run_slot tx e X F M org i p q : slot_b tx i = true -> 0 <= i < 256 -> 0 <= org -> org + 8192 <= 2 ^ 64 ->
  rd M (org + 4096 + 16 * i) 8 = be_enc 8 p -> rd M (org + 4096 + 16 * i + 8) 8 = be_enc 8 q -> 0 <= p < 2 ^ 64 -> 0 <= q < 2 ^ 64 ->
  exists X1, reach e tx org (St X F (org + 16 * i) M) (St X1 F q M) /\ X1 0 = p /\ X1 1 = q /\ (forall r, 2 <= r -> X1 r = X r).
Proof.
  intros Sb Hi Ho Ho2 Rp Rq Bp Bq. destruct (slot_any tx i Sb) as (T0 & T1 & T2).
  eexists. split.
  { eapply (reach_step e tx org _ (16 * i)); [exact T0|unfold exec; cbn [sx sf spc sm]; lens; nowrap; reflexivity|].
    replace (org + 16 * i + 2) with (org + (16 * i + 2)) by lia.
    eapply (reach_step e tx org _ (16 * i + 2)); [exact T1| |].
    { unfold exec. cbn [sx sf spc sm]. change (1 =? 0) with false. cbn match. regs. lens. nowrap. change (1 - 0 + 1) with 2. change (0 <? 2) with true. change (8 * 2) with 16.
      rewrite fits_ok by lia. cbn [andb]. change (Z.to_nat 2) with 2%nat. cbn [lmg]. change (0 + 1) with 1.
      replace (org + (16 * i + 2) + 4094) with (org + 4096 + 16 * i) by lia. rewrite Rp, Rq, !dec_enc8 by assumption. reflexivity. }
    replace (org + (16 * i + 2) + 6) with (org + (16 * i + 8)) by lia.
    eapply (reach_step e tx org _ (16 * i + 8)); [exact T2|unfold exec; cbn [sx sf spc sm]; regs; reflexivity|]. apply reach_refl. }
  regs. split; [reflexivity|]. split; [reflexivity|]. intros r Hr. rewrite !upd_other by lia. reflexivity.
Qed.
Lemma run_static e X F M org i p q : 0 <= i < 256 -> 0 <= org -> org + 8192 <= 2 ^ 64 ->
  rd M (org + 4096 + 16 * i) 8 = be_enc 8 p -> rd M (org + 4096 + 16 * i + 8) 8 = be_enc 8 q -> 0 <= p < 2 ^ 64 -> 0 <= q < 2 ^ 64 ->
  exists X1, reach e table_text org (St X F (org + 16 * i) M) (St X1 F q M) /\ X1 0 = p /\ X1 1 = q /\ (forall r, 2 <= r -> X1 r = X r).
Proof. intros Hi. apply run_slot; [apply slot_text, Hi|exact Hi]. Qed.
