(** Closures of RISC-V and LoongArch from the call of their code address to ffi_closure_inner. *)
From Coq Require Import ZifyBool ZifyNat.
From Verif Require Import Base BaseFacts ByteMem Types RiscAsmModel RiscAsmFacts RiscAsmCall RiscAsmLeave RiscAsmClo RiscAsmTop.
From Verif Require A64AsmCallAll A64AsmTramp A64AsmEnd.
Local Open Scope Z_scope.
Local Arguments Z.mul : simpl never.
Local Arguments Z.add : simpl never.
Local Arguments Z.sub : simpl never.
Local Arguments Z.pow : simpl never.
Local Arguments Z.of_nat : simpl never.

(** Registers trampolines change. *)
Definition temps (a : arch) (i : Z) : bool := match a with RV => (i =? 6) || (i =? 7) | LA => (i =? 12) || (i =? 13) end.

Lemma le_enc_app n k x : le_enc (n + k) x = le_enc n x ++ le_enc k (x / 2 ^ (8 * Z.of_nat n)).
Proof.
  revert x. induction n as [|n IH]; intros x; cbn [le_enc Nat.add app]; [f_equal; rewrite Z.div_1_r; reflexivity|].
  f_equal. rewrite IH. do 2 f_equal. rewrite Zdiv_Zdiv by (try apply Z.pow_nonneg; lia). f_equal.
  replace (8 * Z.of_nat (S n)) with (8 + 8 * Z.of_nat n) by lia. rewrite Z.pow_add_r by lia. reflexivity.
Qed.
Lemma enc8_split x : le_enc 8 x = le_enc 4 x ++ le_enc 4 (x / 2 ^ 32).
Proof. exact (le_enc_app 4 4 x). Qed.

(** The dynamic trampoline at [p], for the entry point [s]. *)
Lemma dynamic_runs a X V M p s :
  0 <= p -> p + 24 < 2 ^ 64 -> code_addr a s -> rd M p 24 = concat (map (le_enc 4) (tramp_words a)) ++ le_enc 8 s ->
  exists X1, wsteps a 3 (St X V p M) = Some (St X1 V s M) /\ X1 (CLO a) = p /\ (forall i, temps a i = false -> X1 i = X i).
Proof.
  intros Hp1 Hp2 Ws H. pose proof (target_code a s Ws) as Ts.
  change 24%nat with (4 + (4 + (4 + (4 + 8))))%nat in H. rewrite !rd_app in H. change (Z.of_nat 4) with 4 in H.
  replace (concat (map (le_enc 4) (tramp_words a))) with
    (le_enc 4 (nth 0 (tramp_words a) 0) ++ le_enc 4 (nth 1 (tramp_words a) 0) ++ le_enc 4 (nth 2 (tramp_words a) 0) ++ le_enc 4 (nth 3 (tramp_words a) 0)) in H
    by (destruct a; reflexivity).
  rewrite <- !app_assoc in H.
  repeat (apply A64AsmCallAll.app_inj_len in H; [destruct H as [?R H]|rewrite rd_length, le_enc_length; reflexivity]).
  replace (p + 4 + 4) with (p + 8) in * by lia. replace (p + 8 + 4) with (p + 12) in * by lia. replace (p + 12 + 4) with (p + 16) in * by lia.
  destruct a.
  - assert (S1 : wstep RV (St X V p M) = Some (St (upd X 6 p) V (p + 4) M)).
    { unfold wstep. cbn [spc sm]. rewrite fits_ok by lia. cbn [negb]. rewrite R.
      change (decode RV (le_dec (le_enc 4 (nth 0 (tramp_words RV) 0)))) with (Some (AddPc 6 0)). cbn [exec sx sf sm spc].
      rewrite !wrap64_small by lia. rewrite Z.add_0_r. reflexivity. }
    assert (S2 : wstep RV (St (upd X 6 p) V (p + 4) M) = Some (St (upd (upd X 6 p) 7 s) V (p + 8) M)).
    { unfold wstep. cbn [spc sm]. rewrite fits_ok by lia. cbn [negb]. rewrite R0.
      change (decode RV (le_dec (le_enc 4 (nth 1 (tramp_words RV) 0)))) with (Some (Ld 7 6 16)). cbn [exec sx sf sm spc]. regs.
      rewrite !wrap64_small by lia. rewrite fits_ok by lia. rewrite H, A64AsmCallAll.dec_enc8 by apply Ws. do 2 f_equal. lia. }
    assert (S3 : wstep RV (St (upd (upd X 6 p) 7 s) V (p + 8) M) = Some (St (upd (upd X 6 p) 7 s) V s M)).
    { unfold wstep. cbn [spc sm]. rewrite fits_ok by lia. cbn [negb]. rewrite R1.
      change (decode RV (le_dec (le_enc 4 (nth 2 (tramp_words RV) 0)))) with (Some (Jr 7)). cbn [exec sx sf sm spc]. regs. rewrite Ts. reflexivity. }
    eexists. cbn [wsteps]. rewrite S1, S2, S3. split; [reflexivity|]. split; [regs; reflexivity|].
    intros i Hi. cbn [temps] in Hi. rewrite !upd_other by lia. reflexivity.
  - assert (S1 : wstep LA (St X V p M) = Some (St (upd X 12 p) V (p + 4) M)).
    { unfold wstep. cbn [spc sm]. rewrite fits_ok by lia. cbn [negb]. rewrite R.
      change (decode LA (le_dec (le_enc 4 (nth 0 (tramp_words LA) 0)))) with (Some (AddPc 12 0)). cbn [exec sx sf sm spc].
      rewrite !wrap64_small by lia. rewrite Z.add_0_r. reflexivity. }
    assert (S2 : wstep LA (St (upd X 12 p) V (p + 4) M) = Some (St (upd (upd X 12 p) 13 s) V (p + 8) M)).
    { unfold wstep. cbn [spc sm]. rewrite fits_ok by lia. cbn [negb]. rewrite R0.
      change (decode LA (le_dec (le_enc 4 (nth 1 (tramp_words LA) 0)))) with (Some (Ld 13 12 16)). cbn [exec sx sf sm spc]. regs.
      rewrite !wrap64_small by lia. rewrite fits_ok by lia. rewrite H, A64AsmCallAll.dec_enc8 by apply Ws. do 2 f_equal. lia. }
    assert (S3 : wstep LA (St (upd (upd X 12 p) 13 s) V (p + 8) M) = Some (St (upd (upd X 12 p) 13 s) V s M)).
    { unfold wstep. cbn [spc sm]. rewrite fits_ok by lia. cbn [negb]. rewrite R1.
      change (decode LA (le_dec (le_enc 4 (nth 2 (tramp_words LA) 0)))) with (Some (Jr 13)). cbn [exec sx sf sm spc target]. regs. reflexivity. }
    eexists. cbn [wsteps]. rewrite S1, S2, S3. split; [reflexivity|]. split; [regs; reflexivity|].
    intros i Hi. cbn [temps] in Hi. rewrite !upd_other by lia. reflexivity.
Qed.

(** The static table of LoongArch. *)
Lemma slot_step e l n i j ins org X V M s1 s' :
  0 <= i < Z.of_nat n -> nth_error l j = Some ins ->
  exec LA e ins (St X V (org + 4 * (i * zlen l) + 4 * Z.of_nat j) M) = Some s1 -> reach LA e (concat (repeat l n)) org s1 s' ->
  reach LA e (concat (repeat l n)) org (St X V (org + 4 * (i * zlen l) + 4 * Z.of_nat j) M) s'.
Proof.
  intros Hi E Ex R. replace (org + 4 * (i * zlen l) + 4 * Z.of_nat j) with (org + 4 * (i * zlen l + Z.of_nat j)) in * by lia.
  eapply reach_step; [|exact Ex|exact R].
  assert (Hj : (j < length l)%nat) by (apply nth_error_Some; congruence).
  unfold at_off. pose proof (zlen_nonneg l).
  replace ((4 * (i * zlen l + Z.of_nat j)) mod 4 =? 0) with true by (rewrite Z.mul_comm, Z.mod_mul by lia; reflexivity).
  replace (0 <=? 4 * (i * zlen l + Z.of_nat j)) with true by (unfold zlen in *; nia).
  cbn [andb]. rewrite Z.mul_comm, Z.div_mul by lia.
  rewrite <- E, <- (A64AsmTramp.nth_slot l n (Z.to_nat i) j) by lia. f_equal. unfold zlen. nia.
Qed.

Ltac slot j := eapply (slot_step _ _ _ _ j); [lia|reflexivity|exec1|regs];
  match goal with |- reach _ _ _ _ (St _ _ (?a + 4 * ?b + 4) _) _ =>
    replace (a + 4 * b + 4) with (a + 4 * Z.of_nat (S j)) by lia | _ => idtac end.

Lemma static_runs e torg i X V M :
  0 <= torg -> torg + 131072 < 2 ^ 64 -> 0 <= i < 4096 ->
  let parm := torg + 65536 + 16 * i in
  exists X1,
    reach LA e static_table torg (St X V (torg + 16 * i) M) (St X1 V (le_dec (rd M (parm + 8) 8)) M) /\
    X1 (CLO LA) = le_dec (rd M parm 8) /\ (forall r, temps LA r = false -> X1 r = X r).
Proof.
  intros H1 H2 Hi parm.
  assert (Hz : zlen static_slot = 4) by reflexivity.
  unfold static_table. set (n := Z.to_nat (65536 / 16)). assert (Hn : Z.of_nat n = 4096) by reflexivity. clearbody n.
  replace (torg + 16 * i) with (torg + 4 * (i * zlen static_slot) + 4 * Z.of_nat 0) by lia.
  eexists. split.
  - slot 0%nat. slot 1%nat. slot 2%nat. slot 3%nat.
    replace (torg + 4 * (i * zlen static_slot) + 4 * Z.of_nat 0 + 16 * 2 ^ 12 + 8) with (parm + 8) by (unfold parm; lia).
    replace (torg + 4 * (i * zlen static_slot) + 4 * Z.of_nat 0 + 16 * 2 ^ 12 + 0) with parm by (unfold parm; lia).
    exact (reach_refl _ _ _ _ _).
  - regs. split; [reflexivity|]. intros r Hr. cbn [temps] in Hr. rewrite !upd_other by lia. reflexivity.
Qed.

(** Entries and returns for callers whose registers are changed by a trampoline only. *)
Lemma entered_ext a fl Xa X V M f a0 a1 a2 back X1 M1 :
  (forall i, temps a i = false -> Xa i = X i) ->
  entered a fl Xa V M f a0 a1 a2 back X1 M1 -> entered a fl X V M f a0 a1 a2 back X1 M1.
Proof.
  intros HX (H0 & H1 & H2 & H3 & H4 & H5 & H6 & H7 & H8 & H9). unfold entered.
  repeat (split; [assumption|]).
  split. { intros i Hi Hn. rewrite H7 by assumption. apply HX. destruct a; cbn [temps saved] in *; lia. }
  split; [|exact H9]. rewrite H8. unfold abytes, eight. cbn [map concat].
  rewrite !HX by (destruct a; reflexivity). reflexivity.
Qed.
Lemma comes_back_ext a e fl t org f Xa X X1 M1 :
  (forall i, temps a i = false -> Xa i = X i) -> comes_back a e fl t org f Xa X1 M1 -> comes_back a e fl t org f X X1 M1.
Proof.
  intros HX C X2 V2 M2 H1 H2 H3 H4. destruct (C X2 V2 M2 H1 H2 H3 H4) as (X3 & V3 & R & T2 & F2 & S & Sv & Fv).
  exists X3, V3. rewrite HX in R by (destruct a; reflexivity). repeat (split; [assumption|]). split; [|exact Fv].
  intros i Hi. rewrite Sv by exact Hi. apply HX. destruct a; cbn [temps saved] in *; lia.
Qed.

Lemma closure_runs a e fl org Xa X V M f closure cif fn ud :
  width_ok a fl -> code_addr a org -> org + 4 * zlen (closure_text a fl) <= 2 ^ 64 -> wide V ->
  X (SP a) = f + FRAME_LEN fl -> 0 <= f -> f + FRAME_LEN fl < 2 ^ 64 -> 0 <= X (FP a) < 2 ^ 64 -> code_addr a (X (RA a)) ->
  0 <= cif < 2 ^ 64 -> 0 <= fn < 2 ^ 64 -> 0 <= ud < 2 ^ 64 ->
  0 <= closure -> closure + 48 <= 2 ^ 64 -> f + FRAME_LEN fl <= closure \/ closure + 48 <= f ->
  A64AsmEnd.three M (closure + 24) cif fn ud ->
  Xa (CLO a) = closure -> (forall i, temps a i = false -> Xa i = X i) ->
  exists X1 M1,
    reach a e (closure_text a fl) org (St Xa V org M) (St X1 V e M1) /\
    entered a fl X V M f cif fn ud (org + 4 * (if fl =? 0 then 18 else 26)) X1 M1 /\
    comes_back a e fl (closure_text a fl) org f X X1 M1.
Proof.
  intros W [Wo Wo2] Ho2 Wv Esp Hf1 Hf2 Wfp Wra Wc Wf Wu Hc1 Hc2 Hd (F1 & F2 & F3) E Ex.
  assert (Esp' : Xa (SP a) = f + FRAME_LEN fl) by (rewrite Ex by (destruct a; reflexivity); exact Esp).
  destruct (closure_enter a e fl org Xa V M f W ltac:(lia) Ho2 Wv Esp' Hf1 Hf2) as (X1 & M1 & R & En); try (rewrite E; lia).
  rewrite E in En. replace (closure + 32) with (closure + 24 + 8) in En by lia. replace (closure + 40) with (closure + 24 + 16) in En by lia.
  rewrite F1, F2, F3, !A64AsmCallAll.dec_enc8 in En by assumption.
  exists X1, M1. split; [exact R|]. split; [eapply entered_ext; eassumption|].
  eapply comes_back_ext; [exact Ex|]. eapply comes_back_ok; eauto; try lia; rewrite Ex by (destruct a; reflexivity); assumption.
Qed.

Lemma dynamic_whole a e fl org X V M f abi closure cif fn ud codeloc m0 m1 :
  width_ok a fl -> code_addr a org -> org + 4 * zlen (closure_text a fl) <= 2 ^ 64 -> wide V ->
  X (SP a) = f + FRAME_LEN fl -> 0 <= f -> f + FRAME_LEN fl < 2 ^ 64 -> 0 <= X (FP a) < 2 ^ 64 -> code_addr a (X (RA a)) ->
  0 <= cif < 2 ^ 64 -> 0 <= fn < 2 ^ 64 -> 0 <= ud < 2 ^ 64 ->
  0 <= codeloc -> codeloc + 48 <= 2 ^ 64 -> f + FRAME_LEN fl <= codeloc \/ codeloc + 48 <= f ->
  prep_closure_loc a org None abi closure cif fn ud m0 = (FFI_OK, m1) ->
  (forall k, 0 <= k < 48 -> M (codeloc + k) = m1 (closure + k)) ->
  exists s X1 M1,
    wsteps a 3 (St X V codeloc M) = Some s /\ reach a e (closure_text a fl) org s (St X1 V e M1) /\
    entered a fl X V M f cif fn ud (org + 4 * (if fl =? 0 then 18 else 26)) X1 M1 /\
    comes_back a e fl (closure_text a fl) org f X X1 M1.
Proof.
  intros W Wo Ho2 Wv Esp Hf1 Hf2 Wfp Wra Wc Wf Wu Hc1 Hc2 Hd P Mir.
  unfold prep_closure_loc in P. destruct (_ || _); [discriminate|].
  apply (f_equal snd) in P. cbn [snd] in P. cbv zeta in P.
  assert (T : rd M codeloc 24 = concat (map (le_enc 4) (tramp_words a)) ++ le_enc 8 org).
  { rewrite (A64AsmEnd.rd_shift m1 M closure codeloc 24) by (intros; apply Mir; lia). subst m1.
    rewrite !rd_wr_other by (rewrite zlen_enc; lia).
    change 24%nat with (4 + (4 + (4 + (4 + (4 + 4)))))%nat. rewrite !rd_app. change (Z.of_nat 4) with 4.
    replace (closure + 4 + 4) with (closure + 8) by lia. replace (closure + 8 + 4) with (closure + 12) by lia.
    replace (closure + 12 + 4) with (closure + 16) by lia. replace (closure + 16 + 4) with (closure + 20) by lia.
    repeat first [rewrite rd_wr_same by (rewrite le_enc_length; reflexivity)|rewrite rd_wr_other by (rewrite zlen_enc; lia)].
    replace (le_enc 8 org) with (le_enc 4 org ++ le_enc 4 (org / 2 ^ 32)).
    - destruct a; reflexivity.
    - symmetry. apply enc8_split. }
  assert (F : A64AsmEnd.three M (codeloc + 24) cif fn ud).
  { apply (A64AsmEnd.three_at m1 M (closure + 24)).
    - subst m1. pose proof A64AsmEnd.fields_read as FR. replace (closure + 32) with (closure + 24 + 8) by lia.
      replace (closure + 40) with (closure + 24 + 16) by lia. apply FR.
    - intros k Hk. replace (codeloc + 24 + k) with (codeloc + (24 + k)) by lia. replace (closure + 24 + k) with (closure + (24 + k)) by lia. apply Mir. lia. }
  destruct (dynamic_runs a X V M codeloc org Hc1 ltac:(lia) Wo T) as (Xa & Run & Ec & Ex).
  destruct (closure_runs a e fl org Xa X V M f codeloc cif fn ud) as (X1 & M1 & R & En & Cb); auto.
  exists (St Xa V org M), X1, M1. auto.
Qed.

(** Trampoline number [i] of the static table at [torg]. *)
Lemma static_whole e fl org torg i X V M f abi closure cif fn ud m0 m1 :
  let a := LA in
  width_ok a fl -> code_addr a org -> org + 4 * zlen (closure_text a fl) <= 2 ^ 64 -> wide V ->
  X (SP a) = f + FRAME_LEN fl -> 0 <= f -> f + FRAME_LEN fl < 2 ^ 64 -> 0 <= X (FP a) < 2 ^ 64 -> code_addr a (X (RA a)) ->
  0 <= cif < 2 ^ 64 -> 0 <= fn < 2 ^ 64 -> 0 <= ud < 2 ^ 64 ->
  0 <= closure -> closure + 48 <= 2 ^ 64 -> f + FRAME_LEN fl <= closure \/ closure + 48 <= f ->
  0 <= torg -> torg + 131072 < 2 ^ 64 -> 0 <= i < 4096 ->
  let parm := torg + 65536 + 16 * i in
  closure + 48 <= parm \/ parm + 16 <= closure ->
  prep_closure_loc a org (Some parm) abi closure cif fn ud m0 = (FFI_OK, m1) ->
  (forall x, parm <= x < parm + 16 \/ closure + 24 <= x < closure + 48 -> M x = m1 x) ->
  exists s X1 M1,
    reach a e static_table torg (St X V (torg + 16 * i) M) s /\ reach a e (closure_text a fl) org s (St X1 V e M1) /\
    entered a fl X V M f cif fn ud (org + 4 * (if fl =? 0 then 18 else 26)) X1 M1 /\
    comes_back a e fl (closure_text a fl) org f X X1 M1.
Proof.
  intros a W Wo Ho2 Wv Esp Hf1 Hf2 Wfp Wra Wc Wf Wu Hc1 Hc2 Hd Ht1 Ht2 Hi parm Hp P Mir.
  unfold prep_closure_loc in P. destruct (_ || _); [discriminate|].
  apply (f_equal snd) in P. cbn [snd] in P. cbv zeta in P.
  assert (T1 : rd M parm 8 = le_enc 8 closure).
  { rewrite (rd_ext m1) by (intros; apply Mir; lia). subst m1. rewrite !rd_wr_other by (rewrite zlen_enc; lia).
    rewrite rd_wr_same by (rewrite le_enc_length; reflexivity). reflexivity. }
  assert (T2 : rd M (parm + 8) 8 = le_enc 8 org).
  { rewrite (rd_ext m1) by (intros; apply Mir; lia). subst m1. rewrite !rd_wr_other by (rewrite zlen_enc; lia).
    rewrite rd_wr_same by (rewrite le_enc_length; reflexivity). reflexivity. }
  assert (F : A64AsmEnd.three M (closure + 24) cif fn ud).
  { apply (A64AsmEnd.three_at m1 M (closure + 24)).
    - subst m1. pose proof A64AsmEnd.fields_read as FR. replace (closure + 32) with (closure + 24 + 8) by lia.
      replace (closure + 40) with (closure + 24 + 16) by lia. apply FR.
    - intros k Hk. apply Mir. lia. }
  destruct (static_runs e torg i X V M Ht1 Ht2 Hi) as (Xa & Ra & Ec & Ex). fold parm in Ra, Ec.
  rewrite T2, A64AsmCallAll.dec_enc8 in Ra by apply Wo. rewrite T1, A64AsmCallAll.dec_enc8 in Ec by (split; lia).
  destruct (closure_runs a e fl org Xa X V M f closure cif fn ud) as (X1 & M1 & R & En & Cb); auto.
  exists (St Xa V org M), X1, M1. auto.
Qed.

(** Go closures: called through their first word with their address in t2. *)
Lemma go_whole a e fl org X V M f abi closure cif fn m0 m1 :
  width_ok a fl -> code_addr a org -> org + 4 * zlen (go_text a fl) <= 2 ^ 64 -> wide V ->
  X (SP a) = f + FRAME_LEN fl -> 0 <= f -> f + FRAME_LEN fl < 2 ^ 64 -> 0 <= X (FP a) < 2 ^ 64 -> code_addr a (X (RA a)) ->
  0 <= cif < 2 ^ 64 -> 0 <= fn < 2 ^ 64 ->
  0 <= closure -> closure + 24 <= 2 ^ 64 -> f + FRAME_LEN fl <= closure \/ closure + 24 <= f ->
  prep_go_closure a org abi closure cif fn m0 = (FFI_OK, m1) ->
  (forall x, closure <= x < closure + 24 -> M x = m1 x) -> X (T2 a) = closure ->
  exists X1 M1,
    reach a e (go_text a fl) org (St X V (le_dec (rd M closure 8)) M) (St X1 V e M1) /\
    entered a fl X V M f cif fn closure (org + 4 * (if fl =? 0 then 18 else 26)) X1 M1 /\
    comes_back a e fl (go_text a fl) org f X X1 M1.
Proof.
  intros W [Wo Wo2] Ho2 Wv Esp Hf1 Hf2 Wfp Wra Wc Wf Hc1 Hc2 Hd P Mir E.
  unfold prep_go_closure in P. destruct (_ || _); [discriminate|].
  apply (f_equal snd) in P. cbn [snd] in P. cbv zeta in P.
  assert (F : A64AsmEnd.three M closure org cif fn).
  { apply (A64AsmEnd.three_at m1 M closure).
    - subst m1. apply A64AsmEnd.fields_read.
    - intros k Hk. apply Mir. lia. }
  destruct F as (F1 & F2 & F3). rewrite F1, A64AsmCallAll.dec_enc8 by assumption.
  destruct (go_enter a e fl org X V M f W ltac:(lia) Ho2 Wv Esp Hf1 Hf2) as (X1 & M1 & R & En); try (rewrite E; lia).
  rewrite E, F2, F3, !A64AsmCallAll.dec_enc8 in En by assumption.
  exists X1, M1. split; [exact R|]. split; [exact En|]. eapply comes_back_ok; eauto. lia.
Qed.
