(** Trampolines. *)
From Coq Require Import ZifyBool ZifyNat.
From Verif Require Import Base BaseFacts ByteMem Types A64AsmModel A64ClosureModel A64AsmFacts A64AsmCall A64AsmRet A64AsmCallAll A64AsmClo A64AsmExit A64AsmCloAll.
From Verif Require A64Model.
Local Open Scope Z_scope.
Local Arguments Z.mul : simpl never.
Local Arguments Z.add : simpl never.
Local Arguments Z.sub : simpl never.
Local Arguments Z.pow : simpl never.
Local Arguments Z.of_nat : simpl never.

Lemma rd4 m a w rest : rd m a (4 + length rest) = w ++ rest -> length w = 4%nat -> rd m a 4 = w /\ rd m (a + 4) (length rest) = rest.
Proof. intros H L. rewrite rd_app in H. apply app_inj_len in H; [exact H|rewrite rd_length; lia]. Qed.

(** The dynamic trampoline. *)
Lemma dynamic_runs X V M a s :
  0 <= a -> a + 24 < 2 ^ 64 -> word s -> rd M a 24 = trampoline ++ le_enc 8 s ->
  wsteps 3 (St X V a M) = Some (St (upd (upd X 16 s) 17 a) V s M).
Proof.
  intros Ha1 Ha2 Ws H.
  change 24%nat with (4 + (4 + (4 + (4 + 8))))%nat in H. rewrite !rd_app in H. change (Z.of_nat 4) with 4 in H.
  change trampoline with ([144; 0; 0; 88] ++ [241; 255; 255; 16] ++ [0; 2; 31; 214] ++ [0; 0; 0; 0]) in H. rewrite <- !app_assoc in H.
  repeat (apply app_inj_len in H; [destruct H as [?R H]|rewrite rd_length; reflexivity]).
  replace (a + 4 + 4) with (a + 8) in * by lia. replace (a + 8 + 4) with (a + 12) in * by lia. replace (a + 12 + 4) with (a + 16) in * by lia.
  assert (S1 : wstep (St X V a M) = Some (St (upd X 16 s) V (a + 4) M)).
  { unfold wstep. cbn [spc sm sx sv]. rewrite fits_ok by lia. cbn [negb]. rewrite R.
    change (decode (le_dec [144; 0; 0; 88])) with (Some (WLdr 16 16)). cbv iota beta zeta.
    rewrite (wrap64_small (a + 16)), fits_ok by lia. rewrite H, dec_enc8 by exact Ws. rewrite wrap64_small by lia. reflexivity. }
  assert (S2 : wstep (St (upd X 16 s) V (a + 4) M) = Some (St (upd (upd X 16 s) 17 a) V (a + 8) M)).
  { unfold wstep. cbn [spc sm sx sv]. rewrite fits_ok by lia. cbn [negb]. rewrite R0.
    change (decode (le_dec [241; 255; 255; 16])) with (Some (WAdr 17 (-4))). cbv iota beta zeta.
    rewrite !wrap64_small by lia. replace (a + 4 + -4) with a by lia. replace (a + 4 + 4) with (a + 8) by lia. reflexivity. }
  assert (S3 : wstep (St (upd (upd X 16 s) 17 a) V (a + 8) M) = Some (St (upd (upd X 16 s) 17 a) V s M)).
  { unfold wstep. cbn [spc sm sx sv]. rewrite fits_ok by lia. cbn [negb]. rewrite R1.
    change (decode (le_dec [0; 2; 31; 214])) with (Some (WBr 16)). cbv iota beta zeta. regs. reflexivity. }
  cbn [wsteps]. rewrite S1, S2, S3. reflexivity.
Qed.

(** An entry of a table of equal entries. *)
Lemma nth_slot {A} (l : list A) n i j : (i < n)%nat -> (j < length l)%nat -> nth_error (concat (repeat l n)) (i * length l + j) = nth_error l j.
Proof.
  revert i. induction n as [|n IH]; intros i Hi Hj; [lia|]. cbn [repeat concat]. destruct i as [|i].
  - rewrite nth_error_app1 by lia. reflexivity.
  - rewrite nth_error_app2 by lia. rewrite <- (IH i) by lia. f_equal. lia.
Qed.
Lemma slot_at l n i j ins : 0 <= i < Z.of_nat n -> (j < length l)%nat -> nth_error l j = Some ins ->
  at_off (concat (repeat l n)) (4 * (i * zlen l + Z.of_nat j)) = Some ins.
Proof.
  intros Hi Hj E. unfold at_off. pose proof (zlen_nonneg l).
  replace ((4 * (i * zlen l + Z.of_nat j)) mod 4 =? 0) with true by (rewrite Z.mul_comm, Z.mod_mul by lia; reflexivity).
  replace (0 <=? 4 * (i * zlen l + Z.of_nat j)) with true by (unfold zlen in *; nia).
  cbn [andb]. rewrite Z.mul_comm, Z.div_mul by lia.
  rewrite <- E, <- (nth_slot l n (Z.to_nat i) j) by lia. f_equal. unfold zlen. nia.
Qed.

(** One instruction of entry [i]. *)
Lemma slot_step e l n i j ins org X V M s1 s' :
  0 <= i < Z.of_nat n -> nth_error l j = Some ins ->
  exec e ins (St X V (org + 4 * (i * zlen l) + 4 * Z.of_nat j) M) = Some s1 -> reach e (concat (repeat l n)) org s1 s' ->
  reach e (concat (repeat l n)) org (St X V (org + 4 * (i * zlen l) + 4 * Z.of_nat j) M) s'.
Proof.
  intros Hi E Ex R. replace (org + 4 * (i * zlen l) + 4 * Z.of_nat j) with (org + 4 * (i * zlen l + Z.of_nat j)) in * by lia.
  eapply reach_step; [|exact Ex|exact R]. apply slot_at; [exact Hi|apply nth_error_Some; congruence|exact E].
Qed.

Ltac slot j := eapply (slot_step _ _ _ _ j); [lia|reflexivity|exec1|regs];
  match goal with |- reach _ _ _ (St _ _ (?a + 4 * ?b + 4) _) _ =>
    replace (a + 4 * b + 4) with (a + 4 * Z.of_nat (S j)) by lia | _ => idtac end.

Lemma static_runs e torg i X V M :
  0 <= torg -> torg + 32768 < 2 ^ 64 -> 0 <= i < 512 -> 16 <= X SP -> X SP < 2 ^ 64 ->
  (X SP <= torg + 16384 + 32 * i \/ torg + 16384 + 32 * i + 16 <= X SP - 16) -> (forall a, byte_ok (M a)) ->
  exists X1 M1,
    reach e static_table torg (St X V (torg + 32 * i) M) (St X1 V (le_dec (rd M (torg + 16384 + 32 * i + 8) 8)) M1) /\
    X1 SP = X SP - 16 /\ rd M1 (X SP - 8) 8 = rd M (torg + 16384 + 32 * i) 8 /\
    (forall r, r <> SP -> r <> 17 -> X1 r = X r) /\ (forall x, ~ (X SP - 16 <= x < X SP) -> M1 x = M x).
Proof.
  intros H1 H2 Hi Hs1 Hs2 Hd Hb. unfold SP in *.
  assert (Hz : zlen static_slot = 8) by reflexivity.
  unfold static_table. set (n := Z.to_nat (TRAMP_MAP_SIZE / TRAMP_SIZE)).
  assert (Hn : Z.of_nat n = 512) by reflexivity. clearbody n.
  replace (torg + 32 * i) with (torg + 4 * (i * zlen static_slot) + 4 * Z.of_nat 0) by lia.
  eexists; eexists. split.
  - slot 0%nat. slot 1%nat. slot 2%nat. slot 3%nat. slot 4%nat. slot 5%nat. slot 6%nat. slot 7%nat.
    rewrite !rd_wr_other by (rewrite ?zlen_enc; lia).
    replace (torg + 4 * (i * zlen static_slot) + 4 * Z.of_nat 5 + 16372 + 0) with (torg + 16384 + 32 * i + 8) by lia.
    replace (torg + 4 * (i * zlen static_slot) + 4 * 2 + 16376 + 0) with (torg + 16384 + 32 * i) by lia.
    exact (reach_refl _ _ _ _).
  - regs. split; [lia|].
    split; [replace (X 31 + -16 + 8) with (X 31 - 8) by lia; rewrite rd_wr_same by (rewrite le_enc_length; reflexivity); apply enc_dec_rd, Hb|].
    split; [intros r Hr1 Hr2; rewrite !upd_other by lia; reflexivity|].
    intros x Hx. rewrite !wr_out by (rewrite zlen_enc; lia). reflexivity.
Qed.

Lemma mach_runs e org page i X V M :
  0 < page -> page <= org -> org + page < 2 ^ 64 -> (16 | page) -> page < 2 ^ 20 -> 0 <= i < page / 16 ->
  exists X1,
    reach e (mach_table page) org (St X V (org + 16 * i) M) (St X1 V (le_dec (rd M (org - page + 16 * i + 8) 8)) M) /\
    X1 17 = le_dec (rd M (org - page + 16 * i) 8) /\ (forall r, r <> 16 -> r <> 17 -> X1 r = X r).
Proof.
  intros Hp Ho1 Ho2 [q Dq] Hp2 Hi.
  assert (Hz : zlen (mach_slot page) = 4) by reflexivity.
  unfold mach_table. set (n := Z.to_nat (page / 16)).
  assert (Hn : Z.of_nat n = page / 16) by (unfold n; pose proof (Z.div_pos page 16); lia). clearbody n.
  replace (page / 16) with q in * by (rewrite Dq, Z.div_mul by lia; reflexivity).
  replace (org + 16 * i) with (org + 4 * (i * zlen (mach_slot page)) + 4 * Z.of_nat 0) by lia.
  eexists. split.
  - slot 0%nat. slot 1%nat. slot 2%nat.
    replace (org + 4 * (i * zlen (mach_slot page)) + 4 * Z.of_nat 0 + - page + 0) with (org - page + 16 * i) by lia.
    exact (reach_refl _ _ _ _).
  - regs. split; [reflexivity|]. intros r Hr1 Hr2. rewrite !upd_other by lia. reflexivity.
Qed.
