(** Calls and closures of RISC-V and LoongArch, from entry to return. *)
From Coq Require Import ZifyBool ZifyNat.
From Verif Require Import Base BaseFacts ByteMem RiscAsmModel RiscAsmFacts RiscAsmCall RiscAsmLeave RiscAsmClo.
From Verif Require A64AsmCallAll.
Local Open Scope Z_scope.
Local Arguments Z.mul : simpl never.
Local Arguments Z.add : simpl never.
Local Arguments Z.sub : simpl never.
Local Arguments Z.pow : simpl never.
Local Arguments Z.of_nat : simpl never.

Lemma fl_bound a fl : width_ok a fl -> 0 <= fl <= 8.
Proof. unfold width_ok. lia. Qed.

(** Eight equal pieces of memory. *)
Lemma rd_eight M p w : concat (map (fun i => rd M (p + Z.of_nat w * i) w) eight) = rd M p (8 * w).
Proof.
  unfold eight. cbn [map concat]. replace (8 * w)%nat with (w + (w + (w + (w + (w + (w + (w + w)))))))%nat by lia.
  rewrite !rd_app, app_nil_r. repeat (f_equal; [f_equal; lia|]). f_equal. lia.
Qed.

Lemma abytes_rd a X M p : (forall x, byte_ok (M x)) -> (forall i, 0 <= i < 8 -> X (AR a i) = le_dec (rd M (p + 8 * i) 8)) -> abytes a X = rd M p 64.
Proof.
  intros Hb H. unfold abytes. change 64%nat with (8 * 8)%nat. rewrite <- (rd_eight M p 8). f_equal. apply map_ext_in. intros i Hi.
  assert (0 <= i < 8) by (cbn in Hi; lia). rewrite H by assumption. apply A64AsmCallAll.enc_dec_rd, Hb.
Qed.

Lemma firstn_fext d n : length d = n -> (n <= 8)%nat -> firstn n (fext d) = d.
Proof. intros <- _. unfold fext. rewrite firstn_app, Nat.sub_diag, firstn_all, firstn_O, app_nil_r. reflexivity. Qed.

Lemma fbytes_rd a fl V M p : width_ok a fl -> (fl <> 0 -> forall i, 0 <= i < 8 -> V (FR a i) = fext (rd M (p + fl * i) (Z.to_nat fl))) ->
  fbytes a fl V = rd M p (Z.to_nat (8 * fl)).
Proof.
  intros W H. pose proof (fl_bound a fl W). unfold fbytes. destruct (Z.eq_dec fl 0) as [->|N].
  - reflexivity.
  - specialize (H N). replace (Z.to_nat (8 * fl)) with (8 * Z.to_nat fl)%nat by lia. rewrite <- rd_eight. f_equal. apply map_ext_in. intros i Hi.
    assert (0 <= i < 8) by (cbn in Hi; lia). rewrite H by assumption. rewrite firstn_fext by (rewrite ?rd_length; lia). f_equal. lia.
Qed.

(** The context after the function has returned: results in its registers. *)
Definition back_in_context (a : arch) (fl c : Z) (X2 : Z -> Z) (V2 : Z -> list Z) (M2 M3 : Z -> Z) : Prop :=
  exists y, set_range (rd M2 c (Z.to_nat (FRAME_LEN fl))) 0 (ftwo a fl V2) = Some y /\
            set_range y (8 * fl) (two a X2) = Some (rd M3 c (Z.to_nat (FRAME_LEN fl))).

Lemma two_len a X : zlen (two a X) = 16.
Proof. unfold two. rewrite zlen_app, !zlen_enc. reflexivity. Qed.
Lemma ftwo_len a fl V : width_ok a fl -> wide V -> zlen (ftwo a fl V) = 2 * fl.
Proof. intros W Wv. pose proof (fl_bound a fl W). unfold ftwo. rewrite zlen_app, !zlen_firstn by (rewrite Wv; lia). lia. Qed.

Lemma context_back a fl c X2 V2 M2 M3 : width_ok a fl -> wide V2 ->
  rd M3 c (Z.to_nat (2 * fl)) = ftwo a fl V2 -> rd M3 (c + 8 * fl) 16 = two a X2 ->
  (forall x, ~ (c <= x < c + 2 * fl) -> ~ (c + 8 * fl <= x < c + 8 * fl + 16) -> M3 x = M2 x) ->
  back_in_context a fl c X2 V2 M2 M3.
Proof.
  intros W Wv R1 R2 O. pose proof (fl_bound a fl W). pose proof (two_len a X2) as L2. pose proof (ftwo_len a fl V2 W Wv) as Lf.
  set (n := Z.to_nat (FRAME_LEN fl)). assert (Hn : Z.of_nat n = 8 * fl + 80) by (unfold n, FRAME_LEN; lia).
  destruct (set_range_ok (rd M2 c n) 0 (ftwo a fl V2)) as (y & Y & LY); [lia|rewrite rd_zlen; lia|].
  destruct (set_range_ok y (8 * fl) (two a X2)) as (z & Z & LZ); [lia|rewrite LY, rd_zlen; lia|].
  exists y. fold n. split; [exact Y|]. rewrite Z. f_equal.
  pose proof (rd_wr_range _ _ _ _ _ _ Y) as Y'. rewrite <- Y' in Z. pose proof (rd_wr_range _ _ _ _ _ _ Z) as Z'. rewrite <- Z'.
  symmetry. apply rd_ext. intros x Hx.
  destruct (Z_lt_dec x (c + 8 * fl + 16)); [destruct (Z_le_dec (c + 8 * fl) x)|].
  - rewrite wr_in by lia. rewrite <- R2. rewrite rd_nth by lia. f_equal. lia.
  - rewrite wr_out by lia. destruct (Z_lt_dec x (c + 2 * fl)).
    + rewrite wr_in by lia. rewrite <- R1. rewrite rd_nth by lia. f_equal. lia.
    + rewrite wr_out by lia. apply O; lia.
  - rewrite wr_out by lia. rewrite wr_out by lia. apply O; lia.
Qed.

(** ffi_call_asm: to the function and back. *)
Lemma call_machine a e fl org X V M :
  width_ok a fl -> 0 <= org -> org + 4 * zlen (call_text a fl) <= 2 ^ 64 -> (forall x, byte_ok (M x)) ->
  let c := X (AR a 1) in
  0 <= c -> c + FRAME_LEN fl < 2 ^ 64 -> 0 <= X (FP a) < 2 ^ 64 -> code_addr a (X (RA a)) -> code_addr a (X (AR a 2)) ->
  exists X1 V1 M1,
    reach a e (call_text a fl) org (St X V org M) (St X1 V1 (X (AR a 2)) M1) /\
    abytes a X1 = rd M (c + 8 * fl) 64 /\ fbytes a fl V1 = rd M c (Z.to_nat (8 * fl)) /\
    X1 (SP a) = X (AR a 0) /\ X1 (T2 a) = X (AR a 3) /\
    (forall x, ~ (c + 8 * fl + 64 <= x < c + FRAME_LEN fl) -> M1 x = M x) /\
    rd M1 (c + 8 * fl + 64) 16 = le_enc 8 (X (FP a)) ++ le_enc 8 (X (RA a)) /\
    (forall i, saved a i = true -> i <> FP a -> X1 i = X i) /\ (forall i, fsaved a i = true -> V1 i = V i) /\
    forall X2 V2 M2,
      (forall i, saved a i = true -> X2 i = X1 i) -> wide V2 ->
      (forall x, c + 8 * fl + 64 <= x < c + FRAME_LEN fl -> M2 x = M1 x) ->
      exists X3 M3,
        reach a e (call_text a fl) org (St X2 V2 (X1 (RA a)) M2) (St X3 V2 (X (RA a)) M3) /\
        back_in_context a fl c X2 V2 M2 M3 /\ (forall x, ~ (c <= x < c + FRAME_LEN fl) -> M3 x = M2 x) /\
        X3 (SP a) = c /\ (forall i, saved a i = true -> X3 i = X i).
Proof.
  intros W Ho1 Ho2 Hb c Hc1 Hc2 Wfp Wra Wfn. pose proof (fl_bound a fl W) as FB.
  destruct (call_enter a e fl org X V M W Ho1 Ho2 Hc1 Hc2) as (X1 & V1 & M1 & R & EM & EA & EF & ESp & EFp & ET2 & ERa & ES & EFs).
  rewrite (target_code a _ Wfn) in R.
  assert (Lfr : zlen (le_enc 8 (X (FP a)) ++ le_enc 8 (X (RA a))) = 16) by (rewrite zlen_app, !zlen_enc; reflexivity).
  exists X1, V1, M1. split; [exact R|].
  split. { apply abytes_rd; [exact Hb|exact EA]. }
  split. { apply fbytes_rd; [exact W|exact EF]. }
  split; [exact ESp|]. split; [exact ET2|].
  split. { intros x Hx. rewrite EM. apply wr_out. fold c. rewrite Lfr. unfold FRAME_LEN in Hx. lia. }
  assert (R1 : rd M1 (c + 8 * fl + 64) 16 = le_enc 8 (X (FP a)) ++ le_enc 8 (X (RA a))).
  { rewrite (rd_ext (wr M (c + 8 * fl + 64) (le_enc 8 (X (FP a)) ++ le_enc 8 (X (RA a))))) by (intros; apply EM).
    apply rd_wr_same. unfold zlen in Lfr. lia. }
  split; [exact R1|]. split; [exact ES|]. split; [exact EFs|].
  intros X2 V2 M2 HS Wv HM.
  assert (SF : saved a (FP a) = true) by (destruct a; reflexivity).
  assert (R16 : rd M2 (c + 8 * fl + 64) 16 = le_enc 8 (X (FP a)) ++ le_enc 8 (X (RA a))).
  { rewrite (rd_ext M1) by (intros x Hx; apply HM; unfold FRAME_LEN; lia). exact R1. }
  destruct (call_leave a e fl org X2 V2 M2 c (X (FP a)) (X (RA a)) W Ho1 Ho2 Hc1 Hc2 ltac:(rewrite HS by exact SF; exact EFp) Wv Wfp Wra R16)
    as (X3 & M3 & R3 & C1 & C2 & O & Esp & Efp & Es).
  exists X3, M3. rewrite ERa. split; [exact R3|]. split; [apply context_back; assumption|].
  split. { intros x Hx. unfold FRAME_LEN in Hx. apply O; lia. }
  split; [exact Esp|]. intros i Hi. destruct (Z.eq_dec i (FP a)) as [->|N]; [exact Efp|].
  rewrite Es, HS, ES by assumption. reflexivity.
Qed.

(** Registers of results from memory. *)
Lemma two_rd a X M p : (forall x, byte_ok (M x)) -> X (AR a 0) = le_dec (rd M p 8) -> X (AR a 1) = le_dec (rd M (p + 8) 8) -> two a X = rd M p 16.
Proof.
  intros Hb E0 E1. unfold two. rewrite E0, E1, !A64AsmCallAll.enc_dec_rd by exact Hb. change 16%nat with (8 + 8)%nat. rewrite rd_app. reflexivity.
Qed.
Lemma ftwo_rd a fl V M p : width_ok a fl ->
  (fl <> 0 -> V (FR a 0) = fext (rd M p (Z.to_nat fl)) /\ V (FR a 1) = fext (rd M (p + fl) (Z.to_nat fl))) -> ftwo a fl V = rd M p (Z.to_nat (2 * fl)).
Proof.
  intros W H. pose proof (fl_bound a fl W). unfold ftwo. destruct (Z.eq_dec fl 0) as [->|N]; [reflexivity|].
  destruct (H N) as [-> ->]. rewrite !firstn_fext by (rewrite ?rd_length; lia).
  replace (Z.to_nat (2 * fl)) with (Z.to_nat fl + Z.to_nat fl)%nat by lia. rewrite rd_app. do 2 f_equal. lia.
Qed.

(** The way back from a closure's C function to the caller with registers [X]. *)
Definition comes_back (a : arch) (e fl : Z) (t : list instr) (org f : Z) (X X1 : Z -> Z) (M1 : Z -> Z) : Prop :=
  forall X2 V2 M2,
    X2 (SP a) = X1 (SP a) -> (forall i, saved a i = true -> i <> FP a -> X2 i = X1 i) -> (forall x, byte_ok (M2 x)) ->
    (forall x, f + 8 * fl + 64 <= x < f + FRAME_LEN fl -> M2 x = M1 x) ->
    exists X3 V3,
      reach a e t org (St X2 V2 (X1 (RA a)) M2) (St X3 V3 (X (RA a)) M2) /\
      two a X3 = rd M2 (f + 8 * fl) 16 /\ ftwo a fl V3 = rd M2 f (Z.to_nat (2 * fl)) /\
      X3 (SP a) = f + FRAME_LEN fl /\ (forall i, saved a i = true -> X3 i = X i) /\ (forall i, fsaved a i = true -> V3 i = V2 i).

Lemma comes_back_ok a e fl t org X V M f a0 a1 a2 X1 M1 :
  width_ok a fl -> t = closure_text a fl \/ t = go_text a fl ->
  0 <= org -> org + 4 * zlen t <= 2 ^ 64 -> wide V -> 0 <= f -> f + FRAME_LEN fl < 2 ^ 64 ->
  0 <= X (FP a) < 2 ^ 64 -> code_addr a (X (RA a)) ->
  entered a fl X V M f a0 a1 a2 (org + 4 * (if fl =? 0 then 18 else 26)) X1 M1 ->
  comes_back a e fl t org f X X1 M1.
Proof.
  intros W Ht Ho1 Ho2 Wv Hf1 Hf2 Wfp Wra (_ & _ & _ & _ & _ & Esp & Era & Es & Efr & _) X2 V2 M2 HSp HS Hb HM.
  pose proof (fl_bound a fl W) as FB.
  assert (R16 : rd M2 (f + 8 * fl + 64) 16 = le_enc 8 (X (FP a)) ++ le_enc 8 (X (RA a))).
  { rewrite (rd_ext M1) by (intros x Hx; apply HM; unfold FRAME_LEN; lia).
    replace (Z.to_nat (FRAME_LEN fl)) with (Z.to_nat (8 * fl) + (64 + 16))%nat in Efr by (unfold FRAME_LEN; lia).
    rewrite !rd_app in Efr. apply A64AsmCallAll.app_inj_len in Efr.
    - destruct Efr as [_ Efr]. apply A64AsmCallAll.app_inj_len in Efr; [|rewrite rd_length; unfold abytes, eight; cbn [map concat]; rewrite !app_length, !le_enc_length; reflexivity].
      destruct Efr as [_ Efr]. rewrite <- Efr. f_equal. lia.
    - rewrite rd_length. unfold fbytes, eight. cbn [map concat]. rewrite !app_length, !firstn_length, !Wv. cbn [length]. lia. }
  destruct (exit_tail a e fl t org X2 V2 M2 f (X (FP a)) (X (RA a)) 0 W Ht Ho1 Ho2 ltac:(congruence) Hf1 Hf2 Wfp Wra R16)
    as (X3 & V3 & R & A0 & A1 & F01 & S3 & Fp3 & Sv & Fs).
  exists X3, V3. rewrite Era. split; [exact R|]. split; [apply two_rd; assumption|]. split; [apply ftwo_rd; assumption|].
  split; [exact S3|]. split; [|exact Fs]. intros i Hi. destruct (Z.eq_dec i (FP a)) as [->|N]; [exact Fp3|].
  rewrite Sv, HS, Es by assumption. reflexivity.
Qed.
