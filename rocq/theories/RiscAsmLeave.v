(** ffi_call_asm of RISC-V and LoongArch, after the call. *)
From Coq Require Import ZifyBool ZifyNat.
From Verif Require Import Base BaseFacts ByteMem RiscAsmModel RiscAsmFacts RiscAsmCall.
From Verif Require A64AsmCallAll.
Local Open Scope Z_scope.
Local Arguments Z.mul : simpl never.
Local Arguments Z.add : simpl never.
Local Arguments Z.sub : simpl never.
Local Arguments Z.pow : simpl never.
Local Arguments Z.of_nat : simpl never.

(** Sums of constants. *)
Ltac cnst c := repeat match goal with
  | |- context [c + ?k + ?j] => let n := eval vm_compute in (k + j) in replace (c + k + j) with (c + n) by lia
  | H : context [c + ?k + ?j] |- _ => let n := eval vm_compute in (k + j) in replace (c + k + j) with (c + n) in H by lia
  end.
Lemma flen8 V i : wide V -> zlen (firstn 8 (V i)) = 8.
Proof. intros W. unfold zlen. rewrite firstn_length, W. reflexivity. Qed.
Lemma flen4 V i : wide V -> zlen (firstn 4 (V i)) = 4.
Proof. intros W. unfold zlen. rewrite firstn_length, W. reflexivity. Qed.
Lemma fl8 V i : wide V -> length (firstn 8 (V i)) = 8%nat.
Proof. intros W. rewrite firstn_length, W. reflexivity. Qed.
Lemma fl4 V i : wide V -> length (firstn 4 (V i)) = 4%nat.
Proof. intros W. rewrite firstn_length, W. reflexivity. Qed.
Ltac frd := repeat first
  [ rewrite rd_wr_same by (rewrite ?le_enc_length, ?fl8, ?fl4 by assumption; reflexivity)
  | rewrite rd_wr_other by (rewrite ?zlen_enc, ?flen8, ?flen4 by assumption; lia) ].

(** After the function has returned. *)
Lemma call_leave a e fl org X V M c fp ra :
  width_ok a fl -> 0 <= org -> org + 4 * zlen (call_text a fl) <= 2 ^ 64 ->
  0 <= c -> c + FRAME_LEN fl < 2 ^ 64 -> X (FP a) = c + FRAME_LEN fl -> wide V ->
  0 <= fp < 2 ^ 64 -> code_addr a ra -> rd M (c + 8 * fl + 64) 16 = le_enc 8 fp ++ le_enc 8 ra ->
  exists X1 M1,
    reach a e (call_text a fl) org (St X V (org + 4 * (if fl =? 0 then 15 else 23)) M) (St X1 V ra M1) /\
    rd M1 c (Z.to_nat (2 * fl)) = ftwo a fl V /\ rd M1 (c + 8 * fl) 16 = two a X /\
    (forall x, ~ (c <= x < c + 2 * fl) -> ~ (c + 8 * fl <= x < c + 8 * fl + 16) -> M1 x = M x) /\
    X1 (SP a) = c /\ X1 (FP a) = fp /\ (forall i, saved a i = true -> i <> FP a -> X1 i = X i).
Proof.
  intros W Ho1 Ho2 Hc1 Hc2 Ef Wv Wfp Wra R16.
  assert (R : rd M (c + 8 * fl + 64) 8 = le_enc 8 fp /\ rd M (c + 8 * fl + 72) 8 = le_enc 8 ra).
  { change 16%nat with (8 + 8)%nat in R16. rewrite rd_app in R16. apply A64AsmCallAll.app_inj_len in R16; [|rewrite rd_length, le_enc_length; reflexivity].
    replace (c + 8 * fl + 72) with (c + 8 * fl + 64 + Z.of_nat 8) by lia. exact R16. }
  destruct R as [Rfp Rra].
  assert (Dra : le_dec (le_enc 8 ra) = ra) by apply A64AsmCallAll.dec_enc8, Wra.
  assert (Dfp : le_dec (le_enc 8 fp) = fp) by apply A64AsmCallAll.dec_enc8, Wfp.
  pose proof (target_code a ra Wra) as Ta. cbn [target] in Ta.
  widths a W; nums; text_len Ho2; cbn [Z.eqb target] in *.
  all: repeat match goal with H : context [8 * ?n] |- _ => closed (8 * n) end; cnst c.
  all: eexists; eexists; split; [repeat (step1 org; rewrite ?Ef; cnst c); frd; rewrite ?Rra, ?Rfp, ?Dra, ?Dfp, ?Ta; exact (reach_refl _ _ _ _ _)|].
  all: change (Z.to_nat (2 * 8)) with (8 + 8)%nat; change (Z.to_nat (2 * 4)) with (4 + 4)%nat; change (Z.to_nat (2 * 0)) with 0%nat; change 16%nat with (8 + 8)%nat.
  all: rewrite ?rd_app; change (Z.of_nat 8) with 8; change (Z.of_nat 4) with 4; cnst c.
  all: unfold two, ftwo; nums; change (Z.to_nat 8) with 8%nat; change (Z.to_nat 4) with 4%nat; change (Z.to_nat 0) with 0%nat.
  all: rewrite ?Z.add_0_r; frd.
  all: regs; (split; [reflexivity|]); (split; [reflexivity|]).
  all: (split; [intros x Hx1 Hx2; rewrite ?wr_out by (rewrite ?zlen_enc, ?flen8, ?flen4 by assumption; lia); reflexivity|]).
  all: (split; [reflexivity|]); (split; [reflexivity|]); cbn [saved]; intros i Hi Hn; rewrite ?upd_other by lia; reflexivity.
Qed.
