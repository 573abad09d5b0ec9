(** The assembly code of the 32-bit ARM backend, from entry to call and back. *)
From Coq Require Import ZifyBool ZifyNat.
From Verif Require Import Base BaseFacts ByteMem ArmModel ArmAsmModel ArmAsmFacts.
Local Open Scope Z_scope.
Local Arguments Z.mul : simpl never.
Local Arguments Z.add : simpl never.
Local Arguments Z.sub : simpl never.
Local Arguments Z.pow : simpl never.
Local Arguments Z.of_nat : simpl never.

Section Asm.
Variables (e : bool -> Z) (org : Z).
Hypothesis O0 : 0 <= org.
Hypothesis O1 : org + 4 * zlen text <= 2 ^ 32.

Lemma text_room : org + 356 <= 2 ^ 32.
Proof. change (4 * zlen text) with 356 in O1. exact O1. Qed.

(** ffi_call_SYSV up to the call. *)
Lemma call_sysv X V le M q qf : X 0 = 4 * q -> X 1 = 4 * qf -> 0 <= X 0 -> X 0 + 16 <= 2 ^ 32 - 1 -> 0 <= X 1 -> X 1 + 20 <= 2 ^ 32 - 1 ->
  exists X1 M1,
    M1 = wr M (X 1) (le_enc 4 (X 11) ++ le_enc 4 (X 14)) /\
    reach e text org (St X V le (org + 16) M) (St X1 V le (X 2) M1) /\
    (forall i, 0 <= i < 4 -> X1 i = le_dec (rd M1 (X 0 + 4 * i) 4)) /\
    X1 13 = X 0 + 16 /\ X1 14 = org + 44 /\ X1 12 = le_dec (rd M1 (X 1 + 16) 4) /\ X1 11 = X 1 /\
    (forall r, 4 <= r < 11 -> X1 r = X r).
Proof.
  intros Q QF A0 A1 F0 F1. pose proof text_room as TR. eexists. eexists. split; [reflexivity|]. split.
  - step1 org. step1 org. step1 org. step1 org. step1 org. step1 org. step1 org. cbn [words_of map concat]. rewrite app_nil_r. apply reach_refl.
  - cbn [loads].
    split.
    + intros i I. assert (C : i = 0 \/ i = 1 \/ i = 2 \/ i = 3) by lia.
      destruct C as [-> |[-> |[-> | ->]]]; regs; match goal with |- le_dec (rd _ ?a 4) = le_dec (rd _ ?b 4) => replace b with a by lia end; reflexivity.
    + split; [regs; lia|]. split; [regs; lia|]. split; [regs; reflexivity|]. split; [regs; reflexivity|].
      intros r R. unfold upd. repeat match goal with |- context [r =? ?k] => replace (r =? k) with false by lia end. reflexivity.
Qed.

(** What the code behind the call stores at [rv] for result code [fl]. *)
Definition kept_result (fl rv : Z) (X V : Z -> Z) (M : Z -> Z) : Z -> Z :=
  if fl =? 0 then wr M rv (rd V 0 4)
  else if fl =? 1 then wr M rv (rd V 0 8)
  else if fl =? 2 then wr M rv (rd V 0 32)
  else if fl =? 3 then wr (wr M (rv + 4) (le_enc 4 (X 1))) rv (le_enc 4 (X 0))
  else if fl =? 4 then wr M rv (le_enc 4 (X 0))
  else M.

(** How many bytes. *)
Definition width (fl : Z) : Z := if fl =? 2 then 32 else if (fl =? 1) || (fl =? 3) then 8 else 4.

Lemma ret_sysv X V le M fr qf fl rv qr : X 11 = fr -> fr = 4 * qf -> 0 <= fr -> fr + 20 <= 2 ^ 32 - 1 ->
  rd M (fr + 8) 4 = le_enc 4 rv -> rd M (fr + 12) 4 = le_enc 4 fl -> 0 <= fl <= 6 ->
  0 <= rv < 2 ^ 32 -> (fl < 5 -> rv = 4 * qr /\ rv + width fl <= 2 ^ 32 - 1) ->
  exists X1 M1, M1 = kept_result fl rv X V M /\
    reach e text org (St X V le (org + 44) M) (St X1 V le (le_dec (rd M1 (fr + 4) 4)) M1) /\
    X1 11 = le_dec (rd M1 fr 4) /\ X1 13 = fr + 8 /\ (forall r, 4 <= r < 11 -> X1 r = X r).
Proof.
  intros XF QF F0 F1 RV FL FB RB RA. pose proof text_room as TR.
  assert (C : fl = 0 \/ fl = 1 \/ fl = 2 \/ fl = 3 \/ fl = 4 \/ fl = 5 \/ fl = 6) by lia.
  assert (QR : fl < 5 -> rv = 4 * qr) by (intros L; apply RA in L; tauto).
  assert (RL : fl < 5 -> rv + width fl <= 2 ^ 32 - 1) by (intros L; apply RA in L; tauto). clear RA.
  unfold kept_result, width in *.
  destruct C as [-> |[-> |[-> |[-> |[-> |[-> | ->]]]]]]; cbn [Z.eqb Pos.eqb orb] in *;
    try specialize (QR ltac:(lia)); try specialize (RL ltac:(lia)).
  all: eexists; eexists; split; [reflexivity|]; split.
  all: try (step1 org; step1 org; rewrite XF, RV, FL, !dec_enc4 by lia; step1 org; rewrite XF;
    eapply reach_step; [vm_compute; reflexivity| cbn [exec sx sf sle sm spc Z.eqb Pos.eqb]; regs; nowrap; reflexivity|];
    match goal with |- reach _ _ _ (St _ _ _ (org + 56 + 8 + ?k * 8) _) _ => let n := eval vm_compute in (56 + 8 + k * 8) in replace (org + 56 + 8 + k * 8) with (org + n) by lia end;
    repeat step1 org; rewrite ?Z.add_0_r; apply reach_refl).
  all: match goal with |- reach _ _ _ _ _ => idtac | _ => split; [regs; reflexivity|]; split; [regs; lia|]; intros r R; unfold upd;
       repeat match goal with |- context [r =? ?k] => replace (r =? k) with false by lia end; reflexivity end.
Qed.

(** ffi_call_VFP: floating point registers first. *)
Lemma call_vfp X V le M q : X 0 = 4 * q -> 0 <= X 0 -> X 0 + 64 <= 2 ^ 32 - 1 -> 0 <= X 3 < 65536 ->
  exists X1 V1 le1,
    reach e text org (St X V le (org + 0) M) (St X1 V1 le1 (org + 16) M) /\
    X1 0 = X 0 + 64 /\ (forall r, r <> 0 -> X1 r = X r) /\
    V1 = (if X 3 <=? 3 then wr V 0 (rd M (X 0) 8) else wr V 0 (rd M (X 0) 64)).
Proof.
  intros Q A0 A1 U. pose proof text_room as TR.
  assert (TS : to_signed 32 (X 3) = X 3).
  { unfold to_signed. rewrite Z.mod_small by lia. replace (_ <? _) with true by (change (2 ^ (32 - 1)) with 2147483648; lia). reflexivity. }
  assert (R : forall r, r <> 0 -> upd X 0 (X 0 + 64) r = X r) by (intros r H; apply upd_other; lia).
  destruct (X 3 <=? 3) eqn:L.
  - eexists. eexists. eexists. split; [step1 org; rewrite TS, L; step1 org; step1 org; step1 org; apply reach_refl|].
    split; [regs; reflexivity|]. split; [exact R|reflexivity].
  - eexists. eexists. eexists. split; [step1 org; rewrite TS, L; step1 org; step1 org; step1 org; apply reach_refl|].
    split; [regs; reflexivity|]. split; [exact R|reflexivity].
Qed.

Ltac others r := intros r; intros; unfold upd; repeat match goal with |- context [r =? ?k] => replace (r =? k) with false by lia end; reflexivity.

(** Closures: from the label 0 on, the argument registers pushed. *)
Lemma closure_mid (vfp : bool) X V le M S q :
  X 13 = S - 16 -> S = 4 * q -> 120 <= S < 2 ^ 32 ->
  exists X1 M1,
    reach e text org (St X V le (org + (if vfp then 232 else 160)) M) (St X1 V le (e vfp) M1) /\
    M1 = (let Ma := if vfp then wr M (S - 112) (rd V 0 64) else M in wr Ma (S - 120) (le_enc 4 S ++ le_enc 4 (X 14))) /\
    X1 0 = X 0 /\ X1 1 = X 1 /\ X1 2 = X 2 /\ X1 3 = S - 112 /\ X1 13 = S - 120 /\ X1 14 = org + (if vfp then 256 else 180) /\
    (forall r, 4 <= r < 12 -> X1 r = X r).
Proof.
  intros XS Q S0. pose proof text_room as TR. destruct vfp.
  all: eexists; eexists; split; [|split; [reflexivity|split; [|split; [|split; [|split; [|split; [|split]]]]]]].
  all: lazymatch goal with
    | |- reach _ _ _ _ _ =>
      repeat step1 org; cbn [words_of map concat]; rewrite ?app_nil_r; regs; rewrite XS;
      replace (S - 16 + 16) with S by lia; replace (S - 16 + -96) with (S - 112) by lia; replace (S - 112 - 8) with (S - 120) by lia; apply reach_refl
    | _ => idtac end.
  all: lazymatch goal with |- forall r, _ => others r | |- _ => regs; lia end.
Qed.

(** Closures: the argument registers and the fields of the closure. *)
Lemma closure_in (vfp : bool) X V le M S q clo qc :
  X 13 = S -> X 12 = clo -> S = 4 * q -> 120 <= S < 2 ^ 32 -> clo = 4 * qc -> 0 <= clo -> clo + 24 <= 2 ^ 32 - 1 ->
  exists X1 M1,
    reach e text org (St X V le (org + (if vfp then 216 else 144)) M) (St X1 V le (org + (if vfp then 232 else 160)) M1) /\
    M1 = wr M (S - 16) (words_of X [0; 1; 2; 3]) /\
    X1 0 = le_dec (rd M1 (clo + 12) 4) /\ X1 1 = le_dec (rd M1 (clo + 16) 4) /\ X1 2 = le_dec (rd M1 (clo + 20) 4) /\
    X1 13 = S - 16 /\ X1 14 = X 14 /\ (forall r, 4 <= r < 12 -> X1 r = X r).
Proof.
  intros XS XC Q S0 QC C0 C1. pose proof text_room as TR. destruct vfp.
  all: eexists; eexists; split; [|split; [reflexivity|split; [|split; [|split; [|split; [|split]]]]]].
  all: lazymatch goal with
    | |- reach _ _ _ _ _ => do 4 step1 org; regs; rewrite XS, XC; apply reach_refl
    | _ => idtac end.
  all: lazymatch goal with |- forall r, _ => others r | |- _ => regs; try reflexivity; lia end.
Qed.

(** Go closures. *)
Lemma go_in (vfp : bool) X V le M S q clo qc :
  X 13 = S -> X 12 = clo -> S = 4 * q -> 120 <= S < 2 ^ 32 -> clo = 4 * qc -> 0 <= clo -> clo + 12 <= 2 ^ 32 - 1 ->
  exists X1 M1,
    reach e text org (St X V le (org + (if vfp then 192 else 120)) M) (St X1 V le (org + (if vfp then 232 else 160)) M1) /\
    M1 = wr M (S - 16) (words_of X [0; 1; 2; 3]) /\
    X1 0 = le_dec (rd M1 (clo + 4) 4) /\ X1 1 = le_dec (rd M1 (clo + 8) 4) /\ X1 2 = clo /\
    X1 13 = S - 16 /\ X1 14 = X 14 /\ (forall r, 4 <= r < 12 -> X1 r = X r).
Proof.
  intros XS XC Q S0 QC C0 C1. pose proof text_room as TR. destruct vfp.
  all: eexists; eexists; split; [|split; [reflexivity|split; [|split; [|split; [|split; [|split]]]]]].
  all: lazymatch goal with
    | |- reach _ _ _ _ _ => do 5 step1 org; regs; rewrite XS, XC; apply reach_refl
    | _ => idtac end.
  all: lazymatch goal with |- forall r, _ => others r | |- _ => regs; try reflexivity; lia end.
Qed.

(** The entry points of static trampolines. *)
Lemma alt_in (vfp : bool) X V le M S q :
  X 13 = S - 8 -> S = 4 * q -> 120 <= S < 2 ^ 32 ->
  exists X1, reach e text org (St X V le (org + (if vfp then 344 else 328)) M) (St X1 V le (org + (if vfp then 216 else 144)) M) /\
    X1 12 = le_dec (rd M (S - 4) 4) /\ X1 13 = S /\ (forall r, r <> 12 -> r <> 13 -> X1 r = X r).
Proof.
  intros XS Q S0. pose proof text_room as TR. destruct vfp.
  all: eexists; split; [do 3 step1 org; apply reach_refl|split; [regs; rewrite XS; replace (S - 8 + 4) with (S - 4) by lia; reflexivity|split; [regs; lia|others r]]].
Qed.

(** What is in r0, r1 and the floating point registers for result code [fl]. *)
Definition result_regs (fl res : Z) (M X V : Z -> Z) (X1 V1 : Z -> Z) : Prop :=
  if fl =? 0 then V1 = wr V 0 (rd M res 4)
  else if fl =? 1 then V1 = wr V 0 (rd M res 8)
  else if fl =? 2 then V1 = wr V 0 (rd M res 32)
  else if fl =? 3 then X1 0 = le_dec (rd M res 4) /\ X1 1 = le_dec (rd M (res + 4) 4) /\ V1 = V
  else if fl =? 4 then X1 0 = le_dec (rd M res 4) /\ V1 = V
  else V1 = V.

(** The way back out of a closure. *)
Lemma closure_out (vfp : bool) X V le M S q fl :
  X 13 = S - 120 -> X 0 = fl -> 0 <= fl <= 6 -> S = 4 * q -> 120 <= S < 2 ^ 32 ->
  exists X1 V1,
    reach e text org (St X V le (org + (if vfp then 256 else 180)) M) (St X1 V1 le (le_dec (rd M (S - 116) 4)) M) /\
    result_regs fl (S - 48) M X V X1 V1 /\ X1 13 = le_dec (rd M (S - 120) 4) /\ (forall r, 4 <= r < 12 -> X1 r = X r).
Proof.
  intros XS XF FB Q S0. pose proof text_room as TR.
  assert (C : fl = 0 \/ fl = 1 \/ fl = 2 \/ fl = 3 \/ fl = 4 \/ fl = 5 \/ fl = 6) by lia.
  unfold result_regs.
  destruct vfp; destruct C as [-> |[-> |[-> |[-> |[-> |[-> | ->]]]]]]; cbn [Z.eqb Pos.eqb].
  all: eexists; eexists; split; [|split; [|split]].
  all: lazymatch goal with
    | |- reach _ _ _ _ _ =>
      step1 org; step1 org; eapply reach_step; [vm_compute; reflexivity| cbn [exec sx sf sle sm spc Z.eqb Pos.eqb]; regs; rewrite XF; nowrap; reflexivity|];
      match goal with |- reach _ _ _ (St _ _ _ (org + ?c + ?d + ?k * 8) _) _ => let n := eval vm_compute in (c + d + k * 8) in replace (org + c + d + k * 8) with (org + n) by lia end;
      repeat step1 org; rewrite XS; replace (S - 120 + 4) with (S - 116) by lia; replace (S - 120 + 72) with (S - 48) by lia; rewrite ?Z.add_0_r; apply reach_refl
    | _ => idtac end.
  all: lazymatch goal with |- forall r, _ => others r | |- _ => idtac end.
  all: repeat split; regs; reflexivity.
Qed.
End Asm.
