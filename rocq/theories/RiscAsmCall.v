(** ffi_call_asm of RISC-V and LoongArch. *)
From Coq Require Import ZifyBool ZifyNat.
From Verif Require Import Base BaseFacts ByteMem RiscAsmModel RiscAsmFacts.
Local Open Scope Z_scope.
Local Arguments Z.mul : simpl never.
Local Arguments Z.add : simpl never.
Local Arguments Z.sub : simpl never.
Local Arguments Z.pow : simpl never.
Local Arguments Z.of_nat : simpl never.

(** Numbers of registers and sizes of frames. *)
Ltac closed t := let v := eval vm_compute in t in change t with v in *.
Ltac nums := repeat match goal with
  | |- context [AR RV ?n] => closed (AR RV n) | |- context [AR LA ?n] => closed (AR LA n)
  | H : context [AR RV ?n] |- _ => closed (AR RV n) | H : context [AR LA ?n] |- _ => closed (AR LA n)
  | |- context [FR RV ?n] => closed (FR RV n) | |- context [FR LA ?n] => closed (FR LA n)
  | |- context [FRAME_LEN ?n] => closed (FRAME_LEN n) | H : context [FRAME_LEN ?n] |- _ => closed (FRAME_LEN n)
  end; cbn [RA SP FP T0 T1 T2 CLO] in *.

Lemma in_eight (P : Z -> Prop) : P 0 -> P 1 -> P 2 -> P 3 -> P 4 -> P 5 -> P 6 -> P 7 -> forall i, 0 <= i < 8 -> P i.
Proof.
  intros. assert (C : i = 0 \/ i = 1 \/ i = 2 \/ i = 3 \/ i = 4 \/ i = 5 \/ i = 6 \/ i = 7) by lia.
  repeat destruct C as [->|C]; try assumption. subst. assumption.
Qed.
Lemma fext8 d : length d = 8%nat -> fext d = d.
Proof. intros H. unfold fext. rewrite H. apply app_nil_r. Qed.

Ltac widths a W := destruct W as [->|[->|[-> ->]]]; [destruct a|destruct a|].
Ltac rdw := repeat first
  [ rewrite rd_wr_same by (rewrite ?app_length, ?le_enc_length; reflexivity)
  | rewrite rd_wr_other by (rewrite ?zlen_app, ?zlen_enc; lia) ].

Lemma call_enter a e fl org X V M :
  width_ok a fl -> 0 <= org -> org + 4 * zlen (call_text a fl) <= 2 ^ 64 ->
  0 <= X (AR a 1) -> X (AR a 1) + FRAME_LEN fl < 2 ^ 64 ->
  exists X1 V1 M1,
    reach a e (call_text a fl) org (St X V org M) (St X1 V1 (target a (X (AR a 2))) M1) /\
    (forall x, M1 x = wr M (X (AR a 1) + 8 * fl + 64) (le_enc 8 (X (FP a)) ++ le_enc 8 (X (RA a))) x) /\
    (forall i, 0 <= i < 8 -> X1 (AR a i) = le_dec (rd M (X (AR a 1) + 8 * fl + 8 * i) 8)) /\
    (fl <> 0 -> forall i, 0 <= i < 8 -> V1 (FR a i) = fext (rd M (X (AR a 1) + fl * i) (Z.to_nat fl))) /\
    X1 (SP a) = X (AR a 0) /\ X1 (FP a) = X (AR a 1) + FRAME_LEN fl /\ X1 (T2 a) = X (AR a 3) /\
    X1 (RA a) = org + 4 * (if fl =? 0 then 15 else 23) /\
    (forall i, saved a i = true -> i <> FP a -> X1 i = X i) /\ (forall i, fsaved a i = true -> V1 i = V i).
Proof.
  intros W Ho1 Ho2 Ha1 Ha2. widths a W; nums; text_len Ho2.
  all: (do 3 eexists; split; [replace org with (org + 0) at 2 by lia; repeat step1 org; exact (reach_refl _ _ _ _ _)|]).
  all: cbn [saved fsaved AR FR].
  all: (split; [intros x; rewrite wr_join by (rewrite zlen_enc; lia); f_equal; lia|]).
  all: (split; [apply in_eight; regs; rdw; do 2 f_equal; lia|]).
  all: (split; [intros N; try (contradiction N; reflexivity); apply in_eight; regs; rdw; f_equal; change (Z.to_nat 8) with 8%nat; change (Z.to_nat 4) with 4%nat; f_equal; lia|]).
  all: regs; (split; [reflexivity|]); (split; [reflexivity|]); (split; [reflexivity|]).
  all: (split; [cbn [Z.eqb]; lia|]).
  all: split; [intros i Hi Hn|intros i Hi]; unfold RA; rewrite ?upd_other by lia; reflexivity.
Qed.
