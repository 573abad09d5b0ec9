(** ffi_call_SYSV. *)
From Coq Require Import ZifyBool ZifyNat.
From Verif Require Import Base BaseFacts ByteMem A64AsmModel A64AsmFacts.
Local Open Scope Z_scope.
Local Arguments Z.mul : simpl never.
Local Arguments Z.add : simpl never.
Local Arguments Z.sub : simpl never.
Local Arguments Z.pow : simpl never.
Local Arguments Z.of_nat : simpl never.

Definition fn_target (p : pac) (e : env) (fn : Z) : Z := match p with Arm64e => auth e 0 fn 0 | _ => fn end.
Definition saved_lr (p : pac) (e : env) (lr m : Z) : Z :=
  match p with NoPac => lr | LinuxPac k => sign e k lr m | Arm64e => sign e 1 lr m end.

Lemma frame_mem M f a b c d g x :
  wr (wr (wr M (f + 0) (le_enc 8 a ++ le_enc 8 b)) (f + 32) (le_enc 8 c)) (f + 16) (le_enc 8 d ++ le_enc 8 g) x
  = wr M f (le_enc 8 a ++ le_enc 8 b ++ le_enc 8 d ++ le_enc 8 g ++ le_enc 8 c) x.
Proof.
  rewrite Z.add_0_r. rewrite wr_comm by (rewrite zlen_app, !zlen_enc; lia).
  rewrite (wr_ext _ (wr M f ((le_enc 8 a ++ le_enc 8 b) ++ le_enc 8 d ++ le_enc 8 g))).
  - rewrite wr_join by (rewrite !zlen_app, !zlen_enc; lia). rewrite <- !app_assoc. reflexivity.
  - intros y. apply wr_join. rewrite zlen_app, !zlen_enc. lia.
Qed.

Lemma vext16 d : length d = 16%nat -> vext d = d.
Proof. intros H. unfold vext. rewrite H. apply app_nil_r. Qed.

Lemma in_seq (P : Z -> Prop) : P 0 -> P 1 -> P 2 -> P 3 -> P 4 -> P 5 -> P 6 -> P 7 -> forall i, 0 <= i < 8 -> P i.
Proof.
  intros. assert (C : i = 0 \/ i = 1 \/ i = 2 \/ i = 3 \/ i = 4 \/ i = 5 \/ i = 6 \/ i = 7) by lia.
  repeat destruct C as [->|C]; try assumption. subst. assumption.
Qed.

Lemma call_enter p go e org X V M :
  0 <= org -> org + 4 * zlen (call_text p go) <= 2 ^ 64 ->
  0 <= X 0 -> X 0 + CTX < 2 ^ 64 -> 0 <= X 1 -> X 1 + 40 <= 2 ^ 64 ->
  exists X1 V1 M1,
    reach e (call_text p go) org (St X V org M) (St X1 V1 (fn_target p e (X 2)) M1) /\
    (forall x, M1 x = wr M (X 1) (le_enc 8 (X 29) ++ le_enc 8 (saved_lr p e (X 30) (X 1)) ++ le_enc 8 (X 3) ++ le_enc 8 (X 4) ++ le_enc 8 (X SP)) x) /\
    (forall i, 0 <= i < 8 -> X1 i = le_dec (rd M1 (X 0 + 128 + 8 * i) 8)) /\
    (forall i, 0 <= i < 8 -> V1 i = if Z.testbit (X 4) 7 then rd M1 (X 0 + 16 * i) 16 else V i) /\
    (forall i, 8 <= i -> V1 i = V i) /\
    X1 8 = X 3 /\ (go = true -> X1 18 = X 5) /\ X1 SP = X 0 + CTX /\ X1 29 = X 1 /\
    X1 LR = at_label (call_src p go) org 2 /\
    (forall i, 19 <= i < 29 -> X1 i = X i).
Proof.
  intros Ho1 Ho2 Hb1 Hb2 Hf1 Hf2.
  assert (Len : 160 <= zlen (call_text p go)) by (destruct p, go; vm_compute; congruence).
  assert (Ho : org + 640 <= 2 ^ 64) by lia.
  clear Ho2 Len. unfold CTX in *.
  destruct (Z.testbit (X 4) 7) eqn:T; destruct p as [|k|], go.
  all: (do 3 eexists; split; [replace org with (org + 0) at 2 by lia; repeat step1 org; exact (reach_refl _ _ _ _)|]).
  all: (split; [intros x; apply frame_mem|]).
  all: (split; [apply in_seq; regs; do 2 f_equal; lia|]).
  all: (split; [apply in_seq; regs; try reflexivity; rewrite vext16 by apply rd_length; f_equal; lia|]).
  all: (split; [intros i Hi; rewrite ?upd_other by lia; reflexivity|]).
  all: (split; [regs; reflexivity|]).
  all: (split; [intros; try discriminate; regs; reflexivity|]).
  all: (split; [unfold SP; regs; reflexivity|]).
  all: (split; [regs; reflexivity|]).
  all: (split; [unfold LR; regs; unfold at_label;
     match goal with |- _ = _ + ?a => let n := eval vm_compute in a in change a with n end; lia|]).
  all: (intros i Hi; rewrite ?upd_other by lia; reflexivity).
Qed.
