(** Closures as a whole. *)
From Coq Require Import ZifyBool ZifyNat.
From Verif Require Import Base BaseFacts ByteMem A64AsmModel A64AsmFacts A64AsmCall A64AsmRet A64AsmCallAll A64AsmClo A64AsmExit.
From Verif Require A64Model.
Local Open Scope Z_scope.
Local Arguments Z.mul : simpl never.
Local Arguments Z.add : simpl never.
Local Arguments Z.sub : simpl never.
Local Arguments Z.pow : simpl never.
Local Arguments Z.of_nat : simpl never.

(** The common part. *)
Lemma core_in p table alt go : exists post,
  closure_text p table alt go = closure_text p table false false ++ post /\
  forall l, In l [201; 202; 207; 208; 99; 100] -> find_label (closure_src p table alt go) l 0 = find_label (closure_src p table false false) l 0.
Proof.
  exists (skipn (length (closure_text p table false false)) (closure_text p table alt go)).
  destruct p as [|k|], table, alt, go; (split; [vm_compute; reflexivity|]); intros l Hl; cbn [In] in Hl; decompose [or] Hl; subst; try contradiction; vm_compute; reflexivity.
Qed.

Lemma reach_core p table alt go e org s s' : reach e (closure_text p table false false) org s s' -> reach e (closure_text p table alt go) org s s'.
Proof.
  intros H. destruct (core_in p table alt go) as (post & E & _). rewrite E.
  apply (reach_sub e [] (closure_text p table false false) post org). cbn [zlen length]. unfold zlen; cbn [length].
  replace (org + 4 * Z.of_nat 0) with org by lia. exact H.
Qed.

Lemma core_label p table alt go org l : In l [201; 202; 207; 208; 99; 100] ->
  at_label (closure_src p table alt go) org l = at_label (closure_src p table false false) org l.
Proof. intros H. destruct (core_in p table alt go) as (post & _ & L). unfold at_label. rewrite L by exact H. reflexivity. Qed.

Lemma core_len p table alt go org : org + 4 * zlen (closure_text p table alt go) <= 2 ^ 64 -> org + 4 * zlen (closure_text p table false false) <= 2 ^ 64.
Proof. destruct (core_in p table alt go) as (post & E & _). rewrite E, zlen_app. pose proof (zlen_nonneg post). lia. Qed.

(** What is promised about the return of a closure entered at [X], [V] whose C function was
    entered at [X1], [M1], for every state in which that function can come back. *)
Definition comes_back (p : pac) (e : env) (t : list instr) (org f : Z) (X X1 M1 : Z -> Z) (target : Z) : Prop :=
  forall X2 V2 M2,
    X2 SP = X1 SP -> (forall i, 19 <= i < 29 -> X2 i = X1 i) -> wide V2 -> (forall a, byte_ok (M2 a)) ->
    rd M2 f 16 = rd M1 f 16 ->
    exists x, zlen x = 16 /\ bytes_ok x /\
    forall x' v', A64Model.load_ret (X2 0) (rd M2 (f + 208) 64) (A64Model.ARet x (regs4 V2)) = Ok (A64Model.ARet x' v') ->
    exists X3 V3,
      reach e t org (St X2 V2 (X1 LR) M2) (St X3 V3 target M2) /\
      two X3 = x' /\ regs4 V3 = v' /\ X3 SP = f + 272 /\ (forall i, 19 <= i < 30 -> X3 i = X i) /\ (forall i, 4 <= i -> V3 i = V2 i).

Lemma back_ok v p table alt go e org X V M f lr a0 a1 a2 X1 M1 :
  0 <= org -> org + 4 * zlen (closure_text p table alt go) <= 2 ^ 64 -> word (X 29) -> word lr -> 0 <= f -> f + 272 < 2 ^ 64 ->
  entered v X V M f lr a0 a1 a2 (at_label (closure_src p table alt go) org 208) X1 M1 ->
  comes_back p e (closure_text p table alt go) org f X X1 M1 (returned p e lr (f + 272)).
Proof.
  intros Ho1 Ho2 Wfp Wlr Hf1 Hf2 (_ & _ & _ & _ & _ & _ & _ & Esp & Elr & Ecs & Efr & _) X2 V2 M2 Hsp Hcs W Hb Hfr.
  destruct (exit_whole p table e org X2 V2 M2 f (X 29) lr Ho1 (core_len _ _ _ _ _ Ho2) W Hb ltac:(congruence) Hf1 Hf2 ltac:(congruence) Wfp Wlr)
    as (x & Lx & Bx & K).
  exists x. split; [exact Lx|]. split; [exact Bx|]. intros x' v' S.
  destruct (K x' v' S) as (X3 & V3 & R & T & Rv & Wv & Sp3 & Fp3 & Cs3 & Vk). exists X3, V3.
  rewrite Elr, core_label by (cbn; auto). split; [apply reach_core, R|]. split; [exact T|]. split; [exact Rv|]. split; [exact Sp3|].
  split; [|exact Vk]. intros i Hi. destruct (Z.eq_dec i 29) as [->|N]; [exact Fp3|]. rewrite Cs3, Hcs by lia. apply Ecs. lia.
Qed.

Definition entry (v : bool) : Z := if v then 201 else 202.

Lemma closure_entry v p table alt go e org X V M f :
  0 <= org -> org + 4 * zlen (closure_text p table alt go) <= 2 ^ 64 -> wide8 V ->
  X SP = f + 272 -> 0 <= f -> f + 272 < 2 ^ 64 -> 0 <= X 17 -> X 17 + 48 <= 2 ^ 64 ->
  f + 272 <= X 17 \/ X 17 + 48 <= f ->
  exists X1 M1,
    reach e (closure_text p table alt go) org (St X V (at_label (closure_src p table alt go) org (entry v)) M) (St X1 V (inner e) M1) /\
    entered v X V M f (saved_lr p e (X LR) (X SP)) (le_dec (rd M (X 17 + clo_off table) 8)) (le_dec (rd M (X 17 + clo_off table + 8) 8))
      (le_dec (rd M (X 17 + clo_off table + 16) 8)) (at_label (closure_src p table alt go) org 208) X1 M1.
Proof.
  intros Ho1 Ho2 W Esp Hf1 Hf2 H1 H2 Hd. rewrite !(core_label p table alt go) by (destruct v; cbn; auto 10).
  destruct v.
  - destruct (entry_vec p table e org X V M f Ho1 (core_len _ _ _ _ _ Ho2) W Esp Hf1 Hf2 H1 H2 Hd) as (X1 & M1 & R & En).
    exists X1, M1. split; [apply reach_core, R|exact En].
  - destruct (entry_plain p table e org X V M f Ho1 (core_len _ _ _ _ _ Ho2) Esp Hf1 Hf2 H1 H2 Hd) as (X1 & M1 & R & En).
    exists X1, M1. split; [apply reach_core, R|exact En].
Qed.


Lemma closure_whole v p table alt go e org X V M f :
  0 <= org -> org + 4 * zlen (closure_text p table alt go) <= 2 ^ 64 -> pac_ok e (X LR) (X SP) -> wide8 V ->
  word (X 29) ->
  X SP = f + 272 -> 0 <= f -> f + 272 < 2 ^ 64 -> 0 <= X 17 -> X 17 + 48 <= 2 ^ 64 ->
  f + 272 <= X 17 \/ X 17 + 48 <= f ->
  exists X1 M1,
    reach e (closure_text p table alt go) org (St X V (at_label (closure_src p table alt go) org (entry v)) M) (St X1 V (inner e) M1) /\
    entered v X V M f (saved_lr p e (X LR) (X SP)) (le_dec (rd M (X 17 + clo_off table) 8)) (le_dec (rd M (X 17 + clo_off table + 8) 8))
      (le_dec (rd M (X 17 + clo_off table + 16) 8)) (at_label (closure_src p table alt go) org 208) X1 M1 /\
    comes_back p e (closure_text p table alt go) org f X X1 M1 (X LR).
Proof.
  intros Ho1 Ho2 Law W W29 Esp Hf1 Hf2 H1 H2 Hd.
  destruct (closure_entry v p table alt go e org X V M f Ho1 Ho2 W Esp Hf1 Hf2 H1 H2 Hd) as (X1 & M1 & R & En).
  exists X1, M1. split; [exact R|]. split; [exact En|].
  pose proof (back_ok _ _ _ _ _ e _ _ _ _ _ _ _ _ _ _ _ Ho1 Ho2 W29 (proj1 (law_back p e _ _ Law)) Hf1 Hf2 En) as B.
  rewrite <- Esp, (proj2 (law_back p e _ _ Law)) in B. exact B.
Qed.

(** ** The entries of the static trampolines *)

Definition alt_entry (v : bool) : Z := if v then 203 else 204.

Lemma alt_enter v p table go e org X V M :
  0 <= org -> org + 4 * zlen (closure_text p table true go) <= 2 ^ 64 ->
  0 <= X SP -> X SP + 16 < 2 ^ 64 ->
  exists X1,
    reach e (closure_text p table true go) org (St X V (at_label (closure_src p table true go) org (alt_entry v)) M)
      (St X1 V (at_label (closure_src p table true go) org (entry v)) M) /\
    X1 17 = le_dec (rd M (X SP + 8) 8) /\ X1 SP = X SP + 16 /\ (forall i, i <> 17 -> i <> SP -> X1 i = X i).
Proof.
  intros Ho1 Ho2 Hs1 Hs2. unfold SP in *.
  destruct p as [|k|], table, go, v; text_len Ho2; unfold alt_entry, entry.
  all: unfold at_label; repeat match goal with |- context [4 * find_label ?a ?b 0] => let n := eval vm_compute in (4 * find_label a b 0) in change (4 * find_label a b 0) with n end.
  all: eexists; (split; [do 4 step1 org; exact (reach_refl _ _ _ _)|]).
  all: regs; (split; [reflexivity|]); (split; [lia|]); intros i H1 H2; rewrite ?upd_other by lia; reflexivity.
Qed.

(** ** Go closures *)

Definition go_entry (v : bool) : Z := if v then 205 else 206.
Definition go_saved (v : bool) (p : pac) (e : env) (lr m : Z) : Z := if v then lr else match p with LinuxPac k => sign e k lr m | _ => lr end.

Lemma go_enter v p alt e org X V M f :
  p <> Arm64e ->
  0 <= org -> org + 4 * zlen (closure_text p false alt true) <= 2 ^ 64 -> wide8 V ->
  X SP = f + 272 -> 0 <= f -> f + 272 < 2 ^ 64 -> 0 <= X 18 -> X 18 + 24 <= 2 ^ 64 ->
  f + 272 <= X 18 \/ X 18 + 24 <= f ->
  exists X1 M1,
    reach e (closure_text p false alt true) org (St X V (at_label (closure_src p false alt true) org (go_entry v)) M) (St X1 V (inner e) M1) /\
    entered v X V M f (go_saved v p e (X LR) (X SP)) (le_dec (rd M (X 18 + 8) 8)) (le_dec (rd M (X 18 + 16) 8))
      (X 18) (at_label (closure_src p false alt true) org 208) X1 M1.
Proof.
  intros Hp Ho1 Ho2 W Esp Hf1 Hf2 H17 H17' Hd.
  unfold SP, LR in *.
  destruct p as [|k|]; [| |contradiction]; destruct alt, v; text_len Ho2; unfold go_entry, go_saved.
  all: unfold at_label; repeat match goal with |- context [4 * find_label ?a ?b 0] => let n := eval vm_compute in (4 * find_label a b 0) in change (4 * find_label a b 0) with n end.
  all: eexists; eexists; (split; [repeat (step1 org; rewrite ?Esp; rewrite ?back); exact (reach_refl _ _ _ _)|]).
  all: unfold entered, SP, LR; regs; rewrite ?Esp, ?back.
  all: match goal with |- context [wr ?m0 ?f0 (le_enc 8 _ ++ le_enc 8 ?lr)] => constr_eq m0 M;
     lazymatch goal with
     | |- context [firstn 16 (?vv 0)] => destruct (frame_v M f X V lr W) as (G1 & G2 & G3 & G4 & G5); unfold wx, wv in G1, G2, G3, G4, G5; rewrite !G5 by lia
     | _ => destruct (frame_plain M f X lr) as (G1 & G2 & G3 & G4 & G5); unfold wx in G1, G2, G3, G4, G5; rewrite !G5 by lia end end.
  all: repeat (split; [first [reflexivity|lia|exact G1|exact G2|exact G3|do 2 f_equal; lia|intros i Hi; rewrite ?upd_other by lia; reflexivity]|]).
  all: intros x Hx; apply G4; lia.
Qed.
