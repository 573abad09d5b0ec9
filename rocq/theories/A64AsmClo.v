(** Closure entry and exit. *)
From Coq Require Import ZifyBool ZifyNat.
From Verif Require Import Base BaseFacts ByteMem A64AsmModel A64AsmFacts A64AsmCall A64AsmRet A64AsmCallAll.
From Verif Require A64Model.
Local Open Scope Z_scope.
Local Arguments Z.mul : simpl never.
Local Arguments Z.add : simpl never.
Local Arguments Z.sub : simpl never.
Local Arguments Z.pow : simpl never.
Local Arguments Z.of_nat : simpl never.

Definition wide8 (V : Z -> list Z) : Prop := forall i, 0 <= i < 8 -> length (V i) = 16%nat.

(** The state in which the C function is entered.  [f]: the frame; [v]: vector registers are
    saved; [lr]: the return address saved. *)
Definition entered (v : bool) (X : Z -> Z) (V : Z -> list Z) (M : Z -> Z) (f lr a0 a1 a2 back : Z) (X1 : Z -> Z) (M1 : Z -> Z) : Prop :=
  X1 0 = a0 /\ X1 1 = a1 /\ X1 2 = a2 /\ X1 3 = f + 16 /\ X1 4 = f + 272 /\ X1 5 = f + 208 /\ X1 6 = X 8 /\
  X1 SP = f /\ X1 LR = back /\
  (forall i, 19 <= i < 29 -> X1 i = X i) /\
  rd M1 f 16 = le_enc 8 (X 29) ++ le_enc 8 lr /\
  rd M1 (f + 144) 64 = xbytes X /\
  rd M1 (f + 16) 128 = (if v then vbytes V else rd M (f + 16) 128) /\
  (forall x, ~ (f <= x < f + 272) -> M1 x = M x).

Ltac rdw := repeat first
  [ rewrite rd_wr_same by (rewrite ?app_length, ?le_enc_length; reflexivity)
  | rewrite rd_wr_other by (rewrite ?zlen_app, ?zlen_enc; lia) ].

Lemma v_pair (V : Z -> list Z) i j : wide8 V -> 0 <= i < 8 -> 0 <= j < 8 -> firstn 16 (V i) ++ firstn 16 (V j) = V i ++ V j.
Proof. intros W Hi Hj. rewrite !firstn_all2 by (rewrite W by lia; lia). reflexivity. Qed.

Definition wx (M : Z -> Z) (f : Z) (X : Z -> Z) : Z -> Z :=
  wr (wr (wr (wr M (f + 144) (le_enc 8 (X 0) ++ le_enc 8 (X 1))) (f + 160) (le_enc 8 (X 2) ++ le_enc 8 (X 3)))
    (f + 176) (le_enc 8 (X 4) ++ le_enc 8 (X 5))) (f + 192) (le_enc 8 (X 6) ++ le_enc 8 (X 7)).
Definition wv (M : Z -> Z) (f : Z) (V : Z -> list Z) : Z -> Z :=
  wr (wr (wr (wr M (f + 16) (firstn 16 (V 0) ++ firstn 16 (V 1))) (f + 48) (firstn 16 (V 2) ++ firstn 16 (V 3)))
    (f + 80) (firstn 16 (V 4) ++ firstn 16 (V 5))) (f + 112) (firstn 16 (V 6) ++ firstn 16 (V 7)).

Lemma wx_other M f X a n : a + Z.of_nat n <= f + 144 \/ f + 208 <= a -> rd (wx M f X) a n = rd M a n.
Proof. intros H. unfold wx. rdw. reflexivity. Qed.
Lemma wx_out M f X x : ~ (f + 144 <= x < f + 208) -> wx M f X x = M x.
Proof. intros H. unfold wx. rewrite !wr_out by (rewrite ?zlen_app, ?zlen_enc; lia). reflexivity. Qed.
Lemma wx_same M f X : rd (wx M f X) (f + 144) 64 = xbytes X.
Proof.
  change 64%nat with (16 + (16 + (16 + 16)))%nat. rewrite !rd_app. change (Z.of_nat 16) with 16. unfold wx.
  replace (f + 144 + 16) with (f + 160) by lia. replace (f + 160 + 16) with (f + 176) by lia. replace (f + 176 + 16) with (f + 192) by lia.
  rdw. unfold xbytes. cbn [map concat]. rewrite app_nil_r, <- !app_assoc. reflexivity.
Qed.

Lemma pair_len (V : Z -> list Z) i j : wide8 V -> 0 <= i < 8 -> 0 <= j < 8 -> zlen (V i ++ V j) = 32.
Proof. intros W Hi Hj. unfold zlen. rewrite app_length, !W by lia. reflexivity. Qed.
Lemma wv_other M f V a n : wide8 V -> a + Z.of_nat n <= f + 16 \/ f + 144 <= a -> rd (wv M f V) a n = rd M a n.
Proof. intros W H. unfold wv. rewrite !v_pair by (exact W || lia). rewrite !rd_wr_other by (rewrite !pair_len by (exact W || lia); lia). reflexivity. Qed.
Lemma wv_out M f V x : wide8 V -> ~ (f + 16 <= x < f + 144) -> wv M f V x = M x.
Proof. intros W H. unfold wv. rewrite !v_pair by (exact W || lia). rewrite !wr_out by (rewrite !pair_len by (exact W || lia); lia). reflexivity. Qed.
Lemma wv_same M f V : wide8 V -> rd (wv M f V) (f + 16) 128 = vbytes V.
Proof.
  intros W. unfold wv. rewrite !v_pair by (exact W || lia).
  change 128%nat with (32 + (32 + (32 + 32)))%nat. rewrite !rd_app. change (Z.of_nat 32) with 32.
  replace (f + 16 + 32) with (f + 48) by lia. replace (f + 48 + 32) with (f + 80) by lia. replace (f + 80 + 32) with (f + 112) by lia.
  repeat first [rewrite rd_wr_same by (rewrite app_length, !W by lia; reflexivity)|rewrite rd_wr_other by (rewrite !pair_len by (exact W || lia); lia)].
  unfold vbytes. cbn [map concat]. rewrite app_nil_r, <- !app_assoc. reflexivity.
Qed.

(** What the frame holds. *)
Lemma frame_plain M f X lr : let M1 := wx (wr M f (le_enc 8 (X 29) ++ le_enc 8 lr)) f X in
  rd M1 f 16 = le_enc 8 (X 29) ++ le_enc 8 lr /\ rd M1 (f + 144) 64 = xbytes X /\ rd M1 (f + 16) 128 = rd M (f + 16) 128 /\
  (forall x, ~ (f <= x < f + 208) -> M1 x = M x) /\
  (forall a n, f + 208 <= a \/ a + Z.of_nat n <= f -> rd M1 a n = rd M a n).
Proof.
  intros M1. unfold M1. repeat apply conj.
  - rewrite wx_other by lia. apply rd_wr_same. rewrite app_length, !le_enc_length. reflexivity.
  - apply wx_same.
  - rewrite wx_other by lia. rdw. reflexivity.
  - intros x H. rewrite wx_out by lia. apply wr_out. rewrite zlen_app, !zlen_enc. lia.
  - intros a n H. rewrite wx_other by lia. rdw. reflexivity.
Qed.
Lemma frame_v M f X V lr : wide8 V -> let M1 := wx (wv (wr M f (le_enc 8 (X 29) ++ le_enc 8 lr)) f V) f X in
  rd M1 f 16 = le_enc 8 (X 29) ++ le_enc 8 lr /\ rd M1 (f + 144) 64 = xbytes X /\ rd M1 (f + 16) 128 = vbytes V /\
  (forall x, ~ (f <= x < f + 208) -> M1 x = M x) /\
  (forall a n, f + 208 <= a \/ a + Z.of_nat n <= f -> rd M1 a n = rd M a n).
Proof.
  intros W M1. unfold M1. repeat apply conj.
  - rewrite wx_other, wv_other by (exact W || lia). apply rd_wr_same. rewrite app_length, !le_enc_length. reflexivity.
  - apply wx_same.
  - rewrite wx_other by lia. apply wv_same, W.
  - intros x H. rewrite wx_out, wv_out by (exact W || lia). apply wr_out. rewrite zlen_app, !zlen_enc. lia.
  - intros a n H. rewrite wx_other, wv_other by (exact W || lia). rdw. reflexivity.
Qed.

Lemma back f : f + 272 + -272 = f.
Proof. lia. Qed.

Lemma entry_plain p table e org X V M f :
  0 <= org -> org + 4 * zlen (closure_text p table false false) <= 2 ^ 64 ->
  X SP = f + 272 -> 0 <= f -> f + 272 < 2 ^ 64 -> 0 <= X 17 -> X 17 + 48 <= 2 ^ 64 ->
  f + 272 <= X 17 \/ X 17 + 48 <= f ->
  exists X1 M1,
    reach e (closure_text p table false false) org (St X V (at_label (closure_src p table false false) org 202) M)
      (St X1 V (inner e) M1) /\
    entered false X V M f (saved_lr p e (X LR) (X SP)) (le_dec (rd M (X 17 + clo_off table) 8)) (le_dec (rd M (X 17 + clo_off table + 8) 8))
      (le_dec (rd M (X 17 + clo_off table + 16) 8)) (at_label (closure_src p table false false) org 208) X1 M1.
Proof.
  intros Ho1 Ho2 Esp Hf1 Hf2 H17 H17' Hd.
  unfold SP, LR in *.
  destruct p as [|k|], table; text_len Ho2; unfold clo_off.
  all: unfold at_label; repeat match goal with |- context [4 * find_label ?a ?b 0] => let n := eval vm_compute in (4 * find_label a b 0) in change (4 * find_label a b 0) with n end.
  all: eexists; eexists; (split; [repeat (step1 org; rewrite ?Esp; rewrite ?back); exact (reach_refl _ _ _ _)|]).
  all: unfold entered, SP, LR; regs; rewrite ?Esp, ?back.
  all: match goal with |- context [wr ?m0 ?f0 (le_enc 8 _ ++ le_enc 8 ?lr)] => constr_eq m0 M; destruct (frame_plain M f X lr) as (G1 & G2 & G3 & G4 & G5); unfold wx in G1, G2, G3, G4, G5; rewrite !G5 by lia end.
  all: repeat (split; [first [reflexivity|lia|exact G1|exact G2|exact G3|do 2 f_equal; lia|intros i Hi; rewrite ?upd_other by lia; reflexivity]|]).
  all: intros x Hx; apply G4; lia.
Qed.

Lemma entry_vec p table e org X V M f :
  0 <= org -> org + 4 * zlen (closure_text p table false false) <= 2 ^ 64 -> wide8 V ->
  X SP = f + 272 -> 0 <= f -> f + 272 < 2 ^ 64 -> 0 <= X 17 -> X 17 + 48 <= 2 ^ 64 ->
  f + 272 <= X 17 \/ X 17 + 48 <= f ->
  exists X1 M1,
    reach e (closure_text p table false false) org (St X V (at_label (closure_src p table false false) org 201) M)
      (St X1 V (inner e) M1) /\
    entered true X V M f (saved_lr p e (X LR) (X SP)) (le_dec (rd M (X 17 + clo_off table) 8)) (le_dec (rd M (X 17 + clo_off table + 8) 8))
      (le_dec (rd M (X 17 + clo_off table + 16) 8)) (at_label (closure_src p table false false) org 208) X1 M1.
Proof.
  intros Ho1 Ho2 W Esp Hf1 Hf2 H17 H17' Hd.
  unfold SP, LR in *.
  destruct p as [|k|], table; text_len Ho2; unfold clo_off.
  all: unfold at_label; repeat match goal with |- context [4 * find_label ?a ?b 0] => let n := eval vm_compute in (4 * find_label a b 0) in change (4 * find_label a b 0) with n end.
  all: eexists; eexists; (split; [repeat (step1 org; rewrite ?Esp; rewrite ?back); exact (reach_refl _ _ _ _)|]).
  all: unfold entered, SP, LR; regs; rewrite ?Esp, ?back.
  all: match goal with |- context [wr ?m0 ?f0 (le_enc 8 _ ++ le_enc 8 ?lr)] => constr_eq m0 M; destruct (frame_v M f X V lr W) as (G1 & G2 & G3 & G4 & G5); unfold wx, wv in G1, G2, G3, G4, G5; rewrite !G5 by lia end.
  all: repeat (split; [first [reflexivity|lia|exact G1|exact G2|exact G3|do 2 f_equal; lia|intros i Hi; rewrite ?upd_other by lia; reflexivity]|]).
  all: intros x Hx; apply G4; lia.
Qed.
