(** ffi_call_SYSV after the call. *)
From Coq Require Import ZifyBool ZifyNat.
From Verif Require Import Base BaseFacts ByteMem A64AsmModel A64AsmFacts A64AsmCall.
From Verif Require A64Model.
Local Open Scope Z_scope.
Local Arguments Z.mul : simpl never.
Local Arguments Z.add : simpl never.
Local Arguments Z.sub : simpl never.
Local Arguments Z.pow : simpl never.
Local Arguments Z.of_nat : simpl never.

Lemma land31 x : 0 <= Z.land x 31 <= 31.
Proof. change 31 with (Z.ones 5). rewrite Z.land_ones by lia. pose proof (Z.mod_pos_bound x (2 ^ 5)). change (Z.ones 5) with 31. lia. Qed.

(** Up to the jump into the table. *)
Lemma call_table p go e org X V M fr :
  0 <= org -> org + 4 * zlen (call_text p go) <= 2 ^ 64 ->
  X 29 = fr -> 0 <= fr -> fr + 40 <= 2 ^ 64 ->
  exists X1,
    let w := le_dec (rd M (fr + 24) 8) in
    reach e (call_text p go) org (St X V (at_label (call_src p go) org 2) M)
      (St X1 V (at_label (call_src p go) org 100 + 16 * Z.land (w mod 2 ^ 32) 31) M) /\
    X1 0 = X 0 /\ X1 1 = X 1 /\ X1 2 = fr /\ X1 3 = le_dec (rd M (fr + 16) 8) /\
    X1 SP = le_dec (rd M (fr + 32) 8) /\ X1 29 = le_dec (rd M fr 8) /\ X1 LR = le_dec (rd M (fr + 8) 8) /\
    (forall i, 19 <= i < 29 -> X1 i = X i).
Proof.
  intros Ho1 Ho2 E Hf1 Hf2.
  pose proof (land31 (le_dec (rd M (fr + 24) 8) mod 2 ^ 32)) as Lc.
  destruct p as [|k|], go; text_len Ho2.
  all: (eexists; cbv zeta; split; [unfold at_label;
     match goal with |- reach _ _ _ (St _ _ (_ + ?a) _) _ => let n := eval vm_compute in a in change a with n end;
     do 4 step1 org; rewrite E; replace (fr + 16 + 8) with (fr + 24) by lia; do 5 step1 org;
     match goal with |- reach _ _ _ _ (St _ _ (_ + ?a + _) _) => let n := eval vm_compute in a in change a with n end;
     match goal with |- reach ?e ?t ?o (St ?X1 ?V1 ?a ?M1) (St ?X2 _ ?b _) => let H := fresh in assert (H : a = b) by (change (2 ^ 4) with 16; lia); rewrite <- H; exact (reach_refl e t o _) end|]).
  all: unfold SP, LR; regs; rewrite ?E.
  all: repeat (split; [try first [reflexivity|do 2 f_equal; lia]|]).
  all: (intros i Hi; rewrite ?upd_other by lia; reflexivity).
Qed.

(** From the end of the table to the return. *)
Definition returned (p : pac) (e : env) (lr m : Z) : Z :=
  match p with NoPac => lr | LinuxPac k => auth e k lr m | Arm64e => auth e 1 lr m end.

Lemma call_leave p go e org X V M :
  0 <= org -> org + 4 * zlen (call_text p go) <= 2 ^ 64 ->
  exists X1,
    reach e (call_text p go) org (St X V (at_label (call_src p go) org 99) M) (St X1 V (returned p e (X LR) (X 2)) M) /\ X1 LR = returned p e (X LR) (X 2) /\ X1 SP = X SP /\ (forall i, 19 <= i < 30 -> X1 i = X i) /\ (forall i, 0 <= i < 9 -> X1 i = X i).
Proof.
  intros Ho1 Ho2.
 destruct p as [|k|], go; text_len Ho2.
  all: (eexists; split; [unfold at_label;
     match goal with |- reach _ _ _ (St _ _ (_ + ?a) _) _ => let n := eval vm_compute in a in change a with n end;
     repeat step1 org|]).
  all: try exact (reach_refl _ _ _ _).
  all: unfold SP, LR; regs; (split; [reflexivity|]); (split; [reflexivity|]); split; intros i Hi; rewrite ?upd_other by lia; reflexivity.
Qed.

(** ** The table *)

Definition regs4 (V : Z -> list Z) : list Z := V 0 ++ V 1 ++ V 2 ++ V 3.
Definition wide (V : Z -> list Z) : Prop := forall i, 0 <= i < 4 -> length (V i) = 16%nat.

Lemma skip16 (a b : list Z) j : length a = 16%nat -> skipn (16 + j) (a ++ b) = skipn j b.
Proof. intros H. rewrite skipn_app, skipn_all2 by lia. cbn [app]. f_equal. lia. Qed.
Lemma first16 (a b : list Z) n : length a = 16%nat -> (n <= 16)%nat -> firstn n (a ++ b) = firstn n a.
Proof. intros H Hn. rewrite firstn_app. replace (n - length a)%nat with 0%nat by lia. cbn [firstn]. apply app_nil_r. Qed.

Lemma regs4_0 V n : wide V -> (n <= 16)%nat -> firstn n (skipn (16 * 0) (regs4 V)) = firstn n (V 0).
Proof. intros W Hn. change (16 * 0)%nat with 0%nat. cbn [skipn]. apply first16; [apply W; lia|exact Hn]. Qed.
Lemma regs4_1 V n : wide V -> (n <= 16)%nat -> firstn n (skipn (16 * 1) (regs4 V)) = firstn n (V 1).
Proof. intros W Hn. change (16 * 1)%nat with (16 + 0)%nat. unfold regs4. rewrite !skip16 by (apply (W _); lia). cbn [skipn]. apply first16; [apply W; lia|exact Hn]. Qed.
Lemma regs4_2 V n : wide V -> (n <= 16)%nat -> firstn n (skipn (16 * 2) (regs4 V)) = firstn n (V 2).
Proof. intros W Hn. change (16 * 2)%nat with (16 + (16 + 0))%nat. unfold regs4. rewrite !skip16 by (apply (W _); lia). cbn [skipn]. apply first16; [apply W; lia|exact Hn]. Qed.
Lemma regs4_3 V n : wide V -> (n <= 16)%nat -> firstn n (skipn (16 * 3) (regs4 V)) = firstn n (V 3).
Proof. intros W Hn. change (16 * 3)%nat with (16 + (16 + (16 + 0)))%nat. unfold regs4. rewrite !skip16 by (apply (W _); lia). cbn [skipn]. reflexivity. Qed.

Lemma set_some {A} (b : list A) off d b' : of_option (set_range b off d) = Ok b' -> set_range b off d = Some b' /\ 0 <= off /\ off + zlen d <= zlen b.
Proof.
  intros H. unfold of_option in H. destruct (set_range b off d) eqn:E; [|discriminate]. injection H as ->. split; [reflexivity|].
  unfold set_range in E. destruct ((0 <=? off) && (off + zlen d <=? zlen b)) eqn:C; [lia|discriminate].
Qed.

(** The table and nothing else: the same in all variants. *)
Definition table_text : list instr := Eval vm_compute in
  firstn 128 (skipn (Z.to_nat (find_label (call_src NoPac false) 100 0)) (call_text NoPac false)).

Lemma table_in p go : exists pre post,
  call_text p go = pre ++ table_text ++ post /\ zlen pre = find_label (call_src p go) 100 0 /\
  find_label (call_src p go) 99 0 = find_label (call_src p go) 100 0 + 128 /\ 1 <= zlen post.
Proof.
  set (k := Z.to_nat (find_label (call_src p go) 100 0)).
  exists (firstn k (call_text p go)), (skipn (k + 128) (call_text p go)). subst k.
  destruct p as [|k|], go; (split; [vm_compute; reflexivity|split; [vm_compute; reflexivity|split; [vm_compute; reflexivity|vm_compute; congruence]]]).
Qed.

Lemma store_at M a n off d b' : 0 <= off -> off + zlen d <= Z.of_nat n -> set_range (rd M a n) off d = Some b' ->
  rd (wr M (a + off) d) a n = b' /\ (forall x, ~ (a <= x < a + Z.of_nat n) -> wr M (a + off) d x = M x).
Proof. intros H0 H1 S. split; [apply rd_wr_range, S|]. intros x Hx. apply wr_out. lia. Qed.

Lemma x0_part a b : firstn 8 (le_enc 8 a ++ le_enc 8 b) = le_enc 8 a.
Proof. rewrite firstn_app, le_enc_length. change (8 - 8)%nat with 0%nat. cbn [firstn]. rewrite app_nil_r. apply firstn_enc8. Qed.
Lemma x01_part a b : firstn 16 (le_enc 8 a ++ le_enc 8 b) = le_enc 8 a ++ le_enc 8 b.
Proof. apply firstn_all2. rewrite app_length, !le_enc_length. lia. Qed.
Lemma mod_dec8 a k : 0 <= k <= 64 -> le_dec (le_enc 8 a) mod 2 ^ k = a mod 2 ^ k.
Proof.
  intros Hk. rewrite le_dec_enc. change (8 * Z.of_nat 8) with 64.
  replace (2 ^ 64) with (2 ^ k * 2 ^ (64 - k)) by (rewrite <- Z.pow_add_r by lia; f_equal; lia).
  rewrite Z.rem_mul_r by lia. rewrite Z.mul_comm, Z.mod_add by lia. apply Z.mod_mod. lia.
Qed.
Lemma signed_dec8 a k : 0 < k <= 64 -> to_signed k (le_dec (le_enc 8 a)) = to_signed k a.
Proof. intros Hk. unfold to_signed. rewrite mod_dec8 by lia. reflexivity. Qed.

Lemma table_store e org X V M code n buf' :
  0 <= org -> org + 512 < 2 ^ 64 -> wide V ->
  0 <= X 3 -> X 3 + Z.of_nat n <= 2 ^ 64 -> 0 <= code <= 31 ->
  A64Model.store_ret code (A64Model.ARet (le_enc 8 (X 0) ++ le_enc 8 (X 1)) (regs4 V)) (rd M (X 3) n) = Ok buf' ->
  exists X1 M1,
    reach e table_text org (St X V (org + 16 * code) M) (St X1 V (org + 512) M1) /\
    rd M1 (X 3) n = buf' /\ (forall x, ~ (X 3 <= x < X 3 + Z.of_nat n) -> M1 x = M x) /\
    (forall i, i <> 0 -> X1 i = X i).
Proof.
  intros Ho1 Ho2 W Hr1 Hr2 Hc S.
  assert (C : In code (map Z.of_nat (seq 0 32))).
  { apply in_map_iff. exists (Z.to_nat code). split; [lia|]. apply List.in_seq. lia. }
  cbn [map seq] in C.
  unfold A64Model.store_ret in S. cbn [A64Model.r_x A64Model.r_v] in S.
  repeat destruct C as [<- | C]; try contradiction.
  all: match type of S with context [Z.land ?c A64Model.A_RET_MASK] => let k := eval vm_compute in (Z.land c A64Model.A_RET_MASK) in change (Z.land c A64Model.A_RET_MASK) with k in S end.
  all: cbv zeta in S.
  all: repeat match type of S with context [if ?a then _ else _] => let k := eval vm_compute in a in change a with k in S; cbv iota in S end.
  all: try discriminate S.
  all: rewrite ?x0_part, ?x01_part, ?mod_dec8, ?signed_dec8, ?regs4_0, ?regs4_1, ?regs4_2, ?regs4_3 in S by (exact W || lia).
  all: match goal with |- context [16 * Z.of_nat ?k] => let c := eval vm_compute in (16 * Z.of_nat k) in change (16 * Z.of_nat k) with c end.
  all: pose proof (W 0 ltac:(lia)) as W0; pose proof (W 1 ltac:(lia)) as W1; pose proof (W 2 ltac:(lia)) as W2; pose proof (W 3 ltac:(lia)) as W3.
  all: repeat match type of S with bind ?a _ = _ => let S1 := fresh "S1" in destruct a eqn:S1; [cbn [bind] in S | discriminate S ..] end.
  all: repeat match goal with H : of_option _ = Ok _ |- _ => apply set_some in H; destruct H as (H & ? & ?) end.
  all: repeat match goal with H : set_range (rd ?m ?r ?k) ?off ?d = Some ?b |- _ =>
    let Q := fresh "Q" in pose proof (rd_wr_range _ _ _ _ _ _ H) as Q; clear H; subst b end.
  all: repeat match goal with H : _ <= zlen _ |- _ => rewrite ?zlen_app, ?zlen_enc, ?rd_zlen in H; rewrite ?zlen_firstn in H by lia end.
  all: eexists; eexists.
  all: (split; [repeat step1 org; exact (reach_refl _ _ _ _)|]).
  all: repeat match goal with H : Ok _ = Ok _ |- _ => injection H as <- end.
  all: rewrite ?Z.add_0_r.
  all: cbn [lanes app]; change (Z.of_nat 0) with 0; change (Z.of_nat 1) with 1; change (Z.of_nat 2) with 2; change (Z.of_nat 3) with 3; rewrite <- ?app_assoc.
  all: (split; [reflexivity|]).
  all: (split; [|intros i Hi; try reflexivity; apply upd_other; lia]).
  all: intros x Hx; rewrite ?wr_out by (rewrite ?zlen_app, ?zlen_enc; rewrite ?zlen_firstn by lia; lia); reflexivity.
Qed.

Lemma call_store p go e org X V M code n buf' :
  0 <= org -> org + 4 * zlen (call_text p go) <= 2 ^ 64 -> wide V ->
  0 <= X 3 -> X 3 + Z.of_nat n <= 2 ^ 64 -> 0 <= code <= 31 ->
  A64Model.store_ret code (A64Model.ARet (le_enc 8 (X 0) ++ le_enc 8 (X 1)) (regs4 V)) (rd M (X 3) n) = Ok buf' ->
  exists X1 M1,
    reach e (call_text p go) org (St X V (at_label (call_src p go) org 100 + 16 * code) M)
      (St X1 V (at_label (call_src p go) org 99) M1) /\
    rd M1 (X 3) n = buf' /\ (forall x, ~ (X 3 <= x < X 3 + Z.of_nat n) -> M1 x = M x) /\
    (forall i, i <> 0 -> X1 i = X i).
Proof.
  intros Ho1 Ho2 W Hr1 Hr2 Hc S.
  destruct (table_in p go) as (pre & post & E & Lp & L99 & Hpost).
  assert (L100 : 0 <= find_label (call_src p go) 100 0) by (rewrite <- Lp; apply zlen_nonneg).
  assert (Hl : zlen (call_text p go) = zlen pre + 128 + zlen post) by (rewrite E, !zlen_app; change (zlen table_text) with 128; lia).
  destruct (table_store e (at_label (call_src p go) org 100) X V M code n buf') as (X1 & M1 & R & H); try assumption.
  - unfold at_label. lia.
  - unfold at_label. lia.
  - exists X1, M1. split; [|exact H]. rewrite E. apply reach_sub.
    replace (org + 4 * zlen pre) with (at_label (call_src p go) org 100) by (unfold at_label; lia).
    replace (at_label (call_src p go) org 99) with (at_label (call_src p go) org 100 + 512) by (unfold at_label; lia). exact R.
Qed.
