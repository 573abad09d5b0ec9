(** From the return of ffi_closure_SYSV_inner to the return of the closure. *)
From Coq Require Import ZifyBool ZifyNat.
From Verif Require Import Base BaseFacts ByteMem A64AsmModel A64AsmFacts A64AsmCall A64AsmRet A64AsmCallAll.
From Verif Require A64Model.
Local Open Scope Z_scope.
Local Arguments Z.mul : simpl never.
Local Arguments Z.add : simpl never.
Local Arguments Z.sub : simpl never.
Local Arguments Z.pow : simpl never.
Local Arguments Z.of_nat : simpl never.

Lemma exit_table p table e org X V M f :
  0 <= org -> org + 4 * zlen (closure_text p table false false) <= 2 ^ 64 ->
  X SP = f -> 0 <= f -> f + 272 < 2 ^ 64 ->
  exists X1,
    reach e (closure_text p table false false) org (St X V (at_label (closure_src p table false false) org 208) M)
      (St X1 V (at_label (closure_src p table false false) org 100 + 16 * Z.land (X 0 mod 2 ^ 32) 31) M) /\
    X1 3 = f + 208 /\ X1 SP = f /\ (forall i, 19 <= i < 30 -> X1 i = X i).
Proof.
  intros Ho1 Ho2 E Hf1 Hf2. unfold SP in *.
  pose proof (land31 (X 0 mod 2 ^ 32)) as Lc.
  destruct p as [|k|], table; text_len Ho2.
  all: unfold at_label; repeat match goal with |- context [4 * find_label ?a ?b 0] => let n := eval vm_compute in (4 * find_label a b 0) in change (4 * find_label a b 0) with n end.
  all: eexists; (split; [do 5 step1 org;
     match goal with |- reach ?e ?t ?o (St ?X1 ?V1 ?a ?M1) (St ?X2 _ ?b _) => let H := fresh in assert (H : a = b) by (change (2 ^ 4) with 16; lia); rewrite <- H; exact (reach_refl e t o _) end|]).
  all: regs; rewrite E; (split; [lia|]); (split; [reflexivity|]); intros i Hi; rewrite ?upd_other by lia; reflexivity.
Qed.

Lemma exit_leave p table e org X V M f fp slr :
  0 <= org -> org + 4 * zlen (closure_text p table false false) <= 2 ^ 64 ->
  X SP = f -> 0 <= f -> f + 272 < 2 ^ 64 ->
  rd M f 16 = le_enc 8 fp ++ le_enc 8 slr -> word fp -> word slr ->
  exists X1,
    reach e (closure_text p table false false) org (St X V (at_label (closure_src p table false false) org 99) M)
      (St X1 V (returned p e slr (f + 272)) M) /\
    X1 0 = X 0 /\ X1 1 = X 1 /\ X1 SP = f + 272 /\ X1 29 = fp /\ (forall i, 19 <= i < 29 -> X1 i = X i).
Proof.
  intros Ho1 Ho2 E Hf1 Hf2 Fr Wf Wl. unfold SP in *.
  change 16%nat with (8 + 8)%nat in Fr. rewrite rd_app in Fr. apply app_inj_len in Fr; [|rewrite rd_length, le_enc_length; reflexivity].
  destruct Fr as [F0 F8]. change (Z.of_nat 8) with 8 in F8.
  assert (Z0 : 0 <= X 31) by lia. assert (Z1 : X 31 + 272 < 2 ^ 64) by lia.
  destruct p as [|k|], table; text_len Ho2.
  all: unfold at_label; repeat match goal with |- context [4 * find_label ?a ?b 0] => let n := eval vm_compute in (4 * find_label a b 0) in change (4 * find_label a b 0) with n end.
  all: eexists; (split; [repeat (step1 org; rewrite ?E; rewrite ?F0, ?F8, ?dec_enc8 by assumption); exact (reach_refl _ _ _ _)|]).
  all: regs; repeat (split; [reflexivity|]); intros i Hi; rewrite ?upd_other by lia; reflexivity.
Qed.

(** The table and nothing else. *)
Definition exit_text : list instr := Eval vm_compute in
  firstn 124 (skipn (Z.to_nat (find_label (closure_src NoPac false false false) 100 0)) (closure_text NoPac false false false)).

Lemma exit_in p table : exists pre post,
  closure_text p table false false = pre ++ exit_text ++ post /\ zlen pre = find_label (closure_src p table false false) 100 0 /\
  find_label (closure_src p table false false) 99 0 = find_label (closure_src p table false false) 100 0 + 124 /\ 1 <= zlen post.
Proof.
  set (k := Z.to_nat (find_label (closure_src p table false false) 100 0)).
  exists (firstn k (closure_text p table false false)), (skipn (k + 124) (closure_text p table false false)). subst k.
  destruct p as [|k|], table; (split; [vm_compute; reflexivity|split; [vm_compute; reflexivity|split; [vm_compute; reflexivity|vm_compute; congruence]]]).
Qed.

Definition two (X : Z -> Z) : list Z := le_enc 8 (X 0) ++ le_enc 8 (X 1).

Lemma get_of_rd M a n off k : 0 <= off -> 0 <= k -> off + k <= Z.of_nat n ->
  get_range (rd M a n) off k = Some (rd M (a + off) (Z.to_nat k)).
Proof.
  intros H1 H2 H3. destruct (get_range (rd M a n) off k) as [b|] eqn:E.
  - apply get_rd in E. rewrite E. reflexivity.
  - unfold get_range in E. rewrite rd_zlen in E. destruct (_ && _ && _) eqn:Q; [discriminate|lia].
Qed.
Lemma skip8 a b : skipn 8 (le_enc 8 a ++ b) = b.
Proof. rewrite skipn_app, skipn_all2 by (rewrite le_enc_length; lia). rewrite le_enc_length. reflexivity. Qed.

Lemma vext_len M a n : (n <= 16)%nat -> length (vext (rd M a n)) = 16%nat.
Proof. intros H. unfold vext. rewrite app_length, repeat_length, rd_length. lia. Qed.
Lemma skip_1 V : wide V -> skipn (16 * 1) (V 0 ++ V 1 ++ V 2 ++ V 3) = V 1 ++ V 2 ++ V 3.
Proof. intros W. change (16 * 1)%nat with (16 + 0)%nat. rewrite !skip16 by (apply (W _); lia). reflexivity. Qed.
Lemma skip_2 V : wide V -> skipn (16 * 2) (V 0 ++ V 1 ++ V 2 ++ V 3) = V 2 ++ V 3.
Proof. intros W. change (16 * 2)%nat with (16 + (16 + 0))%nat. rewrite !skip16 by (apply (W _); lia). reflexivity. Qed.
Lemma skip_3 V : wide V -> skipn (16 * 3) (V 0 ++ V 1 ++ V 2 ++ V 3) = V 3.
Proof. intros W. change (16 * 3)%nat with (16 + (16 + (16 + 0)))%nat. rewrite !skip16 by (apply (W _); lia). reflexivity. Qed.
Lemma skip_4 V : wide V -> skipn (16 * 4) (V 0 ++ V 1 ++ V 2 ++ V 3) = [].
Proof. intros W. apply skipn_all2. rewrite !app_length, !W by lia. lia. Qed.

Lemma exit_load e org X V M code s x' v' :
  0 <= org -> org + 496 < 2 ^ 64 -> wide V -> (forall a, byte_ok (M a)) ->
  X 3 = s -> 0 <= s -> s + 64 < 2 ^ 64 -> 0 <= code <= 31 ->
  A64Model.load_ret code (rd M s 64) (A64Model.ARet (two X) (regs4 V)) = Ok (A64Model.ARet x' v') ->
  exists X1 V1,
    reach e exit_text org (St X V (org + 16 * code) M) (St X1 V1 (org + 496) M) /\
    two X1 = x' /\ regs4 V1 = v' /\ wide V1 /\ (forall i, 1 < i -> X1 i = X i) /\ (forall i, 4 <= i -> V1 i = V i).
Proof.
  intros Ho1 Ho2 W Hb E Hs1 Hs2 Hc S. rewrite <- E in *. clear E s.
  assert (C : In code (map Z.of_nat (seq 0 32))).
  { apply in_map_iff. exists (Z.to_nat code). split; [lia|]. apply List.in_seq. lia. }
  cbn [map seq] in C.
  unfold A64Model.load_ret in S. cbn [A64Model.r_x A64Model.r_v] in S.
  repeat destruct C as [<- | C]; try contradiction.
  all: match type of S with context [Z.land ?c A64Model.A_RET_MASK] => let k := eval vm_compute in (Z.land c A64Model.A_RET_MASK) in change (Z.land c A64Model.A_RET_MASK) with k in S end.
  all: cbv zeta in S.
  all: repeat match type of S with context [if ?a then _ else _] => let k := eval vm_compute in a in change a with k in S; cbv iota in S end.
  all: try discriminate S.
  all: match goal with |- context [16 * Z.of_nat ?k] => let c := eval vm_compute in (16 * Z.of_nat k) in change (16 * Z.of_nat k) with c end.
  all: pose proof (W 0 ltac:(lia)) as W0; pose proof (W 1 ltac:(lia)) as W1; pose proof (W 2 ltac:(lia)) as W2; pose proof (W 3 ltac:(lia)) as W3.
  all: cbn [A64Model.load_vs] in S.
  all: eexists; eexists.
  all: (split; [repeat step1 org; exact (reach_refl _ _ _ _)|]).
  all: rewrite ?(get_of_rd M (X 3) 64) in S by lia; cbn [of_option bind] in S.
  all: match type of S with Ok (A64Model.ARet ?a ?b) = Ok (A64Model.ARet ?c ?d) => assert (Ea : a = c) by congruence; assert (Eb : b = d) by congruence end; clear S; subst x' v'.
  all: unfold two, regs4; regs; rewrite ?Z.add_0_r.
  all: (split; [first [reflexivity|rewrite ?skip8, ?enc_dec_rd by exact Hb; reflexivity
         |rewrite !enc_dec_rd by exact Hb; change (Z.to_nat 16) with (8 + 8)%nat; rewrite rd_app; reflexivity]|]).
  all: (split; [|split; [|split; intros i Hi; rewrite ?upd_other by lia; reflexivity]]).
  all: try reflexivity.
  all: try match goal with |- wide _ => intros i Hi; unfold upd; repeat match goal with |- context [if ?c then _ else _] => destruct c end; first [apply vext_len; lia|apply W, Hi] end.
  all: repeat match goal with |- context [?a * Z.of_nat ?b] => let c := eval vm_compute in (a * Z.of_nat b) in change (a * Z.of_nat b) with c end.
  all: repeat match goal with |- context [Z.to_nat ?b] => let c := eval vm_compute in (Z.to_nat b) in change (Z.to_nat b) with c end.
  all: rewrite ?skip_1, ?skip_2, ?skip_3, ?skip_4 by exact W.
  all: unfold vext; cbn [app]; rewrite <- ?app_assoc, ?app_nil_r; reflexivity.
Qed.

Lemma load_ret_code fl s r : A64Model.load_ret fl s r = A64Model.load_ret (Z.land (fl mod 2 ^ 32) 31) s r.
Proof.
  unfold A64Model.load_ret. replace (Z.land (Z.land (fl mod 2 ^ 32) 31) A64Model.A_RET_MASK) with (Z.land fl A64Model.A_RET_MASK); [reflexivity|].
  change A64Model.A_RET_MASK with 31. rewrite <- Z.land_assoc. change (Z.land 31 31) with 31.
  rewrite <- Z.land_ones by lia. rewrite <- Z.land_assoc. reflexivity.
Qed.

(** From the return of the C function, with the flags in x0, to the caller of the closure.  [x]:
    x0 and x1 before loading. *)
Lemma exit_whole p table e org X V M f fp slr :
  0 <= org -> org + 4 * zlen (closure_text p table false false) <= 2 ^ 64 -> wide V -> (forall a, byte_ok (M a)) ->
  X SP = f -> 0 <= f -> f + 272 < 2 ^ 64 ->
  rd M f 16 = le_enc 8 fp ++ le_enc 8 slr -> word fp -> word slr ->
  exists x, zlen x = 16 /\ bytes_ok x /\
  forall x' v', A64Model.load_ret (X 0) (rd M (f + 208) 64) (A64Model.ARet x (regs4 V)) = Ok (A64Model.ARet x' v') ->
  exists X1 V1,
    reach e (closure_text p table false false) org (St X V (at_label (closure_src p table false false) org 208) M)
      (St X1 V1 (returned p e slr (f + 272)) M) /\
    two X1 = x' /\ regs4 V1 = v' /\ wide V1 /\ X1 SP = f + 272 /\ X1 29 = fp /\ (forall i, 19 <= i < 29 -> X1 i = X i) /\ (forall i, 4 <= i -> V1 i = V i).
Proof.
  intros Ho1 Ho2 W Hb E Hf1 Hf2 Fr Wf Wl.
  destruct (exit_table p table e org X V M f Ho1 Ho2 E Hf1 Hf2) as (Xa & Ra & A3 & Asp & Acs).
  exists (two Xa). split; [unfold two; rewrite zlen_app, !zlen_enc; reflexivity|].
  split; [unfold two; rewrite bytes_ok_app; split; apply le_enc_ok|].
  intros x' v' S. rewrite load_ret_code in S.
  destruct (exit_in p table) as (pre & post & Et & Lp & L99 & Hpost).
  assert (L100 : 0 <= find_label (closure_src p table false false) 100 0) by (rewrite <- Lp; apply zlen_nonneg).
  assert (Hl : zlen (closure_text p table false false) = zlen pre + 124 + zlen post) by (rewrite Et, !zlen_app; change (zlen exit_text) with 124; lia).
  destruct (exit_load e (at_label (closure_src p table false false) org 100) Xa V M _ (f + 208) x' v' ltac:(unfold at_label; lia) ltac:(unfold at_label; lia) W Hb A3 ltac:(lia) ltac:(lia) (land31 _) S) as (Xb & Vb & Rb & B1 & B2 & B3 & Bk & Bv).
  destruct (exit_leave p table e org Xb Vb M f fp slr Ho1 Ho2 ltac:(rewrite Bk by (unfold SP; lia); exact Asp) Hf1 Hf2 Fr Wf Wl)
    as (Xc & Rc & C0 & C1 & Csp & C29 & Ccs).
  exists Xc, Vb. split.
  - eapply reach_trans; [exact Ra|]. eapply reach_trans; [|exact Rc]. rewrite Et. apply reach_sub.
    replace (org + 4 * zlen pre) with (at_label (closure_src p table false false) org 100) by (unfold at_label; lia).
    replace (at_label (closure_src p table false false) org 99) with (at_label (closure_src p table false false) org 100 + 496) by (unfold at_label; lia).
    exact Rb.
  - split; [unfold two in *; rewrite C0, C1; exact B1|]. split; [exact B2|]. split; [exact B3|]. split; [exact Csp|]. split; [exact C29|].
    split; [|exact Bv]. intros i Hi. rewrite Ccs, Bk, Acs by lia. reflexivity.
Qed.
