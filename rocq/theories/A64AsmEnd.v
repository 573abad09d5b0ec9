(** Closures from the call of their code address to the handler and back. *)
From Coq Require Import ZifyBool ZifyNat.
From Verif Require Import Base BaseFacts ByteMem Types A64AsmModel A64ClosureModel A64AsmFacts A64AsmCall A64AsmRet A64AsmCallAll A64AsmClo A64AsmExit A64AsmCloAll A64AsmTramp.
From Verif Require A64Model.
Local Open Scope Z_scope.
Local Arguments Z.mul : simpl never.
Local Arguments Z.add : simpl never.
Local Arguments Z.sub : simpl never.
Local Arguments Z.pow : simpl never.
Local Arguments Z.of_nat : simpl never.

Lemma rd_shift m m' a b n : (forall k, 0 <= k < Z.of_nat n -> m' (b + k) = m (a + k)) -> rd m' b n = rd m a n.
Proof.
  revert a b. induction n as [|n IH]; intros a b H; cbn [rd]; [reflexivity|]. f_equal.
  - specialize (H 0 ltac:(lia)). rewrite !Z.add_0_r in H. exact H.
  - apply IH. intros k Hk. specialize (H (k + 1) ltac:(lia)). replace (a + 1 + k) with (a + (k + 1)) by lia. replace (b + 1 + k) with (b + (k + 1)) by lia. exact H.
Qed.

Lemma entered_ext v Xa X V Ma M f lr a0 a1 a2 back X1 M1 :
  (forall i, i <> 16 -> i <> 17 -> i <> SP -> Xa i = X i) ->
  (forall x, ~ (f + 256 <= x < f + 272) -> Ma x = M x) ->
  entered v Xa V Ma f lr a0 a1 a2 back X1 M1 -> entered v X V M f lr a0 a1 a2 back X1 M1.
Proof.
  intros HX HM (H0 & H1 & H2 & H3 & H4 & H5 & H6 & Hsp & Hlr & Hcs & Hfr & Hx & Hv & Ho). unfold SP in HX.
  unfold entered. repeat (split; [assumption|]).
  split; [rewrite H6; apply HX; lia|]. split; [exact Hsp|]. split; [exact Hlr|].
  split; [intros i Hi; rewrite Hcs by lia; apply HX; lia|].
  split; [rewrite Hfr; rewrite HX by lia; reflexivity|].
  split; [rewrite Hx; unfold xbytes; cbn [map concat]; rewrite !HX by lia; reflexivity|].
  split; [rewrite Hv; destruct v; [reflexivity|]; apply rd_ext; intros x Hx'; apply HM; lia|].
  intros x Hx'. rewrite Ho by exact Hx'. apply HM. lia.
Qed.

Lemma comes_back_ext p e t org f Xa X X1 M1 target :
  (forall i, 19 <= i < 30 -> Xa i = X i) -> comes_back p e t org f Xa X1 M1 target -> comes_back p e t org f X X1 M1 target.
Proof.
  intros HX C X2 V2 M2 H1 H2 H3 H4 H5. destruct (C X2 V2 M2 H1 H2 H3 H4 H5) as (x & L & B & K). exists x. split; [exact L|]. split; [exact B|].
  intros x' v' S. destruct (K x' v' S) as (X3 & V3 & R & T1 & T2 & T3 & T4 & T5). exists X3, V3.
  repeat (split; [assumption|]). split; [|exact T5]. intros i Hi. rewrite T4 by lia. apply HX, Hi.
Qed.

Lemma label_word p table alt go org l : 0 <= org -> org + 4 * zlen (closure_text p table alt go) <= 2 ^ 64 ->
  In l [201; 202] \/ (alt = true /\ In l [203; 204]) \/ (go = true /\ In l [205; 206]) -> word (at_label (closure_src p table alt go) org l).
Proof.
  intros H1 H2 H. unfold word, at_label.
  assert (0 <= find_label (closure_src p table alt go) l 0 < zlen (closure_text p table alt go)); [|lia].
  clear H1 H2.
  destruct H as [H|[[-> H]|[-> H]]]; cbn [In] in H; decompose [or] H; try contradiction; subst l;
    destruct p as [|k|], table; try destruct alt; try destruct go; (split; [vm_compute; congruence|vm_compute; reflexivity]).
Qed.

(** The words at an address. *)
Definition three (M : Z -> Z) (a x y z : Z) : Prop :=
  rd M a 8 = le_enc 8 x /\ rd M (a + 8) 8 = le_enc 8 y /\ rd M (a + 16) 8 = le_enc 8 z.

Lemma fields_read m a x y z : three (wr (wr (wr m a (le_enc 8 x)) (a + 8) (le_enc 8 y)) (a + 16) (le_enc 8 z)) a x y z.
Proof.
  unfold three. repeat split; repeat first [rewrite rd_wr_same by (rewrite le_enc_length; reflexivity)|rewrite rd_wr_other by (rewrite zlen_enc; lia)]; reflexivity.
Qed.

Lemma three_at M M' a b x y z : three M a x y z -> (forall k, 0 <= k < 24 -> M' (b + k) = M (a + k)) -> three M' b x y z.
Proof.
  intros (H1 & H2 & H3) E. unfold three. rewrite <- H1, <- H2, <- H3.
  repeat split; apply rd_shift; intros k Hk; [apply E; lia| |].
  - replace (b + 8 + k) with (b + (8 + k)) by lia. replace (a + 8 + k) with (a + (8 + k)) by lia. apply E. lia.
  - replace (b + 16 + k) with (b + (16 + k)) by lia. replace (a + 16 + k) with (a + (16 + k)) by lia. apply E. lia.
Qed.

Definition v_of (flags : Z) : bool := negb (Z.land flags A64Model.A_ARG_V =? 0).

Lemma dynamic_whole p alt go e org X V M f abi flags closure cif fn ud codeloc m0 m1 :
  0 <= org -> org + 4 * zlen (closure_text p false alt go) <= 2 ^ 64 -> pac_ok e (X LR) (X SP) -> wide8 V -> word (X 29) ->
  X SP = f + 272 -> 0 <= f -> f + 272 < 2 ^ 64 ->
  word cif -> word fn -> word ud -> 0 <= codeloc -> codeloc + 48 < 2 ^ 64 -> f + 272 <= codeloc \/ codeloc + 48 <= f ->
  prep_closure_loc (at_label (closure_src p false alt go) org) Dynamic abi flags closure cif fn ud codeloc m0 = (FFI_OK, m1) ->
  (forall k, 0 <= k < 48 -> M (codeloc + k) = m1 (closure + k)) ->
  exists s X1 M1,
    wsteps 3 (St X V codeloc M) = Some s /\ reach e (closure_text p false alt go) org s (St X1 V (inner e) M1) /\
    entered (v_of flags) X V M f (saved_lr p e (X LR) (X SP)) cif fn ud (at_label (closure_src p false alt go) org 208) X1 M1 /\
    comes_back p e (closure_text p false alt go) org f X X1 M1 (X LR).
Proof.
  intros Ho1 Ho2 Law W W29 Esp Hf1 Hf2 Wc Wf Wu Hc1 Hc2 Hd P Mir.
  unfold prep_closure_loc in P. destruct (_ && _); [discriminate|].
  apply (f_equal snd) in P. cbn [snd] in P. unfold start in P. fold (v_of flags) in P. cbn [is_table clo_off] in P.
  set (st := at_label (closure_src p false alt go) org (entry (v_of flags))).
  change (at_label (closure_src p false alt go) org (if v_of flags then 201 else 202)) with st in P.
  assert (Ws : word st) by (apply label_word; auto; left; unfold entry; destruct (v_of flags); cbn; auto).
  assert (T : rd M codeloc 24 = trampoline ++ le_enc 8 st).
  { rewrite (rd_shift m1 M closure codeloc 24) by (intros; apply Mir; lia). subst m1.
    rewrite !rd_wr_other by (rewrite zlen_enc; lia).
    change 24%nat with (16 + 8)%nat. rewrite rd_app. change (Z.of_nat 16) with 16.
    rewrite (rd_wr_same _ (closure + 16)) by (rewrite le_enc_length; reflexivity).
    rewrite rd_wr_other by (rewrite zlen_enc; lia). rewrite rd_wr_same by reflexivity. reflexivity. }
  assert (F : three M (codeloc + 24) cif fn ud).
  { apply (three_at m1 M (closure + 24)).
    - subst m1. apply fields_read.
    - intros k Hk. replace (codeloc + 24 + k) with (codeloc + (24 + k)) by lia. replace (closure + 24 + k) with (closure + (24 + k)) by lia. apply Mir. lia. }
  destruct F as (F1 & F2 & F3).
  set (Xa := upd (upd X 16 st) 17 codeloc).
  assert (Ex : forall i, i <> 16 -> i <> 17 -> Xa i = X i) by (intros i I1 I2; unfold Xa; rewrite !upd_other by lia; reflexivity).
  assert (E17 : Xa 17 = codeloc) by (unfold Xa; regs; reflexivity).
  assert (Run : wsteps 3 (St X V codeloc M) = Some (St Xa V st M)) by (apply dynamic_runs; auto; lia). clearbody Xa.
  destruct (closure_whole (v_of flags) p false alt go e org Xa V M f) as (X1 & M1 & R & En & Cb); auto.
  - rewrite !Ex by (unfold LR, SP; lia). exact Law.
  - rewrite Ex by lia. exact W29.
  - rewrite Ex by (unfold SP; lia). exact Esp.
  - lia.
  - lia.
  - lia.
  - exists (St Xa V st M), X1, M1. split; [exact Run|]. split; [exact R|].
    rewrite E17 in En. cbn [clo_off] in En. rewrite F1, F2, F3, !dec_enc8 in En by assumption.
    rewrite !Ex in En by (unfold LR, SP; lia). split.
    + eapply entered_ext; [|reflexivity|exact En]. intros; apply Ex; assumption.
    + rewrite Ex in Cb by (unfold LR; lia). eapply comes_back_ext; [|exact Cb]. intros; apply Ex; lia.
Qed.

(** Trampoline number [i] of the static table at [torg]. *)
Lemma static_whole p go e org torg i X V M f abi flags closure cif fn ud codeloc m0 m1 :
  0 <= org -> org + 4 * zlen (closure_text p false true go) <= 2 ^ 64 -> pac_ok e (X LR) (X SP) -> wide8 V -> word (X 29) ->
  X SP = f + 272 -> 0 <= f -> f + 272 < 2 ^ 64 ->
  word cif -> word fn -> word ud -> 0 <= closure -> closure + 48 < 2 ^ 64 -> f + 272 <= closure \/ closure + 48 <= f ->
  0 <= torg -> torg + 32768 < 2 ^ 64 -> 0 <= i < 512 ->
  let parm := torg + 16384 + 32 * i in
  f + 272 <= parm \/ parm + 16 <= f -> closure + 48 <= parm \/ parm + 16 <= closure -> (forall a, byte_ok (M a)) ->
  prep_closure_loc (at_label (closure_src p false true go) org) (Static parm) abi flags closure cif fn ud codeloc m0 = (FFI_OK, m1) ->
  (forall a, parm <= a < parm + 16 \/ closure + 24 <= a < closure + 48 -> M a = m1 a) ->
  exists s X1 M1,
    reach e static_table torg (St X V (torg + 32 * i) M) s /\
    reach e (closure_text p false true go) org s (St X1 V (inner e) M1) /\
    entered (v_of flags) X V M f (saved_lr p e (X LR) (X SP)) cif fn ud (at_label (closure_src p false true go) org 208) X1 M1 /\
    comes_back p e (closure_text p false true go) org f X X1 M1 (X LR).
Proof.
  intros Ho1 Ho2 Law W W29 Esp Hf1 Hf2 Wc Wf Wu Hc1 Hc2 Hd Ht1 Ht2 Hi parm Hp1 Hp2 Hb P Mir.
  unfold prep_closure_loc in P. destruct (_ && _); [discriminate|].
  apply (f_equal snd) in P. cbn [snd] in P. unfold start in P. fold (v_of flags) in P. cbn [is_table clo_off] in P.
  set (st := at_label (closure_src p false true go) org (alt_entry (v_of flags))).
  change (at_label (closure_src p false true go) org (if v_of flags then 203 else 204)) with st in P.
  assert (Ws : word st) by (apply label_word; auto; right; left; unfold alt_entry; destruct (v_of flags); cbn; auto).
  assert (T1 : rd M parm 8 = le_enc 8 closure).
  { rewrite (rd_ext m1) by (intros; apply Mir; lia). subst m1. rewrite !rd_wr_other by (rewrite zlen_enc; lia).
    rewrite rd_wr_same by (rewrite le_enc_length; reflexivity). reflexivity. }
  assert (T2 : rd M (parm + 8) 8 = le_enc 8 st).
  { rewrite (rd_ext m1) by (intros; apply Mir; lia). subst m1. rewrite !rd_wr_other by (rewrite zlen_enc; lia).
    rewrite rd_wr_same by (rewrite le_enc_length; reflexivity). reflexivity. }
  assert (F : three M (closure + 24) cif fn ud).
  { apply (three_at m1 M (closure + 24)).
    - subst m1. apply fields_read.
    - intros k Hk. apply Mir. lia. }
  destruct F as (F1 & F2 & F3).
  destruct (static_runs e torg i X V M Ht1 Ht2 Hi ltac:(lia) ltac:(lia) ltac:(fold parm; lia) Hb) as (Xa & Ma & Ra & Asp & A8 & Ak & Am).
  fold parm in Ra, A8. rewrite T2, dec_enc8 in Ra by exact Ws. rewrite T1 in A8.
  destruct (alt_enter (v_of flags) p false go e org Xa V Ma Ho1 Ho2 ltac:(lia) ltac:(lia)) as (Xb & Rb & B17 & Bsp & Bk).
  rewrite Asp in B17, Bsp. replace (X SP - 16 + 8) with (X SP - 8) in B17 by lia. rewrite A8, dec_enc8 in B17 by (split; lia).
  assert (Ex : forall r, r <> 17 -> r <> SP -> Xb r = X r) by (intros r I1 I2; rewrite Bk by assumption; apply Ak; assumption).
  assert (Es : Xb SP = X SP) by lia.
  assert (Em : forall a n, a + Z.of_nat n <= f + 256 \/ f + 272 <= a -> rd Ma a n = rd M a n).
  { intros a n H. apply rd_ext. intros x Hx. apply Am. lia. }
  destruct (closure_whole (v_of flags) p false true go e org Xb V Ma f) as (X1 & M1 & R & En & Cb); auto; try lia.
  - rewrite Es, Ex by (unfold LR, SP; lia). exact Law.
  - rewrite Ex by (unfold SP; lia). exact W29.
  - exists (St Xa V st Ma), X1, M1. split; [exact Ra|]. split; [eapply reach_trans; [exact Rb|exact R]|].
    rewrite B17 in En. cbn [clo_off] in En. rewrite !Em, F1, F2, F3, !dec_enc8 in En by (assumption || lia).
    rewrite Es, Ex in En by (unfold LR, SP; lia). split.
    + eapply entered_ext; [| |exact En]; [intros; apply Ex; assumption|]. intros x Hx. apply Am. lia.
    + rewrite Ex in Cb by (unfold LR, SP; lia). eapply comes_back_ext; [|exact Cb]. intros; apply Ex; unfold SP; lia.
Qed.

(** Entry [i] of the Mach trampoline table whose code page is at [page0]. *)
Lemma mach_whole p alt go e org page0 page i X V M f abi flags closure cif fn ud m0 m1 :
  0 <= org -> org + 4 * zlen (closure_text p true alt go) <= 2 ^ 64 -> pac_ok e (X LR) (X SP) -> wide8 V -> word (X 29) ->
  X SP = f + 272 -> 0 <= f -> f + 272 < 2 ^ 64 ->
  word cif -> word fn -> word ud -> 0 <= closure -> closure + 48 < 2 ^ 64 -> f + 272 <= closure \/ closure + 48 <= f ->
  0 < page -> page <= page0 -> page0 + page < 2 ^ 64 -> (16 | page) -> page < 2 ^ 20 -> 0 <= i < page / 16 ->
  let codeloc := page0 + 16 * i in
  closure + 48 <= codeloc - page \/ codeloc - page + 16 <= closure ->
  prep_closure_loc (at_label (closure_src p true alt go) org) (MachTable page) abi flags closure cif fn ud codeloc m0 = (FFI_OK, m1) ->
  (forall a, codeloc - page <= a < codeloc - page + 16 \/ closure + 16 <= a < closure + 40 -> M a = m1 a) ->
  exists s X1 M1,
    reach e (mach_table page) page0 (St X V codeloc M) s /\
    reach e (closure_text p true alt go) org s (St X1 V (inner e) M1) /\
    entered (v_of flags) X V M f (saved_lr p e (X LR) (X SP)) cif fn ud (at_label (closure_src p true alt go) org 208) X1 M1 /\
    comes_back p e (closure_text p true alt go) org f X X1 M1 (X LR).
Proof.
  intros Ho1 Ho2 Law W W29 Esp Hf1 Hf2 Wc Wf Wu Hc1 Hc2 Hd Ht1 Ht2 Ht3 Dv Hp20 Hi codeloc Hp2 P Mir.
  unfold prep_closure_loc in P. destruct (_ && _); [discriminate|].
  apply (f_equal snd) in P. cbn [snd] in P. unfold start in P. fold (v_of flags) in P. cbn [is_table clo_off] in P.
  set (st := at_label (closure_src p true alt go) org (entry (v_of flags))).
  change (at_label (closure_src p true alt go) org (if v_of flags then 201 else 202)) with st in P.
  assert (Ws : word st) by (apply label_word; auto; left; unfold entry; destruct (v_of flags); cbn; auto).
  assert (T1 : rd M (codeloc - page) 8 = le_enc 8 closure).
  { rewrite (rd_ext m1) by (intros; apply Mir; lia). subst m1. rewrite !rd_wr_other by (rewrite zlen_enc; lia).
    rewrite rd_wr_same by (rewrite le_enc_length; reflexivity). reflexivity. }
  assert (T2 : rd M (codeloc - page + 8) 8 = le_enc 8 st).
  { rewrite (rd_ext m1) by (intros; apply Mir; lia). subst m1. rewrite !rd_wr_other by (rewrite zlen_enc; lia).
    rewrite rd_wr_same by (rewrite le_enc_length; reflexivity). reflexivity. }
  assert (F : three M (closure + 16) cif fn ud).
  { apply (three_at m1 M (closure + 16)).
    - subst m1. apply fields_read.
    - intros k Hk. apply Mir. lia. }
  destruct F as (F1 & F2 & F3).
  destruct (mach_runs e page0 page i X V M Ht1 Ht2 Ht3 Dv Hp20 Hi) as (Xa & Ra & A17 & Ak).
  replace (page0 - page + 16 * i) with (codeloc - page) in * by lia.
  rewrite T2, dec_enc8 in Ra by exact Ws. rewrite T1, dec_enc8 in A17 by (split; lia).
  destruct (closure_whole (v_of flags) p true alt go e org Xa V M f) as (X1 & M1 & R & En & Cb); auto; try lia.
  - rewrite !Ak by (unfold LR, SP; lia). exact Law.
  - rewrite Ak by lia. exact W29.
  - rewrite Ak by (unfold SP; lia). exact Esp.
  - exists (St Xa V st M), X1, M1. split; [exact Ra|]. split; [exact R|].
    rewrite A17 in En. cbn [clo_off] in En. rewrite F1, F2, F3, !dec_enc8 in En by assumption.
    rewrite !Ak in En by (unfold LR, SP; lia). split.
    + eapply entered_ext; [|reflexivity|exact En]. intros; apply Ak; assumption.
    + rewrite Ak in Cb by (unfold LR; lia). eapply comes_back_ext; [|exact Cb]. intros; apply Ak; lia.
Qed.

(** Go closures: the function called is the first word of the closure, the closure is in x18. *)
Lemma go_whole p alt e org X V M f abi flags closure cif fn m0 m1 :
  p <> Arm64e ->
  0 <= org -> org + 4 * zlen (closure_text p false alt true) <= 2 ^ 64 -> pac_ok e (X LR) (X SP) -> wide8 V -> word (X 29) ->
  X SP = f + 272 -> 0 <= f -> f + 272 < 2 ^ 64 ->
  word cif -> word fn -> 0 <= closure -> closure + 24 < 2 ^ 64 -> f + 272 <= closure \/ closure + 24 <= f ->
  prep_go_closure (at_label (closure_src p false alt true) org) abi flags closure cif fn m0 = (FFI_OK, m1) ->
  (forall a, closure <= a < closure + 24 -> M a = m1 a) -> X 18 = closure ->
  exists X1 M1,
    reach e (closure_text p false alt true) org (St X V (le_dec (rd M closure 8)) M) (St X1 V (inner e) M1) /\
    entered (v_of flags) X V M f (go_saved (v_of flags) p e (X LR) (X SP)) cif fn closure (at_label (closure_src p false alt true) org 208) X1 M1 /\
    comes_back p e (closure_text p false alt true) org f X X1 M1 (returned p e (go_saved (v_of flags) p e (X LR) (X SP)) (X SP)).
Proof.
  intros Hp Ho1 Ho2 Law W W29 Esp Hf1 Hf2 Wc Wf Hc1 Hc2 Hd P Mir E18.
  unfold prep_go_closure in P. destruct (_ && _); [discriminate|].
  apply (f_equal snd) in P. cbn [snd] in P. fold (v_of flags) in P.
  set (st := at_label (closure_src p false alt true) org (go_entry (v_of flags))).
  change (at_label (closure_src p false alt true) org (if v_of flags then 205 else 206)) with st in P.
  assert (Ws : word st) by (apply label_word; auto; right; right; unfold go_entry; destruct (v_of flags); cbn; auto).
  assert (F : three M closure st cif fn).
  { apply (three_at m1 M closure).
    - subst m1. apply fields_read.
    - intros k Hk. apply Mir. lia. }
  destruct F as (F1 & F2 & F3). rewrite F1, dec_enc8 by exact Ws.
  destruct (go_enter (v_of flags) p alt e org X V M f Hp Ho1 Ho2 W Esp Hf1 Hf2 ltac:(lia) ltac:(lia) ltac:(lia)) as (X1 & M1 & R & En).
  rewrite E18, F2, F3, !dec_enc8 in En by assumption.
  exists X1, M1. split; [exact R|]. split; [exact En|]. rewrite Esp at 2. eapply back_ok; try eassumption.
  unfold go_saved. destruct Law as [Wl K]. destruct (v_of flags); [exact Wl|]. destruct p; [exact Wl|apply K|exact Wl].
Qed.

(** It comes back to the caller unless pointer authentication is on and vector registers are
    saved. *)
Lemma go_whole_plain p alt e org X V M f abi flags closure cif fn m0 m1 :
  p <> Arm64e -> p = NoPac \/ v_of flags = false ->
  0 <= org -> org + 4 * zlen (closure_text p false alt true) <= 2 ^ 64 -> pac_ok e (X LR) (X SP) -> wide8 V -> word (X 29) ->
  X SP = f + 272 -> 0 <= f -> f + 272 < 2 ^ 64 ->
  word cif -> word fn -> 0 <= closure -> closure + 24 < 2 ^ 64 -> f + 272 <= closure \/ closure + 24 <= f ->
  prep_go_closure (at_label (closure_src p false alt true) org) abi flags closure cif fn m0 = (FFI_OK, m1) ->
  (forall a, closure <= a < closure + 24 -> M a = m1 a) -> X 18 = closure ->
  exists X1 M1,
    reach e (closure_text p false alt true) org (St X V (le_dec (rd M closure 8)) M) (St X1 V (inner e) M1) /\
    entered (v_of flags) X V M f (saved_lr p e (X LR) (X SP)) cif fn closure (at_label (closure_src p false alt true) org 208) X1 M1 /\
    comes_back p e (closure_text p false alt true) org f X X1 M1 (X LR).
Proof.
  intros Hp Hv Ho1 Ho2 Law W W29 Esp Hf1 Hf2 Wc Wf Hc1 Hc2 Hd P Mir E18.
  destruct (go_whole p alt e org X V M f abi flags closure cif fn m0 m1 Hp Ho1 Ho2 Law W W29 Esp Hf1 Hf2 Wc Wf Hc1 Hc2 Hd P Mir E18) as (X1 & M1 & R & En & Cb).
  assert (G : go_saved (v_of flags) p e (X LR) (X SP) = saved_lr p e (X LR) (X SP)).
  { destruct Hv as [-> | ->]; [destruct (v_of flags); reflexivity|]. destruct p; [reflexivity|reflexivity|contradiction]. }
  rewrite G in *. rewrite (proj2 (law_back p e _ _ Law)) in Cb. exists X1, M1. auto.
Qed.

Lemma rd_mod M n : forall a, bytes_ok (rd M a n) -> rd (fun x => M x mod 256) a n = rd M a n.
Proof.
  induction n as [|n IH]; intros a H; cbn [rd] in *; [reflexivity|]. inversion H as [|? ? H1 H2]; subst.
  unfold byte_ok in H1. rewrite Z.mod_small by lia. f_equal. apply IH, H2.
Qed.

(** A processor whose signature is bit 55. *)
Definition toy : env := Env (fun _ a _ => a + 2 ^ 55) (fun _ a _ => (a - 2 ^ 55) mod 2 ^ 64) 8192.

Lemma go_pac_refuted :
  exists k e org X V M f abi flags closure cif fn m0 m1,
    0 <= org /\ org + 4 * zlen (closure_text (LinuxPac k) false false true) <= 2 ^ 64 /\ pac_ok e (X LR) (X SP) /\ wide8 V /\ word (X 29) /\
    X SP = f + 272 /\ 0 <= f /\ f + 272 < 2 ^ 64 /\
    word cif /\ word fn /\ 0 <= closure /\ closure + 24 < 2 ^ 64 /\ (f + 272 <= closure \/ closure + 24 <= f) /\
    prep_go_closure (at_label (closure_src (LinuxPac k) false false true) org) abi flags closure cif fn m0 = (FFI_OK, m1) /\
    (forall a, closure <= a < closure + 24 -> M a = m1 a) /\ X 18 = closure /\ v_of flags = true /\
    exists X1 M1 X2 V2 M2 X3 V3 t,
      reach e (closure_text (LinuxPac k) false false true) org (St X V (le_dec (rd M closure 8)) M) (St X1 V (inner e) M1) /\
      X2 SP = X1 SP /\ (forall i, 19 <= i < 29 -> X2 i = X1 i) /\ wide V2 /\ (forall a, byte_ok (M2 a)) /\ rd M2 f 16 = rd M1 f 16 /\
      reach e (closure_text (LinuxPac k) false false true) org (St X2 V2 (X1 LR) M2) (St X3 V3 t M2) /\ t <> X LR.
Proof.
  set (X := fun r => if r =? LR then 4096 else if r =? SP then 65536 + 272 else if r =? 18 then 32768 else 0).
  set (V := fun _ : Z => repeat 0 16).
  set (m1 := snd (prep_go_closure (at_label (closure_src (LinuxPac 0) false false true) 16384) A64Model.A_SYSV 128 32768 512 1024 (fun _ => 0))).
  assert (Pr : prep_go_closure (at_label (closure_src (LinuxPac 0) false false true) 16384) A64Model.A_SYSV 128 32768 512 1024 (fun _ => 0) = (FFI_OK, m1)) by reflexivity.
  assert (Law : pac_ok toy (X LR) (X SP)) by (split; [split; vm_compute; congruence|]; intros k; split; [split; vm_compute; congruence|reflexivity]).
  assert (W : wide8 V) by (intros i _; reflexivity).
  assert (Len : 16384 + 4 * zlen (closure_text (LinuxPac 0) false false true) <= 2 ^ 64) by (vm_compute; congruence).
  exists 0, toy, 16384, X, V, m1, 65536, A64Model.A_SYSV, 128, 32768, 512, 1024, (fun _ => 0), m1.
  assert (W29 : word (X 29)) by (change (X 29) with 0; split; lia).
  assert (Wc : word 512) by (split; lia). assert (Wf : word 1024) by (split; lia).
  destruct (go_whole (LinuxPac 0) false toy 16384 X V m1 65536 A64Model.A_SYSV 128 32768 512 1024 (fun _ => 0) m1 ltac:(discriminate) ltac:(lia) Len Law W W29 eq_refl
    ltac:(lia) ltac:(lia) Wc Wf ltac:(lia) ltac:(lia) ltac:(lia) Pr (fun a _ => eq_refl) eq_refl) as (X1 & M1 & R & En & Cb).
  split; [lia|]. split; [exact Len|]. split; [exact Law|]. split; [exact W|]. split; [change (X 29) with 0; split; lia|].
  split; [reflexivity|]. split; [lia|]. split; [lia|]. split; [split; lia|]. split; [split; lia|]. split; [lia|]. split; [lia|]. split; [lia|].
  split; [exact Pr|]. split; [reflexivity|]. split; [reflexivity|]. split; [reflexivity|].
  destruct En as (_ & _ & _ & _ & _ & _ & _ & Esp & Elr & Ecs & Efr & _).
  assert (Fr : rd (fun x => M1 x mod 256) 65536 16 = rd M1 65536 16).
  { apply rd_mod. rewrite Efr, bytes_ok_app. split; apply le_enc_ok. }
  assert (Hb : forall a, byte_ok ((fun x => M1 x mod 256) a)) by (intros a; unfold byte_ok; pose proof (Z.mod_pos_bound (M1 a) 256); lia).
  assert (S2 : upd X1 0 0 SP = X1 SP) by (unfold SP; regs; reflexivity).
  assert (C2 : forall i, 19 <= i < 29 -> upd X1 0 0 i = X1 i) by (intros i Hi; apply upd_other; lia).
  assert (W4 : wide V) by (intros i _; reflexivity).
  destruct (Cb (upd X1 0 0) V (fun x => M1 x mod 256) S2 C2 W4 Hb Fr) as (x & _ & _ & K).
  destruct (K x (regs4 V)) as (X3 & V3 & R3 & _); [rewrite upd_same; reflexivity|].
  eexists X1, M1, (upd X1 0 0), V, (fun x => M1 x mod 256), X3, V3, _.
  split; [exact R|]. split; [exact S2|]. split; [exact C2|]. split; [exact W4|]. split; [exact Hb|]. split; [exact Fr|]. split; [exact R3|].
  vm_compute. congruence.
Qed.
