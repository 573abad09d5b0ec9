(** ffi_call_unix64 after the call. *)
From Coq Require Import ZifyBool ZifyNat.
From Verif Require Import Base BaseFacts ByteMem X64AsmModel X64AsmFacts X64AsmCall.
From Verif Require Unix64Model.
Local Open Scope Z_scope.
Local Arguments Z.mul : simpl never.
Local Arguments Z.add : simpl never.
Local Arguments Z.sub : simpl never.
Local Arguments Z.pow : simpl never.
Local Arguments Z.of_nat : simpl never.

(** Size of a slot of the tables. *)
Definition slot_size (k : flavour) : Z := match k with Cet => 16 | _ => 8 end.

Lemma dec_enc8 x : 0 <= x < 2 ^ 64 -> le_dec (le_enc 8 x) = x.
Proof. intros H. rewrite le_dec_enc. apply Z.mod_small. exact H. Qed.

(** From the return of the function to the table. *)
Lemma ret_head k inner org X V F c z M P fl dst bp :
  0 <= org -> org + 2048 <= 2 ^ 64 -> X RBP = P -> 0 <= P -> P + 32 <= 2 ^ 64 ->
  le_dec (rd M P 8) = fl -> le_dec (rd M (P + 8) 8) = dst -> le_dec (rd M (P + 16) 8) = bp -> fl mod 256 <= 15 ->
  exists X1 c1 z1,
    reach inner (text k) org (St X V F c z (at_label (src k) org 8) M)
      (St X1 V F c1 z1 (at_label (src k) org 3 + slot_size k * (fl mod 256)) M) /\
    X1 RSP = P + 24 /\ X1 RBP = bp /\ X1 RCX = fl /\ X1 RDI = dst /\ X1 RSI = P + 4 /\ X1 RAX = X RAX /\ X1 RDX = X RDX /\
    (forall i, i = 3 \/ 12 <= i -> X1 i = X i).
Proof.
  intros Ho Ho2 HP P0 P1 Hf Hd Hb Hc. rn.
  pose proof (Z.mod_pos_bound fl 256 ltac:(lia)) as B.
  assert (C : (fl mod 256 <? 15) || (fl mod 256 =? 15) = true) by lia.
  change (2 ^ 8) with 256 in *.
  assert (W : wrap32 (fl mod 256 + fl mod 256) = 2 * (fl mod 256)).
  { unfold wrap32, wrap. rewrite Z.mod_small by (change (2 ^ 32) with 4294967296; lia). lia. }
  remember (fl mod 256) as n eqn:En. symmetry in En.
  revert C W. pattern k. apply flavours; [| |rewrite text_clang, ?label_clang; intros Hgnu; exact Hgnu]; intros C W; cbn [slot_size]; labels.
  all: do 3 eexists; (split; [repeat step2 org ltac:(rewrite ?HP, ?Hf, ?Hd, ?Hb, ?Z.add_0_r, ?C, ?W; change (2 ^ 8) with 256; rewrite ?En, ?C, ?W)|]).
  1: replace (org + 116 + 28 + 2 * n * 8) with (org + 144 + 16 * n) by lia; apply reach_refl.
  2: replace (org + 112 + 24 + n * 8) with (org + 136 + 8 * n) by lia; apply reach_refl.
  all: regs; repeat (split; [first [reflexivity|lia]|]); intros i Hi; rewrite !upd_other by lia; reflexivity.
Qed.

(** Numbers of x87 registers that carry a result. *)
Definition x87_used (code : Z) : Z := if code =? 10 then 1 else if code =? 11 then 2 else 0.

(** The registers of a state that carry results; empty x87 registers are shown as 0. *)
Definition result_regs (X : Z -> Z) (V : Z -> list Z) (F : list (list Z)) : Unix64Model.rstate :=
  Unix64Model.RState (X RAX) (X RDX) (V 0) (V 1) (nth 0 F (repeat 0 10)) (nth 1 F (repeat 0 10)).

Lemma to_range m dst len d b : of_option (set_range (rd m dst len) 0 d) = Ok b ->
  zlen d <= Z.of_nat len /\ rd (wr m dst d) dst len = b.
Proof.
  intros H. destruct (set_range (rd m dst len) 0 d) as [b'|] eqn:E; [|discriminate]. injection H as ->. split.
  - unfold set_range in E. rewrite rd_zlen in E. destruct ((0 <=? 0) && (0 + zlen d <=? Z.of_nat len)) eqn:C; [lia|discriminate].
  - apply rd_wr_range in E. rewrite Z.add_0_r in E. exact E.
Qed.

(** Where control gets to from the table. *)
Definition leaves (k : flavour) (inner org : Z) (X : Z -> Z) (V : Z -> list Z) (F : list (list Z)) (c z : bool) (p : Z) (M : Z -> Z)
  (P ra dst : Z) (len : nat) (b : list Z) (drop : Z) : Prop :=
  exists X1 c1 z1 M1,
    reach inner (text k) org (St X V F c z p M) (St X1 V (skipn (Z.to_nat drop) F) c1 z1 ra M1) /\
    X1 RSP = P + 32 /\ X1 RBP = X RBP /\ (forall i, i = 3 \/ 12 <= i -> X1 i = X i) /\
    rd M1 dst len = b /\
    (forall x, ~ (dst <= x < dst + Z.of_nat len) -> ~ (P + 4 <= x < P + 20) -> M1 x = M x).

(** Copying a structure from the scratch area, and returning. *)
Lemma copy_tail k inner org X V F c z M P fl ra dst len scratch b q :
  0 <= org -> org + 2048 <= 2 ^ 64 -> 0 <= q -> q <= 2000 ->
  at_off (text k) q = Some (Shr 1 12) -> at_off (text k) (q + 3) = Some RepMovs -> at_off (text k) (q + 5) = Some Ret ->
  X RSP = P + 24 -> X RDI = dst -> X RSI = P + 4 -> X RCX = fl ->
  0 <= P -> P + 32 < 2 ^ 64 -> 0 <= dst -> dst + Z.of_nat len <= 2 ^ 64 -> dst + Z.of_nat len <= P \/ P + 32 <= dst ->
  le_dec (rd M (P + 24) 8) = ra -> rd M (P + 4) 16 = scratch ->
  bind (of_option (get_range scratch 0 (Z.shiftr (wrap32 fl) 12))) (fun d => of_option (set_range (rd M dst len) 0 d)) = Ok b ->
  leaves k inner org X V F c z (org + q) M P ra dst len b 0.
Proof.
  intros Ho Ho2 Q0 Q1 T1 T2 T3 Hsp Hdi Hsi Hcx P0 P1 D0 D1 DP Hra Hs E. rn.
  set (n := Z.shiftr (wrap32 fl) 12) in *. assert (N0 : 0 <= n) by (apply Z.shiftr_nonneg; unfold wrap32, wrap; lia).
  destruct (get_range scratch 0 n) as [d|] eqn:Eg; cbn [of_option bind] in E; [|discriminate].
  assert (N16 : n <= 16).
  { unfold get_range in Eg. rewrite <- Hs, rd_zlen in Eg. destruct ((0 <=? 0) && (0 <=? n) && (0 + n <=? Z.of_nat 16)) eqn:Ec; [lia|discriminate]. }
  assert (Ed : rd M (P + 4) (Z.to_nat n) = d).
  { rewrite <- Hs in Eg. apply get_rd in Eg. rewrite Z.add_0_r in Eg. exact Eg. }
  assert (Ld : zlen d = n) by (rewrite <- Ed, rd_zlen; lia).
  apply to_range in E. destruct E as [Ln Eb]. rewrite Ld in Ln.
  assert (Mv : forall x, movs (Z.to_nat n) M (P + 4) dst x = wr M dst d x) by (intros x; rewrite movs_copy by lia; rewrite Ed; reflexivity).
  assert (Rr : le_dec (rd (movs (Z.to_nat n) M (P + 4) dst) (P + 24) 8) = ra).
  { rewrite (rd_ext M) by (intros x Hx; rewrite Mv; apply wr_out; lia). exact Hra. }
  unfold wrap32, wrap in n.
  exists (upd (upd (upd (upd (upd X 1 n) 1 0) 6 (P + 4 + n)) 7 (dst + n)) 4 (P + 32)), (Z.testbit fl 11), (n =? 0), (movs (Z.to_nat n) M (P + 4) dst).
  split; [|regs; repeat (split; [first [reflexivity|lia]|]); split; [intros i Hi; rewrite !upd_other by lia; reflexivity|];
    split; [rewrite (rd_ext (wr M dst d)) by (intros; apply Mv); exact Eb|intros x H1 H2; rewrite Mv; apply wr_out; lia]].
  change (skipn (Z.to_nat 0) F) with F.
  assert (E1 : P + 24 + 8 = P + 32) by lia.
  eapply reach_step; [exact T1|exec1 ltac:(rewrite ?Hcx)|]. change (12 - 1) with 11. fold n. clearbody n.
  replace (org + q + 3) with (org + (q + 3)) by lia.
  eapply reach_step; [exact T2|exec1 ltac:(rewrite ?Hsi, ?Hdi, ?Hsp)|].
  replace (org + (q + 3) + 2) with (org + (q + 5)) by lia.
  eapply reach_step; [exact T3|exec1 ltac:(rewrite ?Hsi, ?Hdi, ?Hsp, ?Rr, ?E1)|].
  apply reach_refl.
Qed.

(** The first steps do not matter. *)
Lemma leaves_after k inner org X V F c z p M P ra dst len b drop X1 c1 z1 p1 M1 :
  reach inner (text k) org (St X V F c z p M) (St X1 V F c1 z1 p1 M1) ->
  X1 RBP = X RBP -> (forall i, i = 3 \/ 12 <= i -> X1 i = X i) -> (forall x, ~ (P + 4 <= x < P + 20) -> M1 x = M x) ->
  leaves k inner org X1 V F c1 z1 p1 M1 P ra dst len b drop -> leaves k inner org X V F c z p M P ra dst len b drop.
Proof.
  intros R Hb Hk Hm (X2 & c2 & z2 & M2 & R2 & A1 & A2 & A3 & A4 & A5). exists X2, c2, z2, M2.
  split; [eapply reach_trans; [exact R|exact R2]|]. split; [exact A1|]. split; [congruence|].
  split; [intros i Hi; rewrite A3, Hk by exact Hi; reflexivity|]. split; [exact A4|].
  intros x H1 H2. rewrite A5, Hm by assumption. reflexivity.
Qed.

(** The scratch area after both halves are stored. *)
Lemma scratch_read m P lo hi : zlen lo = 8 -> zlen hi = 8 -> rd (wr (wr m (P + 12) hi) (P + 4) lo) (P + 4) 16 = lo ++ hi.
Proof.
  intros H1 H2. change 16%nat with (8 + 8)%nat. rewrite rd_app. change (Z.of_nat 8) with 8. f_equal.
  - apply rd_wr_same. unfold zlen in H1; lia.
  - replace (P + 4 + 8) with (P + 12) by lia. rewrite rd_wr_other by (change (Z.of_nat 8) with 8; lia).
    apply rd_wr_same. unfold zlen in H2; lia.
Qed.

Ltac fl_cases k := pattern k; apply flavours; [| |unfold leaves; rewrite text_clang, ?label_clang; intros Hgnu; exact Hgnu]; labels; cbn [slot_size].

Lemma at_lit org a b q : a + b = q -> org + a + b = org + q.
Proof. intros <-. lia. Qed.

(** The way from the slot of a structure to the copy. *)
Ltac via1 inner org X V F P fl ra dst len b go :=
  lazymatch goal with |- leaves ?kk _ _ _ _ _ _ _ _ _ _ _ _ _ _ _ =>
    eapply (leaves_after kk inner org X V F);
    [pcn org; go; apply reach_refl|reflexivity|reflexivity| |
     pcn org; lazymatch goal with |- context [org + ?q] => eapply (copy_tail kk inner org X V F _ _ _ P fl ra dst len _ b q) end] end.
Ltac via k inner org X V F P fl ra dst len b go1 go2 :=
  fl_cases k; [via1 inner org X V F P fl ra dst len b go1|via1 inner org X V F P fl ra dst len b go2].

Lemma ret_slot k inner org X V F c z M P fl ra dst len b n :
  0 <= org -> org + 2048 <= 2 ^ 64 -> X RSP = P + 24 -> X RDI = dst -> X RSI = P + 4 -> X RCX = fl ->
  0 <= P -> P + 32 < 2 ^ 64 -> 0 <= dst -> dst + Z.of_nat len <= 2 ^ 64 -> dst + Z.of_nat len <= P \/ P + 32 <= dst ->
  le_dec (rd M (P + 24) 8) = ra -> zlen (V 0) = 16 -> zlen (V 1) = 16 ->
  x87_used n <= zlen F -> Forall (fun r => zlen r = 10) F ->
  fl mod 256 = n -> n <= 15 ->
  Unix64Model.store_ret fl (result_regs X V F) (rd M dst len) = Ok b ->
  leaves k inner org X V F c z (at_label (src k) org 3 + slot_size k * n) M P ra dst len b (x87_used n).
Proof.
  intros Ho Ho2 Hsp Hdi Hsi Hcx P0 P1 D0 D1 DP Hra L0 L1 Hx HF En Hn E.
  pose proof (Z.mod_pos_bound fl 256 ltac:(lia)) as Bn. rewrite En in Bn.
  unfold Unix64Model.store_ret in E. rewrite En in E. unfold result_regs in E.
  cbn [Unix64Model.rs_rax Unix64Model.rs_rdx Unix64Model.rs_xmm0 Unix64Model.rs_xmm1 Unix64Model.rs_st0 Unix64Model.rs_st1] in E. rn.
  assert (C : n = 0 \/ n = 1 \/ n = 2 \/ n = 3 \/ n = 4 \/ n = 5 \/ n = 6 \/ n = 7 \/ n = 8 \/ n = 9 \/ n = 10 \/ n = 11 \/ n = 12 \/ n = 13 \/ n = 14 \/ n = 15) by lia.
  destruct C as [->|[->|[->|[->|[->|[->|[->|[->|[->|[->|[->|[->|[->|[->|[->| ->]]]]]]]]]]]]]]].
  all: clear Hn Bn En; cbv [Z.eqb Pos.eqb Unix64Model.RET_VOID Unix64Model.RET_UINT8 Unix64Model.RET_UINT16 Unix64Model.RET_UINT32
    Unix64Model.RET_SINT8 Unix64Model.RET_SINT16 Unix64Model.RET_SINT32 Unix64Model.RET_INT64 Unix64Model.RET_XMM32 Unix64Model.RET_XMM64
    Unix64Model.RET_X87 Unix64Model.RET_X87_2 Unix64Model.RET_ST_XMM0_RAX Unix64Model.RET_ST_RAX_XMM0 Unix64Model.RET_ST_XMM0_XMM1
    Unix64Model.RET_ST_RAX_RDX] in E.
  (* void *)
  1: { injection E as <-. fl_cases k; unfold leaves; do 4 eexists; (split; [pcn org; repeat step2 org ltac:(rewrite ?Hsp, ?Hra); apply reach_refl|]); regs;
       repeat (split; [first [reflexivity|lia|intros i Hi; rewrite !upd_other by lia; reflexivity]|]); intros; reflexivity. }
  (* one store *)
  all: lazymatch goal with |- leaves _ _ _ _ _ _ _ _ (_ + _ * ?n) _ _ _ _ _ _ _ => let b := eval vm_compute in (n <=? 9) in match b with true => 
    apply to_range in E; destruct E as [Ln Eb]; rewrite ?zlen_enc, ?zlen_firstn in Ln by (unfold zlen in L0; lia) | _ => idtac end end.
  all: lazymatch goal with |- leaves _ _ _ _ _ _ _ _ (_ + _ * ?n) _ _ _ _ _ _ _ => let b := eval vm_compute in (n <=? 9) in match b with true => 
    fl_cases k; unfold leaves; do 4 eexists; (split; [pcn org;
      repeat step2 org ltac:(rewrite ?Hsp, ?Hdi, ?Z.add_0_r; rewrite ?rd_wr_other by (rewrite ?zlen_enc, ?zlen_firstn by (unfold zlen in L0; lia); lia); rewrite ?Hra); apply reach_refl|]); regs;
    (split; [lia|]); (split; [reflexivity|]); (split; [intros i Hi; rewrite !upd_other by lia; reflexivity|]);
    (split; [exact Eb|]); intros x Hx1 Hx2; apply wr_out; rewrite ?zlen_enc, ?zlen_firstn by (unfold zlen in L0; lia); lia | _ => idtac end end.
  (* one x87 register *)
  1: { destruct F as [|f0 F]; [exfalso; revert Hx; unfold x87_used, zlen; cbn; lia|]. inversion HF as [|? ? L2 HF']. subst.
       cbn [nth] in E. apply to_range in E. destruct E as [Ln Eb]. rewrite L2 in Ln. change (Z.to_nat (x87_used 10)) with 1%nat.
       fl_cases k; unfold leaves; do 4 eexists; (split; [pcn org;
         repeat step2 org ltac:(rewrite ?Hsp, ?Z.add_0_r; rewrite ?rd_wr_other by (rewrite ?L2; lia)); apply reach_refl|]); regs;
       (split; [lia|]); (split; [reflexivity|]); (split; [intros i Hi; rewrite !upd_other by lia; reflexivity|]);
       (split; [exact Eb|]); intros x Hx1 Hx2; apply wr_out; rewrite L2; lia. }
  (* two x87 registers *)
  1: { destruct F as [|f0 [|f1 F]]; [exfalso; revert Hx; unfold x87_used, zlen; cbn; lia|exfalso; revert Hx; unfold x87_used, zlen; cbn; lia|].
       inversion HF as [|? ? L2 HF']. subst. inversion HF' as [|? ? L3 HF'']. subst.
       cbn [nth] in E. destruct (set_range (rd M (X 7) len) 0 f0) as [b1|] eqn:E1; cbn [of_option bind] in E; [|discriminate].
       assert (E2 : of_option (set_range (rd M (X 7) len) 0 f0) = Ok b1) by (rewrite E1; reflexivity).
       apply to_range in E2. destruct E2 as [Ln Eb]. rewrite L2 in Ln.
       destruct (set_range b1 16 f1) as [b2|] eqn:E3; [|discriminate]. injection E as ->.
       assert (L16 : 26 <= Z.of_nat len).
       { unfold set_range in E3. rewrite <- Eb, rd_zlen, L3 in E3. destruct ((0 <=? 16) && (16 + 10 <=? Z.of_nat len)) eqn:C; [lia|discriminate]. }
       rewrite <- Eb in E3. apply rd_wr_range in E3. change (Z.to_nat (x87_used 11)) with 2%nat.
       fl_cases k; unfold leaves; do 4 eexists; (split; [pcn org;
         repeat step2 org ltac:(rewrite ?Hsp, ?Z.add_0_r; rewrite ?rd_wr_other by (rewrite ?L2, ?L3; lia)); apply reach_refl|]); regs;
       (split; [lia|]); (split; [reflexivity|]); (split; [intros i Hi; rewrite !upd_other by lia; reflexivity|]);
       (split; [exact E3|]); intros x Hx1 Hx2; rewrite !wr_out by (rewrite ?L2, ?L3; lia); reflexivity. }
  (* structures in two registers *)
  all: lazymatch type of E with context [get_range (?lo ++ ?hi)] => set (lo' := lo) in E; set (hi' := hi) in E;
    assert (Zl : zlen lo' = 8) by (subst lo'; rewrite ?zlen_enc, ?zlen_firstn by (unfold zlen in L0, L1; lia); reflexivity);
    assert (Zh : zlen hi' = 8) by (subst hi'; rewrite ?zlen_enc, ?zlen_firstn by (unfold zlen in L0, L1; lia); reflexivity) end.
  all: rewrite <- (scratch_read M P lo' hi' Zl Zh) in E;
    replace (rd M dst len) with (rd (wr (wr M (P + 12) hi') (P + 4) lo') dst len) in E by (rewrite !rd_wr_other by lia; reflexivity).
  all: assert (Hra' : le_dec (rd (wr (wr M (P + 12) hi') (P + 4) lo') (P + 24) 8) = ra) by (rewrite !rd_wr_other by lia; exact Hra).
  all: assert (Em : P + 4 + 8 = P + 12) by lia.
  all: change Unix64Model.SIZE_SHIFT with 12 in E.
  4: via k inner org X V F P fl ra dst len b ltac:(do 3 (step2 org ltac:(rewrite ?Hsi, ?Em, ?Z.add_0_r))) ltac:(do 2 (step2 org ltac:(rewrite ?Hsi, ?Em, ?Z.add_0_r))).
  1,2,3: via k inner org X V F P fl ra dst len b ltac:(do 4 (step2 org ltac:(rewrite ?Hsi, ?Em, ?Z.add_0_r))) ltac:(do 3 (step2 org ltac:(rewrite ?Hsi, ?Em, ?Z.add_0_r))).
  all: lazymatch goal with |- at_off _ _ = _ => vm_compute; reflexivity | _ => idtac end.
  all: try exact E.
  all: first [exact Hra'|exact Hcx|exact Hsi|exact Hdi|exact Hsp|reflexivity|lia|
    intros x Hx1; subst lo' hi'; rewrite !wr_out by lia; reflexivity].
Qed.
