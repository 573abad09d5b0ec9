(** The way back through ffi_call_unix64, with the result in place. *)
From Coq Require Import ZifyBool ZifyNat.
From Verif Require Import Base BaseFacts ByteMem Types LayoutSpec NaturalTypes Unix64Model Unix64Spec Unix64Link Unix64Ret Unix64Main Unix64Ret2 X64AsmModel X64AsmFacts X64AsmCall X64AsmRet X64AsmBlock X64AsmSpec X64AsmWhole.
Local Open Scope Z_scope.
Local Arguments Z.mul : simpl never.
Local Arguments Z.add : simpl never.
Local Arguments Z.sub : simpl never.
Local Arguments Z.pow : simpl never.
Local Arguments Z.of_nat : simpl never.
Local Arguments le_enc : simpl never.

(** The flags only count modulo 2^32. *)
Lemma code_low fl fl' : fl mod 2 ^ 32 = fl' mod 2 ^ 32 -> fl mod 256 = fl' mod 256.
Proof.
  assert (D : (256 | 2 ^ 32)) by (exists (2 ^ 24); reflexivity).
  intros H. rewrite (Znumtheory.Zmod_div_mod 256 (2 ^ 32) fl ltac:(lia) ltac:(lia) D), (Znumtheory.Zmod_div_mod 256 (2 ^ 32) fl' ltac:(lia) ltac:(lia) D).
  rewrite H. reflexivity.
Qed.
Lemma store_ret_low fl fl' r buf : fl mod 2 ^ 32 = fl' mod 2 ^ 32 -> store_ret fl r buf = store_ret fl' r buf.
Proof.
  intros H. unfold store_ret. rewrite (code_low _ _ H). assert (W : wrap32 fl = wrap32 fl') by exact H. rewrite W. reflexivity.
Qed.

(** The saved frame, word by word. *)
Lemma saved_parts M P X ra : (forall i, 0 <= X i < 2 ^ 64) -> 0 <= ra < 2 ^ 64 -> rd M P 32 = saved X ra ->
  le_dec (rd M P 8) = X RDX /\ le_dec (rd M (P + 8) 8) = X RCX /\ le_dec (rd M (P + 16) 8) = X RBP /\ le_dec (rd M (P + 24) 8) = ra.
Proof.
  intros HX Hr H. unfold saved in H.
  apply (rd_split _ _ _ 8) in H; [|apply le_enc_length|lia]. destruct H as [H0 H].
  apply (rd_split _ _ _ 8) in H; [|apply le_enc_length|lia]. destruct H as [H1 H].
  apply (rd_split _ _ _ 8) in H; [|apply le_enc_length|lia]. destruct H as [H2 H].
  change (32 - 8 - 8 - 8)%nat with 8%nat in H. change (Z.of_nat 8) with 8 in *.
  replace (P + 8 + 8) with (P + 16) in * by lia. replace (P + 16 + 8) with (P + 24) in * by lia.
  rewrite H0, H1, H2, H, !dec_enc8 by auto. auto.
Qed.

(** From the return of the function to the caller. *)
Lemma call_back k inner org X V F c z M P X0 ra p len b fl :
  0 <= org -> org + 2048 <= 2 ^ 64 -> (forall i, 0 <= X0 i < 2 ^ 64) -> 0 <= ra < 2 ^ 64 ->
  X RBP = P -> 0 <= P -> P + 32 < 2 ^ 64 -> rd M P 32 = saved X0 ra ->
  X0 RDX mod 2 ^ 32 = fl mod 2 ^ 32 -> fl mod 256 <= 15 -> X0 RCX = p ->
  0 <= p -> p + Z.of_nat len <= 2 ^ 64 -> p + Z.of_nat len <= P \/ P + 32 <= p ->
  zlen (V 0) = 16 -> zlen (V 1) = 16 -> x87_used (fl mod 256) <= zlen F -> Forall (fun r => zlen r = 10) F ->
  store_ret fl (result_regs X V F) (rd M p len) = Ok b ->
  exists X1 c1 z1 M1,
    reach inner (text k) org (St X V F c z (at_label (src k) org 8) M) (St X1 V (skipn (Z.to_nat (x87_used (fl mod 256))) F) c1 z1 ra M1) /\
    X1 RSP = P + 32 /\ X1 RBP = X0 RBP /\ (forall i, i = 3 \/ 12 <= i -> X1 i = X i) /\
    rd M1 p len = b /\
    (forall x, ~ (p <= x < p + Z.of_nat len) -> ~ (P + 4 <= x < P + 20) -> M1 x = M x).
Proof.
  intros Ho Ho2 HX Hra HP P0 P1 Hs Hf Hc Hp p0 p1 Hd V0 V1 Hx HF E.
  destruct (saved_parts _ _ _ _ HX Hra Hs) as (S1 & S2 & S3 & S4).
  pose proof (code_low _ _ Hf) as Ec.
  destruct (ret_head k inner org X V F c z M P (X0 RDX) p (X0 RBP)) as
    (X1 & c1 & z1 & R1 & A1 & A2 & A3 & A4 & A5 & A6 & A7 & A8); auto; try lia; try congruence.
  destruct (ret_slot k inner org X1 V F c1 z1 M P (X0 RDX) ra p len b (fl mod 256)) as
    (X2 & c2 & z2 & M2 & R2 & B1 & B2 & B3 & B4 & B5); auto; try lia; try congruence.
  { unfold result_regs in *. rewrite A6, A7. rewrite (store_ret_low _ fl) by exact Hf. exact E. }
  exists X2, c2, z2, M2. rewrite Ec in R1.
  split; [eapply reach_trans; [exact R1|exact R2]|]. split; [exact B1|]. split; [congruence|].
  split; [intros i Hi; rewrite B3, A8 by exact Hi; reflexivity|]. split; [exact B4|exact B5].
Qed.

(** The return code and the x87 stack. *)
Lemma flags_x87 rt x fl : rt_ok rt -> flags_ok rt x fl ->
  fl mod 256 <= 15 /\ (struct_x87 rt = false -> x87_used (fl mod 256) = x87_results rt) /\
  (struct_x87 rt = true -> x87_used (fl mod 256) <= 1).
Proof.
  intros R H. unfold flags_ok in H. destruct (hidden_pointer rt) eqn:Hh.
  - subst fl. replace ((1024 + (if x then 2048 else 0)) mod 256) with 0 by (destruct x; reflexivity).
    split; [lia|]. split; [|intros _; vm_compute; discriminate]. intros _. unfold hidden_pointer in Hh. unfold x87_results.
    destruct (ty_code rt); try discriminate; destruct (passing_of rt); try discriminate; reflexivity.
  - destruct H as (code & size & Hc & Hs & -> & H). rewrite mkflags_code by assumption. split; [lia|].
    unfold x87_results, struct_x87. destruct (ty_code rt) eqn:Et; try (destruct H as [-> _]; split; [reflexivity|discriminate]).
    all: unfold code_ok in H; destruct (passing_of rt) as [|l| |] eqn:Ep; try contradiction.
    all: unfold integral in H; rewrite ?Et in H; cbn iota in H.
    all: repeat match goal with
      | H : _ \/ _ |- _ => destruct H as [H|H]
      | H : _ /\ _ |- _ => destruct H
      end; try discriminate; try subst code; (split; [|try discriminate; intros _; vm_compute; discriminate]); intros Hx; try discriminate; reflexivity.
Qed.

Lemma prepared_flags rt ts b f c : rt_ok rt -> Forall natural ts -> stack_used rt ts + 64 < 2 ^ 32 ->
  machdep64 (TCif FFI_UNIX64 ts rt b f) = Ok (FFI_OK, c) -> flags_ok rt (negb (vectors_used rt ts =? 0)) (c_flags c).
Proof.
  intros N Ns S P. destruct (machdep64_ok rt ts b f N Ns ltac:(lia)) as (c' & P' & _ & _ & _ & _ & Cf). rewrite P in P'. injection P' as <-. exact Cf.
Qed.

Lemma result_regs_ok X V F M : machine_ok X V F M -> rstate_ok (result_regs X V F).
Proof.
  intros (HX & HV & HF & _). unfold rstate_ok, result_regs. cbn [rs_rax rs_rdx rs_xmm0 rs_xmm1 rs_st0 rs_st1].
  split; [apply HX|]. split; [apply HX|]. split; [apply HV|]. split; [apply HV|].
  assert (G : forall n, zlen (nth n F (repeat 0 10)) = 10).
  { intros n. destruct (Nat.lt_ge_cases n (length F)) as [H|H].
    - rewrite Forall_forall in HF. apply HF, nth_In, H.
    - rewrite nth_overflow by exact H. reflexivity. }
  split; apply G.
Qed.

Lemma get_range_front (l r : list Z) o n : 0 <= o -> 0 <= n -> o + n <= zlen l -> get_range (l ++ r) o n = get_range l o n.
Proof.
  intros H1 H2 H3. unfold get_range. rewrite zlen_app. replace (o + n <=? zlen l) with true by lia.
  replace (o + n <=? zlen l + zlen r) with true by (unfold zlen in *; lia).
  replace (0 <=? o) with true by lia. replace (0 <=? n) with true by lia. cbn [andb]. unfold zlen in H3.
  rewrite skipn_app, firstn_app. replace (Z.to_nat n - length (skipn (Z.to_nat o) l))%nat with 0%nat by (rewrite skipn_length; lia).
  rewrite firstn_O, app_nil_r. reflexivity.
Qed.

(** A result in registers. *)
Lemma call_result rt ts b f c v k inner org X0 ra P p len X V F res cf zf M :
  natural rt -> Forall natural ts -> stack_used rt ts + 64 < 2 ^ 32 ->
  machdep64 (TCif FFI_UNIX64 ts rt b f) = Ok (FFI_OK, c) ->
  struct_x87 rt = false -> hidden_pointer rt = false -> zlen v = ty_size rt -> bytes_ok v ->
  0 <= org -> org + 2048 <= 2 ^ 64 -> (forall i, 0 <= X0 i < 2 ^ 64) -> 0 <= ra < 2 ^ 64 ->
  X0 RDX mod 2 ^ 32 = c_flags c mod 2 ^ 32 -> X0 RCX = p ->
  machine_ok X V (res ++ F) M -> zlen res = x87_results rt -> returns rt (result_regs X V (res ++ F)) v ->
  X RBP = P -> P + 32 < 2 ^ 64 -> rd M P 32 = saved X0 ra ->
  p + Z.of_nat len <= 2 ^ 64 -> p + Z.of_nat len <= P \/ P + 32 <= p -> result_width rt <= Z.of_nat len ->
  exists X1 c1 z1 M1,
    reach inner (text k) org (St X V (res ++ F) cf zf (at_label (src k) org 8) M) (St X1 V F c1 z1 ra M1) /\
    X1 RSP = P + 32 /\ X1 RBP = X0 RBP /\ (forall i, i = 3 \/ 12 <= i -> X1 i = X i) /\
    result_holds rt v (rd M1 p len) /\
    (forall x, ~ (p <= x < p + result_width rt) -> ~ (P + 4 <= x < P + 20) -> M1 x = M x).
Proof.
  intros N Ns S Pp Sx Hh L B Ho Ho2 HX0 Hra Hf Hp Mk Lr Rt HP P1 Hs p1 Hd W.
  pose proof (prepared_flags _ _ _ _ _ (or_introl N) Ns S Pp) as Cf.
  destruct (flags_x87 _ _ _ (or_introl N) Cf) as (C15 & Cx & _). specialize (Cx Sx).
  pose proof (HX0 RCX) as Bp. rewrite Hp in Bp.
  destruct Mk as (HX & HV & HF & HF8 & HM).
  assert (Wp : 0 <= result_width rt).
  { unfold result_width. destruct (integral rt); [lia|]. destruct (NaturalFacts.natural_basic _ N). lia. }
  destruct (store_ret_ok rt v (negb (vectors_used rt ts =? 0)) (c_flags c) (result_regs X V (res ++ F)) (rd M p (Z.to_nat (result_width rt))) N Hh Sx L B) as
    (b' & E1 & E2 & E3 & E4); auto.
  { eapply result_regs_ok. split; [exact HX|]. split; [exact HV|]. split; [exact HF|]. split; [exact HF8|exact HM]. }
  { rewrite rd_zlen. lia. }
  pose proof (HX RBP) as BP. rewrite HP in BP.
  destruct (call_back k inner org X V (res ++ F) cf zf M P X0 ra p (Z.to_nat (result_width rt)) b' (c_flags c)) as
    (X1 & c1 & z1 & M1 & R1 & A1 & A2 & A3 & A4 & A5); auto; try lia.
  { rewrite Cx, <- Lr. unfold zlen. rewrite app_length. lia. }
  exists X1, c1, z1, M1. rewrite Cx, <- Lr in R1. unfold zlen in R1. rewrite Nat2Z.id in R1.
  rewrite skipn_app, Nat.sub_diag, skipn_all, skipn_O in R1. cbn [app] in R1.
  split; [exact R1|]. split; [exact A1|]. split; [exact A2|]. split; [exact A3|].
  split; [|intros x H1 H2; apply A5; lia].
  replace len with (Z.to_nat (result_width rt) + (len - Z.to_nat (result_width rt)))%nat by lia.
  rewrite rd_app, A4. assert (Lb : zlen b' = result_width rt) by (rewrite E3, rd_zlen; lia).
  revert E2. unfold result_holds. revert Lb. unfold result_width. destruct (integral rt).
  - intros Lb. rewrite get_range_front by lia. auto.
  - intros Lb (w & Ew & Hw). exists w. split; [|exact Hw]. assert (0 <= ty_size rt) by (rewrite <- Lb; unfold zlen; lia). rewrite get_range_front by lia. exact Ew.
Qed.

(** Nothing to store. *)
Lemma call_nothing fl k inner org X0 ra P X V F cf zf M :
  fl mod 256 = 0 ->
  0 <= org -> org + 2048 <= 2 ^ 64 -> (forall i, 0 <= X0 i < 2 ^ 64) -> 0 <= ra < 2 ^ 64 ->
  X0 RDX mod 2 ^ 32 = fl mod 2 ^ 32 -> X0 RCX <= P \/ P + 32 <= X0 RCX ->
  machine_ok X V F M -> X RBP = P -> P + 32 < 2 ^ 64 -> rd M P 32 = saved X0 ra ->
  exists X1 c1 z1 M1,
    reach inner (text k) org (St X V F cf zf (at_label (src k) org 8) M) (St X1 V F c1 z1 ra M1) /\
    X1 RSP = P + 32 /\ X1 RBP = X0 RBP /\ (forall i, i = 3 \/ 12 <= i -> X1 i = X i) /\
    (forall x, ~ (P + 4 <= x < P + 20) -> M1 x = M x).
Proof.
  intros Hz Ho Ho2 HX0 Hra Hf Hd (HX & HV & HF & HF8 & HM) HP P1 Hs.
  pose proof (HX0 RCX) as Bp. pose proof (HX RBP) as BP. rewrite HP in BP.
  destruct (call_back k inner org X V F cf zf M P X0 ra (X0 RCX) 0 [] fl) as
    (X1 & c1 & z1 & M1 & R1 & A1 & A2 & A3 & A4 & A5); auto; try lia.
  { rewrite Hz. change (x87_used 0) with 0. unfold zlen. lia. }
  { unfold store_ret. rewrite Hz. reflexivity. }
  exists X1, c1, z1, M1. rewrite Hz in R1. change (skipn (Z.to_nat (x87_used 0)) F) with F in R1.
  split; [exact R1|]. split; [exact A1|]. split; [exact A2|]. split; [exact A3|].
  intros x H1. apply A5; lia.
Qed.

(** Flags that store nothing. *)
Lemma silent_flags rt ts b f c : rt_ok rt -> Forall natural ts -> stack_used rt ts + 64 < 2 ^ 32 ->
  machdep64 (TCif FFI_UNIX64 ts rt b f) = Ok (FFI_OK, c) -> hidden_pointer rt = true \/ ty_code rt = T_VOID -> c_flags c mod 256 = 0.
Proof.
  intros N Ns S P H. pose proof (prepared_flags _ _ _ _ _ N Ns S P) as Cf. unfold flags_ok in Cf.
  destruct (hidden_pointer rt) eqn:Hh.
  - rewrite Cf. destruct (negb _); reflexivity.
  - destruct H as [H|H]; [discriminate|]. destruct Cf as (code & size & Hc & Hs & -> & E). rewrite H in E. destruct E as [-> ->].
    apply mkflags_code; [unfold RET_VOID; lia|lia].
Qed.
