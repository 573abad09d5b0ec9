(** The routines of src/x86/win64.S, run. *)
From Coq Require Import ZifyBool ZifyNat.
From Verif Require Import Base BaseFacts ByteMem W64AsmModel W64AsmFacts.
Local Open Scope Z_scope.
Local Arguments Z.mul : simpl never.
Local Arguments Z.add : simpl never.
Local Arguments Z.sub : simpl never.
Local Arguments Z.pow : simpl never.
Local Arguments Z.of_nat : simpl never.
Local Arguments le_enc : simpl never.

Ltac out := rewrite ?zlen_enc; change (Z.of_nat 8) with 8; change (Z.of_nat 4) with 4; change (Z.of_nat 2) with 2; change (Z.of_nat 1) with 1; lia.
Ltac rdo := rewrite ?rd_wr_other by out.

Lemma org0 ib e t org X V c z w M s : reach ib e t org (St X V c z w (org + 0) M) s -> reach ib e t org (St X V c z w org M) s.
Proof. replace (org + 0) with org by lia. auto. Qed.

Lemma label_1 g org : at_label (src g) org 1 = org.
Proof. cfg_cases g; lia. Qed.

(** ffi_call_win64 up to the call. *)
Lemma run_enter g ib inner org X V c z k M B P ra fn :
  0 <= org -> org + 2048 <= 2 ^ 64 -> (k = true -> g_cet g = true) ->
  X (arg0 g) = B -> X (arg1 g) = P -> 8 <= B -> B + 32 <= P -> P + 40 <= 2 ^ 64 ->
  0 <= X RSP -> X RSP + 8 <= 2 ^ 64 -> le_dec (rd M (X RSP) 8) = ra -> le_dec (rd M (P + 16) 8) = fn ->
  exists X1 V1 M1,
    reach ib inner (text g) org (St X V c z k (at_label (src g) org 1) M) (St X1 V1 c z ib fn M1) /\
    X1 RCX = le_dec (rd M B 8) /\ X1 RDX = le_dec (rd M (B + 8) 8) /\ X1 R8 = le_dec (rd M (B + 16) 8) /\ X1 R9 = le_dec (rd M (B + 24) 8) /\
    X1 R10 = X (arg2 g) /\ X1 RSP = B - 8 /\ X1 RBP = P /\
    (forall i, i = 3 \/ i = 6 \/ i = 7 \/ 11 <= i -> X1 i = X i) /\
    V1 0 = rd M B 8 ++ repeat 0 8 /\ V1 1 = rd M (B + 8) 8 ++ repeat 0 8 /\ V1 2 = rd M (B + 16) 8 ++ repeat 0 8 /\ V1 3 = rd M (B + 24) 8 ++ repeat 0 8 /\
    (forall i, 4 <= i -> V1 i = V i) /\
    rd M1 P 16 = le_enc 8 (X RBP) ++ le_enc 8 ra /\ rd M1 (B - 8) 8 = le_enc 8 (at_label (src g) org 5) /\
    (forall x, ~ (P <= x < P + 16) -> ~ (B - 8 <= x < B) -> M1 x = M x).
Proof.
  intros Ho Ho2 Hk H0 H1 B8 BP P40 S0 S8 Ra Fn.
  set (m1 := wr (wr M P (le_enc 8 (X RBP))) (P + 8) (le_enc 8 ra)).
  assert (Lo : forall x, ~ (P <= x < P + 16) -> m1 x = M x).
  { intros x Hx. unfold m1. rewrite !wr_out by (rewrite ?zlen_enc; lia). reflexivity. }
  assert (Fr : rd m1 P 16 = le_enc 8 (X RBP) ++ le_enc 8 ra).
  { unfold m1. rewrite (rd_app _ 8 8). change (Z.of_nat 8) with 8. f_equal.
    - rewrite rd_wr_other by (rewrite ?zlen_enc; lia). apply rd_wr_same. rewrite le_enc_length. reflexivity.
    - apply rd_wr_same. rewrite le_enc_length. reflexivity. }
  assert (Rd : forall a n, a + Z.of_nat n <= P \/ P + 16 <= a -> rd m1 a n = rd M a n) by (intros a n Ha; apply rd_ext; intros x Hx; apply Lo; lia).
  assert (R0 := Rd B 8%nat). assert (R1 := Rd (B + 8) 8%nat). assert (R2 := Rd (B + 16) 8%nat). assert (R3 := Rd (B + 24) 8%nat). assert (R4 := Rd (P + 16) 8%nat).
  change (Z.of_nat 8) with 8 in *.
  specialize (R0 ltac:(lia)). specialize (R1 ltac:(lia)). specialize (R2 ltac:(lia)). specialize (R3 ltac:(lia)). specialize (R4 ltac:(lia)).
  assert (Em : wr (wr M P (le_enc 8 (X RBP))) (P + 8) (le_enc 8 ra) = m1) by reflexivity.
  clearbody m1.
  set (X1 := upd (upd (upd (upd (upd (upd (upd (upd (upd X 0 ra) 5 P) 4 B) 10 (X (arg2 g))) 1 (le_dec (rd M B 8))) 2 (le_dec (rd M (B + 8) 8))) 8 (le_dec (rd M (B + 16) 8))) 9 (le_dec (rd M (B + 24) 8))) 4 (B - 8)).
  set (V1 := upd (upd (upd (upd V 0 (rd M B 8 ++ repeat 0 8)) 1 (rd M (B + 8) 8 ++ repeat 0 8)) 2 (rd M (B + 16) 8 ++ repeat 0 8)) 3 (rd M (B + 24) 8 ++ repeat 0 8)).
  exists X1, V1, (wr m1 (B - 8) (le_enc 8 (at_label (src g) org 5))).
  split.
  { unfold X1, V1. clear X1 V1 Lo Rd Fr. rewrite label_1. apply org0. rn. assert (E8 : B + -8 = B - 8) by lia.
    assert (K : k = false \/ (k = true /\ g_cet g = true)) by (destruct k; auto).
    destruct K as [->|[-> Gc]]; cfg_cases g; try discriminate Gc; unfold arg0, arg1, arg2, RDI, RSI, RCX, RDX, R8 in *; cbn [g_win] in *.
    all: repeat step2 org ltac:(rewrite ?H0, ?H1, ?Z.add_0_r, ?E8, ?Ra, ?Em, ?R0, ?R1, ?R2, ?R3, ?R4, ?Fn).
    all: replace (org + 66 + 3) with (org + 69) by lia; replace (org + 62 + 3) with (org + 65) by lia; apply reach_refl. }
  unfold X1, V1. rn. regs. repeat (split; [first [reflexivity|assumption|intros i Hi; rewrite !upd_other by lia; reflexivity]|]).
  split; [rewrite rd_wr_other by (rewrite zlen_enc; lia); exact Fr|].
  split; [apply rd_wr_same; rewrite le_enc_length; reflexivity|].
  intros x N1 N2. rewrite wr_out by (rewrite zlen_enc; lia). apply Lo, N1.
Qed.

(** What is stored for a result, by the code in the frame; none: abort. *)
Definition win_bytes (fl rax : Z) (xmm0 : list Z) : option (list Z) :=
  match fl with
  | 0 | 13 => Some []
  | 1 | 10 => Some (le_enc 8 (to_signed 32 rax))
  | 2 => Some (firstn 4 xmm0)
  | 3 => Some (firstn 8 xmm0)
  | 5 => Some (le_enc 8 (rax mod 2 ^ 8))
  | 6 => Some (le_enc 8 (to_signed 8 rax))
  | 7 => Some (le_enc 8 (rax mod 2 ^ 16))
  | 8 => Some (le_enc 8 (to_signed 16 rax))
  | 9 => Some (le_enc 8 (rax mod 2 ^ 32))
  | 11 | 12 | 14 => Some (le_enc 8 rax)
  | 16 => Some (le_enc 1 rax)
  | 17 => Some (le_enc 2 rax)
  | 18 => Some (le_enc 4 rax)
  | _ => None
  end.

Lemma cases19 fl : 0 <= fl < 19 -> In fl [0;1;2;3;4;5;6;7;8;9;10;11;12;13;14;15;16;17;18].
Proof. cbn. lia. Qed.

Lemma enc_wrap64 x : le_enc 8 (wrap64 x) = le_enc 8 x.
Proof. apply (le_enc_mod 8). Qed.

Lemma some_inj {A} (a b : A) : Some a = Some b -> a = b.
Proof. congruence. Qed.

(** The jump into the table. *)
Lemma run_dispatch g ib inner org X V c z M P fl p :
  0 <= org -> org + 2048 <= 2 ^ 64 -> (ib = true -> g_cet g = true) ->
  X RBP = P -> 0 <= P -> P + 40 <= 2 ^ 64 -> le_dec (rd M (P + 24) 4) = fl -> le_dec (rd M (P + 32) 8) = p -> 0 <= fl < 19 ->
  exists X1 c1 z1,
    reach ib inner (text g) org (St X V c z false (at_label (src g) org 5) M) (St X1 V c1 z1 false (at_label (src g) org 2 + fl * 8) M) /\
    X1 R8 = p /\ (forall i, i <> 1 -> i <> 8 -> i <> 10 -> X1 i = X i).
Proof.
  intros Ho Ho2 Hi HP P0 P40 Fl Pp Fr. rn.
  assert (T : (fl mod 2 ^ 32 <? 18) || (fl mod 2 ^ 32 =? 18) = true) by (rewrite Z.mod_small by lia; lia).
  cfg_cases g.
  all: try (assert (E : ib = false) by (destruct ib; [discriminate (Hi eq_refl)|reflexivity]); subst ib); clear Hi.
  all: eexists _, _, _; (split; [repeat step2 org ltac:(rewrite ?HP, ?Fl, ?Pp, ?andb_false_r, ?T)|]).
  all: try (match goal with |- reach _ _ _ _ (St _ _ _ _ _ ?a _) (St _ _ _ _ _ ?b _) => replace b with a by lia; apply reach_refl end).
  all: regs; split; [reflexivity|]; intros i I1 I2 I3; rewrite !upd_other by lia; reflexivity.
Qed.

(** Offset plus a multiple of 8. *)
Ltac pcm org := lazymatch goal with |- reach _ _ _ _ (St _ _ _ _ _ (org + ?a + ?b * 8) _) _ =>
  let n := eval vm_compute in (a + b * 8) in replace (org + a + b * 8) with (org + n) by lia end.

(** ... and back to the caller. *)
Lemma run_leave g ib inner org X V c z M P fl p d rbp ra :
  0 <= org -> org + 2048 <= 2 ^ 64 -> (ib = true -> g_cet g = true) ->
  X RBP = P -> 0 <= P -> P + 40 <= 2 ^ 64 ->
  le_dec (rd M P 8) = rbp -> le_dec (rd M (P + 8) 8) = ra -> le_dec (rd M (P + 24) 4) = fl -> le_dec (rd M (P + 32) 8) = p ->
  0 <= fl < 19 -> win_bytes fl (X RAX) (V 0) = Some d -> length (V 0) = 16%nat ->
  0 <= p -> p + zlen d <= 2 ^ 64 -> p + zlen d <= P \/ P + 16 <= p ->
  exists X1 c1 z1 M1,
    reach ib inner (text g) org (St X V c z false (at_label (src g) org 5) M) (St X1 V c1 z1 false ra M1) /\
    X1 RSP = P + 16 /\ X1 RBP = rbp /\ (forall i, i = 2 \/ i = 3 \/ i = 6 \/ i = 7 \/ i = 9 \/ 11 <= i -> X1 i = X i) /\
    (forall x, M1 x = wr M p d x).
Proof.
  intros Ho Ho2 Hi HP P0 P40 Rb Ra Fl Pp Fr Hd V16 p0 p1 Dj.
  destruct (run_dispatch g ib inner org X V c z M P fl p) as (Y & c1 & z1 & Rd & Y8 & Yk); auto. rn.
  assert (HY : Y 5 = P) by (rewrite Yk by lia; exact HP). assert (Y0 : Y 0 = X 0) by (apply Yk; lia). rewrite <- Y0 in Hd.
  assert (G : exists X1 M1, reach ib inner (text g) org (St Y V c1 z1 false (at_label (src g) org 2 + fl * 8) M) (St X1 V c1 z1 false ra M1) /\
    X1 4 = P + 16 /\ X1 5 = rbp /\ (forall i, i <> 0 -> i <> 4 -> i <> 5 -> X1 i = Y i) /\ (forall x, M1 x = wr M p d x)).
  2: { destruct G as (X1 & M1 & R1 & G1 & G2 & G3 & G4). exists X1, c1, z1, M1. split; [eapply reach_trans; [exact Rd|exact R1]|].
    split; [exact G1|]. split; [exact G2|]. split; [|exact G4]. intros i Ii. rewrite G3 by lia. apply Yk; lia. }
  clear Rd Hi Fl Pp HP Yk.
  assert (Sv : forall a n, P <= a -> a + Z.of_nat n <= P + 16 -> rd (wr M p d) a n = rd M a n).
  { intros a n A1 A2. apply rd_wr_other. lia. }
  assert (S1 := Sv P 8%nat ltac:(lia) ltac:(lia)). assert (S2 := Sv (P + 8) 8%nat ltac:(lia) ltac:(lia)). clear Sv.
  assert (Z0 : p + 0 = p) by lia. assert (P88 : P + 8 + 8 = P + 16) by lia.
  assert (NE : forall x, wr M p [] x = M x) by (intros; apply wr_nil).
  apply cases19 in Fr. cbn [In] in Fr.
  cfg_cases g.
  all: repeat (destruct Fr as [Fr|Fr]; [rewrite <- Fr in *; cbn [win_bytes] in Hd; first [discriminate Hd|apply some_inj in Hd; subst d]|]); [..|destruct Fr].
  all: rewrite ?zlen_enc, ?zlen_firstn in p1, Dj by lia; change (Z.of_nat 1) with 1 in *; change (Z.of_nat 2) with 2 in *; change (Z.of_nat 4) with 4 in *; change (Z.of_nat 8) with 8 in *.
  all: eexists _, _; (split; [pcm org; repeat step2 org ltac:(rewrite ?HY, ?Y8, ?Z0, ?enc_wrap64, ?S1, ?S2, ?Rb, ?Ra, ?P88); apply reach_refl|]).
  all: regs; repeat (split; [first [reflexivity|intros i I1 I2 I3; rewrite !upd_other by lia; reflexivity]|]); intros x; rewrite ?NE; reflexivity.
Qed.
