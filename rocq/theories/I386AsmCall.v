(** ffi_call_i386 up to the called function, and after it. *)
From Coq Require Import ZifyBool ZifyNat.
From Verif Require Import Base BaseFacts ByteMem X87Model I386AsmModel I386AsmFacts.
Local Open Scope Z_scope.
Local Arguments Z.mul : simpl never.
Local Arguments Z.add : simpl never.
Local Arguments Z.sub : simpl never.
Local Arguments Z.pow : simpl never.
Local Arguments Z.of_nat : simpl never.

(** Registers when the function is entered: frame at [P], arguments at [base]. *)
Definition call_regs (X M : Z -> Z) (P base : Z) : Z -> Z :=
  upd (upd (upd (upd (upd X EBP P) EAX (le_dec (rd M (P + 20) 4))) EDX (le_dec (rd M (P + 24) 4))) ECX (le_dec (rd M (P + 28) 4))) ESP (base - 4).

(** Two chains of register changes are the same. *)
Ltac same_regs := let i := fresh "i" in intros i; unfold call_regs, upd, EAX, ECX, EDX, EBX, ESP, EBP;
  repeat match goal with |- context [i =? ?n] => destruct (Z.eqb_spec i n); [first [reflexivity|subst; first [reflexivity|congruence|lia]]|] end; reflexivity.

Lemma call_enter g e org X F k M P base :
  0 <= org -> org + 2048 <= 2 ^ 32 -> (k = true -> g_cet g = true) -> regs_ok X ->
  X ECX = P -> X EDX = base -> 4 <= base -> base <= P -> P + 32 <= 2 ^ 32 -> X ESP + 4 <= 2 ^ 32 ->
  exists X1 M1,
    reach e (text g) org (St X F k (at_label (src g) org 1) M) (St X1 F (e_ibt e) (le_dec (rd M (P + 8) 4)) M1) /\
    (forall i, X1 i = call_regs X M P base i) /\
    M1 = wr (wr (wr M P (le_enc 4 (X EBP))) (P + 4) (le_enc 4 (le_dec (rd M (X ESP) 4)))) (base - 4) (le_enc 4 (at_label (src g) org 5)).
Proof.
  intros Ho Ho2. revert k X M. cfg_cases g; intros k X M Hk HX HP Hb Hb4 HbP HP32 HS; cbn [g_cet] in Hk.
  all: pose proof (HX ESP) as RS; pose proof (HX ECX) as RC; pose proof (HX EDX) as RD; rn.
  all: destruct k; [try (specialize (Hk eq_refl); discriminate Hk)|clear Hk].
  all: eexists; eexists; split; [|split].
  all: lazymatch goal with
    | |- reach _ _ _ _ _ => repeat step2 org ltac:(rewrite ?Z.add_0_r, ?HP, ?Hb; rdo)
    | _ => idtac end.
  all: lazymatch goal with |- reach _ _ _ _ _ => apply reach_refl | |- forall i, _ => same_regs | _ => rewrite ?Z.add_0_r; f_equal; f_equal; lia end.
Qed.

(** The memory when the jump through the table is made: ebx is saved in the frame, and in position
    independent code a word below the stack pointer was used. *)
Definition jump_mem (g : cfg) (org : Z) (X M : Z -> Z) (P : Z) : Z -> Z :=
  let M1 := wr M (P + 8) (le_enc 4 (X EBX)) in
  match g_pic g with Fixed => M1 | _ => wr M1 (X ESP - 4) (le_enc 4 (at_label (src g) org 4)) end.

Lemma land15 v : Z.land v 15 = v mod 16.
Proof. change 15 with (Z.ones 4). rewrite Z.land_ones by lia. reflexivity. Qed.

(** From the return of the function to the slot of the store table. *)
Lemma leave_jump g e org X F M P :
  0 <= org -> org + 2048 <= 2 ^ 32 -> tracked e g -> regs_ok X -> mem_ok M -> X EBP = P -> 4 <= X ESP -> X ESP <= P -> P + 32 <= 2 ^ 32 ->
  exists X1,
    reach e (text g) org (St X F false (at_label (src g) org 5) M)
      (St X1 F false (at_label (src g) org 2 + 8 * (le_dec (rd M (P + 12) 4) mod 16)) (jump_mem g org X M P)) /\
    X1 ECX = le_dec (rd M (P + 16) 4) /\ (forall i, i <> EBX -> i <> ECX -> X1 i = X i).
Proof.
  intros Ho Ho2. unfold jump_mem. revert X M. cfg_cases g; intros X M HT HX HM HP HS HSP HP32; cbn [g_pic g_cet]; tracks HT.
  all: pose proof (HX ESP) as RS; pose proof (word_range M (P + 12) HM) as RF; pose proof (word_range M (P + 16) HM) as RV; rn.
  all: set (v := le_dec (rd M (P + 12) 4)) in *; pose proof (Z.mod_pos_bound v 16 eq_refl) as RM.
  all: eexists; split; [|split].
  all: lazymatch goal with
    | |- reach _ _ _ _ _ =>
      repeat (step2 org ltac:(rewrite ?HP; rds; fold v; rewrite ?land15, ?Hibt));
      apply reach_done; [lia|first [reflexivity|f_equal; f_equal; lia]]
    | |- forall i, _ => let i := fresh "i" in let A := fresh in let C := fresh in intros i A C; unfold upd;
      repeat match goal with |- context [i =? ?n] => destruct (Z.eqb_spec i n); [first [lia|subst; lia]|] end; reflexivity
    | _ => regs; reflexivity end.
Qed.

(** The end of the store table. *)
Lemma leave_exit g e org X F M P :
  0 <= org -> org + 2048 <= 2 ^ 32 -> X EBP = P -> 0 <= P -> P + 32 <= 2 ^ 32 ->
  exists X1,
    reach e (text g) org (St X F false (at_label (src g) org 3) M) (St X1 F false (le_dec (rd M (P + 4) 4)) M) /\
    X1 ESP = P + 8 /\ X1 EBP = le_dec (rd M P 4) /\ X1 EBX = le_dec (rd M (P + 8) 4) /\
    (forall i, i <> ESP -> i <> EBP -> i <> EBX -> X1 i = X i).
Proof.
  intros Ho Ho2. revert X M. cfg_cases g; intros X M HP HP0 HP32; rn.
  all: eexists; split; [repeat (step2 org ltac:(rewrite ?HP)); apply reach_refl|].
  all: regs; split; [lia|]; split; [reflexivity|]; split; [reflexivity|].
  all: intros i A C D; rewrite !upd_other by lia; reflexivity.
Qed.

(** What the store table stores for a return code, and what it leaves on the x87 stack. *)
Definition stored (c eax edx : Z) (F : list ext) : option (list Z * list ext) :=
  match c, F with
  | 0, a :: F' => Some (fstp 4 a, F')
  | 1, a :: F' => Some (fstp 8 a, F')
  | 2, a :: F' => Some (fstp 10 a, F')
  | 3, _ => Some (le_enc 4 (to_signed 8 eax mod 2 ^ 32), F)
  | 4, _ => Some (le_enc 4 (to_signed 16 eax mod 2 ^ 32), F)
  | 5, _ => Some (le_enc 4 (eax mod 2 ^ 8), F)
  | 6, _ => Some (le_enc 4 (eax mod 2 ^ 16), F)
  | 7, _ => Some (le_enc 4 eax ++ le_enc 4 edx, F)
  | 8, _ => Some (le_enc 4 eax, F)
  | 9, _ | 10, _ | 11, _ => Some ([], F)
  | 12, _ => Some (le_enc 1 eax, F)
  | 13, _ => Some (le_enc 2 eax, F)
  | _, _ => None
  end.

Lemma fstp_zlen n x : n = 4 \/ n = 8 \/ n = 10 -> zlen (fstp n x) = n.
Proof. intros [-> | [-> | ->]]; cbn [fstp Z.eqb Pos.eqb]; apply le_enc_zlen. Qed.

Lemma code_cases c : 0 <= c < 14 -> c = 0 \/ c = 1 \/ c = 2 \/ c = 3 \/ c = 4 \/ c = 5 \/ c = 6 \/ c = 7 \/ c = 8 \/ c = 9 \/ c = 10 \/ c = 11 \/ c = 12 \/ c = 13.
Proof. lia. Qed.

(** A slot of the store table. *)
Lemma leave_slot g e org c X F M d F' p :
  0 <= org -> org + 2048 <= 2 ^ 32 -> 0 <= c < 14 -> stored c (X EAX) (X EDX) F = Some (d, F') -> X ECX = p -> 0 <= p -> p + zlen d <= 2 ^ 32 ->
  exists X1 M1,
    reach e (text g) org (St X F false (at_label (src g) org 2 + 8 * c) M) (St X1 F' false (at_label (src g) org 3) M1) /\
    (forall i, i <> EAX -> X1 i = X i) /\ (forall x, M1 x = wr M p d x).
Proof.
  intros Ho Ho2. revert X M. cfg_cases g; intros X M Hc HS Hp Hp0 Hp1; rn.
  all: apply code_cases in Hc; repeat (destruct Hc as [-> | Hc]); [..|subst c].
  all: cbn [stored] in HS; first [destruct F as [|a F1]; [discriminate HS|]|idtac];
       pose proof (f_equal (fun o => match o with Some (z, _) => z | None => [] end) HS) as HD;
       pose proof (f_equal (fun o => match o with Some (_, z) => z | None => [] end) HS) as HF; cbv beta iota in HD, HF; clear HS; subst d F'.
  all: rewrite ?fstp_zlen, ?zlen_app, ?le_enc_zlen in Hp1 by lia.
  all: eexists; eexists; split; [pcn org; runto org ltac:(rewrite ?Hp)|].
  all: split; [intros i A; rewrite ?upd_other by lia; reflexivity|].
  all: intros x; rewrite ?Z.add_0_r.
  all: first [reflexivity|rewrite wr_nil; reflexivity|rewrite wr_app, le_enc_zlen; reflexivity].
Qed.

(** From the return of the function to the return of ffi_call_i386. *)
Lemma call_leave g e org X F M P ra ebp p c d F' :
  0 <= org -> org + 2048 <= 2 ^ 32 -> tracked e g -> regs_ok X -> mem_ok M -> X EBP = P -> 4 <= X ESP -> X ESP <= P -> P + 32 <= 2 ^ 32 ->
  le_dec (rd M P 4) = ebp -> le_dec (rd M (P + 4) 4) = ra -> le_dec (rd M (P + 12) 4) mod 16 = c -> le_dec (rd M (P + 16) 4) = p -> 0 <= c < 14 ->
  stored c (X EAX) (X EDX) F = Some (d, F') -> p + zlen d <= 2 ^ 32 -> d = [] \/ p + zlen d <= P \/ P + 12 <= p ->
  exists X1 M1,
    reach e (text g) org (St X F false (at_label (src g) org 5) M) (St X1 F' false ra M1) /\
    X1 ESP = P + 8 /\ X1 EBP = ebp /\ (forall i, i = EBX \/ 6 <= i -> X1 i = X i) /\
    rd M1 p (length d) = d /\
    (forall x, ~ (p <= x < p + zlen d) -> ~ (P + 8 <= x < P + 12) -> ~ (X ESP - 4 <= x < X ESP) -> M1 x = M x).
Proof.
  intros Ho Ho2 HT HX HM HP HS HSP HP32 We Wr Wc Wp Hc St Hp Dj.
  pose proof (word_range M (P + 16) HM) as RP. rewrite Wp in RP.
  destruct (leave_jump g e org X F M P Ho Ho2 HT HX HM HP HS HSP HP32) as (X1 & R1 & C1 & K1). rewrite Wc in R1. rewrite Wp in C1.
  assert (A1 : X1 EAX = X EAX) by (apply K1; rn; lia). assert (D1 : X1 EDX = X EDX) by (apply K1; rn; lia).
  rewrite <- A1, <- D1 in St.
  destruct (leave_slot g e org c X1 F (jump_mem g org X M P) d F' p Ho Ho2 Hc St C1 ltac:(lia) Hp) as (X2 & M2 & R2 & K2 & E2).
  assert (P2 : X2 EBP = P) by (rewrite K2, K1 by (rn; lia); exact HP).
  destruct (leave_exit g e org X2 F' M2 P Ho Ho2 P2 ltac:(lia) HP32) as (X3 & R3 & S3 & B3 & C3 & K3).
  assert (JM : forall x, ~ (P + 8 <= x < P + 12) -> ~ (X ESP - 4 <= x < X ESP) -> jump_mem g org X M P x = M x).
  { intros x N1 N2. unfold jump_mem. destruct (g_pic g).
    - rewrite wr_out by (rewrite le_enc_zlen; lia). reflexivity.
    - rewrite !wr_out by (rewrite le_enc_zlen; lia). reflexivity.
    - rewrite !wr_out by (rewrite le_enc_zlen; lia). reflexivity. }
  assert (JB : rd (jump_mem g org X M P) (P + 8) 4 = le_enc 4 (X EBX)).
  { unfold jump_mem. destruct (g_pic g); [|rewrite rd_wr_other by (rewrite le_enc_zlen; lia)..]; apply rd_wr_same; reflexivity. }
  assert (OUT : forall a, d = [] \/ p + zlen d <= a \/ a + 4 <= p -> rd M2 a 4 = rd (jump_mem g org X M P) a 4).
  { intros a O. apply rd_ext. intros x Hx. rewrite E2. apply wr_out. destruct O as [->|O]; [change (zlen (@nil Z)) with 0; lia|lia]. }
  assert (WP : forall a, a = P \/ a = P + 4 -> rd M2 a 4 = rd M a 4).
  { intros a Ha. rewrite OUT by (destruct Dj as [Dj|Dj]; [left; exact Dj|right; lia]). apply rd_ext. intros x Hx. apply JM; lia. }
  exists X3, M2. split; [|split; [|split; [|split; [|split]]]].
  - eapply reach_trans; [exact R1|]. eapply reach_trans; [exact R2|]. rewrite (WP (P + 4)) in R3 by lia. rewrite Wr in R3. exact R3.
  - exact S3.
  - rewrite B3, WP by lia. exact We.
  - intros i [->|Hi].
    + rewrite C3, OUT by (destruct Dj as [Dj|Dj]; [left; exact Dj|right; lia]). rewrite JB. apply word_back, HX.
    + rewrite K3, K2, K1 by (rn; lia). reflexivity.
  - rewrite (rd_ext (wr (jump_mem g org X M P) p d) M2) by (intros x _; apply E2). apply rd_wr_same. reflexivity.
  - intros x N1 N2 N3. rewrite E2, wr_out by exact N1. apply JM; assumption.
Qed.
