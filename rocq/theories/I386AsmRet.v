(** Closure exit in src/x86/sysv.S: from the return of ffi_closure_inner to the caller. *)
From Coq Require Import ZifyBool ZifyNat.
From Verif Require Import Base BaseFacts ByteMem X87Model I386AsmModel I386AsmFacts I386AsmCall I386AsmClo.
Local Open Scope Z_scope.
Local Arguments Z.mul : simpl never.
Local Arguments Z.add : simpl never.
Local Arguments Z.sub : simpl never.
Local Arguments Z.pow : simpl never.
Local Arguments Z.of_nat : simpl never.

(** The table of an exit. *)
Definition table_label (plain : bool) : Z := if plain then 14 else 25.

(** Bytes removed above the return address, given what ffi_closure_inner returned. *)
Definition popped (plain : bool) (v : Z) : Z := if plain then (if v mod 16 =? 10 then 4 else 0) else v / 16.

Lemma shr4 v : Z.shiftr v 4 = v / 16.
Proof. rewrite Z.shiftr_div_pow2 by lia. reflexivity. Qed.

Lemma rd_back4 M a : mem_ok M -> le_enc 4 (le_dec (rd M a 4)) = rd M a 4.
Proof. intros H. apply (le_enc_dec (rd M a 4)), rd_bytes, H. Qed.

Lemma rd_wr_at m a d b n : a = b -> n = length d -> rd (wr m a d) b n = d.
Proof. intros ->. apply rd_wr_same. Qed.

(** As [rds] without decoding. *)
Ltac rdo2 := repeat match goal with
  | |- context [rd (wr ?m ?a ?d) ?b ?n] =>
    first [rewrite (rd_wr_other m a d b n) by (rewrite ?le_enc_zlen; lia)
          |rewrite (rd_wr_at m a d b n) by first [reflexivity|lia]] end.

Lemma exit_jump plain g e org X F M sp v :
  0 <= org -> org + 2048 <= 2 ^ 32 -> 0 <= e_got e < 2 ^ 32 -> tracked e g -> mem_ok M -> X ESP = sp -> 4 <= sp -> sp + 48 < 2 ^ 32 ->
  X EAX = v -> 0 <= v < 2 ^ 32 -> (g_pic g = Plt -> X EBX = e_got e) -> (plain = false -> sp + 48 + v / 16 < 2 ^ 32) ->
  exists X1 M1,
    reach e (text g) org (St X F false (at_label (src g) org (back_label plain)) M)
      (St X1 F false (at_label (src g) org (table_label plain) + 8 * (v mod 16)) M1) /\
    X1 EAX = le_dec (rd M sp 4) /\ X1 ESP = sp /\ (plain = false -> X1 ECX = sp + 44 + v / 16) /\
    X1 EBX = (match g_pic g with Plt => le_dec (rd M1 (sp + 40) 4) | _ => X EBX end) /\ (forall i, 5 <= i -> X1 i = X i) /\
    (plain = false -> rd M1 (sp + 44 + v / 16) 4 = rd M (sp + 44) 4) /\
    (forall x, ~ (sp - 4 <= x < sp) -> (plain = false -> ~ (sp + 44 + v / 16 <= x < sp + 48 + v / 16)) -> M1 x = M x).
Proof.
  intros Ho Ho2 HG. revert X M. destruct plain; unfold back_label, table_label; cfg_cases g; intros X M HT HM HS HS4 HS2 HV RV HB HP; cbn [g_pic] in *; rn; tracks HT.
  all: pose proof (Z.mod_pos_bound v 16 eq_refl) as RM; pose proof (Z.div_pos v 16 ltac:(lia) eq_refl) as RQ.
  all: try specialize (HP eq_refl); try specialize (HB eq_refl).
  all: pose proof (word_range M (sp + 44) HM) as R44.
  all: eexists; eexists; split; [repeat (step2 org ltac:(rewrite ?HS, ?HV, ?HB, ?shr4, ?Z.add_0_r; try replace (sp + v / 16 + 44) with (sp + 44 + v / 16) by lia; rds; rewrite ?land15, ?Hibt)); apply reach_done; [lia|reflexivity]|].
  all: regs.
  all: split; [rewrite ?Z.add_0_r; rdo; try replace (sp + -4 + 4) with sp by lia; reflexivity|]; split; [lia|]; split; [intros HH; first [discriminate HH|lia]|]; split; [first [reflexivity|rewrite ?rd_wr_other by (rewrite le_enc_zlen; lia); reflexivity]|]; split; [others|].
  all: split; [intros HH; first [discriminate HH|clear HH; rdo2; apply rd_back4, HM]|].
  all: intros x N1 N2; try specialize (N2 eq_refl); rewrite ?wr_out by (rewrite le_enc_zlen; lia); reflexivity.
Qed.

(** ** The load tables *)

Inductive tab : Type := TPlain | TPop | TRawS | TRawT.
Definition tab_label (t : tab) : Z := match t with TPlain => 14 | TPop => 25 | TRawS => 41 | TRawT => 51 end.
(** Place of the result above the stack pointer, of the return address, bytes removed above it. *)
Definition tab_off (t : tab) : Z := match t with TPlain | TPop => 0 | _ => 16 end.
Definition tab_frame (t : tab) : Z := match t with TRawT => 40 | _ => 44 end.
Definition tab_pop (t : tab) (c : Z) : Z :=
  match t with
  | TPlain | TRawS => if c =? 10 then 4 else 0
  | TRawT => if c =? 10 then 8 else 4
  | TPop => 0
  end.

(** What a table loads for a return code from a result at [a]: eax, edx if it is set, and what is
    put on the x87 stack. *)
Definition load_eax (c w : Z) : Z :=
  match c with
  | 3 => to_signed 8 w mod 2 ^ 32
  | 4 => to_signed 16 w mod 2 ^ 32
  | 5 | 12 => w mod 2 ^ 8
  | 6 | 13 => w mod 2 ^ 16
  | _ => w
  end.
Definition load_st (c : Z) (M : Z -> Z) (a : Z) : list ext :=
  match c with
  | 0 => [fld 4 (rd M a 4)]
  | 1 => [fld 8 (rd M a 8)]
  | 2 => [fld 10 (rd M a 10)]
  | _ => []
  end.

Lemma slot_exit t g e org c X F M sp T :
  0 <= org -> org + 2048 <= 2 ^ 32 -> 0 <= c < 14 -> X ESP = sp -> 0 <= sp -> sp + 60 <= 2 ^ 32 -> zlen F < 8 ->
  (match t with TPop => X ECX = T | _ => T = sp + tab_frame t end) -> 0 <= T -> T + 12 < 2 ^ 32 -> X EAX = le_dec (rd M (sp + tab_off t) 4) ->
  exists X1,
    reach e (text g) org (St X F false (at_label (src g) org (tab_label t) + 8 * c) M)
      (St X1 (load_st c M (sp + tab_off t) ++ F) false (le_dec (rd M T 4)) M) /\
    X1 EAX = load_eax c (le_dec (rd M (sp + tab_off t) 4)) /\ (c = 7 -> X1 EDX = le_dec (rd M (sp + tab_off t + 4) 4)) /\
    X1 ESP = T + 4 + tab_pop t c /\ (forall i, 3 <= i -> i <> ESP -> X1 i = X i).
Proof.
  intros Ho Ho2 Hc. revert X M.
  destruct t; unfold tab_label, tab_off, tab_frame, tab_pop; cfg_cases g; intros X M HS HS0 HS1 HF HT HT0 HT1 HA; cbn [g_pic] in *; rn.
  all: apply code_cases in Hc; repeat (destruct Hc as [-> | Hc]); [..|subst c].
  all: cbn [load_st load_eax app Z.eqb Pos.eqb].
  all: try match type of HT with ?y = _ => is_var y; subst y end.
  all: assert (HF8 : (zlen F <? 8) = true) by (apply Z.ltb_lt; exact HF).
  all: rewrite ?Z.add_0_r in *.
  all: eexists; split; [pcn org; repeat (step2 org ltac:(rewrite ?HS, ?HA, ?HF8, ?HT, ?Z.add_0_r)); rewrite <- ?Z.add_assoc; apply reach_refl|].
  all: regs; split; [first [exact HA|reflexivity]|].
  all: split; [intros HH; first [discriminate HH|rewrite <- ?Z.add_assoc; reflexivity]|]; split; [lia|].
  all: intros i A B; rewrite ?upd_other by lia; reflexivity.
Qed.

Definition tab_of (plain : bool) : tab := if plain then TPlain else TPop.
Lemma tab_of_label plain : tab_label (tab_of plain) = table_label plain.
Proof. destruct plain; reflexivity. Qed.

(** From the return of ffi_closure_inner, which is to load a result of code [c], to the caller of
    the closure. *)
Lemma clo_leave plain g e org X F M sp v c :
  0 <= org -> org + 2048 <= 2 ^ 32 -> 0 <= e_got e < 2 ^ 32 -> tracked e g -> mem_ok M -> X ESP = sp -> 4 <= sp -> sp + 60 < 2 ^ 32 ->
  X EAX = v -> 0 <= v < 2 ^ 32 -> (g_pic g = Plt -> X EBX = e_got e) -> (plain = false -> sp + 60 + v / 16 < 2 ^ 32) ->
  v mod 16 = c -> 0 <= c < 14 -> zlen F < 8 ->
  exists X1 M1,
    reach e (text g) org (St X F false (at_label (src g) org (back_label plain)) M)
      (St X1 (load_st c M sp ++ F) false (le_dec (rd M (sp + 44) 4)) M1) /\
    X1 EAX = load_eax c (le_dec (rd M sp 4)) /\ (c = 7 -> X1 EDX = le_dec (rd M (sp + 4) 4)) /\
    X1 ESP = sp + 48 + popped plain v /\
    X1 EBX = (match g_pic g with Plt => le_dec (rd M (sp + 40) 4) | _ => X EBX end) /\ (forall i, 5 <= i -> X1 i = X i) /\
    (forall x, ~ (sp - 4 <= x < sp) -> (plain = false -> ~ (sp + 44 + v / 16 <= x < sp + 48 + v / 16)) -> M1 x = M x).
Proof.
  intros Ho Ho2 HG HT HM HS HS4 HS1 HV RV HB HP Hc RC HF.
  assert (RQ : 0 <= v / 16) by (apply Z.div_pos; lia).
  destruct (exit_jump plain g e org X F M sp v Ho Ho2 HG HT HM HS HS4 ltac:(lia) HV RV HB ltac:(intros Q; specialize (HP Q); lia))
    as (X1 & M1 & R1 & A1 & S1 & C1 & B1 & K1 & W1 & E1).
  assert (RW : forall a n, sp <= a -> a + Z.of_nat n <= sp + 44 -> rd M1 a n = rd M a n).
  { intros a n G1 G2. apply rd_ext. intros x Hx. apply E1; [lia|intros Q; lia]. }
  pose (T := if plain then sp + 44 else sp + 44 + v / 16).
  assert (LF : load_st c M1 (sp + tab_off (tab_of plain)) = load_st c M sp).
  { replace (sp + tab_off (tab_of plain)) with sp by (destruct plain; cbn; lia). unfold load_st.
    rewrite !RW by lia. reflexivity. }
  assert (OFF : sp + tab_off (tab_of plain) = sp) by (destruct plain; cbn; lia).
  destruct (slot_exit (tab_of plain) g e org c X1 F M1 sp T Ho Ho2 RC S1 ltac:(lia) ltac:(lia) HF) as (X2 & R2 & A2 & D2 & S2 & K2).
  { unfold T. destruct plain; cbn [tab_of tab_frame]; [reflexivity|apply C1; reflexivity]. }
  { unfold T. destruct plain; lia. }
  { unfold T. destruct plain; [lia|specialize (HP eq_refl); lia]. }
  { rewrite OFF, RW by lia. exact A1. }
  rewrite OFF in *. rewrite RW in A2 by lia. rewrite (RW (sp + 4)) in D2 by lia.
  exists X2, M1. split; [|split; [|split; [|split; [|split; [|split]]]]].
  - eapply reach_trans; [exact R1|]. rewrite Hc, <- tab_of_label. rewrite LF in R2.
    replace (rd M1 T 4) with (rd M (sp + 44) 4) in R2; [exact R2|]. unfold T. destruct plain.
    + symmetry. apply rd_ext. intros x Hx. apply E1; [lia|intros Q; discriminate Q].
    + symmetry. apply W1. reflexivity.
  - exact A2.
  - exact D2.
  - rewrite S2. unfold T, popped. destruct plain; cbn [tab_of tab_pop]; [rewrite Hc; lia|lia].
  - rewrite K2, B1 by (rn; lia). destruct (g_pic g); try reflexivity. rewrite RW by lia. reflexivity.
  - intros i Hi. rewrite K2, K1 by (rn; lia). reflexivity.
  - exact E1.
Qed.
