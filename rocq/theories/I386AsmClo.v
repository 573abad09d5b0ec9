(** Closure entry in src/x86/sysv.S: from the entry points to ffi_closure_inner. *)
From Coq Require Import ZifyBool ZifyNat.
From Verif Require Import Base BaseFacts ByteMem X87Model I386AsmModel I386AsmFacts.
Local Open Scope Z_scope.
Local Arguments Z.mul : simpl never.
Local Arguments Z.add : simpl never.
Local Arguments Z.sub : simpl never.
Local Arguments Z.pow : simpl never.
Local Arguments Z.of_nat : simpl never.

(** The six words at 16(%esp): registers, cif, function, user data. *)
Definition frame_words (eax edx ecx cif fn ud : Z) : list Z :=
  le_enc 4 eax ++ le_enc 4 edx ++ le_enc 4 ecx ++ le_enc 4 cif ++ le_enc 4 fn ++ le_enc 4 ud.

Lemma six_words m a b1 b2 b3 b4 b5 w0 w1 w2 w3 w4 w5 x :
  b1 = a + 4 -> b2 = a + 8 -> b3 = a + 12 -> b4 = a + 16 -> b5 = a + 20 ->
  wr (wr (wr (wr (wr (wr m a (le_enc 4 w0)) b1 (le_enc 4 w1)) b2 (le_enc 4 w2)) b3 (le_enc 4 w3)) b4 (le_enc 4 w4)) b5 (le_enc 4 w5) x
  = wr m a (frame_words w0 w1 w2 w3 w4 w5) x.
Proof.
  intros -> -> -> -> ->. unfold frame_words.
  do 5 (rewrite wr_join by (rewrite le_enc_zlen; lia)). reflexivity.
Qed.

Lemma wr_cong m m' a d x : m x = m' x -> wr m a d x = wr m' a d x.
Proof. intros E. unfold wr. rewrite E. reflexivity. Qed.

Lemma seven_words m a c w w0 w1 w2 w3 w4 w5 x : c = a + 28 ->
  wr (wr (wr (wr (wr (wr (wr m a (le_enc 4 w0)) (a + 4) (le_enc 4 w1)) (a + 8) (le_enc 4 w2)) c (le_enc 4 w)) (a + 12) (le_enc 4 w3)) (a + 16) (le_enc 4 w4)) (a + 20) (le_enc 4 w5) x
  = wr (wr m c (le_enc 4 w)) a (frame_words w0 w1 w2 w3 w4 w5) x.
Proof.
  intros ->. assert (Z : zlen (frame_words w0 w1 w2 w3 w4 w5) = 24) by (unfold frame_words; rewrite !zlen_app, !le_enc_zlen; reflexivity).
  destruct (Z_le_dec (a + 28) x) as [A|A]; [destruct (Z_lt_dec x (a + 32)) as [B|B]|].
  - rewrite (wr_out _ (a + 20)), (wr_out _ (a + 16)), (wr_out _ (a + 12)) by (rewrite le_enc_zlen; lia). rewrite wr_in by (rewrite le_enc_zlen; lia).
    rewrite wr_out by (rewrite Z; lia). rewrite wr_in by (rewrite le_enc_zlen; lia). reflexivity.
  - rewrite !wr_out by (rewrite ?Z, ?le_enc_zlen; lia). reflexivity.
  - rewrite <- six_words with (b1 := a + 4) (b2 := a + 8) (b3 := a + 12) (b4 := a + 16) (b5 := a + 20) by lia.
    do 3 (apply wr_cong). rewrite wr_out by (rewrite le_enc_zlen; lia). do 3 (apply wr_cong). symmetry. apply wr_out. rewrite le_enc_zlen. lia.
Qed.

(** The call of ffi_closure_inner, from either of two places. *)
Definition do_label (plain : bool) : Z := if plain then 13 else 24.
Definition back_label (plain : bool) : Z := if plain then 17 else 27.

Ltac others := let i := fresh "i" in let A := fresh in intros i A; unfold upd;
  repeat match goal with |- context [i =? ?n] => destruct (Z.eqb_spec i n); [first [lia|subst; lia]|] end; reflexivity.

Lemma inner_call plain g e org X F M sp :
  0 <= org -> org + 2048 <= 2 ^ 32 -> 0 <= e_got e < 2 ^ 32 -> X ESP = sp -> 4 <= sp -> sp + 48 < 2 ^ 32 ->
  exists X1 M1,
    reach e (text g) org (St X F false (at_label (src g) org (do_label plain)) M) (St X1 F false (e_inner e) M1) /\
    X1 ECX = sp /\ X1 EDX = sp + 48 /\ X1 ESP = sp - 4 /\
    X1 EBX = (match g_pic g with Plt => e_got e | _ => X EBX end) /\ (forall i, 5 <= i -> X1 i = X i) /\
    rd M1 (sp - 4) 4 = le_enc 4 (at_label (src g) org (back_label plain)) /\
    (g_pic g = Plt -> rd M1 (sp + 40) 4 = le_enc 4 (X EBX)) /\
    (forall x, ~ (sp - 4 <= x < sp) -> (g_pic g = Plt -> ~ (sp + 40 <= x < sp + 44)) -> M1 x = M x).
Proof.
  intros Ho Ho2 HG. revert X M. destruct plain; unfold do_label, back_label; cfg_cases g; intros X M HS HS4 HS2; cbn [g_pic]; rn.
  all: eexists; eexists; split; [repeat (step2 org ltac:(rewrite ?HS; rds)); apply reach_refl|].
  all: regs.
  all: split; [lia|]; split; [lia|]; split; [lia|]; split; [lia|]; split; [others|].
  all: split; [rewrite <- ?Zplus_assoc; rewrite rd_wr_same by reflexivity; f_equal; lia|].
  all: split; [first [intros HH; discriminate HH|intros _; rewrite !rd_wr_other by (rewrite le_enc_zlen; lia); rewrite rd_wr_same by reflexivity; reflexivity]|].
  all: intros x N1 N2; try specialize (N2 eq_refl); rewrite !wr_out by (rewrite le_enc_zlen; lia); reflexivity.
Qed.

(** Entry from a trampoline, with the closure in eax: ffi_closure_i386, ffi_closure_STDCALL. *)
Definition clo_label (plain : bool) : Z := if plain then 12 else 22.

Lemma clo_entry plain g e org X F k M clo sp :
  0 <= org -> org + 2048 <= 2 ^ 32 -> (k = true -> g_cet g = true) ->
  X EAX = clo -> 0 <= clo -> clo + 28 <= 2 ^ 32 -> X ESP = sp + 44 -> 0 <= sp -> sp + 44 < 2 ^ 32 -> clo + 28 <= sp + 16 \/ sp + 40 <= clo + 16 ->
  exists X1 M1,
    reach e (text g) org (St X F k (at_label (src g) org (clo_label plain)) M) (St X1 F false (at_label (src g) org (do_label plain)) M1) /\
    X1 ESP = sp /\ (forall i, 3 <= i -> i <> ESP -> X1 i = X i) /\
    (forall x, M1 x = wr M (sp + 16) (frame_words clo (X EDX) (X ECX) (le_dec (rd M (clo + 16) 4)) (le_dec (rd M (clo + 20) 4)) (le_dec (rd M (clo + 24) 4))) x).
Proof.
  intros Ho Ho2. revert k X M. destruct plain; unfold do_label, clo_label; cfg_cases g; intros k X M Hk HC HC0 HC1 HS HS0 HS1 HD; cbn [g_cet] in Hk; rn.
  all: destruct k; [try (specialize (Hk eq_refl); discriminate Hk)|clear Hk].
  all: eexists; eexists; split; [runto org ltac:(rewrite ?HS, ?HC; try replace (sp + 44 - 44) with sp by lia; rdo)|].
  all: split; [regs; lia|]; split; [intros i A B; rewrite !upd_other by lia; reflexivity|].
  all: intros x; erewrite six_words by lia; reflexivity.
Qed.

(** Go closures, found in eax or ecx. *)
Definition go_label (plain eax : bool) : Z := if plain then if eax then 10 else 11 else 20.

Lemma go_entry plain eax g e org X F k M clo sp :
  0 <= org -> org + 2048 <= 2 ^ 32 -> (k = true -> g_cet g = true) -> (plain = false -> eax = false) ->
  X (if eax then EAX else ECX) = clo -> 0 <= clo -> clo + 12 <= 2 ^ 32 -> X ESP = sp + 44 -> 0 <= sp -> sp + 44 < 2 ^ 32 -> clo + 12 <= sp + 16 \/ sp + 40 <= clo + 4 ->
  exists X1 M1,
    reach e (text g) org (St X F k (at_label (src g) org (go_label plain eax)) M) (St X1 F false (at_label (src g) org (do_label plain)) M1) /\
    X1 ESP = sp /\ (forall i, 3 <= i -> i <> ESP -> X1 i = X i) /\
    (forall x, M1 x = wr M (sp + 16) (frame_words (X EAX) (X EDX) (X ECX) (le_dec (rd M (clo + 4) 4)) (le_dec (rd M (clo + 8) 4)) clo) x).
Proof.
  intros Ho Ho2 Hk Hpe. revert Hk. revert k X M. destruct plain, eax; try (specialize (Hpe eq_refl); discriminate Hpe); clear Hpe; unfold do_label, go_label; cfg_cases g;
    intros k X M Hk HC HC0 HC1 HS HS0 HS1 HD; cbn [g_cet] in Hk; rn.
  all: destruct k; [try (specialize (Hk eq_refl); discriminate Hk)|clear Hk].
  all: eexists; eexists; split; [runto org ltac:(rewrite ?HS, ?HC; try replace (sp + 44 - 44) with sp by lia; rdo)|].
  all: split; [regs; lia|]; split; [intros i A B; rewrite !upd_other by lia; reflexivity|].
  all: intros x; rewrite ?HC; erewrite six_words by lia; reflexivity.
Qed.

(** ffi_closure_REGISTER: the word on the stack at entry, which the trampoline pushed, is taken
    for the return address, and the one above for the closure. *)
Lemma register_entry g e org X F k M w0 w1 sp :
  0 <= org -> org + 2048 <= 2 ^ 32 -> (k = true -> g_cet g = true) ->
  X ESP = sp + 40 -> 0 <= sp -> sp + 48 < 2 ^ 32 -> le_dec (rd M (sp + 40) 4) = w0 -> le_dec (rd M (sp + 44) 4) = w1 ->
  0 <= w1 -> w1 + 28 <= 2 ^ 32 -> w1 + 28 <= sp + 16 \/ sp + 48 <= w1 + 16 ->
  exists X1 M1,
    reach e (text g) org (St X F k (at_label (src g) org 21) M) (St X1 F false (at_label (src g) org (do_label false)) M1) /\
    X1 ESP = sp /\ (forall i, 3 <= i -> i <> ESP -> X1 i = X i) /\
    (forall x, M1 x = wr (wr M (sp + 44) (le_enc 4 w0)) (sp + 16)
       (frame_words (X EAX) (X EDX) (X ECX) (le_dec (rd M (w1 + 16) 4)) (le_dec (rd M (w1 + 20) 4)) (le_dec (rd M (w1 + 24) 4))) x).
Proof.
  intros Ho Ho2. revert k X M. unfold do_label; cfg_cases g; intros k X M Hk HS HS0 HS1 W0 W1 H1 H2 HD; cbn [g_cet] in Hk; rn.
  all: destruct k; [try (specialize (Hk eq_refl); discriminate Hk)|clear Hk].
  all: eexists; eexists; split; [runto org ltac:(rewrite ?HS; try replace (sp + 40 - 40) with sp by lia; rdo; rewrite ?W0, ?W1; rdo)|].
  all: split; [regs; lia|]; split; [intros i A B; rewrite !upd_other by lia; reflexivity|].
  all: intros x; rewrite <- seven_words by lia; rewrite <- !Z.add_assoc; reflexivity.
Qed.
