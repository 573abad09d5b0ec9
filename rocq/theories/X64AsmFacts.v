(** Running the code of X64AsmModel. *)
From Coq Require Import ZifyBool ZifyNat.
From Verif Require Import Base BaseFacts ByteMem X64AsmModel.
Local Open Scope Z_scope.
Local Arguments Z.mul : simpl never.
Local Arguments Z.add : simpl never.
Local Arguments Z.sub : simpl never.
Local Arguments Z.pow : simpl never.
Local Arguments Z.of_nat : simpl never.

(** From [s] the processor gets to [s']. *)
Definition reach (inner : Z) (t : list (Z * instr)) (org : Z) (s s' : st) : Prop := exists n, steps inner t org n s = Some s'.

Lemma reach_refl e t org s : reach e t org s s.
Proof. exists O. reflexivity. Qed.

Lemma reach_trans e t org a b c : reach e t org a b -> reach e t org b c -> reach e t org a c.
Proof.
  intros [n Hn] [k Hk]. exists (n + k)%nat. revert a Hn. induction n as [|n IH]; intros a Hn.
  - injection Hn as ->. exact Hk.
  - cbn [steps Nat.add] in *. destruct (step e t org a); [|discriminate]. apply IH, Hn.
Qed.

Lemma reach_step e t org i k X V F c z M s1 s' :
  at_off t k = Some i -> exec e i (St X V F c z (org + k) M) = Some s1 -> reach e t org s1 s' ->
  reach e t org (St X V F c z (org + k) M) s'.
Proof.
  intros A E [n H]. exists (S n). cbn [steps]. unfold step. cbn [spc].
  replace (org + k - org) with k by lia. rewrite A, E. exact H.
Qed.

Lemma wrap64_small a : 0 <= a < 2 ^ 64 -> wrap64 a = a.
Proof. unfold wrap64, wrap. apply Z.mod_small. Qed.

Lemma upd_same {A} (f : Z -> A) r v : upd f r v r = v.
Proof. unfold upd. rewrite Z.eqb_refl. reflexivity. Qed.
Lemma upd_other {A} (f : Z -> A) r v x : (x =? r) = false -> upd f r v x = f x.
Proof. intros H. unfold upd. rewrite H. reflexivity. Qed.

Lemma fits_ok a n : 0 <= a -> a + n <= 2 ^ 64 -> fits a n = true.
Proof. unfold fits. lia. Qed.

Lemma zlen_enc n x : zlen (le_enc n x) = Z.of_nat n.
Proof. apply le_enc_zlen. Qed.
Lemma zlen_app {A} (a b : list A) : zlen (a ++ b) = zlen a + zlen b.
Proof. unfold zlen. rewrite app_length. lia. Qed.
Lemma zlen_firstn {A} n (a : list A) : (n <= length a)%nat -> zlen (firstn n a) = Z.of_nat n.
Proof. intros H. unfold zlen. rewrite firstn_length. lia. Qed.

(** rep movsb between places that do not overlap is a copy. *)
Lemma movs_copy n : forall m src dst x, src + Z.of_nat n <= dst \/ dst + Z.of_nat n <= src ->
  movs n m src dst x = wr m dst (rd m src n) x.
Proof.
  induction n as [|n IH]; intros m src dst x H; cbn [movs rd].
  - rewrite wr_nil. reflexivity.
  - rewrite IH by lia. rewrite rd_wr_other by (change (zlen [m src]) with 1; lia).
    rewrite wr_join by (change (zlen [m src]) with 1; lia). reflexivity.
Qed.

(** Registers looked up in a chain of changes. *)
Ltac regs := repeat first [rewrite upd_same | rewrite upd_other by reflexivity].
(** Addresses. *)
Ltac nowrap := repeat match goal with |- context [wrap64 ?a] => rewrite (wrap64_small a) by lia end.
Ltac lens := repeat match goal with |- context [len ?i] => let n := eval vm_compute in (len i) in change (len i) with n end.
(** The instruction pointer as origin plus a number. *)
Ltac pcn org :=
  let go p c :=
    let n := eval vm_compute in c in
    lazymatch n with Z0 => replace p with (org + n) by lia | Zpos _ => replace p with (org + n) by lia | _ => idtac end in
  lazymatch goal with
  | |- reach _ _ _ (St _ _ _ _ _ (org + ?c) _) _ => idtac
  | |- reach _ _ _ (St _ _ _ _ _ (org + ?c + ?d) _) _ => go (org + c + d) (c + d)
  | |- reach _ _ _ (St _ _ _ _ _ (org + ?c + ?d + ?e) _) _ => go (org + c + d + e) (c + d + e)
  | _ => idtac
  end.

(** One instruction; [tac] rewrites what the instruction depends on. *)
Ltac exec1 tac :=
  cbn [exec sx sv sf sc sz spc sm]; unfold RAX, RCX, RDX, RSP, RBP, RSI, RDI, R8, R9, R10, R11; regs;
  lens; change (Z.of_nat 1) with 1; change (Z.of_nat 2) with 2; change (Z.of_nat 4) with 4; change (Z.of_nat 8) with 8;
  tac; nowrap; tac;
  repeat match goal with |- context [fits ?a ?n] => rewrite (fits_ok a n) by lia end;
  cbn [andb orb];
  reflexivity.
Ltac step2 org tac :=
  lazymatch goal with
  | |- reach ?e ?t org (St ?X ?V ?F ?c ?z (org + ?k) ?M) _ =>
    let i := eval vm_compute in (at_off t k) in
    lazymatch i with
    | Some ?i => eapply (reach_step e t org i k X V F c z M); [vm_compute; reflexivity|exec1 tac|regs; pcn org]
    end
  end.
Ltac step1 org := step2 org idtac.

(** Alignment, hidden from lia. *)
Definition al16 (a : Z) : Prop := (a mod 16 =? 0) = true.
Lemma al16_plus a i : a mod 16 = 0 -> i mod 16 = 0 -> al16 (a + i).
Proof. intros H J. unfold al16. rewrite Zplus_mod, H, J. reflexivity. Qed.
Ltac aligned := repeat match goal with H : al16 ?a |- context [?a mod 16 =? 0] => rewrite (H : (a mod 16 =? 0) = true) end.

(** Labels as origin plus a number. *)
Definition offset (t : list line) (n : Z) : option Z := match layout t 0 [] with Some (_, ls) => label ls n | None => None end.
Lemma at_offset t org n p : offset t n = Some p -> at_label t org n = org + p.
Proof. unfold offset, at_label. destruct (layout t 0 []) as [[? ls]|]; [|discriminate]. intros ->. reflexivity. Qed.
Ltac labels := repeat match goal with |- context [at_label ?t ?org ?n] =>
  let o := eval vm_compute in (offset t n) in
  match o with Some ?p => rewrite (at_offset t org n p) by (vm_compute; reflexivity) end end.

(** The tables of Gnu and Clang do not differ. *)
Lemma text_clang : text Clang = text Gnu.
Proof. vm_compute. reflexivity. Qed.
Lemma label_clang org n : at_label (src Clang) org n = at_label (src Gnu) org n.
Proof.
  unfold at_label. replace (layout (src Clang) 0 []) with (layout (src Gnu) 0 []) by (vm_compute; reflexivity). reflexivity.
Qed.
Lemma flavours (P : flavour -> Prop) : P Cet -> P Gnu -> (P Gnu -> P Clang) -> forall k, P k.
Proof. intros A B C []; auto. Qed.
(** Cases of the flavour, of which two are different. *)
Ltac flavour_cases k := pattern k; apply flavours; [..|rewrite text_clang, ?label_clang; intros Hgnu; exact Hgnu]; labels.

Ltac rn := unfold RAX, RCX, RDX, RSP, RBP, RSI, RDI, R8, R9, R10, R11 in *.
