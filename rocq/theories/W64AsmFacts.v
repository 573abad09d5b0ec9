(** Running the code of W64AsmModel. *)
From Coq Require Import ZifyBool ZifyNat.
From Verif Require Import Base BaseFacts ByteMem W64AsmModel.
Local Open Scope Z_scope.
Local Arguments Z.mul : simpl never.
Local Arguments Z.add : simpl never.
Local Arguments Z.sub : simpl never.
Local Arguments Z.pow : simpl never.
Local Arguments Z.of_nat : simpl never.

(** From [s] the processor gets to [s']. *)
Definition reach (b : bool) (inner : Z) (t : list (Z * instr)) (org : Z) (s s' : st) : Prop := exists n, steps b inner t org n s = Some s'.

Lemma reach_refl b e t org s : reach b e t org s s.
Proof. exists O. reflexivity. Qed.

Lemma reach_trans ib e t org a b c : reach ib e t org a b -> reach ib e t org b c -> reach ib e t org a c.
Proof.
  intros [n Hn] [k Hk]. exists (n + k)%nat. revert a Hn. induction n as [|n IH]; intros a Hn.
  - injection Hn as ->. exact Hk.
  - cbn [steps Nat.add] in *. destruct (step ib e t org a); [|discriminate]. apply IH, Hn.
Qed.

Lemma reach_step ib e t org i k X V c z w M s1 s' :
  at_off t k = Some i -> exec ib e i (St X V c z w (org + k) M) = Some s1 -> reach ib e t org s1 s' ->
  reach ib e t org (St X V c z w (org + k) M) s'.
Proof.
  intros A E [n H]. exists (S n). cbn [steps]. unfold step. cbn [spc].
  replace (org + k - org) with k by lia. rewrite A, E. exact H.
Qed.

Lemma wrap64_small a : 0 <= a < 2 ^ 64 -> wrap64 a = a.
Proof. unfold wrap64, wrap. apply Z.mod_small. Qed.

Lemma upd_same {A} (f : Z -> A) r v : upd f r v r = v.
Proof. unfold upd. rewrite Z.eqb_refl. reflexivity. Qed.
Lemma upd_other {A} (f : Z -> A) r v x : (x =? r) = false -> upd f r v x = f x.
Proof. intros H. unfold upd. rewrite H. reflexivity. Qed.

Lemma fits_ok a n : 0 <= a -> a + n <= 2 ^ 64 -> fits a n = true.
Proof. unfold fits. lia. Qed.

Lemma zlen_enc n x : zlen (le_enc n x) = Z.of_nat n.
Proof. apply le_enc_zlen. Qed.
Lemma zlen_app {A} (a b : list A) : zlen (a ++ b) = zlen a + zlen b.
Proof. unfold zlen. rewrite app_length. lia. Qed.
Lemma zlen_firstn {A} n (a : list A) : (n <= length a)%nat -> zlen (firstn n a) = Z.of_nat n.
Proof. intros H. unfold zlen. rewrite firstn_length. lia. Qed.

(** Registers looked up in a chain of changes. *)
Ltac regs := repeat first [rewrite upd_same | rewrite upd_other by reflexivity].
(** Addresses. *)
Ltac nowrap := repeat match goal with |- context [wrap64 ?a] => rewrite (wrap64_small a) by lia end.
Ltac lens := repeat match goal with |- context [len ?i] => let n := eval vm_compute in (len i) in change (len i) with n end.
(** The instruction pointer as origin plus a number. *)
Ltac pcn org :=
  let go p c :=
    let n := eval vm_compute in c in
    lazymatch n with Z0 => replace p with (org + n) by lia | Zpos _ => replace p with (org + n) by lia | _ => idtac end in
  lazymatch goal with
  | |- reach _ _ _ _ (St _ _ _ _ _ (org + ?c) _) _ => idtac
  | |- reach _ _ _ _ (St _ _ _ _ _ (org + ?c + ?d) _) _ => go (org + c + d) (c + d)
  | |- reach _ _ _ _ (St _ _ _ _ _ (org + ?c + ?d + ?e) _) _ => go (org + c + d + e) (c + d + e)
  | _ => idtac
  end.

(** One instruction; [tac] rewrites what the instruction depends on. *)
Ltac exec1 tac :=
  unfold exec; cbn [sx sv sc sz sk spc sm andb orb negb]; unfold RAX, RCX, RDX, RSP, RBP, RSI, RDI, R8, R9, R10; regs;
  lens; change (Z.of_nat 1) with 1; change (Z.of_nat 2) with 2; change (Z.of_nat 4) with 4; change (Z.of_nat 8) with 8;
  tac; nowrap; tac;
  repeat match goal with |- context [fits ?a ?n] => rewrite (fits_ok a n) by lia end;
  cbn [andb orb];
  reflexivity.
Ltac step2 org tac :=
  lazymatch goal with
  | |- reach ?ib ?e ?t org (St ?X ?V ?c ?z ?w (org + ?k) ?M) _ =>
    let i := eval vm_compute in (at_off t k) in
    lazymatch i with
    | Some ?i => eapply (reach_step ib e t org i k X V c z w M); [vm_compute; reflexivity|exec1 tac|regs; pcn org]
    end
  end.
Ltac step1 org := step2 org idtac.

(** Labels as origin plus a number. *)
Definition offset (t : list line) (n : Z) : option Z := match layout t 0 [] with Some (_, ls) => label ls n | None => None end.
Lemma at_offset t org n p : offset t n = Some p -> at_label t org n = org + p.
Proof. unfold offset, at_label. destruct (layout t 0 []) as [[? ls]|]; [|discriminate]. intros ->. reflexivity. Qed.
Ltac labels := repeat match goal with |- context [at_label ?t ?org ?n] =>
  let o := eval vm_compute in (offset t n) in
  match o with Some ?p => rewrite (at_offset t org n p) by (vm_compute; reflexivity) end end.

(** The assembled text does not depend on .org. *)
Lemma text_org c o w : text (Cfg c o w) = text (Cfg c true w).
Proof. destruct c, o, w; vm_compute; reflexivity. Qed.
Lemma layout_org c o w : layout (src (Cfg c o w)) 0 [] = layout (src (Cfg c true w)) 0 [].
Proof. destruct c, o, w; vm_compute; reflexivity. Qed.
Lemma label_org c o w org n : at_label (src (Cfg c o w)) org n = at_label (src (Cfg c true w)) org n.
Proof. unfold at_label. rewrite (layout_org c o w). reflexivity. Qed.
(** The four ways of assembling that differ. *)
Ltac cfg_cases g := destruct g as [gc go gw]; rewrite ?(text_org gc go gw), ?(label_org gc go gw); destruct gc, gw; labels.

Ltac rn := unfold RAX, RCX, RDX, RSP, RBP, RSI, RDI, R8, R9, R10 in *.
