(** Running the code of I386AsmModel. *)
From Coq Require Import ZifyBool ZifyNat.
From Verif Require Import Base BaseFacts ByteMem X87Model I386AsmModel.
Local Open Scope Z_scope.
Local Arguments Z.mul : simpl never.
Local Arguments Z.add : simpl never.
Local Arguments Z.sub : simpl never.
Local Arguments Z.pow : simpl never.
Local Arguments Z.of_nat : simpl never.

(** From [s] the processor gets to [s']. *)
Definition reach (e : env) (t : list (Z * instr)) (org : Z) (s s' : st) : Prop := exists n, steps e t org n s = Some s'.

Lemma reach_refl e t org s : reach e t org s s.
Proof. exists O. reflexivity. Qed.

Lemma reach_trans e t org a b c : reach e t org a b -> reach e t org b c -> reach e t org a c.
Proof.
  intros [n Hn] [k Hk]. exists (n + k)%nat. revert a Hn. induction n as [|n IH]; intros a Hn.
  - injection Hn as ->. exact Hk.
  - cbn [steps Nat.add] in *. destruct (step e t org a); [|discriminate]. apply IH, Hn.
Qed.

Lemma reach_step e t org i c X F k M s1 s' :
  at_off t c = Some i -> exec e i (St X F k (org + c) M) = Some s1 -> reach e t org s1 s' ->
  reach e t org (St X F k (org + c) M) s'.
Proof.
  intros A E [n H]. exists (S n). cbn [steps]. unfold step. cbn [spc].
  replace (org + c - org) with c by lia. rewrite A, E. exact H.
Qed.

Lemma wrap32_small a : 0 <= a < 2 ^ 32 -> wrap32 a = a.
Proof. unfold wrap32, wrap. apply Z.mod_small. Qed.

Lemma upd_same {A} (f : Z -> A) r v : upd f r v r = v.
Proof. unfold upd. rewrite Z.eqb_refl. reflexivity. Qed.
Lemma upd_other {A} (f : Z -> A) r v x : (x =? r) = false -> upd f r v x = f x.
Proof. intros H. unfold upd. rewrite H. reflexivity. Qed.

Lemma fits_ok a n : 0 <= a -> a + n <= 2 ^ 32 -> fits a n = true.
Proof. unfold fits. lia. Qed.

(** Registers hold 32 bits, memory holds bytes. *)
Definition regs_ok (X : Z -> Z) : Prop := forall i, 0 <= X i < 2 ^ 32.
Definition mem_ok (M : Z -> Z) : Prop := forall a, 0 <= M a < 256.

(** A processor that tracks indirect branches runs code assembled for it. *)
Definition tracked (e : env) (g : cfg) : Prop := e_ibt e = true -> g_cet g = true.

Lemma rd_bytes M a n : mem_ok M -> bytes_ok (rd M a n).
Proof. intros H. revert a. induction n; intros a; cbn [rd]; constructor; [apply H|apply IHn]. Qed.
Lemma word_range M a : mem_ok M -> 0 <= le_dec (rd M a 4) < 2 ^ 32.
Proof.
  intros H. change (2 ^ 32) with (2 ^ (8 * 4)). replace 4 with (zlen (rd M a 4)) by (rewrite rd_zlen; reflexivity).
  apply le_dec_bound, rd_bytes, H.
Qed.

Lemma word_back w : 0 <= w < 2 ^ 32 -> le_dec (le_enc 4 w) = w.
Proof. intros H. rewrite le_dec_enc. apply Z.mod_small. exact H. Qed.

Lemma reach_done e t org X F k p p' M M' : p = p' -> M = M' -> reach e t org (St X F k p M) (St X F k p' M').
Proof. intros -> ->. apply reach_refl. Qed.

(** Registers looked up in a chain of changes. *)
Ltac regs := repeat first [rewrite upd_same | rewrite upd_other by reflexivity].
(** Addresses. *)
Ltac nowrap := repeat match goal with |- context [wrap32 ?a] => rewrite (wrap32_small a) by lia end.
Ltac lens := repeat match goal with |- context [len ?i] => let n := eval vm_compute in (len i) in change (len i) with n end.
(** The instruction pointer as origin plus a number. *)
Ltac pcn org :=
  let go p c :=
    let n := eval vm_compute in c in
    lazymatch n with Z0 => replace p with (org + n) by lia | Zpos _ => replace p with (org + n) by lia | _ => idtac end in
  lazymatch goal with
  | |- reach _ _ _ (St _ _ _ (org + ?c) _) _ => idtac
  | |- reach _ _ _ (St _ _ _ (org + ?c + ?d) _) _ => go (org + c + d) (c + d)
  | |- reach _ _ _ (St _ _ _ (org + ?c + ?d + ?e) _) _ => go (org + c + d + e) (c + d + e)
  | _ => idtac
  end.

(** One instruction; [tac] rewrites what the instruction depends on. *)
Ltac exec1 tac :=
  cbn [exec sx sf sk spc sm andb]; unfold EAX, ECX, EDX, EBX, ESP, EBP; regs;
  lens; change (Z.of_nat 1) with 1; change (Z.of_nat 2) with 2; change (Z.of_nat 4) with 4;
  tac; nowrap; tac;
  repeat match goal with |- context [fits ?a ?n] => rewrite (fits_ok a n) by lia end;
  cbn [andb orb negb]; rewrite ?Bool.andb_false_r, ?Bool.andb_true_r;
  reflexivity.
Ltac step2 org tac :=
  lazymatch goal with
  | |- reach ?e ?t org (St ?X ?F ?k (org + ?c) ?M) _ =>
    let i := eval vm_compute in (at_off t c) in
    lazymatch i with
    | Some ?i => eapply (reach_step e t org i c X F k M); [vm_compute; reflexivity|exec1 tac|regs; pcn org]
    end
  end.
Ltac step1 org := step2 org idtac.

(** Labels as origin plus a number. *)
Definition offset (t : list line) (n : Z) : option Z := match layout t 0 [] with Some (_, ls) => label ls n | None => None end.
Lemma at_offset t org n p : offset t n = Some p -> at_label t org n = org + p.
Proof. unfold offset, at_label. destruct (layout t 0 []) as [[? ls]|]; [|discriminate]. intros ->. reflexivity. Qed.
Ltac labels := repeat match goal with |- context [at_label ?t ?org ?n] =>
  let o := eval vm_compute in (offset t n) in
  match o with Some ?p => rewrite (at_offset t org n p) by (vm_compute; reflexivity) end end.

(** The tables with and without .org do not differ. *)
Lemma text_org c p : text (Cfg c p false) = text (Cfg c p true).
Proof. destruct c, p; vm_compute; reflexivity. Qed.
Lemma label_org c p org n : at_label (src (Cfg c p false)) org n = at_label (src (Cfg c p true)) org n.
Proof.
  unfold at_label. replace (layout (src (Cfg c p false)) 0 []) with (layout (src (Cfg c p true)) 0 [])
    by (destruct c, p; vm_compute; reflexivity). reflexivity.
Qed.
Lemma cfgs (P : cfg -> Prop) : (forall c p, P (Cfg c p true)) -> (forall c p, P (Cfg c p true) -> P (Cfg c p false)) -> forall g, P g.
Proof. intros A C [c p []]; auto. Qed.
(** Cases of how the file is assembled, of which six are different. *)
Ltac cfg_cases g :=
  pattern g; apply cfgs; clear g; intros cet pc;
  [destruct cet, pc; labels|rewrite text_org, ?label_org; cbn [g_cet g_pic]; intros Hsame; exact Hsame].

Ltac rn := unfold EAX, ECX, EDX, EBX, ESP, EBP in *.

(** Words in memory: past stores elsewhere, from the store to that place. *)
Ltac rdo := repeat match goal with |- context [rd (wr ?m ?a ?d) ?b ?n] =>
  rewrite (rd_wr_other m a d b n) by (rewrite ?le_enc_zlen; lia) end.
Ltac rds := repeat match goal with
  | |- context [rd (wr ?m ?a ?d) ?b ?n] =>
    first [rewrite (rd_wr_other m a d b n) by (rewrite ?le_enc_zlen; lia)
          |replace b with a by lia; rewrite (rd_wr_same m a d n) by reflexivity; rewrite word_back by lia] end.

(** Use of [tracked]. *)
Ltac tracks H := unfold tracked in H; cbn [g_cet] in H;
  match type of H with e_ibt ?e = true -> false = true => destruct (e_ibt e) eqn:Hibt; [specialize (H eq_refl); discriminate H|clear H] | _ => clear H end.

(** Up to the wanted place. *)
Ltac runto org tac :=
  lazymatch goal with
  | |- reach _ _ _ (St _ _ _ ?p _) (St _ _ _ ?p _) => apply reach_refl
  | _ => step2 org tac; runto org tac
  end.
