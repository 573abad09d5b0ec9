(** Running the code of A64AsmModel. *)
From Coq Require Import ZifyBool ZifyNat.
From Verif Require Import Base BaseFacts ByteMem A64AsmModel.
Local Open Scope Z_scope.
Local Arguments Z.mul : simpl never.
Local Arguments Z.add : simpl never.
Local Arguments Z.sub : simpl never.
Local Arguments Z.pow : simpl never.
Local Arguments Z.of_nat : simpl never.

(** From [s] the processor gets to [s']. *)
Definition reach (e : env) (t : list instr) (org : Z) (s s' : st) : Prop := exists n, steps e t org n s = Some s'.

Lemma reach_refl e t org s : reach e t org s s.
Proof. exists O. reflexivity. Qed.

Lemma reach_trans e t org a b c : reach e t org a b -> reach e t org b c -> reach e t org a c.
Proof.
  intros [n Hn] [k Hk]. exists (n + k)%nat. revert a Hn. induction n as [|n IH]; intros a Hn.
  - injection Hn as ->. exact Hk.
  - cbn [steps Nat.add] in *. destruct (step e t org a); [|discriminate]. apply IH, Hn.
Qed.

(** Fetch at byte offset [c]. *)
Definition at_off (t : list instr) (c : Z) : option instr :=
  if (c mod 4 =? 0) && (0 <=? c) then nth_error t (Z.to_nat (c / 4)) else None.

Lemma reach_step e t org i c X V M s1 s' :
  at_off t c = Some i -> exec e i (St X V (org + c) M) = Some s1 -> reach e t org s1 s' ->
  reach e t org (St X V (org + c) M) s'.
Proof.
  intros F E [n H]. exists (S n). cbn [steps]. unfold step. cbn [spc].
  replace (org + c - org) with c by lia. unfold at_off in F.
  destruct ((c mod 4 =? 0) && (0 <=? c)); [|discriminate]. rewrite F, E. exact H.
Qed.

(** Code that is part of more code. *)
Lemma reach_sub e pre t post org s s' : reach e t (org + 4 * zlen pre) s s' -> reach e (pre ++ t ++ post) org s s'.
Proof.
  intros [n H]. exists n. revert s H. induction n as [|n IH]; intros s H; [exact H|].
  cbn [steps] in *. destruct (step e t (org + 4 * zlen pre) s) as [s1|] eqn:E; [|discriminate].
  assert (F : step e (pre ++ t ++ post) org s = Some s1).
  { unfold step in *. set (o := spc s - (org + 4 * zlen pre)) in *.
    replace (spc s - org) with (o + zlen pre * 4) by lia.
    rewrite Z.mod_add by lia. pose proof (zlen_nonneg pre) as Hp.
    destruct ((o mod 4 =? 0) && (0 <=? o)) eqn:C; [|discriminate].
    replace ((o mod 4 =? 0) && (0 <=? o + zlen pre * 4)) with true by lia.
    rewrite Z.div_add by lia.
    assert (0 <= o / 4) by (apply Z.div_pos; lia).
    rewrite nth_error_app2 by (unfold zlen; lia).
    replace (Z.to_nat (o / 4 + zlen pre) - length pre)%nat with (Z.to_nat (o / 4)) by (unfold zlen; lia).
    destruct (nth_error t (Z.to_nat (o / 4))) eqn:N; [|discriminate].
    rewrite nth_error_app1 by (apply nth_error_Some; congruence). rewrite N. exact E. }
  rewrite F. apply IH, H.
Qed.

Lemma wrap64_small a : 0 <= a < 2 ^ 64 -> wrap64 a = a.
Proof. unfold wrap64, wrap. apply Z.mod_small. Qed.

Lemma upd_same {A} (f : Z -> A) r v : upd f r v r = v.
Proof. unfold upd. rewrite Z.eqb_refl. reflexivity. Qed.
Lemma upd_other {A} (f : Z -> A) r v x : (x =? r) = false -> upd f r v x = f x.
Proof. intros H. unfold upd. rewrite H. reflexivity. Qed.

Lemma fits_ok a n : 0 <= a -> a + n <= 2 ^ 64 -> fits a n = true.
Proof. unfold fits. lia. Qed.

Lemma zlen_enc n x : zlen (le_enc n x) = Z.of_nat n.
Proof. apply le_enc_zlen. Qed.
Lemma zlen_app {A} (a b : list A) : zlen (a ++ b) = zlen a + zlen b.
Proof. unfold zlen. rewrite app_length. lia. Qed.
Lemma zlen_firstn {A} n (a : list A) : (n <= length a)%nat -> zlen (firstn n a) = Z.of_nat n.
Proof. intros H. unfold zlen. rewrite firstn_length. lia. Qed.

Lemma firstn_enc8 x : firstn 8 (le_enc 8 x) = le_enc 8 x.
Proof. apply firstn_all2. rewrite le_enc_length. lia. Qed.

(** Registers looked up in a chain of changes. *)
Ltac regs := repeat first [rewrite upd_same | rewrite upd_other by reflexivity].
(** Addresses. *)
Ltac nowrap := repeat match goal with |- context [wrap64 ?a] => rewrite (wrap64_small a) by lia end.
Ltac cst := repeat match goal with
  | |- context [?a + ?b] => match a with Zpos _ => idtac | Zneg _ => idtac | Z0 => idtac end;
                            match b with Zpos _ => idtac | Zneg _ => idtac | Z0 => idtac end;
                            let c := eval vm_compute in (a + b) in change (a + b) with c
  end.
(** The program counter as origin plus a number. *)
Ltac pcn org :=
  match goal with
  | |- reach _ _ _ (St _ _ (org + ?c) _) _ => idtac
  | |- reach _ _ _ (St _ _ (org + ?c + ?d) _) _ => let n := eval vm_compute in (c + d) in replace (org + c + d) with (org + n) by lia
  | _ => idtac
  end.

(** One instruction. *)
Ltac exec1 :=
  cbn [exec sx sv sm spc]; unfold LR, SP; regs; try match goal with H : Z.testbit _ _ = _ |- _ => rewrite H end; change (Z.of_nat 1) with 1; change (Z.of_nat 2) with 2; change (Z.of_nat 4) with 4; change (Z.of_nat 8) with 8; change (Z.of_nat 16) with 16;
  rewrite ?firstn_enc8; nowrap;
  repeat match goal with |- context [fits ?a ?n] => rewrite (fits_ok a n) by lia end;
  reflexivity.
Ltac step1 org :=
  lazymatch goal with
  | |- reach ?e ?t org (St ?X ?V (org + ?c) ?M) _ =>
    let i := eval vm_compute in (at_off t c) in
    lazymatch i with
    | Some ?i => eapply (reach_step e t org i c X V M); [vm_compute; reflexivity|exec1|regs; pcn org]
    end
  end.
(** The length of a text as a number. *)
Ltac text_len H :=
  match type of H with context [zlen ?t] => let n := eval vm_compute in (zlen t) in change (zlen t) with n in H end.
