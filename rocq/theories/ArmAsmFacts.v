(** Running the code of ArmAsmModel. *)
From Coq Require Import ZifyBool ZifyNat.
From Verif Require Import Base BaseFacts ByteMem ArmModel ArmAsmModel.
Local Open Scope Z_scope.
Local Arguments Z.mul : simpl never.
Local Arguments Z.add : simpl never.
Local Arguments Z.sub : simpl never.
Local Arguments Z.pow : simpl never.
Local Arguments Z.of_nat : simpl never.

(** From [s] the processor gets to [s']. *)
Definition reach (e : bool -> Z) (t : list instr) (org : Z) (s s' : st) : Prop := exists n, steps e t org n s = Some s'.

Lemma reach_refl e t org s : reach e t org s s.
Proof. exists O. reflexivity. Qed.

Lemma reach_trans e t org s1 s2 s3 : reach e t org s1 s2 -> reach e t org s2 s3 -> reach e t org s1 s3.
Proof.
  intros [n Hn] [k Hk]. exists (n + k)%nat. revert s1 Hn. induction n as [|n IH]; intros s1 Hn.
  - injection Hn as ->. exact Hk.
  - cbn [steps Nat.add] in *. destruct (step e t org s1); [|discriminate Hn]. apply IH, Hn.
Qed.

(** Fetch at byte offset [c]. *)
Definition at_off (t : list instr) (c : Z) : option instr :=
  if (c mod 4 =? 0) && (0 <=? c) then nth_error t (Z.to_nat (c / 4)) else None.

Lemma reach_step e t org i c X V le M s1 s' :
  at_off t c = Some i -> exec e i (St X V le (org + c) M) = Some s1 -> reach e t org s1 s' ->
  reach e t org (St X V le (org + c) M) s'.
Proof.
  intros F E [n H]. exists (S n). cbn [steps]. unfold step. cbn [spc].
  replace (org + c - org) with c by lia. unfold at_off in F.
  destruct ((c mod 4 =? 0) && (0 <=? c)); [|discriminate F]. rewrite F, E. exact H.
Qed.

Lemma wrap32_small a : 0 <= a < 2 ^ 32 -> wrap32 a = a.
Proof. unfold wrap32, wrap. apply Z.mod_small. Qed.

Lemma upd_same {A} (f : Z -> A) r v : upd f r v r = v.
Proof. unfold upd. rewrite Z.eqb_refl. reflexivity. Qed.
Lemma upd_other {A} (f : Z -> A) r v x : (x =? r) = false -> upd f r v x = f x.
Proof. intros H. unfold upd. rewrite H. reflexivity. Qed.

Lemma fits_ok a n q : a = 4 * q -> 0 <= a -> a + n <= 2 ^ 32 -> fits a n = true.
Proof.
  intros -> A B. unfold fits. rewrite (Z.mul_comm 4 q), Z.mod_mul by lia. lia.
Qed.

Lemma zlen_enc n x : zlen (le_enc n x) = Z.of_nat n.
Proof. apply le_enc_zlen. Qed.
Lemma zlen_app {A} (a b : list A) : zlen (a ++ b) = zlen a + zlen b.
Proof. unfold zlen. rewrite app_length. lia. Qed.

(** The word at an address after a store of words. *)
Lemma rd_pair1 m a x y : rd (wr m a (le_enc 4 x ++ le_enc 4 y)) a 4 = le_enc 4 x.
Proof. rewrite rd_wr_sub; rewrite ?zlen_app, ?zlen_enc; try lia. rewrite Z.sub_diag. reflexivity. Qed.
Lemma rd_pair2 m a b x y : b = a + 4 -> rd (wr m a (le_enc 4 x ++ le_enc 4 y)) b 4 = le_enc 4 y.
Proof.
  intros ->. rewrite rd_wr_sub; rewrite ?zlen_app, ?zlen_enc; try lia.
  replace (a + 4 - a) with 4 by lia. reflexivity.
Qed.
Lemma dec_enc4 x : 0 <= x < 2 ^ 32 -> le_dec (le_enc 4 x) = x.
Proof. intros H. rewrite le_dec_enc. apply Z.mod_small. exact H. Qed.

(** Registers looked up in a chain of changes. *)
Ltac regs := repeat first [rewrite upd_same | rewrite upd_other by reflexivity].
(** Addresses. *)
Ltac nowrap := repeat match goal with |- context [wrap32 ?v] => rewrite (wrap32_small v) by lia end.
(** The program counter as origin plus a number. *)
Ltac pcn org :=
  match goal with
  | |- reach _ _ _ (St _ _ _ (org + ?c) _) _ => idtac
  | |- reach _ _ _ (St _ _ _ (org + ?c + ?d) _) _ => let n := eval vm_compute in (c + d) in replace (org + c + d) with (org + n) by lia
  | _ => idtac
  end.
Ltac lens := repeat match goal with
  | |- context [4 * zlen ?l] => let n := eval vm_compute in (4 * zlen l) in change (4 * zlen l) with n
  | |- context [Z.of_nat ?n] => match n with O => idtac | S _ => idtac end; let k := eval vm_compute in (Z.of_nat n) in change (Z.of_nat n) with k
  end.
(** Accesses: addresses are multiples of four; [q] stands for a hypothesis [_ = 4 * q]. *)
Lemma fits_off a n q k o : a = 4 * q + o -> o = 4 * k -> 0 <= a -> a + n <= 2 ^ 32 -> fits a n = true.
Proof. intros -> -> A B. apply (fits_ok _ n (q + k)); lia. Qed.
Ltac fit_one a n :=
  match goal with
  | H : ?b = 4 * ?q |- _ =>
    let o := fresh in
    first [ rewrite (fits_ok a n q) by lia
          | rewrite (fits_off a n q 1 4) by lia | rewrite (fits_off a n q 2 8) by lia | rewrite (fits_off a n q 3 12) by lia
          | rewrite (fits_off a n q 4 16) by lia | rewrite (fits_off a n q 5 20) by lia | rewrite (fits_off a n q 16 64) by lia
          | rewrite (fits_off a n q (-2) (-8)) by lia | rewrite (fits_off a n q (-1) (-4)) by lia
          | rewrite (fits_off a n q (-4) (-16)) by lia | rewrite (fits_off a n q (-28) (-112)) by lia | rewrite (fits_off a n q (-12) (-48)) by lia | rewrite (fits_off a n q (-11) (-44)) by lia | rewrite (fits_off a n q (-30) (-120)) by lia
          | rewrite (fits_off a n q 1022 4088) by lia | rewrite (fits_off a n q 1024 4096) by lia | rewrite (fits_off a n q 1025 4100) by lia ]
  end.
Ltac aligned := repeat match goal with |- context [fits ?a ?n] => fit_one a n end.

(** One instruction. *)
Ltac exec1 :=
  cbn [exec sx sf sle sm spc holds loads existsb]; regs; lens; nowrap; aligned; cbv beta iota; cbn [negb orb Z.eqb Pos.eqb];
  reflexivity.
Ltac step1 org :=
  lazymatch goal with
  | |- reach ?e ?t org (St ?X ?V ?l (org + ?c) ?M) _ =>
    let i := eval vm_compute in (at_off t c) in
    lazymatch i with
    | Some ?i => eapply (reach_step e t org i c X V l M); [vm_compute; reflexivity|exec1|regs; pcn org]
    end
  end.
