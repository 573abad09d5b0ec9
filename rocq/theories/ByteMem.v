(** Byte memory for the models of assembly code: loads and stores of byte strings. *)
From Coq Require Import ZifyBool ZifyNat.
From Verif Require Import Base BaseFacts.
Local Open Scope Z_scope.

(** The [n] bytes from address [a] on (loads of src/aarch64/sysv.S:92-519). *)
Fixpoint rd (m : Z -> Z) (a : Z) (n : nat) : list Z :=
  match n with O => [] | S k => m a :: rd m (a + 1) k end.

(** Memory after the bytes [d] are stored at [a] (stores of src/aarch64/sysv.S:92-519). *)
Definition wr (m : Z -> Z) (a : Z) (d : list Z) : Z -> Z :=
  fun x => if (a <=? x) && (x <? a + zlen d) then nth (Z.to_nat (x - a)) d 0 else m x.

Lemma rd_length m a n : length (rd m a n) = n.
Proof. revert a. induction n; intros; cbn [rd length]; auto. Qed.
Lemma rd_zlen m a n : zlen (rd m a n) = Z.of_nat n.
Proof. unfold zlen. rewrite rd_length. reflexivity. Qed.

Lemma rd_nth m n : forall a k, (k < n)%nat -> nth k (rd m a n) 0 = m (a + Z.of_nat k).
Proof.
  induction n as [|n IH]; intros a k H; [lia|]. cbn [rd]. destruct k as [|k].
  - cbn [nth]. f_equal. lia.
  - cbn [nth]. rewrite IH by lia. f_equal. lia.
Qed.

Lemma rd_ext m m' n : forall a, (forall x, a <= x < a + Z.of_nat n -> m' x = m x) -> rd m' a n = rd m a n.
Proof.
  induction n as [|n IH]; intros a E; cbn [rd]; [reflexivity|]. rewrite E by lia. f_equal. apply IH. intros. apply E. lia.
Qed.

Lemma rd_app m n k : forall a, rd m a (n + k) = rd m a n ++ rd m (a + Z.of_nat n) k.
Proof.
  induction n as [|n IH]; intros a; cbn [rd Nat.add app].
  - f_equal. lia.
  - rewrite IH. do 3 f_equal. lia.
Qed.

Lemma wr_out m a d x : ~ (a <= x < a + zlen d) -> wr m a d x = m x.
Proof. intros H. unfold wr. destruct ((a <=? x) && (x <? a + zlen d)) eqn:E; [lia|reflexivity]. Qed.
Lemma wr_in m a d x : a <= x < a + zlen d -> wr m a d x = nth (Z.to_nat (x - a)) d 0.
Proof. intros H. unfold wr. destruct ((a <=? x) && (x <? a + zlen d)) eqn:E; [reflexivity|lia]. Qed.

Lemma rd_is m a d : (forall k, (k < length d)%nat -> m (a + Z.of_nat k) = nth k d 0) -> rd m a (length d) = d.
Proof.
  revert a. induction d as [|b d IH]; intros a H; cbn [length rd]; [reflexivity|]. f_equal.
  - specialize (H 0%nat). cbn [nth length] in H. rewrite <- H by lia. f_equal. lia.
  - apply IH. intros k Hk. specialize (H (S k)). cbn [nth length] in H. rewrite <- H by lia. f_equal. lia.
Qed.

Lemma rd_wr_same m a d n : n = length d -> rd (wr m a d) a n = d.
Proof.
  intros ->. apply rd_is. intros k Hk. rewrite wr_in by (unfold zlen; lia). f_equal. lia.
Qed.

Lemma rd_wr_other m a d b n : b + Z.of_nat n <= a \/ a + zlen d <= b -> rd (wr m a d) b n = rd m b n.
Proof. intros H. apply rd_ext. intros x Hx. apply wr_out. lia. Qed.

(** A part of what was stored. *)
Lemma rd_wr_sub m a d b n : a <= b -> b + Z.of_nat n <= a + zlen d ->
  rd (wr m a d) b n = firstn n (skipn (Z.to_nat (b - a)) d).
Proof.
  intros H1 H2. set (i := Z.to_nat (b - a)). unfold zlen in H2.
  assert (L : length (firstn n (skipn i d)) = n).
  { rewrite firstn_length, skipn_length. lia. }
  rewrite <- L at 1. apply rd_is. intros k Hk. rewrite L in Hk.
  rewrite wr_in by (unfold zlen; lia). rewrite <- (firstn_skipn i d) at 1.
  rewrite app_nth2; rewrite firstn_length; [|lia].
  replace (Z.to_nat (b + Z.of_nat k - a) - Nat.min i (length d))%nat with k by lia.
  rewrite <- (firstn_skipn n (skipn i d)) at 1. rewrite app_nth1 by lia. reflexivity.
Qed.

Lemma wr_app m a d e x : wr m a (d ++ e) x = wr (wr m (a + zlen d) e) a d x.
Proof.
  unfold wr, zlen. rewrite app_length.
  destruct ((a <=? x) && (x <? a + Z.of_nat (length d))) eqn:E1.
  - replace ((a <=? x) && (x <? a + Z.of_nat (length d + length e))) with true by lia. apply app_nth1. lia.
  - destruct ((a + Z.of_nat (length d) <=? x) && (x <? a + Z.of_nat (length d) + Z.of_nat (length e))) eqn:E2.
    + replace ((a <=? x) && (x <? a + Z.of_nat (length d + length e))) with true by lia.
      rewrite app_nth2 by lia. f_equal. lia.
    + replace ((a <=? x) && (x <? a + Z.of_nat (length d + length e))) with false by lia. reflexivity.
Qed.

Lemma wr_nil m a x : wr m a [] x = m x.
Proof. apply wr_out. unfold zlen. cbn. lia. Qed.

Lemma wr_ext m m' a d x : (forall y, m y = m' y) -> wr m a d x = wr m' a d x.
Proof. intros H. unfold wr. destruct (_ && _); auto. Qed.

(** Reading a range after a store inside it. *)
Lemma rd_wr_range m a n off d b : set_range (rd m a n) off d = Some b -> rd (wr m (a + off) d) a n = b.
Proof.
  intros H. unfold set_range in H. rewrite rd_zlen in H.
  destruct ((0 <=? off) && (off + zlen d <=? Z.of_nat n)) eqn:E; [|discriminate]. injection H as <-.
  set (i := Z.to_nat off). unfold zlen in *.
  replace n with (i + (length d + (n - i - length d)))%nat at 1 by lia. rewrite !rd_app.
  replace (a + Z.of_nat i) with (a + off) by lia. f_equal.
  - rewrite rd_wr_other by (unfold zlen; lia). replace n with (i + (n - i))%nat by lia. rewrite rd_app.
    rewrite firstn_app, rd_length, Nat.sub_diag, app_nil_r. symmetry. apply firstn_all2. rewrite rd_length. lia.
  - f_equal; [apply rd_wr_same; reflexivity|]. rewrite rd_wr_other by (unfold zlen; lia).
    replace n with ((i + length d) + (n - i - length d))%nat at 2 by lia. rewrite rd_app.
    rewrite skipn_app, rd_length. rewrite skipn_all2 by (rewrite rd_length; lia). cbn [app].
    replace (Z.to_nat (off + Z.of_nat (length d)) - (i + length d))%nat with 0%nat by lia. cbn [skipn].
    f_equal. lia.
Qed.

Lemma get_rd m a n off k b : get_range (rd m a n) off k = Some b -> rd m (a + off) (Z.to_nat k) = b.
Proof.
  intros H. unfold get_range in H. rewrite rd_zlen in H.
  destruct ((0 <=? off) && (0 <=? k) && (off + k <=? Z.of_nat n)) eqn:E; [|discriminate]. injection H as <-.
  replace n with (Z.to_nat off + (Z.to_nat k + (n - Z.to_nat off - Z.to_nat k)))%nat by lia.
  rewrite !rd_app, skipn_app, rd_length. rewrite skipn_all2 by (rewrite rd_length; lia). cbn [app].
  replace (Z.to_nat off - Z.to_nat off)%nat with 0%nat by lia. cbn [skipn].
  rewrite firstn_app, rd_length, Nat.sub_diag, app_nil_r. rewrite firstn_all2 by (rewrite rd_length; lia). f_equal. lia.
Qed.

Lemma wr_comm m a d b e x : a + zlen d <= b \/ b + zlen e <= a -> wr (wr m a d) b e x = wr (wr m b e) a d x.
Proof.
  intros H. unfold wr. destruct ((b <=? x) && (x <? b + zlen e)) eqn:E1, ((a <=? x) && (x <? a + zlen d)) eqn:E2; try reflexivity. lia.
Qed.

(** Two adjacent stores are one. *)
Lemma wr_join m a d b e x : b = a + zlen d -> wr (wr m a d) b e x = wr m a (d ++ e) x.
Proof. intros ->. rewrite wr_app. apply wr_comm. lia. Qed.
