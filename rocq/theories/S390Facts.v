(** Facts about big-endian words and the C types of the s390x target. *)
From Coq Require Import ZifyBool ZifyNat.
From Verif Require Import Base BaseFacts Types LayoutSpec NaturalTypes NaturalFacts ByteMem S390Model S390Spec.
Local Open Scope Z_scope.
Local Arguments Z.mul : simpl never.
Local Arguments Z.add : simpl never.
Local Arguments Z.sub : simpl never.
Local Arguments Z.pow : simpl never.
Local Arguments Z.div : simpl never.
Local Arguments Z.modulo : simpl never.
Local Arguments Z.of_nat : simpl never.

Lemma be_enc_length n x : length (be_enc n x) = n.
Proof. unfold be_enc. rewrite rev_length. apply le_enc_length. Qed.
Lemma be_enc_zlen n x : zlen (be_enc n x) = Z.of_nat n.
Proof. unfold zlen. rewrite be_enc_length. reflexivity. Qed.
Lemma be_dec_enc n x : be_dec (be_enc n x) = x mod 2 ^ (8 * Z.of_nat n).
Proof. unfold be_dec, be_enc. rewrite rev_involutive. apply le_dec_enc. Qed.
Lemma bytes_ok_rev l : bytes_ok l -> bytes_ok (rev l).
Proof. unfold bytes_ok. rewrite !Forall_forall. intros H x Hx. apply H, in_rev. exact Hx. Qed.
Lemma be_dec_bound l : bytes_ok l -> 0 <= be_dec l < 2 ^ (8 * zlen l).
Proof. intros H. unfold be_dec. replace (zlen l) with (zlen (rev l)) by (unfold zlen; rewrite rev_length; reflexivity). apply le_dec_bound, bytes_ok_rev, H. Qed.
Lemma be_enc_dec l : bytes_ok l -> be_enc (length l) (be_dec l) = l.
Proof.
  intros H. unfold be_enc, be_dec. rewrite <- (rev_length l), le_enc_dec by (apply bytes_ok_rev, H). apply rev_involutive.
Qed.
Lemma be_enc_ok n x : bytes_ok (be_enc n x).
Proof. apply bytes_ok_rev, le_enc_ok. Qed.
Lemma be_enc_mod n x : be_enc n (x mod 2 ^ (8 * Z.of_nat n)) = be_enc n x.
Proof. unfold be_enc. rewrite le_enc_mod. reflexivity. Qed.

Lemma value_dec l : value l = be_dec l.
Proof.
  induction l as [|b l IH]; [reflexivity|]. cbn [value]. rewrite IH. unfold be_dec. cbn [rev]. rewrite le_dec_app. cbn [le_dec].
  replace (zlen (rev l)) with (zlen l) by (unfold zlen; rewrite rev_length; reflexivity). lia.
Qed.

Lemma seq_rd M p n : map (fun k => M (p + Z.of_nat k)) (seq 0 n) = rd M p n.
Proof.
  revert p. induction n as [|n IH]; intros p; [reflexivity|]. cbn [seq map rd]. f_equal; [f_equal; lia|].
  rewrite <- seq_shift, map_map, <- (IH (p + 1)). apply map_ext. intros k. f_equal. lia.
Qed.
Lemma bytes_at_rd M p n : bytes_at M p n = rd M p (Z.to_nat n).
Proof. apply seq_rd. Qed.
Lemma word_slot X F M i : word X F M (LS i) = be_dec (rd M (X 15 + 160 + 8 * i) 8).
Proof. cbn [word]. rewrite value_dec, map_map, <- seq_rd. reflexivity. Qed.

Lemma word_all w : word_bytes 0 8 w = be_enc 8 w.
Proof.
  unfold word_bytes, be_enc. cbn [seq map le_enc rev app]. rewrite !Z.div_div by lia.
  repeat (f_equal; try (f_equal; try reflexivity)).
  - change (2 ^ (8 * (7 - Z.of_nat 7))) with 1. rewrite Z.div_1_r. reflexivity.
Qed.
Lemma skipn_seq k : forall n s, skipn k (seq s n) = seq (s + k) (n - k).
Proof.
  induction k as [|k IH]; intros n s; [rewrite Nat.add_0_r, Nat.sub_0_r; reflexivity|].
  destruct n as [|n]; [reflexivity|]. cbn [seq skipn Nat.sub]. rewrite IH. f_equal. lia.
Qed.
Lemma firstn_seq k : forall n s, (k <= n)%nat -> firstn k (seq s n) = seq s k.
Proof.
  induction k as [|k IH]; intros n s H; [reflexivity|]. destruct n as [|n]; [lia|]. cbn [seq firstn]. rewrite IH by lia. reflexivity.
Qed.
Lemma word_part i n w : (i + n <= 8)%nat -> word_bytes i n w = firstn n (skipn i (be_enc 8 w)).
Proof.
  intros H. rewrite <- word_all. unfold word_bytes. rewrite skipn_map, skipn_seq, firstn_map, firstn_seq by lia. reflexivity.
Qed.
Lemma word_low n w : (n <= 8)%nat -> word_bytes (8 - n) n w = be_enc n w.
Proof.
  intros H. rewrite word_part by lia. unfold be_enc. rewrite skipn_rev, le_enc_length.
  replace (8 - (8 - n))%nat with n by lia. rewrite le_enc_firstn by lia. rewrite firstn_all2; [reflexivity|].
  rewrite rev_length, le_enc_length. lia.
Qed.
Lemma firstn_rev' {A} n (l : list A) : firstn n (rev l) = rev (skipn (length l - n) l).
Proof. apply firstn_rev. Qed.
Lemma word_high w : word_bytes 0 4 w = be_enc 4 (w / 2 ^ 32).
Proof.
  rewrite word_part by lia. cbn [skipn]. unfold be_enc. rewrite firstn_rev, le_enc_length. change (8 - 4)%nat with 4%nat.
  change 8%nat with (4 + 4)%nat at 1. rewrite le_enc_add, skipn_app, le_enc_length.
  rewrite skipn_all2 by (rewrite le_enc_length; lia). reflexivity.
Qed.

(** ** Types *)

Lemma number_basic t : In t numbers -> basic t /\ ty_size t <= 16 /\ In (ty_size t) [1; 2; 4; 8; 16].
Proof.
  intros H. cbn in H. repeat destruct H as [<-|H]; try contradiction; (split; [|cbn; split; [lia|tauto]]);
    (split; [cbn; lia|]; split; [|split; [cbn; lia|cbn; apply Z.mod_divide; [lia|reflexivity]]]).
  all: cbn; first [exists 0; split; [lia|reflexivity]|exists 1; split; [lia|reflexivity]|exists 2; split; [lia|reflexivity]|exists 3; split; [lia|reflexivity]].
Qed.

Lemma ctype_basic t : ctype t -> basic t.
Proof.
  induction t as [c s a es IH] using ftype_ind'. intros N.
  inversion N as [|t0 H|t0 H|s0 a0 es0 offs NE F SL]; subst.
  - split; [cbn; lia|]. split; [exists 3; split; [lia|reflexivity]|]. split; [cbn; lia|]. exists 1; reflexivity.
  - eapply number_basic; eauto.
  - destruct (number_basic t0 H) as ((B1 & B2 & B3 & B4) & _).
    change (0 < 2 * ty_size t0 /\ is_pow2 (ty_align t0) /\ ty_align t0 <= 16 /\ (ty_align t0 | 2 * ty_size t0)).
    split; [lia|]. split; [auto|]. split; [auto|]. apply Z.divide_mul_r; auto.
  - eapply struct_basic; eauto. rewrite Forall_forall in *. auto.
Qed.
Lemma ctype_size t : ctype t -> 0 < ty_size t.
Proof. intros H. apply (ctype_basic t H). Qed.

Lemma floating_facts t : ctype t -> floating t = true ->
  (ty_size t = 4 /\ ty_align t = 4 /\ ty_code (innermost t) = T_FLOAT) \/
  (ty_size t = 8 /\ ty_align t = 8 /\ ty_code (innermost t) = T_DOUBLE).
Proof.
  induction t as [c s a es IH] using ftype_ind'. intros N F.
  inversion N as [|t0 H|t0 H|s0 a0 es0 offs NE FA SL]; subst; try discriminate F.
  - cbn in H. repeat destruct H as [H|H]; try contradiction; injection H as <- <- <- <-; try discriminate F; cbn; auto.
  - destruct es as [|e [|e2 es]]; try discriminate F. cbn [floating] in F.
    inversion IH as [|? ? IHe _]; subst. inversion FA as [|? ? Ce _]; subst.
    cbn [innermost].
    assert (B : Forall basic [e]) by (constructor; [apply ctype_basic, Ce|constructor]).
    destruct (struct_basic s a [e] offs NE B SL) as (_ & Es & Ea). cbn [map lay max_align fold_right snd end_at] in *.
    cbn [ty_size ty_align].
    destruct (IHe Ce F) as [(E1 & E2 & E3)|(E1 & E2 & E3)]; rewrite E1, E2, ?E3 in *;
      [left|right]; subst a s; split; auto.
Qed.
Lemma not_floating t : floating t = false -> ty_code (innermost t) <> T_FLOAT /\ ty_code (innermost t) <> T_DOUBLE.
Proof.
  induction t as [c s a es IH] using ftype_ind'. intros F. destruct c; try discriminate F; try (split; discriminate).
  destruct es as [|e [|e2 es]]; try (split; discriminate). cbn [floating innermost] in *. inversion IH; subst. auto.
Qed.
Lemma floating_ref t : ctype t -> floating t = true -> by_ref t = false.
Proof.
  intros C F. destruct (floating_facts t C F) as [(E & _)|(E & _)]; unfold by_ref; rewrite E;
    destruct t as [c s a es]; destruct c; try discriminate F; reflexivity.
Qed.

(** The code of an argument as passed. *)
Lemma check_cases t : ctype t -> ty_code t = T_STRUCT ->
  (by_ref t = true /\ floating t = false /\ check_struct t = T_POINTER) \/
  (by_ref t = false /\ floating t = true /\ ((check_struct t = T_FLOAT /\ ty_size t = 4) \/ (check_struct t = T_DOUBLE /\ ty_size t = 8))) \/
  (by_ref t = false /\ floating t = false /\
   ((check_struct t = T_UINT8 /\ ty_size t = 1) \/ (check_struct t = T_UINT16 /\ ty_size t = 2) \/
    (check_struct t = T_UINT32 /\ ty_size t = 4) \/ (check_struct t = T_UINT64 /\ ty_size t = 8))).
Proof.
  intros C S. destruct (floating t) eqn:F.
  - right; left. split; [apply floating_ref; auto|]. split; [reflexivity|].
    unfold check_struct. destruct (floating_facts t C F) as [(E & _ & K)|(E & _ & K)]; rewrite E, K; auto.
  - destruct (not_floating t F) as (N1 & N2). unfold by_ref, check_struct. rewrite S. cbn [existsb].
    destruct (ty_size t =? 1) eqn:E1; [right; right; cbn; split; [reflexivity|]; split; [reflexivity|]; left; split; [reflexivity|lia]|].
    destruct (ty_size t =? 2) eqn:E2; [right; right; cbn; split; [reflexivity|]; split; [reflexivity|]; right; left; split; [reflexivity|lia]|].
    destruct (ty_size t =? 4) eqn:E4.
    { right; right; cbn; split; [reflexivity|]; split; [reflexivity|]; right; right; left. split; [|lia]. destruct (ty_code (innermost t)); congruence. }
    destruct (ty_size t =? 8) eqn:E8.
    { right; right; cbn; split; [reflexivity|]; split; [reflexivity|]; right; right; right. split; [|lia]. destruct (ty_code (innermost t)); congruence. }
    left. auto.
Qed.

(** ** Words for arguments *)

Lemma is_value_rd t v m a : ctype t -> is_value t v -> rd m a (Z.to_nat (ty_size t)) = v -> length v = Z.to_nat (ty_size t) /\ bytes_ok v.
Proof. intros C (L & B) E. split; [rewrite <- E; apply rd_length|exact B]. Qed.

Lemma to_signed_value n x : 0 < n -> 0 <= x < 2 ^ n -> to_signed n x = if x <? 2 ^ (n - 1) then x else x - 2 ^ n.
Proof. intros N H. unfold to_signed. rewrite Z.mod_small by lia. reflexivity. Qed.

Lemma sx_ext c s a v : In (FT c s a []) int_types -> length v = Z.to_nat s -> bytes_ok v ->
  match c with T_SINT8 | T_SINT16 | T_SINT32 | T_SINT64 => wrap64 (to_signed (8 * s) (be_dec v)) | _ => wrap64 (be_dec v) end mod 2 ^ 64
  = extended (FT c s a []) v mod 2 ^ 64.
Proof.
  intros H L B. pose proof (be_dec_bound v B) as Bd. unfold extended. cbn [ty_code ty_size]. rewrite !value_dec.
  unfold wrap64, wrap. unfold zlen in Bd. rewrite L in Bd.
  cbn in H. repeat destruct H as [H|H]; try contradiction; injection H as <- <- <-; rewrite ?Zmod_mod; try reflexivity;
    rewrite to_signed_value; try lia; try reflexivity; exact Bd.
Qed.

Lemma wr_bytes m a d : bytes_in m -> bytes_ok d -> bytes_in (wr m a d).
Proof.
  intros B D x. destruct (Z_le_dec a x) as [L|L]; [destruct (Z_lt_dec x (a + zlen d)) as [L2|L2]|].
  - rewrite wr_in by lia. unfold bytes_ok in D. rewrite Forall_forall in D. apply D, nth_In. unfold zlen in *. lia.
  - rewrite wr_out by lia. apply B.
  - rewrite wr_out by lia. apply B.
Qed.
Lemma rd_bytes m : bytes_in m -> forall n a, bytes_ok (rd m a n).
Proof. intros B n a. unfold bytes_ok. apply Forall_forall. intros x Hx. apply (In_nth _ _ 0) in Hx. destruct Hx as (k & Hk & <-). rewrite rd_length in Hk. rewrite rd_nth by lia. apply B. Qed.
