(** Facts about the C types and the placement functions of the 32-bit x86 systems. *)
From Verif Require Import Base Types LayoutSpec BaseFacts NaturalTypes NaturalFacts.
From Verif Require Import I386Model I386Spec.
Local Open Scope Z_scope.
Local Arguments Z.mul : simpl never.
Local Arguments Z.add : simpl never.

Ltac in_cases H := repeat (destruct H as [<-|H]; [|]); [..|contradiction].

Lemma pow2_small : is_pow2 1 /\ is_pow2 2 /\ is_pow2 4 /\ is_pow2 8 /\ is_pow2 16.
Proof.
  repeat split.
  - exists 0; split; [lia|reflexivity].
  - exists 1; split; [lia|reflexivity].
  - exists 2; split; [lia|reflexivity].
  - exists 3; split; [lia|reflexivity].
  - exists 4; split; [lia|reflexivity].
Qed.

Lemma numbers_basic o t : In t (numbers o) -> basic t.
Proof.
  destruct pow2_small as (P1 & P2 & P4 & P8 & P16).
  intros H. destruct o; cbn in H;
    in_cases H; cbn; repeat split; cbn; auto; try lia; first [exists 1; reflexivity|exists 2; reflexivity|exists 3; reflexivity].
Qed.

(** The largest alignment. *)
Definition max_al (o : sys) : Z := match o with Linux => 4 | Win32 => 8 | Darwin => 16 end.

Lemma numbers_align o t : In t (numbers o) -> ty_align t <= max_al o.
Proof. intros H. destruct o; cbn in H; in_cases H; cbn; lia. Qed.

Lemma ctype32_basic o t : ctype32 o t -> basic t.
Proof.
  destruct pow2_small as (P1 & P2 & P4 & P8 & P16).
  induction t as [c s a es IH] using ftype_ind'. intros N.
  inversion N as [|t0 H|t0 H|s0 a0 es0 offs NE F SL]; subst.
  - split; [cbn; lia|]. split; [exact P4|]. split; [cbn; lia|]. exists 1; reflexivity.
  - eapply numbers_basic; eauto.
  - assert (B : basic t0) by (eapply numbers_basic; eauto).
    destruct B as (B1 & B2 & B3 & B4).
    change (0 < 2 * ty_size t0 /\ is_pow2 (ty_align t0) /\ ty_align t0 <= 16 /\ (ty_align t0 | 2 * ty_size t0)).
    split; [lia|]. split; [auto|]. split; [auto|]. apply Z.divide_mul_r; auto.
  - eapply struct_basic; eauto. rewrite Forall_forall in *. auto.
Qed.

Lemma ctype32_align o t : ctype32 o t -> ty_align t <= max_al o.
Proof.
  induction t as [c s a es IH] using ftype_ind'. intros N.
  inversion N as [|t0 H|t0 H|s0 a0 es0 offs NE F SL]; subst.
  - destruct o; cbn; lia.
  - apply numbers_align; auto.
  - cbn [ty_align]. apply numbers_align; auto.
  - cbn [ty_align]. destruct (struct_basic s a es offs NE) as (_ & _ & ->); auto.
    + rewrite Forall_forall in *. intros x X. eapply ctype32_basic; eauto.
    + clear -IH F. induction F as [|t es Ht F IHF]; cbn [map].
      * destruct o; cbn; lia.
      * inversion IH as [|? ? I1 I2]; subst.
        change (max_align (lay t :: map lay es)) with (Z.max (ty_align t) (max_align (map lay es))).
        specialize (I1 Ht). specialize (IHF I2). lia.
Qed.

(** Complex numbers of one or two bytes per part are outside what can be passed. *)
Definition passable (t : ftype) : Prop := ty_code t = T_COMPLEX -> 4 < ty_size t.

Lemma small_one o t : ctype32 o t -> small_int (ty_code t) = true ->
  one_word t = true /\ ty_code t <> T_FLOAT /\ ty_code t <> T_STRUCT /\ ty_code t <> T_COMPLEX /\ (ty_size t = 1 \/ ty_size t = 2 \/ ty_size t = 4).
Proof.
  intros C S. inversion C as [|t0 H|t0 H|s0 a0 es0 offs NE F SL]; subst.
  - cbn. repeat split; try congruence. auto.
  - destruct o; cbn in H; in_cases H; cbn in S |- *; try discriminate S; repeat split; try congruence; auto.
  - discriminate S.
  - discriminate S.
Qed.
Lemma float_one o t : ctype32 o t -> ty_code t = T_FLOAT -> ty_size t = 4 /\ one_word t = true.
Proof.
  intros C S. inversion C as [|t0 H|t0 H|s0 a0 es0 offs NE F SL]; subst.
  - discriminate S.
  - destruct o; cbn in H; in_cases H; cbn in S |- *; try discriminate S; auto.
  - discriminate S.
  - discriminate S.
Qed.
Lemma not_one o t : ctype32 o t -> passable t -> small_int (ty_code t) = false -> ty_code t <> T_FLOAT -> one_word t = false.
Proof.
  intros C P S FL. inversion C as [|t0 H|t0 H|s0 a0 es0 offs NE F SL]; subst.
  - discriminate S.
  - destruct o; cbn in H; in_cases H; cbn in S |- *; try discriminate S; try reflexivity; cbn in FL; congruence.
  - specialize (P eq_refl). unfold one_word. destruct (Z.leb_spec (ty_size (FT T_COMPLEX (2 * ty_size t0) (ty_align t0) [t0])) 4); [lia|reflexivity].
  - unfold one_word. cbn. apply andb_false_r.
Qed.

Lemma arg_align_spec t : arg_align t = on_stack_align t.
Proof. unfold arg_align, on_stack_align. destruct (ty_code t); reflexivity. Qed.
Lemma closes_spec a c : closes_regs a c = stops a c.
Proof. destruct a, c; reflexivity. Qed.
Lemma params_spec a : param_regs a = reg_params a.
Proof. destruct a; reflexivity. Qed.
Lemma down_spec a : down a = last_lowest a.
Proof. destruct a; reflexivity. Qed.
Lemma osa_cases t : on_stack_align t = 4 \/ (on_stack_align t = 16 /\ 16 <= ty_align t).
Proof. unfold on_stack_align. destruct (ty_code t); auto. destruct (Z.leb_spec 16 (ty_align t)); auto. Qed.
Lemma osa_pow t : is_pow2 (on_stack_align t).
Proof. destruct pow2_small as (P1 & P2 & P4 & P8 & P16). destruct (osa_cases t) as [->|[-> _]]; auto. Qed.

Lemma words_size t : ty_size t <= words t < ty_size t + 4 /\ (4 | words t).
Proof.
  unfold words. pose proof (round_up_le (ty_size t) 4 ltac:(lia)). pose proof (round_up_lt (ty_size t) 4 ltac:(lia)).
  split; [lia|apply round_up_divide].
Qed.
Lemma words_small o t : ctype32 o t -> one_word t = true -> words t = 4.
Proof.
  intros C W. apply ctype32_basic in C. destruct C as (Sz & _). unfold one_word in W.
  symmetry. apply round_up_unique; [lia|exists 1; reflexivity|]. lia.
Qed.

(** ** The registers left *)

Definition left (a : abi) (n : Z) : list Z := skipn (Z.to_nat n) (reg_params a).
Lemma left_znth a n : 0 <= n -> znth (param_regs a) n = match left a n with k :: _ => Some k | [] => None end.
Proof.
  intros N. unfold znth, left. rewrite params_spec. replace (0 <=? n) with true by lia.
  generalize (reg_params a). induction (Z.to_nat n) as [|m IH]; intros l; destruct l as [|x l]; cbn; auto.
Qed.
Lemma left_next a n k r : 0 <= n -> left a n = k :: r -> left a (n + 1) = r.
Proof.
  intros N. unfold left. replace (Z.to_nat (n + 1)) with (S (Z.to_nat n)) by lia.
  generalize (reg_params a). induction (Z.to_nat n) as [|m IH]; intros l; destruct l as [|x l]; cbn [skipn]; try discriminate.
  - intros H; injection H as -> ->. reflexivity.
  - intros H. apply IH in H. destruct l; auto.
Qed.
Lemma left_stop a n c : stops a c = true -> left a (if closes_regs a c then 2 else n) = [].
Proof. intros S. replace (closes_regs a c) with true by (rewrite <- S; symmetry; apply closes_spec). destruct a; cbn in *; try discriminate; reflexivity. Qed.
Lemma left_close a n c : left a (if closes_regs a c then 2 else n) = if stops a c then [] else left a n.
Proof.
  destruct (stops a c) eqn:S; [apply left_stop; auto|]. replace (closes_regs a c) with false by (rewrite <- S; symmetry; apply closes_spec). reflexivity.
Qed.
Lemma left_range a n r : In r (left a n) -> 0 <= r <= 2.
Proof.
  intros H. assert (I : In r (reg_params a)).
  { revert H. unfold left. generalize (reg_params a). induction (Z.to_nat n) as [|m IH]; intros l H; [exact H|].
    destruct l; cbn in H; [contradiction|]. right; auto. }
  destruct a; cbn in I; intuition lia.
Qed.
Lemma left_nodup a n : NoDup (left a n).
Proof.
  assert (N : NoDup (reg_params a)) by (destruct a; repeat constructor; cbn; intuition lia).
  revert N. unfold left. generalize (reg_params a). induction (Z.to_nat n) as [|m IH]; intros l N; [exact N|].
  destruct l; cbn; [constructor|]. inversion N; auto.
Qed.

(** ** The stack area *)

Lemma osa_divide off t : (4 | round_up off (on_stack_align t)).
Proof.
  eapply Z.divide_trans; [|apply round_up_divide].
  destruct (osa_cases t) as [->|[-> _]]; [exists 1|exists 4]; reflexivity.
Qed.
Lemma osa_le off t : off <= round_up off (on_stack_align t).
Proof. apply round_up_le. pose proof (is_pow2_pos _ (osa_pow t)). lia. Qed.

Lemma up_mono o a ts : Forall (ctype32 o) ts -> forall regs off, off <= snd (assign_up a regs off ts).
Proof.
  induction 1 as [|t ts C F IH]; intros regs off; cbn [assign_up]; [cbn; lia|].
  apply ctype32_basic in C. destruct C as (Sz & _). pose proof (words_size t) as [W _]. pose proof (osa_le off t).
  destruct (small_int (ty_code t)), regs as [|k regs'];
    repeat match goal with |- context [assign_up a ?r ?p ts] => pose proof (IH r p); destruct (assign_up a r p ts) as [l e] end;
    cbn [snd] in *; lia.
Qed.
Lemma down_nonneg o a ts : Forall (ctype32 o) ts -> forall regs, 0 <= snd (assign_down a regs ts).
Proof.
  induction 1 as [|t ts C F IH]; intros regs; cbn [assign_down]; [cbn; lia|].
  apply ctype32_basic in C. destruct C as (Sz & _). pose proof (words_size t) as [W _].
  destruct (small_int (ty_code t)), regs as [|k regs'];
    repeat match goal with |- context [assign_down a ?r ts] => pose proof (IH r); destruct (assign_down a r ts) as [l e] end;
    cbn [snd] in *; lia.
Qed.

Lemma total_nonneg o ts : Forall (ctype32 o) ts -> 0 <= total ts.
Proof. induction 1 as [|t ts C F IH]; cbn [total]; [lia|]. apply ctype32_basic in C. destruct C as (Sz & _). lia. Qed.

(** One step of arg_space. *)
Lemma space_step o a t bytes : ctype32 o t -> 0 <= bytes -> (4 | bytes) -> bytes + ty_size t + 20 < 2 ^ 31 ->
  exists p, ffi_align_w 32 bytes (match o, a with Win32, STDCALL => 4 | _, _ => ty_align t end) = p /\
    ffi_align_w 32 (ty_size t) 4 = words t /\
    wrap32 (p + words t) = p + words t /\
    round_up bytes (on_stack_align t) <= p < bytes + 16 /\ (4 | p).
Proof.
  intros C B D T. destruct pow2_small as (P1 & P2 & P4 & P8 & P16).
  pose proof (ctype32_align _ _ C) as AL. pose proof (ctype32_basic _ _ C) as (Sz & PA & A16 & DV).
  set (al := match o, a with Win32, STDCALL => 4 | _, _ => ty_align t end).
  assert (PAL : is_pow2 al) by (subst al; destruct o, a; auto).
  assert (L16 : al <= 16) by (subst al; destruct o, a; lia).
  pose proof (is_pow2_pos _ PAL) as POS.
  pose proof (round_up_le bytes al ltac:(lia)). pose proof (round_up_lt bytes al ltac:(lia)).
  rewrite (ffi_align_w_round 32 bytes al) by (auto; try lia; change (2 ^ 32) with 4294967296; change (2 ^ 31) with 2147483648 in T; lia).
  pose proof (words_size t) as [W WD].
  rewrite (ffi_align_w_round 32 (ty_size t) 4) by (auto; try lia; change (2 ^ 32) with 4294967296; change (2 ^ 31) with 2147483648 in T; fold (words t); lia).
  fold (words t). eexists. split; [reflexivity|]. split; [reflexivity|].
  split.
  { unfold wrap32, wrap. apply Z.mod_small. change (2 ^ 32) with 4294967296. change (2 ^ 31) with 2147483648 in T. lia. }
  split; [split; [|lia]|].
  - destruct (osa_cases t) as [->|[-> G]].
    + rewrite (round_up_id bytes 4) by (auto; lia). lia.
    + assert (E : al = 16) by (subst al; destruct o, a; cbn in AL; lia). rewrite E. lia.
  - destruct (Z.le_gt_cases al 4) as [LE|GT].
    + destruct (Z.eq_dec (round_up bytes al) bytes) as [->|NE]; auto. exfalso. apply NE. apply round_up_id; [lia|].
      eapply Z.divide_trans; [|exact D]. apply is_pow2_divide; auto.
    + eapply Z.divide_trans; [|apply round_up_divide]. apply is_pow2_divide; auto. lia.
Qed.

Lemma space_up o a ts : Forall (ctype32 o) ts -> forall regs off bytes, 0 <= off <= bytes -> (4 | off) -> (4 | bytes) ->
  bytes + total ts < 2 ^ 31 ->
  snd (assign_up a regs off ts) <= arg_space o a ts bytes <= bytes + total ts /\ (4 | arg_space o a ts bytes).
Proof.
  induction 1 as [|t ts C F IH]; intros regs off bytes O D DB T; cbn [assign_up arg_space total] in *; [cbn [snd]; split; [lia|auto]|].
  pose proof (total_nonneg _ _ F).
  destruct (space_step o a t bytes C ltac:(lia) DB ltac:(lia)) as (p & -> & -> & -> & R & DP).
  pose proof (words_size t) as [W WD]. pose proof (ctype32_basic _ _ C) as (Sz & _).
  assert (DS : (4 | p + words t)) by (apply Z.divide_add_r; auto).
  assert (M : round_up off (on_stack_align t) <= round_up bytes (on_stack_align t)).
  { apply round_up_mono; [|lia]. pose proof (is_pow2_pos _ (osa_pow t)). lia. }
  pose proof (osa_le off t). pose proof (osa_le bytes t).
  assert (DO : (4 | round_up off (on_stack_align t) + words t)) by (apply Z.divide_add_r; auto using osa_divide).
  assert (G : forall rg, snd (assign_up a rg (round_up off (on_stack_align t) + words t) ts) <= arg_space o a ts (p + words t) <= bytes + (ty_size t + 20 + total ts) /\ (4 | arg_space o a ts (p + words t))).
  { intros rg. destruct (IH rg (round_up off (on_stack_align t) + words t) (p + words t)) as (A & B); auto; try lia. split; [lia|auto]. }
  destruct (small_int (ty_code t)), regs as [|k regs'].
  - specialize (G (if stops a (ty_code t) then [] else [])). destruct (assign_up a _ _ ts) as [l e]. exact G.
  - destruct (IH regs' off (p + words t)) as (A & B); auto; try lia. destruct (assign_up a regs' off ts) as [l e]. cbn [snd] in *. split; [lia|auto].
  - specialize (G (if stops a (ty_code t) then [] else [])). destruct (assign_up a _ _ ts) as [l e]. exact G.
  - specialize (G (if stops a (ty_code t) then [] else k :: regs')). destruct (assign_up a _ _ ts) as [l e]. exact G.
Qed.

Lemma space_down o a ts : Forall (ctype32 o) ts -> forall regs bytes, 0 <= bytes -> (4 | bytes) ->
  bytes + total ts < 2 ^ 31 ->
  bytes + snd (assign_down a regs ts) <= arg_space o a ts bytes <= bytes + total ts /\ (4 | arg_space o a ts bytes).
Proof.
  induction 1 as [|t ts C F IH]; intros regs bytes O DB T; cbn [assign_down arg_space total] in *; [cbn [snd]; split; [lia|auto]|].
  pose proof (total_nonneg _ _ F).
  destruct (space_step o a t bytes C ltac:(lia) DB ltac:(lia)) as (p & -> & -> & -> & R & DP).
  pose proof (words_size t) as [W WD]. pose proof (ctype32_basic _ _ C) as (Sz & _).
  assert (DS : (4 | p + words t)) by (apply Z.divide_add_r; auto).
  pose proof (osa_le bytes t).
  assert (G : forall rg, bytes + (snd (assign_down a rg ts) + words t) <= arg_space o a ts (p + words t) <= bytes + (ty_size t + 20 + total ts) /\ (4 | arg_space o a ts (p + words t))).
  { intros rg. destruct (IH rg (p + words t)) as (A & B); auto; try lia. split; [lia|auto]. }
  destruct (small_int (ty_code t)), regs as [|k regs'];
    match goal with |- context [assign_down a ?r ts] => specialize (G r); destruct (assign_down a r ts) as [l e] end;
    cbn [snd] in *; (split; [lia|tauto]).
Qed.

(** ** Results *)

Lemma flags_memory o a rt f : (ctype32 o rt \/ ty_code rt = T_VOID) -> ret_flags o a rt = Some f ->
  struct_ret f = in_memory o rt /\ (struct_ret f = true -> f = struct_flags a).
Proof.
  intros [C|V] H.
  - inversion C as [|t0 I|t0 I|s0 a0 es0 offs NE F SL]; subst.
    + cbn in H. injection H as <-. cbn. split; [reflexivity|discriminate].
    + destruct o; cbn in I; in_cases I; cbn in H; injection H as <-; cbn; split; try reflexivity; discriminate.
    + destruct o; cbn in I; in_cases I; cbn in H; injection H as <-; cbn; destruct a; split; try reflexivity; discriminate.
    + unfold ret_flags in H. cbn [ty_code ty_size] in H. unfold in_memory. cbn [ty_code ty_size].
      destruct o; [injection H as <-; destruct a; split; auto|..];
        destruct (s0 =? 1); try (injection H as <-; cbn; split; [reflexivity|discriminate]);
        destruct (s0 =? 2); try (injection H as <-; cbn; split; [reflexivity|discriminate]);
        destruct (s0 =? 4); try (injection H as <-; cbn; split; [reflexivity|discriminate]);
        destruct (s0 =? 8); try (injection H as <-; cbn; split; [reflexivity|discriminate]);
        injection H as <-; destruct a; split; auto.
  - unfold ret_flags, in_memory in *. rewrite V in *. injection H as <-. cbn. split; [reflexivity|discriminate].
Qed.
Lemma flags_some o a rt : (ctype32 o rt \/ ty_code rt = T_VOID) -> exists f, ret_flags o a rt = Some f.
Proof.
  intros [C|V].
  - inversion C as [|t0 I|t0 I|s0 a0 es0 offs NE F SL]; subst.
    + eexists; reflexivity.
    + destruct o; cbn in I; in_cases I; eexists; reflexivity.
    + destruct o; cbn in I; in_cases I; eexists; reflexivity.
    + unfold ret_flags. cbn [ty_code ty_size]. destruct o; [eauto|..];
        destruct (s0 =? 1), (s0 =? 2), (s0 =? 4), (s0 =? 8); eauto.
  - unfold ret_flags. rewrite V. eauto.
Qed.
Lemma call_flags_struct c rv : struct_ret (call_flags c rv) = struct_ret (k_flags c) /\ (struct_ret (k_flags c) = true -> call_flags c rv = k_flags c).
Proof. unfold call_flags. destruct rv; [auto|]. destruct (k_flags c); cbn; (split; [reflexivity|congruence]). Qed.
