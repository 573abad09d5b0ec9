(** i386 results and the bytes closures pop. *)
From Verif Require Import Base Types LayoutSpec BaseFacts NaturalTypes NaturalFacts.
From Verif Require Import X87Model X87Facts I386Model I386Spec I386RetSpec I386Facts I386Call I386CallOk I386Closure.
Local Open Scope Z_scope.
Local Arguments Z.mul : simpl never.
Local Arguments Z.add : simpl never.
Local Arguments Z.sub : simpl never.

(** ** Popping *)

(** Types that need no alignment on the stack and do not close the registers. *)
Definition flat (o : sys) (a : abi) (t : ftype) : Prop :=
  (ty_align t <= 4 \/ (o = Win32 /\ a = STDCALL)) /\ stops a (ty_code t) = false.

Lemma flat_space o a ts : down a = false -> Forall (ctype32 o) ts -> Forall passable ts -> Forall (flat o a) ts ->
  forall n off bytes argp, 0 <= n -> 0 <= off -> (4 | off) -> 0 <= bytes -> (4 | bytes) -> bytes + total ts < 2 ^ 31 ->
  arg_space o a ts bytes - 4 * snd (take_args a ts argp n) = bytes - 4 * n + (snd (assign_up a (left a n) off ts) - off).
Proof.
  intros DN CT PS FL. revert PS FL. induction CT as [|t ts C CT IH]; intros PS FL n off bytes argp N O DO B DB T; cbn [arg_space take_args assign_up total] in *.
  - cbn [snd]. lia.
  - inversion PS as [|? ? PT PS']; subst. inversion FL as [|? ? [AL NST] FL']; subst.
    pose proof (total_nonneg _ _ CT) as TN.
    destruct pow2_small as (P1 & P2 & P4 & P8 & P16).
    pose proof (ctype32_align _ _ C) as MA. pose proof (ctype32_basic _ _ C) as (Sz & PA & A16 & DV).
    pose proof (words_size t) as [W WD].
    set (al := match o, a with Win32, STDCALL => 4 | _, _ => ty_align t end).
    assert (AE : ffi_align_w 32 bytes al = bytes).
    { assert (is_pow2 al /\ al <= 4) as [PL L4].
      { subst al. destruct AL as [AL|[-> ->]]; [destruct o, a; auto; split; auto; lia|split; auto; lia]. }
      pose proof (is_pow2_pos _ PL). rewrite ffi_align_w_round; auto; try lia.
      - apply round_up_id; [lia|]. eapply Z.divide_trans; [|exact DB]. apply is_pow2_divide; auto.
      - rewrite round_up_id; [|lia|eapply Z.divide_trans; [|exact DB]; apply is_pow2_divide; auto]. change (2 ^ 31) with 2147483648 in T. change (2 ^ 32) with 4294967296. lia. }
    assert (WW : ffi_align_w 32 (ty_size t) 4 = words t).
    { apply ffi_align_w_round; auto; try lia. fold (words t). change (2 ^ 31) with 2147483648 in T. change (2 ^ 32) with 4294967296. lia. }
    fold al. rewrite AE, WW.
    assert (WR : wrap32 (bytes + words t) = bytes + words t).
    { unfold wrap32, wrap. apply Z.mod_small. change (2 ^ 31) with 2147483648 in T. change (2 ^ 32) with 4294967296. lia. }
    rewrite WR. assert (DB' : (4 | bytes + words t)) by (apply Z.divide_add_r; auto).
    assert (OA : on_stack_align t = 4).
    { destruct (osa_cases t) as [E|[E L]]; auto. destruct AL as [AL|[-> ->]]; [lia|cbn in MA; lia]. }
    rewrite OA, (round_up_id off 4) by (auto; lia). rewrite NST.
    assert (DO' : (4 | off + words t)) by (apply Z.divide_add_r; auto).
    unfold take_arg. rewrite DN.
    assert (CL : closes_regs a (ty_code t) = false) by (rewrite <- NST; apply closes_spec). rewrite CL, WW.
    assert (T' : bytes + words t + total ts < 2 ^ 31) by lia.
    destruct (small_int (ty_code t)) eqn:S.
    + destruct (small_one o t C S) as (O1 & NF & NS & _ & SZ). rewrite O1. pose proof (words_small o t C O1) as W4.
      replace (tcode_eqb (ty_code t) T_FLOAT) with false by (destruct (ty_code t); try reflexivity; congruence).
      rewrite left_znth by lia. destruct (left a n) as [|k regs0] eqn:LF.
      * specialize (IH PS' FL' n (off + words t) (bytes + words t) (argp + 4) N ltac:(lia) DO' ltac:(lia) DB' T'). rewrite LF in IH.
        destruct (take_args a ts (argp + 4) n). destruct (assign_up a [] (off + words t) ts). cbn [snd] in *. lia.
      * pose proof (left_next a n k regs0 N LF) as LN.
        specialize (IH PS' FL' (n + 1) off (bytes + words t) argp ltac:(lia) O DO ltac:(lia) DB' T'). rewrite LN in IH.
        destruct (take_args a ts argp (n + 1)). destruct (assign_up a regs0 off ts). cbn [snd] in *. lia.
    + assert (G : forall p, arg_space o a ts (bytes + words t) - 4 * snd (take_args a ts p n) = bytes - 4 * n + (snd (assign_up a (left a n) (off + words t) ts) - off)).
      { intros p. specialize (IH PS' FL' n (off + words t) (bytes + words t) p N ltac:(lia) DO' ltac:(lia) DB' T'). lia. }
      assert (AS : snd (match left a n with [] => let '(l, e) := assign_up a (left a n) (off + words t) ts in (Stk off :: l, e) | _ :: _ => let '(l, e) := assign_up a (left a n) (off + words t) ts in (Stk off :: l, e) end) = snd (assign_up a (left a n) (off + words t) ts)).
      { destruct (left a n), (assign_up a _ (off + words t) ts); reflexivity. }
      destruct (one_word t) eqn:O1.
      * assert (FLT : ty_code t = T_FLOAT) by (eapply is_float; eauto). rewrite FLT.
        change (tcode_eqb T_FLOAT T_FLOAT) with true. cbn iota.
        specialize (G (argp + 4)). destruct (take_args a ts (argp + 4) n). destruct (left a n), (assign_up a _ (off + words t) ts); cbn [snd] in *; lia.
      * specialize (G (ffi_align_w 32 argp (arg_align t) + words t)).
        destruct (take_args a ts (ffi_align_w 32 argp (arg_align t) + words t) n). destruct (left a n), (assign_up a _ (off + words t) ts); cbn [snd] in *; lia.
Qed.

Lemma take_narg_nonneg a ts : forall argp n, 0 <= n -> 0 <= snd (take_args a ts argp n).
Proof.
  induction ts as [|t ts IH]; intros argp n N; cbn [take_args]; [exact N|].
  unfold take_arg. destruct (one_word t).
  - destruct (if tcode_eqb (ty_code t) T_FLOAT then None else znth (param_regs a) n); [|destruct (down a)];
      match goal with |- context [take_args a ts ?p ?m] => specialize (IH p m ltac:(lia)); destruct (take_args a ts p m) end; exact IH.
  - destruct (down a); match goal with |- context [take_args a ts ?p ?m] => specialize (IH p m ltac:(destruct (closes_regs a (ty_code t)); lia)); destruct (take_args a ts p m) end; exact IH.
Qed.

(** The count equals the bytes of stack arguments. *)
Lemma pop_ok o a rt ts c regs sp rd vs n p : (a = STDCALL \/ a = THISCALL \/ a = FASTCALL) ->
  Forall (ctype32 o) ts -> Forall passable ts -> (ctype32 o rt \/ ty_code rt = T_VOID) -> Forall (flat o a) ts -> total ts < 2 ^ 27 ->
  prep o a rt ts = Some c -> closure_args c regs sp rd = Ok (vs, n, p) ->
  pop_count c n = stack_used o a rt ts.
Proof.
  intros A CT PS RT FL TB PR CA.
  assert (LL : last_lowest a = false) by (destruct A as [->|[->| ->]]; reflexivity).
  assert (DN : down a = false) by (rewrite down_spec; auto).
  change (2 ^ 27) with 134217728 in TB.
  destruct (prep_area o a rt ts c CT RT ltac:(change (2 ^ 28) with 268435456; lia) PR) as (KA & KT & KR & IM & FS & KB & KD & _ & _).
  assert (KS : k_bytes c = arg_space o a ts (if in_memory o rt then 4 else 0)).
  { unfold prep in PR. destruct (ret_flags o a rt) as [f|] eqn:RF; [|discriminate]. injection PR as <-. cbn [k_bytes k_flags] in *. rewrite IM. reflexivity. }
  assert (T31 : (if in_memory o rt then 4 else 0) + total ts < 2 ^ 31) by (change (2 ^ 31) with 2147483648; destruct (in_memory o rt); lia).
  assert (USED : k_bytes c - n * 4 = stack_used o a rt ts).
  { unfold closure_args in CA. rewrite KA, KT, DN in CA. rewrite KS. unfold stack_used, assign, hidden. rewrite LL.
    destruct (in_memory o rt) eqn:MEM.
    - rewrite FS in CA by reflexivity. replace (struct_flags a) with R_STRUCTARG in CA by (destruct A as [->|[->| ->]]; reflexivity).
      rewrite params_spec in CA. cbn [app assign_up].
      change (small_int (ty_code ty_ptr)) with true. cbn iota.
      change (stops a (ty_code ty_ptr)) with (stops a T_POINTER). change (on_stack_align ty_ptr) with 4. change (words ty_ptr) with 4.
      change (round_up 0 4) with 0. replace (stops a T_POINTER) with false by (destruct a; reflexivity).
      destruct (reg_params a) as [|k rg] eqn:RP.
      + destruct (of_option (rd sp 4)); try discriminate CA. cbn [bind] in CA.
        pose proof (flat_space o a ts DN CT PS FL 0 4 4 (sp + 4) ltac:(lia) ltac:(lia) ltac:(exists 1; reflexivity) ltac:(lia) ltac:(exists 1; reflexivity) T31) as F.
        rewrite left_0, RP in F. change (0 + 4) with 4.
        destruct (take_args a ts (sp + 4) 0) as [l0 n0]. injection CA as <- <- <-.
        destruct (assign_up a [] 4 ts) as [l1 e1]. cbn [snd] in *. lia.
      + assert (LN : left a 1 = rg) by (change 1 with (0 + 1); apply (left_next a 0 k); [lia|rewrite left_0; exact RP]).
        pose proof (flat_space o a ts DN CT PS FL 1 0 4 sp ltac:(lia) ltac:(lia) ltac:(exists 0; reflexivity) ltac:(lia) ltac:(exists 1; reflexivity) T31) as F.
        rewrite LN in F.
        destruct (take_args a ts sp 1) as [l0 n0]. injection CA as <- <- <-.
        destruct (assign_up a rg 0 ts) as [l1 e1]. cbn [snd] in *. lia.
    - assert (CA' : (let '(l, n0) := take_args a ts sp 0 in Ok (l, n0, RTemp)) = Ok (vs, n, p)).
      { destruct (k_flags c); try exact CA; discriminate IM. }
      pose proof (flat_space o a ts DN CT PS FL 0 0 0 sp ltac:(lia) ltac:(lia) ltac:(exists 0; reflexivity) ltac:(lia) ltac:(exists 0; reflexivity) T31) as F.
      rewrite left_0 in F. cbn [app].
      destruct (take_args a ts sp 0) as [l0 n0]. injection CA' as <- <- <-.
      destruct (assign_up a (reg_params a) 0 ts) as [l1 e1]. cbn [snd] in *. lia. }
  assert (UB : 0 <= stack_used o a rt ts < 2 ^ 28).
  { split.
    - unfold stack_used, assign. rewrite LL. apply (up_mono o a). apply Forall_app; split; auto. unfold hidden; destruct (in_memory o rt); repeat constructor.
    - rewrite <- USED.
      assert (0 <= n).
      { unfold closure_args in CA. rewrite KA, KT, DN in CA.
        repeat match type of CA with
               | context [take_args a ts ?q ?m] => pose proof (take_narg_nonneg a ts q m ltac:(lia)); destruct (take_args a ts q m)
               end.
        cbn [snd] in *.
        destruct (k_flags c), (param_regs a), (of_option (rd sp 4)); cbn [bind] in CA; try discriminate CA; injection CA as <- <- <-; assumption. }
      destruct (space_up o a ts CT [] 0 (if in_memory o rt then 4 else 0) ltac:(destruct (in_memory o rt); lia) ltac:(exists 0; reflexivity) ltac:(destruct (in_memory o rt); [exists 1|exists 0]; reflexivity) T31) as (SU & _).
      rewrite KS. change (2 ^ 28) with 268435456. destruct (in_memory o rt); lia. }
  unfold pop_count. rewrite KA. change (2 ^ 28) with 268435456 in UB. change (2 ^ 29) with 536870912 in KB.
  assert (NS : a = STDCALL -> n = 0).
  { intros ->. unfold closure_args in CA. rewrite KA in CA. change (param_regs STDCALL) with (@nil Z) in CA. change (down STDCALL) with false in CA.
    assert (TZ : forall us q, snd (take_args STDCALL us q 0) = 0).
    { induction us as [|u us IHu]; intros q; cbn [take_args]; [reflexivity|]. unfold take_arg.
      change (znth (param_regs STDCALL) 0) with (@None Z).
      destruct (one_word u), (tcode_eqb (ty_code u) T_FLOAT); change (down STDCALL) with false; cbn [closes_regs];
        match goal with |- context [take_args STDCALL us ?q0 0] => specialize (IHu q0); destruct (take_args STDCALL us q0 0) end; exact IHu. }
    repeat match type of CA with
           | context [take_args STDCALL ?us ?q ?m] => pose proof (TZ us q); destruct (take_args STDCALL us q m)
           end.
    cbn [snd] in *.
    destruct (k_flags c), (of_option (rd sp 4)); cbn [bind] in CA; try discriminate CA; injection CA as <- <- <-; assumption. }
  assert (EV : forall v, 0 <= v < 268435456 -> wrap32 (v * 16) / 16 = v).
  { intros v V. unfold wrap32, wrap. rewrite Z.mod_small by (change (2 ^ 32) with 4294967296; lia). apply Z.div_mul. lia. }
  destruct A as [->|[->| ->]].
  - rewrite (NS eq_refl) in USED. rewrite EV by lia. lia.
  - replace (wrap32 (k_bytes c - n * 4)) with (stack_used o THISCALL rt ts); [apply EV; lia|].
    rewrite USED. symmetry. apply Z.mod_small. change (2 ^ 32) with 4294967296. lia.
  - replace (wrap32 (k_bytes c - n * 4)) with (stack_used o FASTCALL rt ts); [apply EV; lia|].
    rewrite USED. symmetry. apply Z.mod_small. change (2 ^ 32) with 4294967296. lia.
Qed.

Lemma load_pop f (tmp : list Z) edx pop af : load_result f tmp edx pop = Ok af -> r_pop af = pop.
Proof.
  unfold load_result. destruct (get_range tmp 0 4) as [e|]; [|discriminate]. cbn [of_option bind].
  destruct f; try (intros H; injection H as <-; reflexivity);
    match goal with |- context [get_range tmp ?x ?y] => destruct (get_range tmp x y); [|discriminate] end; cbn [of_option bind]; intros H;
    injection H as <-; reflexivity.
Qed.

Lemma closure_pops o a rt ts c regs sp rd vs n p tmp edx af :
  (a = SYSV \/ a = MS_CDECL \/ ((a = STDCALL \/ a = THISCALL \/ a = FASTCALL) /\ Forall (flat o a) ts)) ->
  Forall (ctype32 o) ts -> Forall passable ts -> (ctype32 o rt \/ ty_code rt = T_VOID) -> total ts < 2 ^ 27 ->
  prep o a rt ts = Some c -> closure_args c regs sp rd = Ok (vs, n, p) ->
  closure_ret (plain_entry a) c n tmp edx = Ok af -> r_pop af = pops o a rt ts.
Proof.
  intros A CT PS RT TB PR CA CR. unfold closure_ret in CR. apply load_pop in CR. rewrite CR.
  assert (PL : forall f, k_flags c = f -> struct_ret f = in_memory o rt /\ (struct_ret f = true -> f = struct_flags a)).
  { intros f E. unfold prep in PR. destruct (ret_flags o a rt) as [g|] eqn:RF; [|discriminate]. injection PR as <-. cbn in E. subst g. apply (flags_memory o a rt f RT RF). }
  destruct (PL _ eq_refl) as [P1 P2].
  destruct A as [->|[->|[A FL]]].
  - cbn [plain_entry pops]. unfold plain_pop. rewrite <- P1. destruct (k_flags c); try reflexivity. cbn in P2. discriminate (P2 eq_refl).
  - cbn [plain_entry pops]. unfold plain_pop. destruct (k_flags c); try reflexivity. cbn in P2. discriminate (P2 eq_refl).
  - replace (plain_entry a) with false by (destruct A as [->|[->| ->]]; reflexivity).
    rewrite (pop_ok o a rt ts c regs sp rd vs n p) by auto. destruct A as [->|[->| ->]]; reflexivity.
Qed.

(** Go closures. *)
Lemma go_pops o a rt ts c regs sp rd vs n p tmp edx af pl :
  (a = SYSV \/ a = MS_CDECL \/ (a = STDCALL /\ Forall (flat o a) ts)) ->
  Forall (ctype32 o) ts -> Forall passable ts -> (ctype32 o rt \/ ty_code rt = T_VOID) -> total ts < 2 ^ 27 ->
  prep o a rt ts = Some c -> closure_args c regs sp rd = Ok (vs, n, p) -> go_plain a = Some pl ->
  closure_ret pl c n tmp edx = Ok af -> r_pop af = pops o a rt ts.
Proof.
  intros A CT PS RT TB PR CA GP CR. apply (closure_pops o a rt ts c regs sp rd vs n p tmp edx af); auto.
  - destruct A as [->|[->|[-> F]]]; auto.
  - replace (plain_entry a) with pl; [exact CR|]. destruct A as [->|[->|[-> _]]]; cbn in GP; injection GP as <-; reflexivity.
Qed.

(** ** Results *)

Lemma put_ok (buf x : list Z) : zlen x <= zlen buf -> exists b, set_range buf 0 x = Some b /\ zlen b = zlen buf /\ get_range b 0 (zlen x) = Some x /\
  forall q n, zlen x <= q -> get_range b q n = get_range buf q n.
Proof.
  intros L. destruct (set_range_ok buf 0 x ltac:(lia) ltac:(lia)) as (b & S & Z). exists b. split; [exact S|]. split; [exact Z|].
  split; [eapply get_set_same; eauto|]. intros q n Q. apply (get_set_disjoint _ _ _ _ q n S). lia.
Qed.

Lemma le_dec_low k x : (k <= 4)%nat -> le_dec (firstn k (le_enc 4 x)) = x mod 2 ^ (8 * Z.of_nat k).
Proof. intros K. rewrite le_enc_firstn by exact K. apply le_dec_enc. Qed.
Lemma mod_low x k n : 0 <= k <= n -> (x mod 2 ^ n) mod 2 ^ k = x mod 2 ^ k.
Proof.
  intros K. symmetry. apply Znumtheory.Zmod_div_mod; try (apply Z.pow_pos_nonneg; lia).
  exists (2 ^ (n - k)). rewrite <- Z.pow_add_r by lia. f_equal. lia.
Qed.
Lemma to_signed_low n x : 0 < n -> to_signed n (x mod 2 ^ n) = to_signed n x.
Proof. intros N. unfold to_signed. rewrite Z.mod_mod by (apply Z.pow_nonzero; lia). reflexivity. Qed.

(** Integers of [k] bytes, widened. *)
Lemma widen (k : nat) eax c d : (k = 1 \/ k = 2 \/ k = 4)%nat -> firstn k (le_enc 4 eax) = d ->
  ((signed c = true /\ k <> 4%nat) \/ signed c = false) ->
  zlen d = Z.of_nat k /\
  word_value c d = (if signed c then to_signed (8 * Z.of_nat k) eax mod 2 ^ 32 else eax mod 2 ^ (8 * Z.of_nat k)) /\
  get_range (le_enc 4 (word_value c d)) 0 (Z.of_nat k) = Some d.
Proof.
  intros K E SG. rewrite le_enc_firstn in E by lia. subst d. rewrite le_enc_zlen. split; [reflexivity|].
  assert (WV : word_value c (le_enc k eax) = (if signed c then to_signed (8 * Z.of_nat k) eax mod 2 ^ 32 else eax mod 2 ^ (8 * Z.of_nat k))).
  { unfold word_value. rewrite le_enc_zlen, le_dec_enc. destruct SG as [[-> NK]| ->].
    - rewrite to_signed_low by lia. reflexivity.
    - apply Z.mod_small. pose proof (Z.mod_pos_bound eax (2 ^ (8 * Z.of_nat k)) ltac:(apply Z.pow_pos_nonneg; lia)).
      assert (2 ^ (8 * Z.of_nat k) <= 2 ^ 32) by (apply Z.pow_le_mono_r; lia). lia. }
  split; [exact WV|]. rewrite WV. rewrite get_range_some by (rewrite ?le_enc_zlen; lia). f_equal. rewrite Nat2Z.id. cbn [Z.to_nat skipn].
  rewrite le_enc_firstn by lia. rewrite <- (le_enc_mod k eax).
  rewrite <- (le_enc_mod k (if signed c then _ else _)). f_equal.
  destruct (signed c).
  - rewrite mod_low by lia. apply to_signed_mod. lia.
  - apply Z.mod_mod. apply Z.pow_nonzero; lia.
Qed.

Definition x87_struct (o : sys) (t : ftype) : Prop := ty_code t = T_STRUCT -> in_x87 o t = None.

Lemma res_int f c (k : nat) eax edx st0 buf d : (k = 1 \/ k = 2 \/ k = 4)%nat -> small_int c = true ->
  firstn k (le_enc 4 eax) = d -> ((signed c = true /\ k <> 4%nat) \/ signed c = false) -> 4 <= zlen buf ->
  call_ret f eax edx st0 buf = of_option (set_range buf 0 (le_enc 4 (if signed c then to_signed (8 * Z.of_nat k) eax mod 2 ^ 32 else eax mod 2 ^ (8 * Z.of_nat k)))) ->
  exists b, call_ret f eax edx st0 buf = Ok b /\ zlen b = zlen buf /\ get_range b 0 (zlen d) = Some d /\ get_range b 0 4 = Some (le_enc 4 (word_value c d)) /\
    forall q n, 4 <= q -> get_range b q n = get_range buf q n.
Proof.
  intros K SI E SG Z CR. destruct (widen k eax c d K E SG) as (ZD & WV & GD). rewrite <- WV in CR.
  destruct (put_ok buf (le_enc 4 (word_value c d)) ltac:(rewrite le_enc_zlen; lia)) as (b & S & ZB & G & F).
  rewrite le_enc_zlen in G, F. change (Z.of_nat 4) with 4 in G, F.
  exists b. rewrite CR, S. split; [reflexivity|]. split; [exact ZB|]. split; [|auto].
  rewrite ZD, <- GD. replace 0 with (0 + 0) at 1 by lia. apply (get_range_sub _ _ 4 _ 0 (Z.of_nat k) G); lia.
Qed.

Lemma res_bytes f eax edx st0 buf x d : zlen d <= zlen x -> x = d -> zlen x <= zlen buf ->
  call_ret f eax edx st0 buf = of_option (set_range buf 0 x) ->
  exists b, call_ret f eax edx st0 buf = Ok b /\ zlen b = zlen buf /\ get_range b 0 (zlen d) = Some d /\
    forall q n, zlen d <= q -> get_range b q n = get_range buf q n.
Proof.
  intros _ <- Z CR. destruct (put_ok buf x Z) as (b & S & ZB & G & F). exists b. rewrite CR, S. auto.
Qed.
Lemma res_64 eax edx st0 buf d : le_enc 4 eax ++ le_enc 4 edx = d -> 8 <= zlen buf ->
  exists b, call_ret R_INT64 eax edx st0 buf = Ok b /\ zlen b = zlen buf /\ get_range b 0 8 = Some d /\
    forall q n, 8 <= q -> get_range b q n = get_range buf q n.
Proof.
  intros <- Z. unfold call_ret.
  destruct (set_range_ok buf 4 (le_enc 4 edx) ltac:(lia) ltac:(rewrite le_enc_zlen; lia)) as (b1 & S1 & Z1). rewrite S1. cbn [of_option bind].
  destruct (set_range_ok b1 0 (le_enc 4 eax) ltac:(lia) ltac:(rewrite le_enc_zlen; lia)) as (b & S & Zb). rewrite S. exists b. split; [reflexivity|].
  split; [lia|].
  pose proof (get_set_same _ _ _ _ S) as G0. pose proof (get_set_same _ _ _ _ S1) as G1. rewrite le_enc_zlen in G0, G1. change (Z.of_nat 4) with 4 in *.
  assert (G1' : get_range b 4 4 = Some (le_enc 4 edx)).
  { rewrite (get_set_disjoint _ _ _ _ 4 4 S) by (rewrite le_enc_zlen; lia). exact G1. }
  split.
  - apply get_range_inv in G0. apply get_range_inv in G1'. destruct G0 as (_ & _ & L0 & E0 & _). destruct G1' as (_ & _ & L1 & E1 & _).
    rewrite get_range_some by lia. f_equal. rewrite E0, E1. cbn [Z.to_nat]. change (Pos.to_nat 8) with (4 + 4)%nat. change (Pos.to_nat 4) with 4%nat.
    cbn [skipn]. rewrite <- (firstn_skipn 4 b) at 1. rewrite firstn_app.
    rewrite firstn_firstn. change (min (4 + 4) 4) with 4%nat. f_equal.
    rewrite firstn_length. unfold zlen in *. replace (4 + 4 - min 4 (length b))%nat with 4%nat by lia. reflexivity.
  - intros q n Q. rewrite (get_set_disjoint _ _ _ _ q n S) by (rewrite le_enc_zlen; lia).
    apply (get_set_disjoint _ _ _ _ q n S1). rewrite le_enc_zlen. lia.
Qed.

Lemma call_result o a rt c ts d eax edx st0 buf :
  ctype32 o rt -> in_memory o rt = false -> x87_struct o rt -> prep o a rt ts = Some c -> zlen d = ty_size rt ->
  returned o rt d eax edx st0 -> result_size rt <= zlen buf ->
  exists b, call_ret (k_flags c) eax edx st0 buf = Ok b /\ zlen b = zlen buf /\ result_in rt d b /\
    forall q n, result_size rt <= q -> get_range b q n = get_range buf q n.
Proof.
  intros C MEM XS PR ZD RET ZB.
  assert (RF : ret_flags o a rt = Some (k_flags c)).
  { unfold prep in PR. destruct (ret_flags o a rt) as [f|]; [|discriminate]. injection PR as <-. reflexivity. }
  clear PR. unfold result_size in *. unfold result_in, meaning.
  assert (INT : forall (k : nat), (k = 1 \/ k = 2 \/ k = 4)%nat -> small_int (ty_code rt) = true -> ty_size rt = Z.of_nat k -> in_x87 o rt = None -> ty_code rt <> T_LONGDOUBLE ->
     ((signed (ty_code rt) = true /\ k <> 4%nat) \/ signed (ty_code rt) = false) ->
     call_ret (k_flags c) eax edx st0 buf = of_option (set_range buf 0 (le_enc 4 (if signed (ty_code rt) then to_signed (8 * Z.of_nat k) eax mod 2 ^ 32 else eax mod 2 ^ (8 * Z.of_nat k)))) ->
     exists b, call_ret (k_flags c) eax edx st0 buf = Ok b /\ zlen b = zlen buf /\
       (get_range b 0 (zlen (match ty_code rt with T_LONGDOUBLE => firstn 10 d | _ => d end)) = Some (match ty_code rt with T_LONGDOUBLE => firstn 10 d | _ => d end) /\
       (small_int (ty_code rt) = true -> get_range b 0 4 = Some (le_enc 4 (word_value (ty_code rt) d)))) /\
       forall q n, Z.max 4 (ty_size rt) <= q -> get_range b q n = get_range buf q n).
  { intros k K SI SZ NX NL SG CR. unfold returned in RET. rewrite NX in RET. replace (ty_size rt <=? 4) with true in RET by lia. rewrite SZ, Nat2Z.id in RET.
    destruct (res_int (k_flags c) (ty_code rt) k eax edx st0 buf d K SI RET SG ltac:(lia) CR) as (b & A1 & A2 & A3 & A4 & A5).
    exists b. split; [exact A1|]. split; [exact A2|].
    split; [destruct (ty_code rt); try congruence; auto|]. intros q n Q. apply A5. lia. }
  assert (FP : forall n0, in_x87 o rt = Some n0 -> (n0 = 4 \/ n0 = 8 \/ n0 = 10) -> small_int (ty_code rt) = false -> n0 <= ty_size rt ->
     zlen (meaning rt d) = n0 -> firstn (Z.to_nat n0) d = meaning rt d ->
     call_ret (k_flags c) eax edx st0 buf = of_option (set_range buf 0 (fstp n0 st0)) ->
     exists b, call_ret (k_flags c) eax edx st0 buf = Ok b /\ zlen b = zlen buf /\
       (get_range b 0 (zlen (meaning rt d)) = Some (meaning rt d) /\ (small_int (ty_code rt) = true -> get_range b 0 4 = Some (le_enc 4 (word_value (ty_code rt) d)))) /\
       forall q n, Z.max 4 (ty_size rt) <= q -> get_range b q n = get_range buf q n).
  { intros n0 NX N SI NS ZM FM CR. unfold returned in RET. rewrite NX in RET. rewrite FM in RET.
    destruct (res_bytes (k_flags c) eax edx st0 buf (fstp n0 st0) (meaning rt d) ltac:(rewrite RET; lia) RET ltac:(rewrite RET, ZM; lia) CR) as (b & A1 & A2 & A3 & A4).
    exists b. split; [exact A1|]. split; [exact A2|]. split; [split; [exact A3|congruence]|]. intros q n Q. apply A4. lia. }
  assert (LOW : forall (k : nat) x, (k = 1 \/ k = 2 \/ k = 4)%nat -> small_int (ty_code rt) = false -> ty_size rt = Z.of_nat k -> in_x87 o rt = None -> ty_code rt <> T_LONGDOUBLE ->
     x = le_enc k eax -> call_ret (k_flags c) eax edx st0 buf = of_option (set_range buf 0 x) ->
     exists b, call_ret (k_flags c) eax edx st0 buf = Ok b /\ zlen b = zlen buf /\
       (get_range b 0 (zlen (match ty_code rt with T_LONGDOUBLE => firstn 10 d | _ => d end)) = Some (match ty_code rt with T_LONGDOUBLE => firstn 10 d | _ => d end) /\
       (small_int (ty_code rt) = true -> get_range b 0 4 = Some (le_enc 4 (word_value (ty_code rt) d)))) /\
       forall q n, Z.max 4 (ty_size rt) <= q -> get_range b q n = get_range buf q n).
  { intros k x K SI SZ NX NL -> CR. unfold returned in RET. rewrite NX in RET. replace (ty_size rt <=? 4) with true in RET by lia. rewrite SZ, Nat2Z.id in RET.
    rewrite le_enc_firstn in RET by lia.
    destruct (res_bytes (k_flags c) eax edx st0 buf (le_enc k eax) d ltac:(rewrite RET; lia) RET ltac:(rewrite le_enc_zlen; lia) CR) as (b & A1 & A2 & A3 & A4).
    exists b. split; [exact A1|]. split; [exact A2|].
    split; [destruct (ty_code rt); try congruence; (split; [exact A3|congruence])|]. intros q n Q. apply A4. lia. }
  assert (L64 : k_flags c = R_INT64 -> small_int (ty_code rt) = false -> ty_size rt = 8 -> in_x87 o rt = None -> ty_code rt <> T_LONGDOUBLE ->
     exists b, call_ret (k_flags c) eax edx st0 buf = Ok b /\ zlen b = zlen buf /\
       (get_range b 0 (zlen (match ty_code rt with T_LONGDOUBLE => firstn 10 d | _ => d end)) = Some (match ty_code rt with T_LONGDOUBLE => firstn 10 d | _ => d end) /\
       (small_int (ty_code rt) = true -> get_range b 0 4 = Some (le_enc 4 (word_value (ty_code rt) d)))) /\
       forall q n, Z.max 4 (ty_size rt) <= q -> get_range b q n = get_range buf q n).
  { intros FE SI SZ NX NL. unfold returned in RET. rewrite NX, SZ in RET. replace (8 <=? 4) with false in RET by reflexivity.
    destruct (res_64 eax edx st0 buf d RET ltac:(lia)) as (b & A1 & A2 & A3 & A4). rewrite FE.
    exists b. split; [exact A1|]. split; [exact A2|]. rewrite SZ in *.
    split; [destruct (ty_code rt); try congruence; (split; [rewrite ZD; exact A3|congruence])|]. intros q n Q. apply A4. lia. }
  assert (E4 : le_enc 4 (eax mod 2 ^ (8 * Z.of_nat 4)) = le_enc 4 eax) by apply le_enc_mod.
  assert (DSZ : firstn (length d) d = d) by apply firstn_all.
  inversion C as [|t0 I|t0 I|s0 a0 es0 offs NE F SL]; subst.
  - injection RF as RF. apply (INT 4%nat); auto; try discriminate; rewrite <- RF; exact (f_equal (fun z => of_option (set_range buf 0 z)) (eq_sym E4)).
  - destruct o; cbn in I; in_cases I; injection RF as RF; cbn [ty_size] in ZD;
      try (apply (INT 1%nat); [auto|reflexivity|reflexivity|reflexivity|discriminate|cbn; (left; split; [reflexivity|discriminate]) || (right; reflexivity)|rewrite <- RF; reflexivity]);
      try (apply (INT 2%nat); [auto|reflexivity|reflexivity|reflexivity|discriminate|cbn; (left; split; [reflexivity|discriminate]) || (right; reflexivity)|rewrite <- RF; reflexivity]);
      try (apply (INT 4%nat); [auto|reflexivity|reflexivity|reflexivity|discriminate|right; reflexivity|rewrite <- RF; exact (f_equal (fun z => of_option (set_range buf 0 z)) (eq_sym E4))]);
      try (apply L64; [auto|reflexivity|reflexivity|reflexivity|discriminate]);
      try (apply (FP 4); [reflexivity|auto|reflexivity|cbn; lia|exact ZD| |rewrite <- RF; reflexivity]; refine (firstn_all2 d _); unfold zlen in ZD; apply Nat2Z.inj_le; rewrite ZD; discriminate);
      try (apply (FP 8); [reflexivity|auto|reflexivity|cbn; lia|exact ZD| |rewrite <- RF; reflexivity]; refine (firstn_all2 d _); unfold zlen in ZD; apply Nat2Z.inj_le; rewrite ZD; discriminate);
      try (apply (FP 10); [reflexivity|auto|reflexivity|cbn; lia| |reflexivity|rewrite <- RF; reflexivity]; unfold meaning; cbn [ty_code]; rewrite zlen_firstn, ZD; reflexivity).
  - destruct o; cbn in I; in_cases I; injection RF as RF; try discriminate MEM;
      try (apply (LOW 2%nat (le_enc 2 eax)); [auto|reflexivity|reflexivity|reflexivity|discriminate|reflexivity|rewrite <- RF; reflexivity]);
      try (apply (LOW 4%nat (le_enc 4 eax)); [auto|reflexivity|reflexivity|reflexivity|discriminate|reflexivity|rewrite <- RF; reflexivity]);
      try (apply L64; [auto|reflexivity|reflexivity|reflexivity|discriminate]).
  - unfold ret_flags in RF. cbn [ty_code ty_size] in RF. unfold in_memory in MEM. cbn [ty_code ty_size] in MEM.
    specialize (XS eq_refl). destruct o; [discriminate MEM|..];
      (destruct (Z.eqb_spec s0 1) as [->|N1]; [injection RF as RF; apply (LOW 1%nat (le_enc 1 eax)); [auto|reflexivity|reflexivity|exact XS|discriminate|reflexivity|rewrite <- RF; reflexivity]|]);
      (destruct (Z.eqb_spec s0 2) as [->|N2]; [injection RF as RF; apply (LOW 2%nat (le_enc 2 eax)); [auto|reflexivity|reflexivity|exact XS|discriminate|reflexivity|rewrite <- RF; reflexivity]|]);
      (destruct (Z.eqb_spec s0 4) as [->|N4]; [injection RF as RF; apply (LOW 4%nat (le_enc 4 eax)); [auto|reflexivity|reflexivity|exact XS|discriminate|reflexivity|rewrite <- RF; reflexivity]|]);
      (destruct (Z.eqb_spec s0 8) as [->|N8]; [injection RF as RF; apply L64; [auto|reflexivity|reflexivity|exact XS|discriminate]|]);
      discriminate MEM.
Qed.

(** Loading a closure's result. *)
Definition handed (o : sys) (rt : ftype) (d : list Z) (af : after) : Prop :=
  (forall x, returned o rt d (r_eax af) (r_edx af) (match r_st af with Some y => y | None => x end)) /\
  (in_x87 o rt = None <-> r_st af = None) /\
  (small_int (ty_code rt) = true -> r_eax af = word_value (ty_code rt) d).

Lemma word_read (tmp : list Z) : 4 <= zlen tmp -> bytes_ok tmp -> exists e, get_range tmp 0 4 = Some e /\ zlen e = 4 /\ bytes_ok e /\ le_enc 4 (le_dec e) = e /\
  (forall k d, 0 <= k <= 4 -> get_range tmp 0 k = Some d -> firstn (Z.to_nat k) (le_enc 4 (le_dec e)) = d).
Proof.
  intros Z B. pose proof (get_range_some tmp 0 4 ltac:(lia) ltac:(lia) ltac:(lia)) as G.
  assert (BE : bytes_ok (firstn (Z.to_nat 4) (skipn (Z.to_nat 0) tmp))) by (apply bytes_ok_firstn, bytes_ok_skipn; exact B). pose proof (get_range_inv _ _ _ _ G) as (_ & _ & _ & _ & ZE).
  eexists. split; [exact G|]. split; [exact ZE|]. split; [exact BE|].
  remember (firstn (Z.to_nat 4) (skipn (Z.to_nat 0) tmp)) as e eqn:EE.
  assert (EN : le_enc 4 (le_dec e) = e). { replace 4%nat with (length e) by (unfold zlen in ZE; lia). apply le_enc_dec. exact BE. }
  split; [exact EN|]. intros k d K GK. rewrite EN. apply get_range_inv in GK. destruct GK as (_ & _ & _ & -> & _). subst e.
  cbn [Z.to_nat skipn]. rewrite firstn_firstn. f_equal. lia.
Qed.

Lemma word_read2 (tmp : list Z) d : 8 <= zlen tmp -> bytes_ok tmp -> get_range tmp 0 8 = Some d -> exists e x, get_range tmp 0 4 = Some e /\ get_range tmp 4 4 = Some x /\
  le_enc 4 (le_dec e) ++ le_enc 4 (le_dec x) = d.
Proof.
  intros Z B G.
  pose proof (get_range_some tmp 0 4 ltac:(lia) ltac:(lia) ltac:(lia)) as G0. pose proof (get_range_some tmp 4 4 ltac:(lia) ltac:(lia) ltac:(lia)) as G1.
  eexists; eexists. split; [exact G0|]. split; [exact G1|].
  assert (B0 : bytes_ok (firstn (Z.to_nat 4) (skipn (Z.to_nat 0) tmp))) by (apply bytes_ok_firstn, bytes_ok_skipn; exact B). assert (B1 : bytes_ok (firstn (Z.to_nat 4) (skipn (Z.to_nat 4) tmp))) by (apply bytes_ok_firstn, bytes_ok_skipn; exact B).
  pose proof (get_range_inv _ _ _ _ G0) as (_ & _ & _ & _ & Z0). pose proof (get_range_inv _ _ _ _ G1) as (_ & _ & _ & _ & Z1).
  remember (firstn (Z.to_nat 4) (skipn (Z.to_nat 0) tmp)) as e eqn:EE. remember (firstn (Z.to_nat 4) (skipn (Z.to_nat 4) tmp)) as x eqn:EX.
  replace (le_enc 4 (le_dec e)) with e by (symmetry; replace 4%nat with (length e) by (unfold zlen in Z0; lia); apply le_enc_dec; exact B0).
  replace (le_enc 4 (le_dec x)) with x by (symmetry; replace 4%nat with (length x) by (unfold zlen in Z1; lia); apply le_enc_dec; exact B1).
  apply get_range_inv in G. destruct G as (_ & _ & _ & -> & _). subst e x.
  change (Z.to_nat 8) with (4 + 4)%nat. change (Z.to_nat 4) with 4%nat. change (Z.to_nat 0) with 0%nat. cbn [skipn].
  rewrite <- (firstn_skipn 4 tmp) at 3. rewrite firstn_app, firstn_firstn. change (min (4 + 4) 4) with 4%nat. f_equal.
  rewrite firstn_length. unfold zlen in Z. replace (4 + 4 - min 4 (length tmp))%nat with 4%nat by lia. reflexivity.
Qed.

Lemma closure_result o a rt c ts d tmp edx narg pl :
  ctype32 o rt -> in_memory o rt = false -> x87_struct o rt -> prep o a rt ts = Some c -> zlen d = ty_size rt -> bytes_ok d ->
  16 <= zlen tmp -> bytes_ok tmp -> get_range tmp 0 (zlen (meaning rt d)) = Some (meaning rt d) ->
  (forall n, in_x87 o rt = Some n -> signalling n (meaning rt d) = false) ->
  exists af, closure_ret pl c narg tmp edx = Ok af /\ handed o rt d af.
Proof.
  intros C MEM XS PR ZD BD ZT BT GT SN.
  assert (RF : ret_flags o a rt = Some (k_flags c)).
  { unfold prep in PR. destruct (ret_flags o a rt) as [f|]; [|discriminate]. injection PR as <-. reflexivity. }
  clear PR. unfold closure_ret. set (pop := if pl then _ else _). clearbody pop. unfold handed.
  destruct (word_read tmp ltac:(lia) BT) as (e & GE & ZE & BE & EN & LOWB).
  assert (INT : forall (k : nat), (k = 1 \/ k = 2 \/ k = 4)%nat -> small_int (ty_code rt) = true -> ty_size rt = Z.of_nat k -> in_x87 o rt = None -> meaning rt d = d ->
     ((signed (ty_code rt) = true /\ k <> 4%nat) \/ signed (ty_code rt) = false) ->
     load_result (k_flags c) tmp edx pop = Ok (After (if signed (ty_code rt) then to_signed (8 * Z.of_nat k) (le_dec e) mod 2 ^ 32 else le_dec e mod 2 ^ (8 * Z.of_nat k)) edx None pop) ->
     exists af, load_result (k_flags c) tmp edx pop = Ok af /\
       (forall x, returned o rt d (r_eax af) (r_edx af) (match r_st af with Some y => y | None => x end)) /\
       (in_x87 o rt = None <-> r_st af = None) /\ (small_int (ty_code rt) = true -> r_eax af = word_value (ty_code rt) d)).
  { intros k K SI SZ NX ME SG LR. rewrite LR. eexists. split; [reflexivity|]. cbn [r_eax r_edx r_st].
    rewrite ME, ZD, SZ in GT. pose proof (LOWB (Z.of_nat k) d ltac:(lia) GT) as FD. rewrite Nat2Z.id in FD.
    destruct (widen k (le_dec e) (ty_code rt) d K FD SG) as (_ & WV & GD). rewrite <- WV.
    split; [|split; [split; auto|reflexivity]]. intros x. unfold returned. rewrite NX. replace (ty_size rt <=? 4) with true by lia.
    apply get_range_inv in GD. destruct GD as (_ & _ & _ & DE & _). rewrite Nat2Z.id in DE. rewrite SZ, Nat2Z.id. symmetry. exact DE. }
  assert (FP : forall n0, in_x87 o rt = Some n0 -> (n0 = 4 \/ n0 = 8 \/ n0 = 10) -> small_int (ty_code rt) = false ->
     zlen (meaning rt d) = n0 -> firstn (Z.to_nat n0) d = meaning rt d ->
     (forall y, get_range tmp 0 n0 = Some y -> load_result (k_flags c) tmp edx pop = Ok (After (le_dec e) edx (Some (fld n0 y)) pop)) ->
     exists af, load_result (k_flags c) tmp edx pop = Ok af /\
       (forall x, returned o rt d (r_eax af) (r_edx af) (match r_st af with Some y => y | None => x end)) /\
       (in_x87 o rt = None <-> r_st af = None) /\ (small_int (ty_code rt) = true -> r_eax af = word_value (ty_code rt) d)).
  { intros n0 NX N SI ZM FM LR. rewrite ZM in GT. rewrite (LR _ GT). eexists. split; [reflexivity|]. cbn [r_eax r_edx r_st].
    split; [|split; [rewrite NX; split; discriminate|congruence]]. intros x. unfold returned. rewrite NX, FM. apply fld_fstp; auto.
    rewrite <- FM. apply bytes_ok_firstn. exact BD. }
  assert (LOW : forall (k : nat), (k = 1 \/ k = 2 \/ k = 4)%nat -> small_int (ty_code rt) = false -> ty_size rt = Z.of_nat k -> in_x87 o rt = None -> meaning rt d = d ->
     load_result (k_flags c) tmp edx pop = Ok (After (le_dec e mod 2 ^ (8 * Z.of_nat k)) edx None pop) ->
     exists af, load_result (k_flags c) tmp edx pop = Ok af /\
       (forall x, returned o rt d (r_eax af) (r_edx af) (match r_st af with Some y => y | None => x end)) /\
       (in_x87 o rt = None <-> r_st af = None) /\ (small_int (ty_code rt) = true -> r_eax af = word_value (ty_code rt) d)).
  { intros k K SI SZ NX ME LR. rewrite LR. eexists. split; [reflexivity|]. cbn [r_eax r_edx r_st].
    rewrite ME, ZD, SZ in GT. pose proof (LOWB (Z.of_nat k) d ltac:(lia) GT) as FD. rewrite Nat2Z.id in FD.
    split; [|split; [split; auto|congruence]]. intros x. unfold returned. rewrite NX. replace (ty_size rt <=? 4) with true by lia.
    rewrite SZ, Nat2Z.id. rewrite le_enc_firstn in FD |- * by lia. rewrite le_enc_mod. exact FD. }
  assert (L64 : k_flags c = R_INT64 -> small_int (ty_code rt) = false -> ty_size rt = 8 -> in_x87 o rt = None -> meaning rt d = d ->
     exists af, load_result (k_flags c) tmp edx pop = Ok af /\
       (forall x, returned o rt d (r_eax af) (r_edx af) (match r_st af with Some y => y | None => x end)) /\
       (in_x87 o rt = None <-> r_st af = None) /\ (small_int (ty_code rt) = true -> r_eax af = word_value (ty_code rt) d)).
  { intros FE SI SZ NX ME. rewrite ME, ZD, SZ in GT. destruct (word_read2 tmp d ltac:(lia) BT GT) as (e1 & x1 & G1 & G2 & E). rewrite FE. unfold load_result.
    rewrite G1, G2. cbn [of_option bind]. eexists. split; [reflexivity|]. cbn [r_eax r_edx r_st].
    split; [|split; [split; auto|congruence]]. intros x. unfold returned. rewrite NX, SZ. replace (8 <=? 4) with false by reflexivity. exact E. }
  assert (LB : le_dec e mod 2 ^ (8 * Z.of_nat 4) = le_dec e).
  { apply Z.mod_small. pose proof (le_dec_bound e BE) as LD. rewrite ZE in LD. exact LD. }
  assert (LI : load_result R_INT32 tmp edx pop = Ok (After (le_dec e mod 2 ^ (8 * Z.of_nat 4)) edx None pop)).
  { rewrite LB. unfold load_result. rewrite GE. reflexivity. }
  assert (GL : forall f, load_result f tmp edx pop = let* e := of_option (Some e) in
    let eax := le_dec e in
    let fp (n : Z) := let* x := of_option (get_range tmp 0 n) in Ok (After eax edx (Some (fld n x)) pop) in
    let int (v : Z) := Ok (After v edx None pop) in
    match f with
    | R_FLOAT => fp 4 | R_DOUBLE => fp 8 | R_LDOUBLE => fp 10
    | R_SINT8 => int (to_signed 8 eax mod 2 ^ 32) | R_SINT16 => int (to_signed 16 eax mod 2 ^ 32)
    | R_UINT8 | R_STRUCT_1B => int (eax mod 2 ^ 8) | R_UINT16 | R_STRUCT_2B => int (eax mod 2 ^ 16)
    | R_INT64 => let* x := of_option (get_range tmp 4 4) in Ok (After eax (le_dec x) None pop)
    | R_INT32 | R_VOID | R_STRUCTPOP | R_STRUCTARG => int eax
    end).
  { intros f. unfold load_result. rewrite GE. reflexivity. }
  inversion C as [|t0 I|t0 I|s0 a0 es0 offs NE F SL]; subst.
  - injection RF as RF. apply (INT 4%nat); auto; rewrite <- RF; exact LI.
  - destruct o; cbn in I; in_cases I; injection RF as RF; cbn [ty_size] in ZD;
      try (apply (INT 1%nat); [auto|reflexivity|reflexivity|reflexivity|reflexivity|cbn; (left; split; [reflexivity|discriminate]) || (right; reflexivity)|rewrite <- RF, GL; reflexivity]);
      try (apply (INT 2%nat); [auto|reflexivity|reflexivity|reflexivity|reflexivity|cbn; (left; split; [reflexivity|discriminate]) || (right; reflexivity)|rewrite <- RF, GL; reflexivity]);
      try (apply (INT 4%nat); [auto|reflexivity|reflexivity|reflexivity|reflexivity|right; reflexivity|rewrite <- RF; exact LI]);
      try (apply L64; [auto|reflexivity|reflexivity|reflexivity|reflexivity]);
      try (apply (FP 4); [reflexivity|auto|reflexivity|exact ZD|refine (firstn_all2 d _); unfold zlen in ZD; apply Nat2Z.inj_le; rewrite ZD; discriminate|intros y GY; rewrite <- RF, GL; cbn [of_option bind]; rewrite GY; reflexivity]);
      try (apply (FP 8); [reflexivity|auto|reflexivity|exact ZD|refine (firstn_all2 d _); unfold zlen in ZD; apply Nat2Z.inj_le; rewrite ZD; discriminate|intros y GY; rewrite <- RF, GL; cbn [of_option bind]; rewrite GY; reflexivity]);
      try (apply (FP 10); [reflexivity|auto|reflexivity| |reflexivity|intros y GY; rewrite <- RF, GL; cbn [of_option bind]; rewrite GY; reflexivity]; unfold meaning; cbn [ty_code]; rewrite zlen_firstn, ZD; reflexivity).
  - destruct o; cbn in I; in_cases I; injection RF as RF; try discriminate MEM;
      try (apply (LOW 2%nat); [auto|reflexivity|reflexivity|reflexivity|reflexivity|rewrite <- RF, GL; reflexivity]);
      try (apply (LOW 4%nat); [auto|reflexivity|reflexivity|reflexivity|reflexivity|rewrite <- RF; exact LI]);
      try (apply L64; [auto|reflexivity|reflexivity|reflexivity|reflexivity]).
  - unfold ret_flags in RF. cbn [ty_code ty_size] in RF. unfold in_memory in MEM. cbn [ty_code ty_size] in MEM.
    specialize (XS eq_refl). destruct o; [discriminate MEM|..];
      (destruct (Z.eqb_spec s0 1) as [->|N1]; [injection RF as RF; apply (LOW 1%nat); [auto|reflexivity|reflexivity|exact XS|reflexivity|rewrite <- RF, GL; reflexivity]|]);
      (destruct (Z.eqb_spec s0 2) as [->|N2]; [injection RF as RF; apply (LOW 2%nat); [auto|reflexivity|reflexivity|exact XS|reflexivity|rewrite <- RF, GL; reflexivity]|]);
      (destruct (Z.eqb_spec s0 4) as [->|N4]; [injection RF as RF; apply (LOW 4%nat); [auto|reflexivity|reflexivity|exact XS|reflexivity|rewrite <- RF; exact LI]|]);
      (destruct (Z.eqb_spec s0 8) as [->|N8]; [injection RF as RF; apply L64; [auto|reflexivity|reflexivity|exact XS|reflexivity]|]);
      discriminate MEM.
Qed.

(** Results in memory: the pointer is returned. *)
Lemma closure_result_memory o a rt c ts tmp p edx narg pl :
  (ctype32 o rt \/ ty_code rt = T_VOID) -> in_memory o rt = true -> prep o a rt ts = Some c -> get_range tmp 0 4 = Some (le_enc 4 p) ->
  exists af, closure_ret pl c narg tmp edx = Ok af /\ r_eax af = p mod 2 ^ 32 /\ r_st af = None.
Proof.
  intros RT MEM PR G. unfold prep in PR. destruct (ret_flags o a rt) as [f|] eqn:RF; [|discriminate]. injection PR as <-.
  destruct (flags_memory o a rt f RT RF) as [SR FE]. rewrite MEM in SR. specialize (FE SR).
  unfold closure_ret, load_result. rewrite G. cbn [of_option bind k_flags]. rewrite le_dec_enc.
  destruct f; try discriminate SR; eexists; (split; [reflexivity|]); split; reflexivity.
Qed.
