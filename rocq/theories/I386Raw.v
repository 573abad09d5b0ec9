(** The i386 raw calls and raw closures. *)
From Verif Require Import Base Types LayoutSpec BaseFacts NaturalTypes NaturalFacts.
From Verif Require Import X87Model X87Facts I386Model I386Spec I386RetSpec I386RawSpec I386Facts I386Call I386CallOk I386Closure I386Ret.
Local Open Scope Z_scope.
Local Arguments Z.mul : simpl never.
Local Arguments Z.add : simpl never.
Local Arguments Z.sub : simpl never.

Definition no_struct (t : ftype) : Prop := ty_code t <> T_STRUCT.

Lemma ns_align t : no_struct t -> on_stack_align t = 4.
Proof. unfold no_struct, on_stack_align. destruct (ty_code t); congruence. Qed.

Lemma words_div t : (4 | words t).
Proof. apply round_up_divide. Qed.

Lemma words_pos o t : ctype32 o t -> ty_size t <= words t /\ 4 <= words t.
Proof.
  intros C. pose proof (round_up_le (ty_size t) 4 ltac:(lia)). apply ctype32_basic in C. destruct C as (? & _).
  unfold words. split; [lia|]. destruct (words_div t) as [k K]. unfold words in K. lia.
Qed.

(** Words on the stack and words of the raw form. *)
Lemma up_raw o a : forall ts off, Forall (ctype32 o) ts -> Forall no_struct ts -> (4 | off) ->
  snd (assign_up a [] off ts) = off + raw_bytes ts.
Proof.
  induction ts as [|t ts IH]; intros off C N D; cbn [assign_up raw_bytes]; [cbn; lia|].
  apply Forall_cons_iff in C as [C1 C2]. apply Forall_cons_iff in N as [N1 N2].
  rewrite (ns_align t N1). rewrite (round_up_id off 4) by (auto; lia).
  replace (if stops a (ty_code t) then [] else []) with (@nil Z) by (destruct (stops a (ty_code t)); reflexivity).
  specialize (IH (off + words t) C2 N2 ltac:(apply Z.divide_add_r; auto using words_div)).
  destruct (assign_up a [] (off + words t) ts) as [l e] eqn:E. cbn [snd] in IH.
  destruct (small_int (ty_code t)); cbn [snd]; lia.
Qed.

Lemma raw_bytes_nonneg o ts : Forall (ctype32 o) ts -> 0 <= raw_bytes ts.
Proof. induction 1 as [|t ts C F IH]; cbn [raw_bytes]; [lia|]. pose proof (words_pos o t C). lia. Qed.

(** From the raw form to the stack, moved up by [h]. *)
Lemma raw_held o a regs sp rd raw h : forall ts off objs, Forall (ctype32 o) ts -> Forall no_struct ts -> (4 | h) -> (4 | off) -> 0 <= off ->
  raw_has raw off ts objs ->
  (forall p n, off <= p -> 0 <= n -> p + n <= off + raw_bytes ts -> rd (sp + h + p) n = raw p n) ->
  held regs sp rd ts (fst (assign_up a [] (h + off) ts)) objs.
Proof.
  induction ts as [|t ts IH]; intros off objs C N DH D O R V; destruct objs as [|d objs]; cbn [raw_has] in R; try contradiction; [exact I|].
  apply Forall_cons_iff in C as [C1 C2]. apply Forall_cons_iff in N as [N1 N2]. destruct R as (R1 & R2 & R3).
  cbn [assign_up raw_bytes] in *. rewrite (ns_align t N1). rewrite (round_up_id (h + off) 4) by (try lia; apply Z.divide_add_r; auto).
  replace (if stops a (ty_code t) then [] else []) with (@nil Z) by (destruct (stops a (ty_code t)); reflexivity).
  destruct (words_pos o t C1) as (W1 & W2). pose proof (raw_bytes_nonneg o ts C2). pose proof (ctype32_basic o t C1) as (SP & _).
  specialize (IH (off + words t) objs C2 N2 DH ltac:(apply Z.divide_add_r; auto using words_div) ltac:(lia) R3
    ltac:(intros p n P1 P2 P3; apply V; lia)).
  replace (h + (off + words t)) with (h + off + words t) in IH by lia.
  assert (AT : at_loc regs sp rd t (Stk (h + off)) d).
  { cbn [at_loc]. rewrite Z.add_assoc. split; [rewrite V by lia; exact R1|]. intros SI. rewrite V by lia. auto. }
  destruct (assign_up a [] (h + off + words t) ts) as [l e] eqn:E. cbn [fst] in IH.
  destruct (small_int (ty_code t)); cbn [fst held]; auto.
Qed.

(** And back. *)
Lemma held_raw o a regs sp rd raw h : forall ts off objs, Forall (ctype32 o) ts -> Forall no_struct ts -> (4 | h) -> (4 | off) -> 0 <= off ->
  held regs sp rd ts (fst (assign_up a [] (h + off) ts)) objs ->
  (forall p n, off <= p -> rd (sp + h + p) n = raw p n) ->
  raw_has raw off ts objs.
Proof.
  induction ts as [|t ts IH]; intros off objs C N DH D O R V; destruct objs as [|d objs]; cbn [assign_up] in R.
  - exact I.
  - cbn in R. contradiction.
  - destruct (small_int (ty_code t)); destruct (assign_up a _ _ ts); cbn in R; contradiction.
  - apply Forall_cons_iff in C as [C1 C2]. apply Forall_cons_iff in N as [N1 N2].
    rewrite (ns_align t N1) in R. rewrite (round_up_id (h + off) 4) in R by (try lia; apply Z.divide_add_r; auto).
    replace (if stops a (ty_code t) then [] else []) with (@nil Z) in R by (destruct (stops a (ty_code t)); reflexivity).
    destruct (words_pos o t C1) as (W1 & W2).
    assert (R' : at_loc regs sp rd t (Stk (h + off)) d /\ held regs sp rd ts (fst (assign_up a [] (h + off + words t) ts)) objs).
    { destruct (assign_up a [] (h + off + words t) ts) as [l e]. destruct (small_int (ty_code t)); exact R. }
    destruct R' as ((A1 & A2) & RH). rewrite Z.add_assoc in A1, A2.
    cbn [raw_has]. split; [rewrite <- V by lia; exact A1|]. split; [intros SI; rewrite <- V by lia; auto|].
    apply IH; auto; try lia.
    + apply Z.divide_add_r; auto using words_div.
    + replace (h + (off + words t)) with (h + off + words t) by lia. exact RH.
    + intros p n P. apply V. lia.
Qed.

Definition stack_abi (a : abi) : Prop := a = SYSV \/ a = STDCALL \/ a = MS_CDECL.

(** Raw calls: the bytes that are read. *)
Definition raw_need (o : sys) (c : cif) (rt : ftype) : Z := stack_align (k_bytes c) - (if in_memory o rt then 4 else 0).

Lemma raw_ok o a rt ts c rv raw objs fn low blk ebp ra :
  stack_abi a -> Forall (ctype32 o) ts -> Forall no_struct ts -> (ctype32 o rt \/ ty_code rt = T_VOID) -> total ts < 2 ^ 28 ->
  prep o a rt ts = Some c -> Z.testbit low 4 = false -> 0 <= low -> zlen blk = raw_size c rv -> low + zlen blk < 2 ^ 32 ->
  raw_has (get_range raw) 0 ts objs -> raw_need o c rt <= zlen raw ->
  exists m b hp, raw_call c rv raw fn low blk ebp ra = Ok (m, b) /\ zlen b = zlen blk /\ s_sp m = low /\
    held (s_regs m) (s_sp m) (s_read m) (hidden o rt ++ ts) (places o a rt ts) (hidden_obj o rt hp ++ objs) /\
    match rv with Some p => hp = p | None => in_memory o rt = true -> low + stack_align (k_bytes c) <= hp /\ hp + ty_size rt <= low + zlen blk end /\
    frame_kept c rv fn low b.
Proof.
  intros A CT NS RT TB PR BIT LP ZB EB RH NEED.
  assert (LL : last_lowest a = false) by (destruct A as [->|[->| ->]]; reflexivity).
  assert (NR : reg_params a = [] /\ param_regs a = []) by (destruct A as [->|[->| ->]]; split; reflexivity). destruct NR as [NR NP].
  destruct (prep_area o a rt ts c CT RT TB PR) as (KA & KT & KR & IM & FS & KB & KD & _ & SU). specialize (SU LL).
  assert (FV : k_flags c = R_VOID \/ 0 < ty_size rt).
  { unfold prep in PR. destruct (ret_flags o a rt) as [f|] eqn:RF; [|discriminate]. injection PR as <-. eapply flags_void; eauto. }
  change (2 ^ 29) with 536870912 in KB.
  assert (SA : stack_align (k_bytes c) = round_up (k_bytes c) 16) by (apply stack_align_round; change (2 ^ 31) with 2147483648; lia).
  pose proof (round_up_le (k_bytes c) 16 ltac:(lia)) as RL.
  pose proof (round_up_lt (k_bytes c) 16 ltac:(lia)) as RL2.
  assert (RZ : 0 <= call_rsize c rv).
  { unfold call_rsize. rewrite KR. destruct rv; [lia|]. destruct FV as [->|V]; [lia|]. destruct (k_flags c); lia. }
  assert (BASE : Z.ldiff low 16 = low).
  { apply Z.bits_inj'. intros i I. rewrite Z.ldiff_spec. change 16 with (2 ^ 4). rewrite Z.pow2_bits_eqb by lia.
    destruct (Z.eqb_spec 4 i) as [<-|]; [rewrite BIT; reflexivity|]. destruct (Z.testbit low i); reflexivity. }
  unfold raw_call. rewrite BASE, KA, KT.
  set (bytes := stack_align (k_bytes c)) in *. set (fr := low + bytes) in *.
  set (hp := match rv with Some p => p | None => if 0 <? call_rsize c rv then fr + frame_size else 0 end) in *.
  unfold raw_size, frame_size in ZB. fold bytes in ZB.
  assert (ST : forall bk p d, zlen bk = zlen blk -> low <= p -> p + zlen d <= fr + 32 -> exists b, store low bk p d = Ok b /\ zlen b = zlen blk /\
     get_range b (p - low) (zlen d) = Some d /\ forall q n, (q + n <= p \/ p + zlen d <= q) -> get_range b (q - low) n = get_range bk (q - low) n).
  { intros bk p d Z1 P1 P2. subst fr. destruct (store_ok low bk p d ltac:(lia) ltac:(lia)) as (b & X1 & X2 & X3 & X4). exists b. rewrite <- Z1. auto. }
  destruct (ST blk (fr + 8) (le_enc 4 fn) eq_refl ltac:(lia) ltac:(rewrite le_enc_zlen; lia)) as (b1 & E1 & Z1 & R1 & F1).
  destruct (ST b1 (fr + 12) (le_enc 4 (ret_num (call_flags c rv))) Z1 ltac:(lia) ltac:(rewrite le_enc_zlen; lia)) as (b2 & E2 & Z2 & R2 & F2).
  destruct (ST b2 (fr + 16) (le_enc 4 hp) Z2 ltac:(lia) ltac:(rewrite le_enc_zlen; lia)) as (b3 & E3 & Z3 & R3 & F3).
  rewrite !le_enc_zlen in *. change (Z.of_nat 4) with 4 in *.
  rewrite E1. cbn [bind]. rewrite E2. cbn [bind]. rewrite E3. cbn [bind].
  destruct (call_flags_struct c rv) as [CF1 CF2].
  set (h := if in_memory o rt then 4 else 0).
  assert (HV : (h = 4 \/ h = 0) /\ (4 | h)) by (subst h; destruct (in_memory o rt); (split; [auto|]); [exists 1|exists 0]; reflexivity).
  destruct HV as [HV DH].
  assert (SUE : stack_used o a rt ts = h + raw_bytes ts).
  { unfold stack_used, assign, hidden. rewrite LL, NR. subst h. destruct (in_memory o rt); cbn [app].
    - cbn [assign_up]. change (small_int (ty_code ty_ptr)) with true. cbn iota. change (round_up 0 (on_stack_align ty_ptr)) with 0. change (words ty_ptr) with 4.
      replace (if stops a (ty_code ty_ptr) then [] else []) with (@nil Z) by (destruct (stops a (ty_code ty_ptr)); reflexivity).
      pose proof (up_raw o a ts (0 + 4) CT NS ltac:(exists 1; reflexivity)) as U. destruct (assign_up a [] (0 + 4) ts). cbn [snd] in *. lia.
    - apply (up_raw o a ts 0 CT NS). exists 0. reflexivity. }
  pose proof (raw_bytes_nonneg o ts CT) as RBN.
  assert (HB : h <= bytes) by lia.
  assert (PRS : exists b3', push_result a low fr (call_flags c rv) hp (CSt b3 low 0) = Ok (CSt b3' (low + h) 0) /\ zlen b3' = zlen blk /\
     (in_memory o rt = true -> get_range b3' 0 4 = Some (le_enc 4 hp)) /\ forall q n, low + h <= q -> get_range b3' (q - low) n = get_range b3 (q - low) n).
  { subst h. destruct (in_memory o rt) eqn:MEM.
    - destruct (ST b3 low (le_enc 4 hp) Z3 ltac:(lia) ltac:(rewrite le_enc_zlen; lia)) as (b3' & X1 & X2 & X3 & X4).
      rewrite le_enc_zlen in X3, X4. change (Z.of_nat 4) with 4 in *. replace (low - low) with 0 in X3 by lia.
      exists b3'. split; [|split; [exact X2|split; [auto|intros q n Q; apply X4; lia]]].
      rewrite CF2, FS by auto. unfold push_result. cbn [b_blk b_argp b_n].
      destruct A as [->|[->| ->]]; cbn [struct_flags param_regs]; rewrite X1; reflexivity.
    - exists b3. split; [|split; [exact Z3|split; [discriminate|auto]]]. rewrite Z.add_0_r. unfold push_result.
      destruct (call_flags c rv); try reflexivity; cbn in CF1; congruence. }
  destruct PRS as (b3' & E3' & Z3' & R3' & F3'). rewrite E3'. cbn [bind b_blk b_argp b_n].
  assert (LEFT : (if struct_ret (call_flags c rv) && (0 =? 0) then wrap32 (bytes - 4) else bytes) = bytes - h).
  { change (0 =? 0) with true. rewrite Bool.andb_true_r. rewrite CF1, IM. subst h. destruct (in_memory o rt); [|lia].
    unfold wrap32, wrap. apply Z.mod_small. change (2 ^ 32) with 4294967296. lia. }
  rewrite LEFT.
  assert (MID : exists b4, (let* (w, more) := raw_regs a low fr raw ts (RSt b3' (low + h) 0 0 (bytes - h)) in
       if more then let* x := of_option (get_range raw (4 * w_av w) (w_bytes w)) in store low (w_blk w) (w_argp w) x else Ok (w_blk w)) = Ok b4 /\ zlen b4 = zlen blk /\
     (in_memory o rt = true -> get_range b4 0 4 = Some (le_enc 4 hp)) /\
     (forall q n, fr <= q -> get_range b4 (q - low) n = get_range b3 (q - low) n) /\
     (forall p n, 0 <= p -> 0 <= n -> p + n <= raw_bytes ts -> get_range b4 (h + p) n = get_range raw p n)).
  { destruct ts as [|t ts].
    - cbn [raw_regs bind w_blk]. exists b3'. split; [reflexivity|]. split; [exact Z3'|]. split; [exact R3'|].
      split; [intros q n Q; apply F3'; lia|]. cbn [raw_bytes]. intros p n P N S.
      assert (p = 0) by lia. assert (n = 0) by lia. subst. pose proof (zlen_nonneg raw). rewrite !get_range_some by lia. reflexivity.
    - cbn [raw_regs w_n]. rewrite NP. change (0 <? zlen (@nil Z)) with false. cbn [bind w_av w_bytes w_blk w_argp].
      change (4 * 0) with 0. unfold raw_need in NEED. fold bytes in NEED. fold h in NEED.
      pose proof (get_range_some raw 0 (bytes - h) ltac:(lia) ltac:(lia) ltac:(lia)) as GR.
      remember (firstn (Z.to_nat (bytes - h)) (skipn (Z.to_nat 0) raw)) as x eqn:EX. rewrite GR. cbn [of_option bind].
      pose proof (get_range_inv _ _ _ _ GR) as (_ & _ & _ & _ & ZX).
      destruct (ST b3' (low + h) x Z3' ltac:(lia) ltac:(lia)) as (b4 & X1 & X2 & X3 & X4). exists b4. split; [exact X1|]. split; [exact X2|].
      split; [|split].
      + intros MEM. rewrite <- (R3' MEM). replace 0 with (low - low) by lia. apply X4. left. subst h. rewrite MEM. lia.
      + intros q n Q. rewrite X4 by lia. apply F3'. lia.
      + intros p n P N S. replace (low + h - low) with h in X3 by lia. rewrite ZX in X3.
        rewrite (get_range_sub _ _ _ _ p n X3) by lia. rewrite <- (get_range_sub _ _ _ _ p n GR) by lia. reflexivity. }
  destruct MID as (b4 & E4 & Z4 & R4 & F4 & RAW).
  destruct (raw_regs a low fr raw ts (RSt b3' (low + h) 0 0 (bytes - h))) as [[w more]| |]; try discriminate E4. cbn [bind] in E4 |- *.
  rewrite E4. cbn [bind].
  destruct (ST b4 fr (le_enc 4 ebp) Z4 ltac:(lia) ltac:(rewrite le_enc_zlen; lia)) as (b5 & E5 & Z5 & R5 & F5).
  destruct (ST b5 (fr + 4) (le_enc 4 ra) Z5 ltac:(lia) ltac:(rewrite le_enc_zlen; lia)) as (b6 & E6 & Z6 & R6 & F6).
  rewrite !le_enc_zlen in *. change (Z.of_nat 4) with 4 in *. rewrite E5. cbn [bind]. rewrite E6. cbn [bind].
  assert (GRR : forall r, 0 <= r <= 2 -> exists x, get_range b6 (fr - low + 20 + 4 * r) 4 = Some x).
  { intros r R. rewrite get_range_some by lia. eauto. }
  destruct (GRR R_EAX ltac:(cbv; split; discriminate)) as (x0 & G0). destruct (GRR R_EDX ltac:(cbv; split; discriminate)) as (x1 & G1). destruct (GRR R_ECX ltac:(cbv; split; discriminate)) as (x2 & G2).
  rewrite G0, G1, G2. cbn [of_option bind].
  eexists _, b6, hp. split; [reflexivity|]. cbn [s_sp s_read s_regs]. split; [exact Z6|]. split; [reflexivity|].
  assert (AG : forall q n, q + n <= fr \/ fr + 8 <= q -> get_range b6 (q - low) n = get_range b4 (q - low) n).
  { intros q n D. rewrite F6 by lia. apply F5. lia. }
  split; [|split; [|split; [|split]]].
  - assert (TL : forall regs, held regs low (fun p n => get_range b6 (p - low) n) ts (fst (assign_up a [] (h + 0) ts)) objs).
    { intros regs. apply (raw_held o a regs low _ (get_range raw) h ts 0 objs CT NS DH ltac:(exists 0; reflexivity) ltac:(lia) RH).
      intros p n P N S. rewrite AG by (subst fr; lia). rewrite <- RAW by lia. f_equal. lia. }
    specialize (TL (fun r => if r =? R_EAX then le_dec x0 else if r =? R_EDX then le_dec x1 else le_dec x2)).
    unfold places, assign, hidden, hidden_obj. rewrite LL, NR. subst h. destruct (in_memory o rt) eqn:MEM; cbn [app]; [|exact TL].
    cbn [assign_up]. change (small_int (ty_code ty_ptr)) with true. cbn iota. change (round_up 0 (on_stack_align ty_ptr)) with 0. change (words ty_ptr) with 4.
    replace (if stops a (ty_code ty_ptr) then [] else []) with (@nil Z) by (destruct (stops a (ty_code ty_ptr)); reflexivity).
    change (0 + 4) with (4 + 0). destruct (assign_up a [] (4 + 0) ts) as [l e]. cbn [fst] in *. cbn [held]. split; [|exact TL].
    cbn [at_loc]. change (ty_size ty_ptr) with 4. rewrite AG by (subst fr; lia). replace (low + 0 - low) with 0 by lia. rewrite (R4 eq_refl). split; [reflexivity|].
    intros _. f_equal. unfold word_value. change (signed (ty_code ty_ptr)) with false. cbn iota. rewrite le_dec_enc.
    change (8 * Z.of_nat 4) with 32. rewrite Z.mod_mod by (apply Z.pow_nonzero; lia). symmetry. apply (le_enc_mod 4 hp).
  - subst hp. destruct rv as [p|]; [reflexivity|]. intros MEM. rewrite MEM in IM.
    assert (CRS : call_rsize c None = ty_size rt) by (unfold call_rsize; rewrite KR; destruct (k_flags c); try discriminate IM; reflexivity).
    rewrite CRS in *. destruct FV as [V|V]; [rewrite V in IM; discriminate IM|].
    replace (0 <? ty_size rt) with true by lia. unfold frame_size. subst fr. lia.
  - fold bytes. replace (bytes + 8) with (fr + 8 - low) by (subst fr; lia). rewrite AG by lia. rewrite F4 by lia. rewrite F3, F2 by lia. exact R1.
  - fold bytes. replace (bytes + 12) with (fr + 12 - low) by (subst fr; lia). rewrite AG by lia. rewrite F4 by lia. rewrite F3 by lia. exact R2.
  - fold bytes. replace (bytes + 16) with (fr + 16 - low) by (subst fr; lia). rewrite AG by lia. rewrite F4 by lia. rewrite R3. reflexivity.
Qed.

(** ** Raw closures *)

Lemma raw_closure_sysv o rt ts objs regs sp rd :
  Forall (ctype32 o) ts -> Forall no_struct ts -> in_memory o rt = false ->
  held regs sp rd ts (places o SYSV rt ts) objs -> raw_has (raw_view SYSV regs sp rd) 0 ts objs.
Proof.
  intros CT NS MEM H. unfold places, hidden in H. rewrite MEM in H. cbn [app] in H.
  apply (held_raw o SYSV regs sp rd (raw_view SYSV regs sp rd) 0 ts 0 objs CT NS); auto; try (exists 0; reflexivity); try lia.
  intros p n _. unfold raw_view. f_equal. lia.
Qed.

Lemma raw_closure_this o rt t ts d objs regs sp rd :
  small_int (ty_code t) = true -> Forall (ctype32 o) (t :: ts) -> Forall no_struct ts -> in_memory o rt = false -> zlen d = ty_size t -> bytes_ok d ->
  held regs sp rd (t :: ts) (places o THISCALL rt (t :: ts)) (d :: objs) -> raw_has (raw_view THISCALL regs sp rd) 0 (t :: ts) (d :: objs).
Proof.
  intros SI CT NS MEM ZD BD H. unfold places, hidden in H. rewrite MEM in H. cbn [app assign last_lowest reg_params] in H.
  unfold assign in H. cbn [last_lowest reg_params assign_up] in H. rewrite SI in H.
  apply Forall_cons_iff in CT as [C1 C2]. destruct (words_pos o t C1) as (W1 & W2).
  assert (WT : words t = 4) by (apply (words_small o t C1); eapply small_one; eauto).
  destruct (assign_up THISCALL [] 0 ts) as [l e] eqn:E. cbn [fst held] in H. destruct H as [H1 H2]. cbn [at_loc] in H1.
  cbn [raw_has]. unfold raw_view at 1 2. change (4 <=? 0) with false. cbn iota.
  assert (SZ : ty_size t <= 4) by lia. replace (0 + ty_size t <=? 4) with true by lia. change (0 + 4 <=? 4) with true. cbn iota.
  change R_ECX with 2. rewrite H1.
  assert (ZZ : get_range (le_enc 4 (word_value (ty_code t) d)) 0 4 = Some (le_enc 4 (word_value (ty_code t) d))).
  { pose proof (get_range_all (le_enc 4 (word_value (ty_code t) d))) as GA. rewrite le_enc_zlen in GA. exact GA. }
  split; [|split; [auto|]].
  - pose proof (reg_seen o t d regs 2 rd C1 ZD BD SI) as RS. cbn [seen1] in RS. rewrite H1 in RS. apply RS. reflexivity.
  - rewrite WT. change (0 + 4) with 4.
    apply (held_raw o THISCALL regs sp rd (raw_view THISCALL regs sp rd) (-4) ts 4 objs C2 NS).
    + exists (-1). reflexivity.
    + exists 1. reflexivity.
    + lia.
    + change (-4 + 4) with 0. rewrite E. exact H2.
    + intros p n P. unfold raw_view. replace (4 <=? p) with true by lia. f_equal. lia.
Qed.
