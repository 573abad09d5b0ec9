(** i386 closures: the argument vector. *)
From Verif Require Import Base Types LayoutSpec BaseFacts NaturalTypes NaturalFacts.
From Verif Require Import I386Model I386Spec I386Facts I386Call I386CallOk.
Local Open Scope Z_scope.
Local Arguments Z.mul : simpl never.
Local Arguments Z.add : simpl never.
Local Arguments Z.sub : simpl never.

Lemma reg_seen o t d regs r rd : ctype32 o t -> zlen d = ty_size t -> bytes_ok d -> small_int (ty_code t) = true ->
  regs r = word_value (ty_code t) d -> seen1 regs rd t (AReg r) d.
Proof. intros C Z B S E. cbn [seen1]. rewrite E. apply (word_enc o t d C Z B S). Qed.

Lemma is_float o t : ctype32 o t -> passable t -> small_int (ty_code t) = false -> one_word t = true -> ty_code t = T_FLOAT.
Proof.
  intros C P S O. destruct (tcode_eqb (ty_code t) T_FLOAT) eqn:T; [destruct (ty_code t); try discriminate T; reflexivity|].
  rewrite (not_one o t C P S) in O by (intros E0; rewrite E0 in T; discriminate T). discriminate O.
Qed.

Lemma take_up o a regs regs' sp rd : down a = false -> (16 | sp) -> 0 <= sp ->
  forall ts, Forall (ctype32 o) ts -> Forall passable ts -> forall objs, objects_ok ts objs ->
  forall off n locs e, 0 <= n -> 0 <= off -> (4 | off) ->
    assign_up a (left a n) off ts = (locs, e) -> sp + e < 2 ^ 32 -> (forall r, In r (left a n) -> regs' r = regs r) ->
    held regs sp rd ts locs objs ->
  exists vs k, take_args a ts (sp + off) n = (vs, k) /\ seen regs' rd ts vs objs.
Proof.
  intros DN AL SP ts CT. induction CT as [|t ts C CT IH]; intros PS objs OK off n locs e N O D AS E RR H.
  - inversion OK; subst. cbn [take_args]. eexists _, _. split; [reflexivity|]. exact I.
  - inversion PS as [|? ? PT PS']; subst. inversion OK as [|? d ? objs' [Z B] OK']; subst.
    pose proof (ctype32_basic _ _ C) as (Sz & _). pose proof (words_size t) as [W WD].
    cbn [assign_up] in AS. cbn [take_args]. unfold take_arg. rewrite DN.
    pose proof (osa_le off t) as OL.
    assert (MONO : forall rg q l e0, assign_up a rg q ts = (l, e0) -> q <= e0).
    { intros rg q l e0 Hm. pose proof (up_mono o a ts CT rg q) as M. rewrite Hm in M. exact M. }
    destruct (small_int (ty_code t)) eqn:S.
    + destruct (small_one o t C S) as (O1 & NF & NS & _ & SZ). rewrite O1.
      replace (tcode_eqb (ty_code t) T_FLOAT) with false by (destruct (ty_code t); try reflexivity; congruence).
      rewrite left_znth by lia. destruct (left a n) as [|k regs0] eqn:LF.
      * assert (OA : on_stack_align t = 4) by (unfold on_stack_align; destruct (ty_code t); try reflexivity; congruence).
        rewrite OA in AS. rewrite (round_up_id off 4) in AS by (auto; lia).
        replace (stops a (ty_code t)) with false in AS by (destruct a, (ty_code t); try reflexivity; discriminate S).
        rewrite (words_small o t C O1) in AS. destruct (assign_up a [] (off + 4) ts) as [l e0] eqn:AS'. injection AS as <- <-.
        cbn [held] in H. destruct H as [[H1 _] H2]. rewrite <- Z.add_assoc.
        rewrite <- LF in AS'.
        destruct (IH PS' objs' OK' (off + 4) n l e0 N ltac:(lia) ltac:(apply Z.divide_add_r; auto; exists 1; reflexivity) AS' E ltac:(rewrite LF; intros r []) H2) as (vs & k & T & SN).
        rewrite T. eexists _, _. split; [reflexivity|]. cbn [seen seen1]. auto.
      * destruct (assign_up a regs0 off ts) as [l e0] eqn:AS'. injection AS as <- <-.
        cbn [held at_loc] in H. destruct H as [H1 H2].
        pose proof (left_next a n k regs0 N LF) as LN. rewrite <- LN in AS'.
        destruct (IH PS' objs' OK' off (n + 1) l e0 ltac:(lia) O D AS' E ltac:(rewrite LN; intros r IR; apply RR; right; auto) H2) as (vs & q & T & SN).
        rewrite T. eexists _, _. split; [reflexivity|]. cbn [seen]. split; [|auto].
        apply (reg_seen o); auto. rewrite RR by (left; reflexivity). exact H1.
    + assert (AS2 : (let '(l, e0) := assign_up a (if stops a (ty_code t) then [] else left a n) (round_up off (on_stack_align t) + words t) ts in (Stk (round_up off (on_stack_align t)) :: l, e0)) = (locs, e)).
      { destruct (left a n); exact AS. }
      clear AS. destruct (assign_up a (if stops a (ty_code t) then [] else left a n) (round_up off (on_stack_align t) + words t) ts) as [l e0] eqn:AS'.
      injection AS2 as <- <-. pose proof (MONO _ _ _ _ AS') as ME.
      pose proof (osa_divide off t) as OD.
      cbn [held at_loc] in H. destruct H as [[H1 _] H2].
      destruct (one_word t) eqn:O1.
      * assert (FL : ty_code t = T_FLOAT) by (eapply is_float; eauto).
        rewrite FL in *. change (tcode_eqb T_FLOAT T_FLOAT) with true. cbn iota.
        assert (OA : on_stack_align t = 4) by (unfold on_stack_align; rewrite FL; reflexivity).
        rewrite OA in *. rewrite (round_up_id off 4) in * by (auto; lia).
        rewrite (words_small o t C O1) in *.
        replace (stops a T_FLOAT) with false in * by (destruct a; reflexivity).
        rewrite <- Z.add_assoc.
        destruct (IH PS' objs' OK' (off + 4) n l e0 N ltac:(lia) ltac:(apply Z.divide_add_r; auto; exists 1; reflexivity) AS' E RR H2) as (vs & k & T & SN).
        rewrite T. eexists _, _. split; [reflexivity|]. cbn [seen seen1]. auto.
      * assert (PP : ffi_align_w 32 (sp + off) (arg_align t) = sp + round_up off (on_stack_align t)).
        { rewrite arg_align_spec. assert (DB : (on_stack_align t | sp)) by (destruct (osa_cases t) as [->|[-> _]]; [eapply Z.divide_trans; [|exact AL]; exists 4; reflexivity|auto]).
          rewrite ffi_align_w_round; [apply round_up_add; auto|lia|apply osa_pow|lia|].
          - pose proof (is_pow2_pos _ (osa_pow t)); lia.
          - rewrite round_up_add; auto; [lia|]. pose proof (is_pow2_pos _ (osa_pow t)); lia. }
        assert (WW : ffi_align_w 32 (ty_size t) 4 = words t).
        { apply ffi_align_w_round; [lia|apply pow2_small|lia|]. fold (words t). lia. }
        rewrite PP, WW, <- Z.add_assoc. rewrite <- (left_close a n (ty_code t)) in AS'.
        destruct (IH PS' objs' OK' (round_up off (on_stack_align t) + words t) (if closes_regs a (ty_code t) then 2 else n) l e0
          ltac:(destruct (closes_regs a (ty_code t)); lia) ltac:(lia) ltac:(apply Z.divide_add_r; auto) AS' E
          ltac:(rewrite left_close; intros r IR; apply RR; destruct (stops a (ty_code t)); [contradiction|auto]) H2) as (vs & k & T & SN).
        rewrite T. eexists _, _. split; [reflexivity|]. cbn [seen seen1]. auto.
Qed.

Lemma take_down o a regs regs' sp rd : down a = true ->
  forall ts, Forall (ctype32 o) ts -> Forall passable ts -> forall objs, objects_ok ts objs ->
  forall n locs e, 0 <= n ->
    assign_down a (left a n) ts = (locs, e) -> e < 2 ^ 31 -> (forall r, In r (left a n) -> regs' r = regs r) ->
    held regs sp rd ts locs objs ->
  exists vs k, take_args a ts (sp + e) n = (vs, k) /\ seen regs' rd ts vs objs.
Proof.
  intros DN ts CT. induction CT as [|t ts C CT IH]; intros PS objs OK n locs e N AS E RR H.
  - inversion OK; subst. cbn [take_args]. eexists _, _. split; [reflexivity|]. exact I.
  - inversion PS as [|? ? PT PS']; subst. inversion OK as [|? d ? objs' [Z B] OK']; subst.
    pose proof (ctype32_basic _ _ C) as (Sz & _). pose proof (words_size t) as [W WD].
    cbn [assign_down] in AS. cbn [take_args]. unfold take_arg. rewrite DN.
    assert (MONO : forall rg l e0, assign_down a rg ts = (l, e0) -> 0 <= e0).
    { intros rg l e0 Hm. pose proof (down_nonneg o a ts CT rg) as M. rewrite Hm in M. exact M. }
    assert (CL : closes_regs a (ty_code t) = false) by (destruct a; try discriminate DN; reflexivity).
    destruct (small_int (ty_code t)) eqn:S.
    + destruct (small_one o t C S) as (O1 & NF & NS & _ & SZ). rewrite O1.
      replace (tcode_eqb (ty_code t) T_FLOAT) with false by (destruct (ty_code t); try reflexivity; congruence).
      rewrite left_znth by lia. destruct (left a n) as [|k regs0] eqn:LF.
      * rewrite (words_small o t C O1) in AS. destruct (assign_down a [] ts) as [l e0] eqn:AS'. injection AS as <- <-.
        cbn [held at_loc] in H. destruct H as [[H1 _] H2]. replace (sp + (e0 + 4) - 4) with (sp + e0) by lia.
        rewrite <- LF in AS'.
        destruct (IH PS' objs' OK' n l e0 N AS' ltac:(lia) ltac:(rewrite LF; intros r []) H2) as (vs & k & T & SN).
        rewrite T. eexists _, _. split; [reflexivity|]. cbn [seen seen1]. auto.
      * destruct (assign_down a regs0 ts) as [l e0] eqn:AS'. injection AS as <- <-.
        cbn [held at_loc] in H. destruct H as [H1 H2].
        pose proof (left_next a n k regs0 N LF) as LN. rewrite <- LN in AS'.
        destruct (IH PS' objs' OK' (n + 1) l e0 ltac:(lia) AS' E ltac:(rewrite LN; intros r IR; apply RR; right; auto) H2) as (vs & q & T & SN).
        rewrite T. eexists _, _. split; [reflexivity|]. cbn [seen]. split; [|auto].
        apply (reg_seen o); auto. rewrite RR by (left; reflexivity). exact H1.
    + destruct (assign_down a (left a n) ts) as [l e0] eqn:AS'. injection AS as <- <-.
      pose proof (MONO _ _ _ AS').
      cbn [held at_loc] in H. destruct H as [[H1 _] H2].
      destruct (IH PS' objs' OK' n l e0 N AS' ltac:(lia) RR H2) as (vs & k & T & SN).
      destruct (one_word t) eqn:O1.
      * assert (FL : ty_code t = T_FLOAT) by (eapply is_float; eauto).
        rewrite FL. change (tcode_eqb T_FLOAT T_FLOAT) with true. cbn iota. rewrite (words_small o t C O1). replace (sp + (e0 + 4) - 4) with (sp + e0) by lia.
        rewrite T. eexists _, _. split; [reflexivity|]. cbn [seen seen1]. auto.
      * assert (WW : ffi_align_w 32 (ty_size t) 4 = words t).
        { apply ffi_align_w_round; [lia|apply pow2_small|lia|]. fold (words t).
          change (2 ^ 32) with 4294967296. change (2 ^ 31) with 2147483648 in E. lia. }
        rewrite WW, CL. replace (sp + (e0 + words t) - words t) with (sp + e0) by lia.
        rewrite T. eexists _, _. split; [reflexivity|]. cbn [seen seen1]. auto.
Qed.

(** The whole of ffi_closure_inner's argument vector. *)
Lemma closure_up o a rt ts c hp objs regs regs' sp rd :
  last_lowest a = false -> Forall (ctype32 o) ts -> Forall passable ts -> (ctype32 o rt \/ ty_code rt = T_VOID) ->
  objects_ok ts objs -> total ts < 2 ^ 28 -> prep o a rt ts = Some c ->
  (16 | sp) -> 0 <= sp -> sp + stack_align (k_bytes c) < 2 ^ 32 ->
  (forall r, In r (reg_params a) -> regs' r = regs r) ->
  held regs sp rd (hidden o rt ++ ts) (places o a rt ts) (hidden_obj o rt hp ++ objs) ->
  exists vs n, closure_args c regs' sp rd = Ok (vs, n, if in_memory o rt then RCaller (hp mod 2 ^ 32) else RTemp) /\ seen regs' rd ts vs objs.
Proof.
  intros LL CT PS RT OK TB PR AL SP SE RR H.
  destruct (prep_area o a rt ts c CT RT TB PR) as (KA & KT & KR & IM & FS & KB & KD & _ & SU). specialize (SU LL).
  change (2 ^ 29) with 536870912 in KB.
  assert (SA : stack_align (k_bytes c) = round_up (k_bytes c) 16) by (apply stack_align_round; change (2 ^ 31) with 2147483648; lia).
  pose proof (round_up_le (k_bytes c) 16 ltac:(lia)) as RL.
  assert (DN : down a = false) by (rewrite down_spec; auto).
  unfold closure_args. rewrite KA, KT, DN.
  unfold stack_used, places, assign in *. rewrite LL in *. unfold hidden, hidden_obj in *.
  destruct (in_memory o rt) eqn:MEM.
  - rewrite FS by reflexivity. cbn [app assign_up] in *.
    change (small_int (ty_code ty_ptr)) with true in *. cbn iota in *.
    change (stops a (ty_code ty_ptr)) with (stops a T_POINTER) in *. change (on_stack_align ty_ptr) with 4 in *. change (words ty_ptr) with 4 in *.
    change (round_up 0 4) with 0 in *.
    replace (stops a T_POINTER) with false in * by (destruct a; reflexivity).
    assert (WV : word_value T_POINTER (le_enc 4 hp) = hp mod 2 ^ 32).
    { unfold word_value. cbn [signed]. rewrite le_dec_enc. change (8 * Z.of_nat 4) with 32. apply Z.mod_mod. change (2 ^ 32) with 4294967296. lia. }
    rewrite params_spec. destruct (reg_params a) as [|k rg] eqn:RP.
    + destruct (assign_up a [] (0 + 4) ts) as [l e] eqn:AS. cbn [fst snd held at_loc] in *.
      destruct H as [[H1 _] H2]. rewrite Z.add_0_r in H1.
      destruct (take_up o a regs regs' sp rd DN AL SP ts CT PS objs OK 4 0 l e ltac:(lia) ltac:(lia) ltac:(exists 1; reflexivity)) as (vs & n & T & SN).
      { rewrite left_0, RP. exact AS. } { lia. } { rewrite left_0, RP. intros r []. } { exact H2. }
      exists vs, n. split; [|exact SN].
      change (ty_size ty_ptr) with 4 in H1.
      assert (OST : (let* x := of_option (rd sp 4) in let '(l0, n0) := take_args a ts (sp + 4) 0 in Ok (l0, n0, RCaller (le_dec x))) = Ok (vs, n, RCaller (hp mod 2 ^ 32))).
      { rewrite H1. cbn [of_option bind]. rewrite T. rewrite le_dec_enc. reflexivity. }
      destruct a; try discriminate LL; try discriminate RP; exact OST.
    + destruct (assign_up a rg 0 ts) as [l e] eqn:AS. cbn [fst snd held at_loc] in *.
      destruct H as [H1 H2].
      assert (LN : left a 1 = rg) by (change 1 with (0 + 1); apply (left_next a 0 k); [lia|rewrite left_0; exact RP]).
      destruct (take_up o a regs regs' sp rd DN AL SP ts CT PS objs OK 0 1 l e ltac:(lia) ltac:(lia) ltac:(exists 0; reflexivity)) as (vs & n & T & SN).
      { rewrite LN. exact AS. } { lia. } { rewrite LN. intros r IR. apply RR. right; auto. } { exact H2. }
      exists vs, n. split; [|exact SN]. rewrite Z.add_0_r in T.
      replace (struct_flags a) with R_STRUCTARG by (destruct a; try discriminate LL; try discriminate RP; reflexivity).
      rewrite T. rewrite RR by (left; reflexivity). rewrite H1. change (ty_code ty_ptr) with T_POINTER. rewrite WV. reflexivity.
  - cbn [app] in *. destruct (assign_up a (reg_params a) 0 ts) as [l e] eqn:AS. cbn [fst snd] in *.
    destruct (take_up o a regs regs' sp rd DN AL SP ts CT PS objs OK 0 0 l e ltac:(lia) ltac:(lia) ltac:(exists 0; reflexivity)) as (vs & n & T & SN).
    { rewrite left_0. exact AS. } { lia. } { rewrite left_0. exact RR. } { exact H. }
    exists vs, n. split; [|exact SN]. rewrite Z.add_0_r in T. rewrite T.
    destruct (k_flags c); try reflexivity; discriminate IM.
Qed.

Lemma closure_down o a rt ts c gap objs regs regs' sp rd :
  last_lowest a = true -> in_memory o rt = false -> Forall (ctype32 o) ts -> Forall passable ts -> (ctype32 o rt \/ ty_code rt = T_VOID) ->
  objects_ok ts objs -> total ts < 2 ^ 28 -> prep o a rt ts = Some c ->
  gap = stack_align (k_bytes c) - stack_used o a rt ts ->
  (forall r, In r (reg_params a) -> regs' r = regs r) ->
  held regs (sp + gap) rd ts (places o a rt ts) objs ->
  exists vs n, closure_args c regs' sp rd = Ok (vs, n, RTemp) /\ seen regs' rd ts vs objs.
Proof.
  intros LL MEM CT PS RT OK TB PR GE RR H.
  destruct (prep_area o a rt ts c CT RT TB PR) as (KA & KT & KR & IM & _ & KB & KD & SU & _). specialize (SU LL). destruct SU as [SU|SU]; [congruence|].
  change (2 ^ 29) with 536870912 in KB.
  assert (DN : down a = true) by (rewrite down_spec; auto).
  unfold closure_args. rewrite KA, KT, DN.
  unfold stack_used, places, assign in *. rewrite LL in *. unfold hidden in *. rewrite MEM in *. cbn [app] in *.
  destruct (assign_down a (reg_params a) ts) as [l e] eqn:AS. cbn [fst snd] in *.
  destruct (take_down o a regs regs' (sp + gap) rd DN ts CT PS objs OK 0 l e ltac:(lia)) as (vs & n & T & SN).
  { rewrite left_0. exact AS. } { change (2 ^ 31) with 2147483648. lia. } { rewrite left_0. exact RR. } { exact H. }
  replace (sp + gap + e) with (sp + stack_align (k_bytes c)) in T by lia. rewrite T.
  exists vs, n. split; [|exact SN]. destruct (k_flags c); try reflexivity; discriminate IM.
Qed.

(** Round trips. *)
Lemma round_up_trip o a rt ts c rv objs fn chain base blk ebp ra clo rad :
  last_lowest a = false -> Forall (ctype32 o) ts -> Forall passable ts -> (ctype32 o rt \/ ty_code rt = T_VOID) ->
  objects_ok ts objs -> total ts < 2 ^ 28 -> prep o a rt ts = Some c ->
  (16 | base) -> 0 <= base -> zlen blk = call_size c rv -> block_end base blk < 2 ^ 32 ->
  exists m b hp vs n regs, call c rv objs fn chain base blk ebp ra = Ok (m, b) /\ entry a clo rad (s_regs m) = (clo, rad, regs) /\
    closure_args c regs (s_sp m) (s_read m) = Ok (vs, n, if in_memory o rt then RCaller (hp mod 2 ^ 32) else RTemp) /\
    seen regs (s_read m) ts vs objs /\
    match rv with Some p => hp = p | None => in_memory o rt = true -> base + stack_align (k_bytes c) <= hp /\ hp + ty_size rt <= block_end base blk end.
Proof.
  intros LL CT PS RT OK TB PR AL BP ZB EB.
  destruct (call_up o a rt ts c rv objs fn chain base blk ebp ra LL CT PS RT OK TB PR AL BP ZB EB) as (m & b & hp & CL & Zb & SP & H & HP & _).
  assert (EN : exists regs, entry a clo rad (s_regs m) = (clo, rad, regs) /\ forall r, In r (reg_params a) -> regs r = s_regs m r).
  { destruct a; try discriminate LL; eexists; (split; [reflexivity|]); cbn; intros r IR; intuition; subst; reflexivity. }
  destruct EN as (regs & EN & RR).
  destruct (closure_up o a rt ts c hp objs (s_regs m) regs (s_sp m) (s_read m)) as (vs & n & CA & SN); auto.
  - rewrite SP; auto.
  - rewrite SP; auto.
  - rewrite SP. unfold block_end in EB. rewrite ZB in EB. unfold call_size, frame_size in EB.
    assert (0 <= call_rsize c rv); [|lia].
    unfold call_rsize. destruct rv; [lia|].
    destruct (prep_area o a rt ts c CT RT TB PR) as (_ & _ & KR & _). rewrite KR.
    unfold prep in PR. destruct (ret_flags o a rt) as [f|] eqn:RF; [|discriminate]. injection PR as <-. cbn [k_flags].
    destruct (flags_void o a rt f RT RF) as [->|V]; [lia|]. destruct f; lia.
  - exists m, b, hp, vs, n, regs. auto.
Qed.

Lemma pascal_trip o rt ts c rv objs fn chain base blk ebp ra clo rad :
  in_memory o rt = false -> Forall (ctype32 o) ts -> Forall passable ts -> (ctype32 o rt \/ ty_code rt = T_VOID) ->
  objects_ok ts objs -> total ts < 2 ^ 28 -> prep o PASCAL rt ts = Some c ->
  0 <= base -> zlen blk = call_size c rv -> block_end base blk < 2 ^ 32 ->
  exists m b vs n regs, call c rv objs fn chain base blk ebp ra = Ok (m, b) /\ entry PASCAL clo rad (s_regs m) = (clo, rad, regs) /\
    closure_args c regs (s_sp m) (s_read m) = Ok (vs, n, RTemp) /\ seen regs (s_read m) ts vs objs.
Proof.
  intros MEM CT PS RT OK TB PR BP ZB EB.
  destruct (call_down o PASCAL rt ts c rv objs fn chain base blk ebp ra eq_refl MEM CT PS RT OK TB PR BP ZB EB) as (m & b & gap & CL & Zb & SP & GP & GE & H & _).
  destruct (closure_down o PASCAL rt ts c gap objs (s_regs m) (fun r => if r =? R_EAX then clo else s_regs m r) (s_sp m) (s_read m)) as (vs & n & CA & SN); auto.
  { cbn. intros r []. }
  eexists m, b, vs, n, _. split; [exact CL|]. split; [reflexivity|]. auto.
Qed.
