(** The i386 ffi_call as a whole. *)
From Verif Require Import Base Types LayoutSpec BaseFacts NaturalTypes NaturalFacts.
From Verif Require Import I386Model I386Spec I386Facts I386Call.
Local Open Scope Z_scope.
Local Arguments Z.mul : simpl never.
Local Arguments Z.add : simpl never.
Local Arguments Z.sub : simpl never.

Lemma left_0 a : left a 0 = reg_params a.
Proof. reflexivity. Qed.

Lemma stack_align_round x : 0 <= x < 2 ^ 31 -> stack_align x = round_up x 16.
Proof.
  intros X. unfold stack_align. destruct pow2_small as (_ & _ & _ & _ & P). apply ffi_align_w_round; auto; try lia.
  pose proof (round_up_lt x 16 ltac:(lia)). change (2 ^ 32) with (2 ^ 31 + 2 ^ 31). change (2 ^ 31) with 2147483648 in *. lia.
Qed.

(** The area that preparation reserves. *)
Lemma prep_area o a rt ts c : Forall (ctype32 o) ts -> (ctype32 o rt \/ ty_code rt = T_VOID) -> total ts < 2 ^ 28 -> prep o a rt ts = Some c ->
  k_abi c = a /\ k_args c = ts /\ k_rtype c = rt /\ struct_ret (k_flags c) = in_memory o rt /\
  (in_memory o rt = true -> k_flags c = struct_flags a) /\ 0 <= k_bytes c < 2 ^ 29 /\ (4 | k_bytes c) /\
  (last_lowest a = true -> in_memory o rt = true \/ stack_used o a rt ts <= k_bytes c) /\
  (last_lowest a = false -> stack_used o a rt ts <= k_bytes c).
Proof.
  intros CT RT TB PR. unfold prep in PR. destruct (ret_flags o a rt) as [f|] eqn:RF; [|discriminate]. injection PR as <-.
  cbn [k_abi k_args k_rtype k_bytes k_flags].
  destruct (flags_memory o a rt f RT RF) as [IM FS].
  do 3 (split; [reflexivity|]). split; [exact IM|]. split; [rewrite <- IM; exact FS|].
  change (2 ^ 28) with 268435456 in TB. change (2 ^ 29) with 536870912.
  pose proof (total_nonneg _ _ CT).
  change (ffi_align_w 32 4 4) with 4. set (b0 := if struct_ret f then 4 else 0).
  assert (B0 : (b0 = 4 \/ b0 = 0) /\ (4 | b0)) by (subst b0; destruct (struct_ret f); (split; [auto|]); [exists 1; reflexivity|exists 0; reflexivity]).
  destruct B0 as [B0 D0].
  assert (T31 : b0 + total ts < 2 ^ 31) by (change (2 ^ 31) with 2147483648; lia).
  destruct (space_up o a ts CT [] 0 b0 ltac:(lia) ltac:(exists 0; reflexivity) D0 T31) as (U0 & UD).
  pose proof (up_mono o a ts CT [] 0).
  split; [lia|]. split; [exact UD|].
  unfold stack_used, assign, hidden. rewrite <- IM. split; intros LL; rewrite LL.
  - destruct (struct_ret f) eqn:SF; [auto|right]. cbn [app].
    destruct (space_down o a ts CT (reg_params a) b0 ltac:(lia) D0 T31) as (A & _). subst b0. lia.
  - destruct (struct_ret f) eqn:SF; subst b0; cbn [app].
    + cbn [assign_up]. change (small_int (ty_code ty_ptr)) with true. cbn iota.
      change (stops a (ty_code ty_ptr)) with (stops a T_POINTER). change (on_stack_align ty_ptr) with 4. change (words ty_ptr) with 4.
      change (round_up 0 4) with 0.
      destruct (reg_params a) as [|k rg].
      * destruct (space_up o a ts CT (if stops a T_POINTER then [] else []) (0 + 4) 4 ltac:(lia) ltac:(exists 1; reflexivity) ltac:(exists 1; reflexivity) T31) as (A & _).
        destruct (assign_up a (if stops a T_POINTER then [] else []) (0 + 4) ts). cbn [snd] in *. lia.
      * destruct (space_up o a ts CT rg 0 4 ltac:(lia) ltac:(exists 0; reflexivity) ltac:(exists 1; reflexivity) T31) as (A & _).
        destruct (assign_up a rg 0 ts). cbn [snd] in *. lia.
    + destruct (space_up o a ts CT (reg_params a) 0 0 ltac:(lia) ltac:(exists 0; reflexivity) ltac:(exists 0; reflexivity) T31) as (A & _). lia.
Qed.

(** The hidden argument is pushed like a pointer. *)
Lemma push_result_arg a base fr rv blk : down a = false ->
  push_result a base fr (struct_flags a) rv (CSt blk base 0) = push_arg a base fr ty_ptr (le_enc 4 rv) (CSt blk base 0).
Proof.
  intros D. unfold push_result, push_arg. change (one_word ty_ptr) with true. cbn iota.
  change (ty_code ty_ptr) with T_POINTER.
  assert (E : extend_basic_type (le_enc 4 rv) T_POINTER = Ok (rv mod 2 ^ 32)).
  { cbn [extend_basic_type]. change 4 with (Z.of_nat 4) at 1. rewrite <- (le_enc_zlen 4 rv), get_range_all. cbn [of_option bind].
    rewrite le_dec_enc. change (8 * Z.of_nat 4) with 32. rewrite Z.mod_mod by (change (2 ^ 32) with 4294967296; lia). reflexivity. }
  rewrite E. cbn [bind tcode_eqb b_blk b_argp b_n]. rewrite D.
  change (rv mod 2 ^ 32) with (rv mod 2 ^ (8 * Z.of_nat 4)). rewrite le_enc_mod.
  destruct a; try discriminate D; reflexivity.
Qed.

Definition hidden_obj (o : sys) (rt : ftype) (p : Z) : list (list Z) := if in_memory o rt then [le_enc 4 p] else [].

Definition block_end (base : Z) (blk : list Z) : Z := base + zlen blk.

(** Where the return code stores the result: memory of the caller, or behind the frame (32 bytes)
    if it has to be stored though nobody wants it. *)
Definition result_place (c : cif) (rv : option Z) (base : Z) : Z :=
  match rv with Some p => p | None => if 0 <? call_rsize c rv then base + stack_align (k_bytes c) + 32 else 0 end.
(** What a call leaves in its frame. *)
Definition frame_kept (c : cif) (rv : option Z) (fn base : Z) (b : list Z) : Prop :=
  get_range b (stack_align (k_bytes c) + 8) 4 = Some (le_enc 4 fn) /\
  get_range b (stack_align (k_bytes c) + 12) 4 = Some (le_enc 4 (ret_num (call_flags c rv))) /\
  get_range b (stack_align (k_bytes c) + 16) 4 = Some (le_enc 4 (result_place c rv base)).

Lemma call_gen c rv objs fn chain base blk ebp ra rvalue (S : list Z -> res cst) :
  let a := k_abi c in let fr := base + stack_align (k_bytes c) in
  0 <= stack_align (k_bytes c) -> zlen blk = call_size c rv -> 0 <= call_rsize c rv ->
  rvalue = (match rv with Some p => p | None => if 0 <? call_rsize c rv then fr + frame_size else 0 end) ->
  (forall b, S b = let* s := push_result a base fr (call_flags c rv) rvalue (CSt b (if down a then fr else base) 0) in push_args a base fr (k_args c) objs s) ->
  (forall b, zlen b = zlen blk -> exists s, S b = Ok s /\ zlen (b_blk s) = zlen blk /\
     (forall p m, 0 <= m -> fr + 8 <= p -> off_regs fr (reg_params a) p m -> get_range (b_blk s) (p - base) m = get_range b (p - base) m)) ->
  exists m b b4 s, call c rv objs fn chain base blk ebp ra = Ok (m, b) /\ zlen b = zlen blk /\ s_sp m = base /\ s_read m = reads base b /\
    (forall r, 0 <= r <= 2 -> s_regs m r = word_at base fr b r) /\
    S b4 = Ok s /\ zlen b4 = zlen blk /\ agrees base fr b (b_blk s) /\ frame_kept c rv fn base b /\
    (~ In (chain_reg a) (reg_params a) -> s_regs m (chain_reg a) = chain mod 2 ^ 32).
Proof.
  intros a fr SA ZB RZ RVE SE SO. unfold call_size, frame_size in ZB. unfold frame_kept.
  assert (CR : 0 <= chain_reg a <= 2) by (destruct a; cbv; split; discriminate).
  assert (ST : forall bk p v, zlen bk = zlen blk -> fr <= p -> p + 4 <= fr + 32 -> exists b, store base bk p (le_enc 4 v) = Ok b /\ zlen b = zlen blk /\
     get_range b (p - base) 4 = Some (le_enc 4 v) /\ forall q n, (q + n <= p \/ p + 4 <= q) -> get_range b (q - base) n = get_range bk (q - base) n).
  { intros bk p v Z1 P1 P2. subst fr. destruct (store_ok base bk p (le_enc 4 v) ltac:(lia) ltac:(rewrite le_enc_zlen; lia)) as (b & A & B & C & D).
    rewrite le_enc_zlen in C, D. change (Z.of_nat 4) with 4 in *. exists b. rewrite <- Z1. auto. }
  unfold call. fold a. fold fr. rewrite <- RVE.
  destruct (ST blk (fr + 8) fn eq_refl ltac:(lia) ltac:(lia)) as (b1 & E1 & Z1 & R1 & F1). rewrite E1. cbn [bind].
  destruct (ST b1 (fr + 12) (ret_num (call_flags c rv)) Z1 ltac:(lia) ltac:(lia)) as (b2 & E2 & Z2 & R2 & F2). rewrite E2. cbn [bind].
  destruct (ST b2 (fr + 16) rvalue Z2 ltac:(lia) ltac:(lia)) as (b3 & E3 & Z3 & R3 & F3). rewrite E3. cbn [bind].
  destruct (ST b3 (fr + 20 + 4 * chain_reg a) chain Z3 ltac:(lia) ltac:(lia)) as (b4 & E4 & Z4 & R4 & F4). rewrite E4. cbn [bind].
  replace (base + stack_align (k_bytes c)) with fr by reflexivity.
  destruct (SO b4 Z4) as (s & SS & ZS & FS). pose proof (SE b4) as SE4. rewrite SS in SE4.
  destruct (push_result a base fr (call_flags c rv) rvalue (CSt b4 (if down a then fr else base) 0)) as [s0| |] eqn:PR; try discriminate SE4. cbn [bind] in SE4 |- *.
  rewrite <- SE4. cbn [bind].
  destruct (ST (b_blk s) fr ebp ZS ltac:(lia) ltac:(lia)) as (b5 & E5 & Z5 & R5 & F5). rewrite E5. cbn [bind].
  destruct (ST b5 (fr + 4) ra Z5 ltac:(lia) ltac:(lia)) as (b6 & E6 & Z6 & R6 & F6). rewrite E6. cbn [bind].
  assert (GR : forall r, 0 <= r <= 2 -> exists x, get_range b6 (stack_align (k_bytes c) + 20 + 4 * r) 4 = Some x /\ word_at base fr b6 r = le_dec x).
  { intros r R. assert (L : exists d, get_range b6 (stack_align (k_bytes c) + 20 + 4 * r) 4 = Some d).
    { rewrite get_range_some by lia. eauto. }
    destruct L as (x & L). exists x. split; [exact L|]. unfold word_at, slot. replace (fr + 20 + 4 * r - base) with (stack_align (k_bytes c) + 20 + 4 * r) by (subst fr; lia).
    rewrite L. reflexivity. }
  destruct (GR R_EAX ltac:(cbv; split; discriminate)) as (x0 & G0 & W0). destruct (GR R_EDX ltac:(cbv; split; discriminate)) as (x1 & G1 & W1). destruct (GR R_ECX ltac:(cbv; split; discriminate)) as (x2 & G2 & W2).
  rewrite G0, G1, G2. cbn [of_option bind].
  assert (RG : forall r, 0 <= r <= 2 -> (if r =? R_EAX then le_dec x0 else if r =? R_EDX then le_dec x1 else le_dec x2) = word_at base fr b6 r).
  { intros r R. destruct (Z.eqb_spec r R_EAX) as [->|N0]; [auto|]. destruct (Z.eqb_spec r R_EDX) as [->|N1]; [auto|].
    replace r with R_ECX by (unfold R_EAX, R_EDX, R_ECX in *; lia). auto. }
  eexists _, b6, b4, s. split; [reflexivity|]. cbn [s_sp s_read s_regs]. split; [exact Z6|]. split; [reflexivity|]. split; [reflexivity|].
  split; [exact RG|]. split; [exact SS|]. split; [exact Z4|].
  assert (AG : forall q n, q + n <= fr \/ fr + 8 <= q -> get_range b6 (q - base) n = get_range (b_blk s) (q - base) n).
  { intros q n D. rewrite F6 by lia. apply F5. lia. }
  split; [intros p n _ _ D; apply AG; lia|].
  assert (NR : forall p, fr + 8 <= p -> p + 4 <= fr + 20 -> off_regs fr (reg_params a) p 4).
  { intros p P1 P2 r IR. pose proof (left_range a 0 r IR). unfold slot. lia. }
  split; [split; [|split]|].
  - replace (stack_align (k_bytes c) + 8) with (fr + 8 - base) by (subst fr; lia).
    rewrite AG by lia. rewrite FS by (try lia; apply NR; lia). rewrite F4, F3, F2 by lia. exact R1.
  - replace (stack_align (k_bytes c) + 12) with (fr + 12 - base) by (subst fr; lia).
    rewrite AG by lia. rewrite FS by (try lia; apply NR; lia). rewrite F4, F3 by lia. exact R2.
  - replace (stack_align (k_bytes c) + 16) with (fr + 16 - base) by (subst fr; lia).
    rewrite AG by lia. rewrite FS by (try lia; apply NR; lia). rewrite F4 by lia. rewrite R3, RVE. reflexivity.
  - intros NI. rewrite RG by exact CR. unfold word_at, slot. rewrite AG by lia. rewrite FS.
    + rewrite R4. rewrite le_dec_enc. reflexivity.
    + lia.
    + lia.
    + intros r IR. pose proof (left_range a 0 r IR). assert (r <> chain_reg a) by (intros ->; auto). unfold slot. lia.
Qed.

Lemma held_ext regs regs' sp rd ts : (forall r, 0 <= r <= 2 -> regs r = regs' r) ->
  forall ls objs, (forall r, In (Reg r) ls -> 0 <= r <= 2) -> held regs sp rd ts ls objs -> held regs' sp rd ts ls objs.
Proof.
  intros E. induction ts as [|t ts IH]; intros ls objs R H; destruct ls as [|l ls], objs as [|d objs]; cbn [held] in *; try contradiction; auto.
  destruct H as [H1 H2]. split; [|apply IH; auto; intros r I; apply R; right; auto].
  destruct l; cbn [at_loc] in *; [|auto]. rewrite <- E; auto. apply R; left; reflexivity.
Qed.

Lemma up_regs a ts : forall rg off, (forall r, In r rg -> 0 <= r <= 2) -> forall r, In (Reg r) (fst (assign_up a rg off ts)) -> In r rg.
Proof.
  induction ts as [|t ts IH]; intros rg off R r I; cbn [assign_up] in I; [contradiction|].
  destruct (small_int (ty_code t)), rg as [|k rg'];
    match type of I with context [assign_up a ?x ?p ts] => specialize (IH x p); destruct (assign_up a x p ts) as [l e] end; cbn [fst] in *;
    destruct I as [I|I]; try discriminate I.
  - destruct (stops a (ty_code t)); apply IH in I; auto; intros ? [].
  - injection I as ->. left; reflexivity.
  - right. apply IH; auto. intros; apply R; right; auto.
  - destruct (stops a (ty_code t)); apply IH in I; auto; intros ? [].
  - destruct (stops a (ty_code t)); apply IH in I; auto; [contradiction|intros ? []].
Qed.
Lemma down_regs a ts : forall rg, (forall r, In r rg -> 0 <= r <= 2) -> forall r, In (Reg r) (fst (assign_down a rg ts)) -> In r rg.
Proof.
  induction ts as [|t ts IH]; intros rg R r I; cbn [assign_down] in I; [contradiction|].
  destruct (small_int (ty_code t)), rg as [|k rg'];
    match type of I with context [assign_down a ?x ts] => specialize (IH x); destruct (assign_down a x ts) as [l e] end; cbn [fst] in *;
    destruct I as [I|I]; try discriminate I; auto.
  - injection I as ->. left; reflexivity.
  - right. apply IH; auto. intros; apply R; right; auto.
Qed.

Lemma rsize_nonneg o c rv : (ctype32 o (k_rtype c) \/ ty_code (k_rtype c) = T_VOID) -> struct_ret (k_flags c) = in_memory o (k_rtype c) ->
  (k_flags c = R_VOID \/ 0 <= ty_size (k_rtype c)) -> 0 <= call_rsize c rv.
Proof. intros _ _ V. unfold call_rsize. destruct rv; [lia|]. destruct V as [->|V]; [lia|]. destruct (k_flags c); lia. Qed.

Lemma flags_void o a rt f : (ctype32 o rt \/ ty_code rt = T_VOID) -> ret_flags o a rt = Some f -> f = R_VOID \/ 0 < ty_size rt.
Proof.
  intros [C|V] H; [right; apply ctype32_basic in C; destruct C; auto|left]. unfold ret_flags in H. rewrite V in H. congruence.
Qed.

(** First argument lowest. *)
Lemma call_up o a rt ts c rv objs fn chain base blk ebp ra :
  last_lowest a = false -> Forall (ctype32 o) ts -> Forall passable ts -> (ctype32 o rt \/ ty_code rt = T_VOID) ->
  objects_ok ts objs -> total ts < 2 ^ 28 -> prep o a rt ts = Some c ->
  (16 | base) -> 0 <= base -> zlen blk = call_size c rv -> block_end base blk < 2 ^ 32 ->
  exists m b hp, call c rv objs fn chain base blk ebp ra = Ok (m, b) /\ zlen b = zlen blk /\ s_sp m = base /\
    held (s_regs m) (s_sp m) (s_read m) (hidden o rt ++ ts) (places o a rt ts) (hidden_obj o rt hp ++ objs) /\
    match rv with Some p => hp = p | None => in_memory o rt = true -> base + stack_align (k_bytes c) <= hp /\ hp + ty_size rt <= block_end base blk end /\
    frame_kept c rv fn base b /\ s_regs m (chain_reg a) = chain mod 2 ^ 32.
Proof.
  intros LL CT PS RT OK TB PR AL BP ZB EB.
  destruct (prep_area o a rt ts c CT RT TB PR) as (KA & KT & KR & IM & FS & KB & KD & _ & SU). specialize (SU LL).
  assert (FV : k_flags c = R_VOID \/ 0 < ty_size rt).
  { unfold prep in PR. destruct (ret_flags o a rt) as [f|] eqn:RF; [|discriminate]. injection PR as <-. eapply flags_void; eauto. }
  change (2 ^ 29) with 536870912 in KB.
  assert (SA : stack_align (k_bytes c) = round_up (k_bytes c) 16) by (apply stack_align_round; change (2 ^ 31) with 2147483648; lia).
  pose proof (round_up_le (k_bytes c) 16 ltac:(lia)) as RL.
  assert (RZ : 0 <= call_rsize c rv).
  { unfold call_rsize. rewrite KR. destruct rv; [lia|]. destruct FV as [->|V]; [lia|]. destruct (k_flags c); lia. }
  assert (DN : down a = false) by (rewrite down_spec; auto).
  set (fr := base + stack_align (k_bytes c)).
  set (hp := match rv with Some p => p | None => if 0 <? call_rsize c rv then fr + frame_size else 0 end).
  unfold call_size, frame_size in ZB. unfold block_end in *.
  assert (LS : exists locs, assign_up a (left a 0) 0 (hidden o rt ++ ts) = (locs, stack_used o a rt ts) /\ locs = places o a rt ts).
  { unfold stack_used, places, assign. rewrite LL, left_0. destruct (assign_up a (reg_params a) 0 (hidden o rt ++ ts)) as [l e]. eauto. }
  destruct LS as (locs & LS & LP).
  assert (CTH : Forall (ctype32 o) (hidden o rt ++ ts)) by (apply Forall_app; split; auto; unfold hidden; destruct (in_memory o rt); repeat constructor).
  assert (PSH : Forall passable (hidden o rt ++ ts)).
  { apply Forall_app; split; auto. unfold hidden; destruct (in_memory o rt); [constructor; [intros X; discriminate X|constructor]|constructor]. }
  assert (OKH : objects_ok (hidden o rt ++ ts) (hidden_obj o rt hp ++ objs)).
  { unfold hidden, hidden_obj. destruct (in_memory o rt); [|exact OK]. constructor; [|exact OK]. rewrite le_enc_zlen. split; [reflexivity|apply le_enc_ok]. }
  set (S := fun b => push_args a base fr (hidden o rt ++ ts) (hidden_obj o rt hp ++ objs) (CSt b (base + 0) 0)).
  assert (PU : forall b, zlen b = zlen blk -> exists s, S b = Ok s /\ zlen (b_blk s) = zlen blk /\
     (forall p m, 0 <= m -> base <= p -> p + m <= base + 0 \/ fr <= p -> off_regs fr (left a 0) p m -> get_range (b_blk s) (p - base) m = get_range b (p - base) m) /\
     (forall F, agrees base fr F (b_blk s) -> held (word_at base fr F) base (reads base F) (hidden o rt ++ ts) locs (hidden_obj o rt hp ++ objs))).
  { intros b Zb. rewrite <- Zb. eapply (push_up o a base fr DN AL BP ltac:(lia)); eauto; try lia; try (exists 0; reflexivity). }
  destruct (call_gen c rv objs fn chain base blk ebp ra hp S) as (m & b & b4 & s & CL & Zb & SP & RD & RG & S4 & Z4 & AG & FK & CH).
  - lia.
  - exact ZB.
  - exact RZ.
  - reflexivity.
  - intros b. subst S. cbv beta. rewrite KA, KT, DN, Z.add_0_r. fold fr.
    destruct (call_flags_struct c rv) as [CF1 CF2]. unfold hidden, hidden_obj.
    destruct (in_memory o rt) eqn:MEM.
    + rewrite CF2 by auto. rewrite FS by auto. rewrite push_result_arg by auto. reflexivity.
    + replace (push_result a base fr (call_flags c rv) hp (CSt b base 0)) with (Ok (CSt b base 0)).
      * reflexivity.
      * unfold push_result. destruct (call_flags c rv); try reflexivity; cbn in CF1; congruence.
  - intros b Zb. destruct (PU b Zb) as (s & A & B & C & _). exists s. split; [exact A|]. split; [exact B|].
    rewrite KA. fold fr. intros p n N P R. apply C; auto; lia.
  - exists m, b, hp. split; [exact CL|]. split; [exact Zb|]. split; [exact SP|].
    destruct (PU b4 Z4) as (s' & A & _ & _ & H). rewrite S4 in A. injection A as <-.
    rewrite KA in *. fold fr in RG, AG, CH. split.
    + rewrite SP, RD, <- LP. apply (held_ext (word_at base fr b)); [intros r R; symmetry; auto| |apply H; exact AG].
      intros r I. apply (left_range a 0). rewrite left_0. rewrite LP in I. unfold places, assign in I. rewrite LL in I.
      eapply up_regs; [|exact I]. intros q Q. apply (left_range a 0). exact Q.
    + split; [|split; [exact FK|]].
      * subst hp. destruct rv as [p|]; [reflexivity|]. intros MEM. rewrite MEM in IM.
        assert (CRS : call_rsize c None = ty_size rt) by (unfold call_rsize; rewrite KR; destruct (k_flags c); try discriminate IM; reflexivity).
        rewrite CRS in *. destruct FV as [V|V]; [rewrite V in IM; discriminate IM|].
        replace (0 <? ty_size rt) with true by lia. unfold frame_size. subst fr. lia.
      * apply CH. destruct a; try discriminate LL; cbn; intuition discriminate.
Qed.

(** Last argument lowest. *)
Lemma call_down o a rt ts c rv objs fn chain base blk ebp ra :
  last_lowest a = true -> in_memory o rt = false -> Forall (ctype32 o) ts -> Forall passable ts -> (ctype32 o rt \/ ty_code rt = T_VOID) ->
  objects_ok ts objs -> total ts < 2 ^ 28 -> prep o a rt ts = Some c ->
  0 <= base -> zlen blk = call_size c rv -> block_end base blk < 2 ^ 32 ->
  exists m b gap, call c rv objs fn chain base blk ebp ra = Ok (m, b) /\ zlen b = zlen blk /\ s_sp m = base /\
    0 <= gap /\ gap = stack_align (k_bytes c) - stack_used o a rt ts /\
    held (s_regs m) (s_sp m + gap) (s_read m) ts (places o a rt ts) objs /\ frame_kept c rv fn base b /\
    (~ In (chain_reg a) (reg_params a) -> s_regs m (chain_reg a) = chain mod 2 ^ 32).
Proof.
  intros LL MEM CT PS RT OK TB PR BP ZB EB.
  destruct (prep_area o a rt ts c CT RT TB PR) as (KA & KT & KR & IM & _ & KB & KD & SU & _). specialize (SU LL). destruct SU as [SU|SU]; [congruence|].
  assert (FV : k_flags c = R_VOID \/ 0 < ty_size rt).
  { unfold prep in PR. destruct (ret_flags o a rt) as [f|] eqn:RF; [|discriminate]. injection PR as <-. eapply flags_void; eauto. }
  change (2 ^ 29) with 536870912 in KB.
  assert (SA : stack_align (k_bytes c) = round_up (k_bytes c) 16) by (apply stack_align_round; change (2 ^ 31) with 2147483648; lia).
  pose proof (round_up_le (k_bytes c) 16 ltac:(lia)) as RL.
  assert (RZ : 0 <= call_rsize c rv).
  { unfold call_rsize. rewrite KR. destruct rv; [lia|]. destruct FV as [->|V]; [lia|]. destruct (k_flags c); lia. }
  assert (DN : down a = true) by (rewrite down_spec; auto).
  set (fr := base + stack_align (k_bytes c)).
  set (hp := match rv with Some p => p | None => if 0 <? call_rsize c rv then fr + frame_size else 0 end).
  unfold call_size, frame_size in ZB. unfold block_end in *.
  set (g := stack_align (k_bytes c) - stack_used o a rt ts).
  assert (LS : exists locs, assign_down a (left a 0) ts = (locs, stack_used o a rt ts) /\ locs = places o a rt ts).
  { unfold stack_used, places, assign, hidden. rewrite LL, MEM, left_0. cbn [app]. destruct (assign_down a (reg_params a) ts) as [l e]. eauto. }
  destruct LS as (locs & LS & LP).
  assert (FRE : fr = base + g + stack_used o a rt ts) by (subst fr g; lia).
  set (S := fun b => push_args a base fr ts objs (CSt b (base + g + stack_used o a rt ts) 0)).
  assert (PU : forall b, zlen b = zlen blk -> exists s, S b = Ok s /\ zlen (b_blk s) = zlen blk /\
     (forall p m, 0 <= m -> base <= p -> p + m <= base + g \/ base + g + stack_used o a rt ts <= p -> off_regs fr (left a 0) p m -> get_range (b_blk s) (p - base) m = get_range b (p - base) m) /\
     (forall F, agrees base fr F (b_blk s) -> held (word_at base fr F) (base + g) (reads base F) ts locs objs)).
  { intros b Zb. rewrite <- Zb. eapply (push_down o a base fr g DN BP ltac:(subst g; lia) ltac:(subst fr; lia)); eauto; try lia. }
  destruct (call_gen c rv objs fn chain base blk ebp ra hp S) as (m & b & b4 & s & CL & Zb & SP & RD & RG & S4 & Z4 & AG & FK & CH).
  - lia.
  - exact ZB.
  - exact RZ.
  - reflexivity.
  - intros b. subst S. cbv beta. rewrite KA, KT, DN. fold fr. rewrite <- FRE.
    destruct (call_flags_struct c rv) as [CF1 CF2].
    replace (push_result a base fr (call_flags c rv) hp (CSt b fr 0)) with (Ok (CSt b fr 0)).
    + reflexivity.
    + unfold push_result. destruct (call_flags c rv); try reflexivity; cbn in CF1; congruence.
  - intros b Zb. destruct (PU b Zb) as (s & A & B & C & _). exists s. split; [exact A|]. split; [exact B|].
    rewrite KA. fold fr. intros p n N P R. apply C; auto; lia.
  - exists m, b, g. split; [exact CL|]. split; [exact Zb|]. split; [exact SP|]. split; [subst g; lia|]. split; [reflexivity|].
    destruct (PU b4 Z4) as (s' & A & _ & _ & H). rewrite S4 in A. injection A as <-.
    rewrite KA in *. fold fr in RG, AG, CH. split; [|split; [exact FK|exact CH]].
    rewrite SP, RD, <- LP. apply (held_ext (word_at base fr b)); [intros r R; symmetry; auto| |apply H; exact AG].
    intros r I. apply (left_range a 0). rewrite left_0. rewrite LP in I. unfold places, assign, hidden in I. rewrite LL, MEM in I. cbn [app] in I.
    eapply down_regs; [|exact I]. intros q Q. apply (left_range a 0). exact Q.
Qed.
