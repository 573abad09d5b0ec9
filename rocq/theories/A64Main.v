(** Prepared call interfaces, and whole calls. *)
From Coq Require Import ZifyBool ZifyNat.
From Verif Require Import Base BaseFacts Types LayoutSpec NaturalTypes NaturalFacts A64Model A64Spec A64Hfa A64Facts A64Call.
Local Arguments Z.mul : simpl never.
Local Arguments Z.add : simpl never.

(** Types of results. *)
Definition result_type (p : platform) (rt : ftype) : Prop := rt = ty_void \/ (natural rt /\ quads_ok p rt).

(** A signature this backend supports with the general rules: C types without 128-bit floats
    where long double is double; on variadic signatures at least one fixed argument; not a
    variadic signature of the Windows ABI. *)
Definition signature_ok (p : platform) (abi : Z) (fixed : option Z) (rt : ftype) (ts : list ftype) : Prop :=
  Forall natural ts /\ Forall (quads_ok p) ts /\ result_type p rt /\
  (forall n, fixed = Some n -> 1 <= n) /\
  (abi = A_WIN64 -> fixed = None \/ p = Apple).

Definition base_flags : list Z := [0; 1; 2; 8; 9; 10; 11; 12; 13; 14; 15; 16; 17; 18; 19; 20; 22; 24; 26; 28; 30; 32; 66].

Definition any_hfa (ts : list ftype) : bool := existsb (fun t => match hfa_of t with Some _ => true | None => false end) ts.

Lemma vfp_code_zero t : (vfp_code t =? 0) = match hfa_of t with Some _ => false | None => true end.
Proof.
  destruct (hfa_of t) as [[c n]|] eqn:H.
  - destruct (vfp_code_pos t c n H) as (_ & NZ & _). lia.
  - unfold vfp_code. rewrite H. reflexivity.
Qed.

Lemma any_vfp_ok p ts : Forall natural ts -> Forall (quads_ok p) ts -> any_vfp p ts = Ok (any_hfa ts).
Proof.
  induction ts as [|t r IH]; intros N Q; [reflexivity|]. inversion N; inversion Q; subst.
  cbn [any_vfp any_hfa existsb]. rewrite is_vfp_exact by auto. cbn [bind]. rewrite vfp_code_zero.
  destruct (hfa_of t); cbn [negb orb]; [reflexivity|]. apply IH; auto.
Qed.

(** Return flags, by type. *)
Definition spec_flags (rt : ftype) : Z :=
  match ty_code rt with
  | T_VOID => A_VOID
  | T_UINT8 => A_UINT8 | T_UINT16 => A_UINT16 | T_UINT32 => A_UINT32
  | T_SINT8 => A_SINT8 | T_SINT16 => A_SINT16 | T_INT | T_SINT32 => A_SINT32
  | T_SINT64 | T_UINT64 | T_POINTER => A_INT64
  | _ => match hfa_of rt with
         | Some _ => vfp_code rt
         | None => if ty_size rt >? 16 then 32 else if ty_size rt =? 16 then 2
                   else if ty_size rt =? 8 then 1 else 66
         end
  end.

Lemma ret_flags_ok p rt : result_type p rt ->
  ret_flags p rt = Ok (spec_flags rt, if by_ref rt then 8 else 0) /\ In (spec_flags rt) base_flags.
Proof.
  intros [-> | [N Q]]; [split; [reflexivity|left; reflexivity]|].
  destruct (natural_int_or rt N) as [I|C].
  - destruct I as [-> | I]; [split; [reflexivity|right; left; reflexivity]|].
    cbn in I. repeat (destruct I as [<-|I]; [split; [reflexivity|vm_compute; tauto]|]). contradiction.
  - assert (E : ret_flags p rt = let* h := is_vfp p rt in
      if negb (h =? 0) then Ok (h, 0)
      else if ty_size rt >? 16 then Ok (Z.lor A_VOID A_IN_MEM, 8)
      else if ty_size rt =? 16 then Ok (A_INT128, 0)
      else if ty_size rt =? 8 then Ok (A_INT64, 0)
      else Ok (Z.lor A_INT128 A_NEED_COPY, 0)).
    { unfold ret_flags. destruct (ty_code rt); try contradiction; reflexivity. }
    assert (S : spec_flags rt = match hfa_of rt with
         | Some _ => vfp_code rt
         | None => if ty_size rt >? 16 then 32 else if ty_size rt =? 16 then 2
                   else if ty_size rt =? 8 then 1 else 66
         end) by (unfold spec_flags; destruct (ty_code rt); try contradiction; reflexivity).
    rewrite E, S, is_vfp_exact by auto. cbn [bind]. rewrite vfp_code_zero. unfold by_ref.
    destruct (hfa_of rt) as [[c n]|] eqn:H; cbn [negb].
    + split; [reflexivity|]. destruct (vfp_code_pos rt c n H) as (V & _ & _ & _ & L). rewrite V.
      apply hfa_of_spec in H. destruct H as (_ & F & _).
      assert (CN : n = 1%nat \/ n = 2%nat \/ n = 3%nat \/ n = 4%nat) by lia.
      destruct c; try discriminate F; destruct CN as [-> | [-> | [-> | ->]]]; vm_compute; tauto.
    + destruct (ty_size rt >? 16); [split; [reflexivity|vm_compute; tauto]|].
      destruct (ty_size rt =? 16); [split; [reflexivity|vm_compute; tauto]|].
      destruct (ty_size rt =? 8); split; try reflexivity; vm_compute; tauto.
Qed.

(** Whole flags of a prepared interface. *)
Definition all_flags (p : platform) (fixed : option Z) (rt : ftype) (ts : list ftype) : Z :=
  spec_flags rt + (if any_hfa ts then 128 else 0) + (match p, fixed with Apple, _ => 0 | _, Some _ => 256 | _, None => 0 end).

Lemma base_flags_lor f : In f base_flags -> Z.lor f A_ARG_V = f + 128 /\ Z.lor f A_VARARG = f + 256 /\
  Z.lor (f + 128) A_VARARG = f + 128 + 256.
Proof. intros H. cbn in H. repeat (destruct H as [<-|H]; [vm_compute; auto|]). contradiction. Qed.

Lemma prep_ok p abi fixed rt ts : signature_ok p abi fixed rt ts ->
  prep p abi fixed rt ts =
    Ok (ACif abi ts rt (wrap32 (ffi_align (core_bytes rt ts + (if by_ref rt then 8 else 0)) 16))
          (all_flags p fixed rt ts) (nfixed_of p fixed)).
Proof.
  intros (N & Q & RT & FX & W). unfold prep, machdep_var, machdep.
  destruct (ret_flags_ok p rt RT) as [E I]. rewrite E. cbn [bind]. rewrite any_vfp_ok by auto. cbn [bind].
  destruct (base_flags_lor _ I) as (L1 & L2 & L3).
  unfold all_flags, nfixed_of. destruct fixed as [n|]; destruct (any_hfa ts); destruct p; cbn [bind k_abi k_args k_rtype k_bytes k_flags k_nfixed];
    rewrite ?L1, ?L2, ?L3, ?Z.add_0_r; reflexivity.
Qed.

(** The bits the code tests. *)
Lemma flags_bits p fixed rt ts : result_type p rt ->
  let f := all_flags p fixed rt ts in
  let f0 := if Z.land f A_VARARG =? 0 then f else f - A_VARARG in
  (Z.land f A_VARARG =? 0) = (match p, fixed with Apple, _ => true | _, Some _ => false | _, None => true end) /\
  f0 = spec_flags rt + (if any_hfa ts then 128 else 0) /\
  (Z.land f A_ARG_V =? 0) = negb (any_hfa ts) /\
  (Z.land f0 A_ARG_V =? 0) = negb (any_hfa ts) /\
  (Z.land (Z.land f0 A_ARG_V) A_ARG_V =? 0) = negb (any_hfa ts) /\
  (Z.land f0 A_IN_MEM =? 0) = (Z.land (spec_flags rt) A_IN_MEM =? 0) /\
  (Z.land f A_IN_MEM =? 0) = (Z.land (spec_flags rt) A_IN_MEM =? 0) /\
  (Z.land f0 A_NEED_COPY =? 0) = (Z.land (spec_flags rt) A_NEED_COPY =? 0) /\
  (Z.land f A_NEED_COPY =? 0) = (Z.land (spec_flags rt) A_NEED_COPY =? 0) /\
  Z.land f0 A_RET_MASK = Z.land (spec_flags rt) A_RET_MASK.
Proof.
  intros RT. destruct (ret_flags_ok p rt RT) as [_ I]. unfold all_flags.
  generalize dependent (spec_flags rt). intros z I. cbn in I.
  repeat (destruct I as [<-|I]; [destruct (any_hfa ts), p, fixed; vm_compute; repeat split|]). contradiction.
Qed.

Lemma in_mem_bit p rt : result_type p rt -> (Z.land (spec_flags rt) A_IN_MEM =? 0) = negb (by_ref rt).
Proof.
  intros [-> | [N Q]]; [reflexivity|].
  destruct (natural_int_or rt N) as [I|C].
  - destruct I as [-> | I]; [reflexivity|].
    cbn in I. repeat (destruct I as [<-|I]; [reflexivity|]). contradiction.
  - assert (S : spec_flags rt = match hfa_of rt with
         | Some _ => vfp_code rt
         | None => if ty_size rt >? 16 then 32 else if ty_size rt =? 16 then 2
                   else if ty_size rt =? 8 then 1 else 66
         end) by (unfold spec_flags; destruct (ty_code rt); try contradiction; reflexivity).
    rewrite S. unfold by_ref. destruct (hfa_of rt) as [[c n]|] eqn:H.
    + destruct (vfp_code_pos rt c n H) as (V & _ & _ & _ & L). rewrite V.
      apply hfa_of_spec in H. destruct H as (_ & F & _).
      assert (CN : n = 1%nat \/ n = 2%nat \/ n = 3%nat \/ n = 4%nat) by lia.
      destruct c; try discriminate F; destruct CN as [-> | [-> | [-> | ->]]]; reflexivity.
    + destruct (ty_size rt >? 16); [reflexivity|]. destruct (ty_size rt =? 16); [reflexivity|].
      destruct (ty_size rt =? 8); reflexivity.
Qed.

(** The block as a state. *)
Lemma at_block_place b x vb v sp base t pl d :
  get_range b 128 64 = Some x -> get_range b 0 128 = Some vb -> (hfa_of t <> None -> v = vb) ->
  sp = base + 192 -> (forall i, pl = Xregs i -> 0 <= i /\ 8 * i + zlen d <= 64) ->
  (forall i, pl = Vregs i -> forall c n, hfa_of t = Some (c, n) -> 0 <= i /\ i + Z.of_nat n <= 8) ->
  at_block b t pl d -> at_place x v sp (fun a n => get_range b (a - base) n) t pl d.
Proof.
  intros GX GV V -> BX BV H. destruct pl as [i|i|o]; cbn [at_block at_place] in *.
  - destruct (BX i eq_refl). rewrite <- (get_range_sub _ _ _ _ (8 * i) (zlen d) GX) by (pose proof (zlen_nonneg d); lia). exact H.
  - destruct H as (c & n & HF & H). exists c, n. split; [exact HF|]. intros k Hk.
    destruct (H k Hk) as (e & E1 & E2). exists e. split; [exact E1|]. rewrite (V ltac:(congruence)).
    destruct (BV i eq_refl c n HF). pose proof (proj1 (hfa_of_spec _ _ _) HF) as (_ & FC & _).
    assert (U : 0 < fsize c <= 16) by (destruct c; try discriminate FC; cbn; lia).
    rewrite <- (get_range_sub _ _ _ _ (16 * (i + Z.of_nat k)) (fsize c) GV) by lia. rewrite Z.add_0_l. exact E2.
  - replace (base + 192 + o - base) with (192 + o) by lia. exact H.
Qed.

(** Bounds of the places of the specification. *)
Lemma place_bounds apple var t g v s pl g' v' s' : natural t -> 0 <= g <= 8 -> 0 <= v <= 8 ->
  place_arg apple var t g v s = (pl, g', v', s') ->
  0 <= g' <= 8 /\ 0 <= v' <= 8 /\
  (forall i, pl = Xregs i -> 0 <= i /\ 8 * i + (if by_ref t then 8 else ty_size t) <= 64 /\ hfa_of t = None) /\
  (forall i, pl = Vregs i -> forall c n, hfa_of t = Some (c, n) -> 0 <= i /\ i + Z.of_nat n <= 8).
Proof.
  intros N G V H. pose proof (natural_basic _ N) as (SP & _).
  unfold place_arg in H. destruct (hfa_of t) as [[c n]|].
  - destruct (negb var && (v + Z.of_nat n <=? 8)) eqn:C; injection H as <- <- <- <-;
      (split; [lia|]; split; [lia|]; split; [intros; discriminate|]); intros i E; [|discriminate].
    injection E as <-. intros c0 n0 E. injection E as <- <-. lia.
  - assert (DD : forall z, 0 < z -> z <= 8 * ((z + 7) / 8) /\ 0 < (z + 7) / 8).
    { intros z Z0. pose proof (Z.div_mod (z + 7) 8). pose proof (Z.mod_pos_bound (z + 7) 8). lia. }
    set (sz := if by_ref t then 8 else ty_size t) in *.
    assert (SZ : 0 < sz) by (unfold sz; destruct (by_ref t); lia). pose proof (DD sz SZ).
    destruct (negb var && (g + (sz + 7) / 8 <=? 8)) eqn:C; injection H as <- <- <- <-;
      (split; [lia|]; split; [lia|]; split; [|intros; discriminate]); intros i E; [|discriminate].
    injection E as <-. split; [lia|]. split; [lia|reflexivity].
Qed.

Lemma heldb_held b x vb v base : get_range b 128 64 = Some x -> get_range b 0 128 = Some vb ->
  forall apple fixed ts, Forall natural ts -> (any_hfa ts = true -> v = vb) -> forall objs, objects_ok ts objs ->
  forall i g vv s pls e offs, 0 <= g <= 8 -> 0 <= vv <= 8 ->
  assign apple fixed i ts g vv s = (pls, e) -> heldb base b ts pls objs offs ->
  held x v (base + 192) (fun a n => get_range b (a - base) n) ts pls objs (map (fun o => base + 192 + o) offs).
Proof.
  intros GX GV apple fixed ts F. induction F as [|t r N F IH]; intros V objs O i g vv s pls e offs G VV A H.
  - cbn [assign] in A. injection A as <- <-. inversion O; subst. cbn in *. subst. reflexivity.
  - inversion O as [|t0 o r0 os [LO BO] O']; subst. cbn [assign] in A.
    destruct (place_arg apple (variadic apple fixed i) t g vv s) as [[[pl g'] v'] s'] eqn:P.
    destruct (assign apple fixed (i + 1) r g' v' s') as [l e'] eqn:A'. injection A as <- <-.
    destruct (place_bounds _ _ _ _ _ _ _ _ _ _ N G VV P) as (B1 & B2 & B3 & B4).
    assert (VR : any_hfa r = true -> v = vb).
    { intros E. apply V. cbn [any_hfa existsb]. unfold any_hfa in E. rewrite E. apply orb_true_r. }
    assert (VT : hfa_of t <> None -> v = vb).
    { intros E. apply V. cbn [any_hfa existsb]. destruct (hfa_of t); [reflexivity|congruence]. }
    cbn [heldb held] in *. destruct (by_ref t) eqn:BR.
    + destruct offs as [|a offs]; [contradiction|]. destruct H as (H1 & H2 & H3). cbn [map].
      split; [|split].
      * eapply at_block_place; [exact GX|exact GV|exact VT|reflexivity| |exact B4|exact H1].
        intros j E. destruct (B3 j E) as (? & ? & ?). rewrite le_enc_zlen. lia.
      * replace (base + 192 + a - base) with (192 + a) by lia. exact H2.
      * exact (IH VR os O' _ _ _ _ _ _ _ B1 B2 A' H3).
    + destruct H as (H1 & H3). split; [|exact (IH VR os O' _ _ _ _ _ _ _ B1 B2 A' H3)].
      eapply at_block_place; [exact GX|exact GV|exact VT|reflexivity| |exact B4|exact H1].
      intros j E. destruct (B3 j E) as (? & ? & ?). lia.
Qed.

Lemma copy_offs_ok base ts : (16 | base) -> Forall natural ts -> forall area lo, lo <= lowest_copy ts area ->
  copies_ok ts (map (fun o => base + 192 + o) (copy_offs ts area)) (base + 192 + lo) (base + 192 + area).
Proof.
  intros DB F. induction F as [|t r N F IH]; intros area lo L; [exact Logic.I|].
  cbn [copy_offs copies_ok]. rewrite lowest_next in L. specialize (IH _ _ L).
  unfold next_area in *. destruct (by_ref t) eqn:BR; [|exact IH]. cbn [map].
  pose proof (natural_basic _ N) as (SP & PW & A16 & _). pose proof (is_pow2_pos _ PW).
  pose proof (round_down_bounds (area - ty_size t) (ty_align t) ltac:(lia)) as (D1 & D2 & D3).
  pose proof (lowest_le r (round_down (area - ty_size t) (ty_align t)) F).
  split; [lia|]. split; [lia|]. split; [|exact IH].
  apply Z.divide_add_r; [|exact D3].
  assert (P16 : is_pow2 16) by (exists 4; split; [lia|reflexivity]).
  apply Z.divide_trans with 16; [apply is_pow2_divide; auto|].
  apply Z.divide_add_r; [exact DB|]. exists 12. reflexivity.
Qed.

(** Whole calls. *)
Definition fits (p : platform) (fixed : option Z) (c : acif) : Prop :=
  stack_used (is_apple p) fixed (k_args c) <= lowest_copy (k_args c) (k_bytes c).

Lemma wrap32_range z : 0 <= wrap32 z < 2 ^ 32.
Proof. unfold wrap32, wrap. apply Z.mod_pos_bound. lia. Qed.

Theorem call_places p abi fixed rt ts c rv objs chain base g_blk g_v frame :
  signature_ok p abi fixed rt ts -> prep p abi fixed rt ts = Ok c -> objects_ok ts objs ->
  zlen g_blk = call_size c rv -> zlen g_v = 128 -> zlen frame = 40 ->
  0 <= base -> (16 | base) -> base + call_size c rv < 2 ^ 64 ->
  fits p fixed c -> pointer_slots_ok (is_apple p) fixed 0 ts (places (is_apple p) fixed ts) ->
  exists m fl r ptrs, call p c rv objs chain base g_blk g_v frame = Ok (m, fl, r) /\
    s_sp m = base + 192 /\ s_x18 m = chain /\ zlen (s_x m) = 64 /\ zlen (s_v m) = 128 /\
    held (s_x m) (s_v m) (s_sp m) (s_read m) ts (places (is_apple p) fixed ts) objs ptrs /\
    copies_ok ts ptrs (s_sp m + stack_used (is_apple p) fixed ts) (s_sp m + k_bytes c) /\
    (forall a, in_memory rt = true -> rv = Some a -> s_x8 m = a /\ r = Some a).
Proof.
  intros SO PR O ZB ZV ZF BP DB BB FIT PS. pose proof SO as (N & Q & RT & FX & W).
  rewrite (prep_ok _ _ _ _ _ SO) in PR. injection PR as PR.
  assert (EA : k_args c = ts) by (rewrite <- PR; reflexivity).
  assert (ER : k_rtype c = rt) by (rewrite <- PR; reflexivity).
  assert (EF : k_flags c = all_flags p fixed rt ts) by (rewrite <- PR; reflexivity).
  assert (EN : k_nfixed c = nfixed_of p fixed) by (rewrite <- PR; reflexivity).
  assert (EB : k_abi c = abi) by (rewrite <- PR; reflexivity).
  assert (KB : 0 <= k_bytes c < 2 ^ 32) by (rewrite <- PR; cbn [k_bytes]; apply wrap32_range).
  clear PR. unfold fits in FIT. rewrite EA in FIT.
  pose proof (flags_bits p fixed rt ts RT) as FB. cbv zeta in FB. rewrite <- EF in FB.
  destruct FB as (F1 & F2 & F3 & F4 & F5 & F6 & F7 & F8 & F9 & _).
  assert (CS : CTX + k_bytes c + 40 <= call_size c rv).
  { assert (0 <= ty_size rt) by (destruct RT as [-> | [NR _]]; [cbn; lia|pose proof (natural_basic _ NR) as (? & _); lia]).
    unfold call_size. rewrite ER. destruct rv.
    - destruct (negb _ && negb _); lia.
    - destruct (negb (Z.land (k_flags c) A_IN_MEM =? 0)); lia. }
  change CTX with 192 in CS.
  assert (WV : win_variadic c = false).
  { unfold win_variadic. rewrite F1, EB. destruct (abi =? A_WIN64) eqn:EW; [|reflexivity].
    destruct (W ltac:(lia)) as [-> | ->]; [destruct p; reflexivity|reflexivity]. }
  unfold places, stack_used in *. destruct (assign (is_apple p) fixed 0 ts 0 0 0) as [pls e] eqn:AS. cbn [fst snd] in *.
  assert (R0 : rel (is_apple p) (arg_init (k_bytes c)) (variadic (is_apple p) fixed 0) 0 0 0).
  { assert (V0 : variadic (is_apple p) fixed 0 = false).
    { unfold variadic. destruct fixed as [n|]; [|reflexivity]. specialize (FX n eq_refl). destruct (is_apple p); [cbn; lia|reflexivity]. }
    rewrite V0. unfold rel; cbn. repeat split; try lia. destruct (is_apple p); reflexivity. }
  destruct (put_args_ok (k_bytes c) p fixed base BP FX ts N Q objs O 0 g_blk (arg_init (k_bytes c)) 0 0 0 (k_bytes c) pls e
              ltac:(lia) R0 eq_refl ltac:(lia) ltac:(lia) ltac:(lia) ltac:(lia) AS ltac:(lia) FIT PS)
    as (b & st' & E & [KZ _] & _ & _ & G8 & H).
  destruct (set_range_ok b (192 + k_bytes c) frame) as (b2 & SB & ZB2); [lia|lia|].
  destruct (get_range_ok b2 0 128) as (vb & GV & LV); [lia|lia|lia|].
  destruct (get_range_ok b2 128 64) as (x & GX & LX); [lia|lia|lia|].
  unfold call. rewrite WV, EA, EN, E. cbn [bind]. change CTX with 192. rewrite SB. cbn [of_option bind].
  change (16 * N_V) with 128. change (8 * N_X) with 64. rewrite GV, GX. cbn [of_option bind].
  eexists _, _, _, (map (fun o => base + 192 + o) (copy_offs ts (k_bytes c))). split; [reflexivity|].
  cbn [s_sp s_x18 s_x s_v s_x8 s_read]. split; [reflexivity|]. split; [reflexivity|]. split; [exact LX|].
  split. { match goal with |- zlen (if ?b then _ else _) = _ => generalize b end. intros [|]; [exact ZV|exact LV]. }
  split; [|split].
  - eapply heldb_held; eauto; try lia.
    + intros AH. rewrite AH in *. cbn [negb] in *.
      destruct rv; [rewrite F4; reflexivity|]. destruct (negb _); [rewrite F4; reflexivity|rewrite F5; reflexivity].
    + apply H. split; [lia|]. intros off len d (K0 & K1 & K) GD. rewrite (get_set_disjoint _ _ _ _ off len SB); [exact GD|]. left.
      destruct G8. pose proof (lowest_le ts (k_bytes c) N). lia.
  - replace (base + 192 + e) with (base + 192 + e) by lia. apply copy_offs_ok; auto.
  - intros a IM ->. rewrite F6, (in_mem_bit p rt RT). unfold in_memory in IM. rewrite IM. cbn [negb andb Z.eqb]. auto.
Qed.
