(** Returns of 32-bit x86 closures, Go closures and raw closures. *)
From Coq Require Import ZifyBool ZifyNat.
From Verif Require Import Base Types BaseFacts ByteMem X87Model X87Facts I386Model I386Spec I386RetSpec I386RawSpec I386Facts I386Call I386CallOk I386Closure I386Ret I386Raw I386Lemmas.
From Verif Require Import I386AsmModel I386AsmFacts I386AsmCall I386AsmClo I386AsmTramp I386AsmRet I386AsmRaw I386AsmEnter I386AsmBack I386AsmTop.
Local Open Scope Z_scope.
Local Arguments Z.mul : simpl never.
Local Arguments Z.add : simpl never.
Local Arguments Z.sub : simpl never.
Local Arguments Z.pow : simpl never.
Local Arguments Z.of_nat : simpl never.

(** ** The value of ffi_closure_inner *)

Lemma lor_low k q : 0 <= k < 16 -> 0 <= q -> Z.lor k (16 * q) = k + 16 * q.
Proof.
  intros K Q. symmetry. apply Z.add_nocarry_lxor || idtac.
  rewrite <- Z.lxor_lor.
  - apply Z.add_nocarry_lxor.
    apply Z.bits_inj'. intros n Hn. rewrite Z.land_spec, Z.bits_0. destruct (Z_lt_dec n 4) as [L|L].
    + replace (16 * q) with (q * 2 ^ 4) by lia. rewrite Z.mul_pow2_bits_low by lia. apply Bool.andb_false_r.
    + destruct (Z.eq_dec k 0) as [-> |N]; [rewrite Z.bits_0; reflexivity|]. rewrite (Z.bits_above_log2 k n); [reflexivity|lia|].
      apply Z.lt_le_trans with 4; [apply Z.log2_lt_pow2; lia|lia].
  - apply Z.bits_inj'. intros n Hn. rewrite Z.land_spec, Z.bits_0. destruct (Z_lt_dec n 4) as [L|L].
    + replace (16 * q) with (q * 2 ^ 4) by lia. rewrite Z.mul_pow2_bits_low by lia. apply Bool.andb_false_r.
    + destruct (Z.eq_dec k 0) as [-> |N]; [rewrite Z.bits_0; reflexivity|]. rewrite (Z.bits_above_log2 k n); [reflexivity|lia|].
      apply Z.lt_le_trans with 4; [apply Z.log2_lt_pow2; lia|lia].
Qed.

Lemma wrap16 x : wrap32 (x * 16) = 16 * (x mod 2 ^ 28).
Proof.
  unfold wrap32, wrap. replace (2 ^ 32) with (2 ^ 28 * 16) by reflexivity. rewrite Zmult_mod_distr_r. lia.
Qed.

Lemma inner_split c n : let v := inner_value c n in
  v mod 16 = ret_num (k_flags c) /\ v / 16 = pop_count c n /\ 0 <= v < 2 ^ 32.
Proof.
  intros v. assert (R : 0 <= ret_num (k_flags c) < 16) by (destruct (k_flags c); cbn; lia).
  assert (G : forall y, let w := Z.lor (ret_num (k_flags c)) (wrap32 (y * 16)) in w mod 16 = ret_num (k_flags c) /\ w / 16 = wrap32 (y * 16) / 16 /\ 0 <= w < 2 ^ 32).
  { intros y w. subst w. rewrite wrap16. pose proof (Z.mod_pos_bound y (2 ^ 28) eq_refl) as MB. rewrite lor_low by lia.
    replace (16 * (y mod 2 ^ 28)) with (y mod 2 ^ 28 * 16) by lia. rewrite Z_mod_plus_full, Z.div_add, Z.div_mul by lia.
    rewrite Z.mod_small, Z.div_small by lia. change (2 ^ 32) with (2 ^ 28 * 16). lia. }
  subst v. unfold inner_value, pop_count. destruct (k_abi c);
    try (rewrite Z.mod_small, Z.div_small by lia; change (2 ^ 32) with (2 ^ 28 * 16); lia); apply G.
Qed.

(** ** What the load tables load *)

Lemma rd_get M a off n k : 0 <= off -> 0 <= k -> off + k <= Z.of_nat n -> get_range (rd M a n) off k = Some (rd M (a + off) (Z.to_nat k)).
Proof.
  intros H1 H2 H3. destruct (get_range (rd M a n) off k) as [b|] eqn:E.
  - apply get_rd in E. rewrite E. reflexivity.
  - exfalso. unfold get_range in E. rewrite rd_zlen in E.
    match type of E with (if ?q then _ else _) = None => replace q with true in E by lia end. discriminate E.
Qed.

Lemma load_is f M a edx pop :
  load_result f (rd M a 16) edx pop =
  Ok (After (load_eax (ret_num f) (le_dec (rd M a 4))) (match f with R_INT64 => le_dec (rd M (a + 4) 4) | _ => edx end)
        (match load_st (ret_num f) M a with x :: _ => Some x | [] => None end) pop).
Proof.
  unfold load_result. rewrite (rd_get M a 0 16 4) by lia. rewrite (rd_get M a 4 16 4), (rd_get M a 0 16 8), (rd_get M a 0 16 10) by lia.
  rewrite Z.add_0_r. destruct f; reflexivity.
Qed.

Lemma load_none f M a x : In x (load_st (ret_num f) M a) -> load_st (ret_num f) M a = [x].
Proof. destruct f; cbn [ret_num load_st]; intros H; cbn [In] in H; try contradiction; destruct H as [-> |[]]; reflexivity. Qed.

(** A closure's result where the convention puts it: [hp] is the pointer to a result in memory. *)
Definition result_out (o : sys) (rt : ftype) (d : list Z) (hp : Z) (X : Z -> Z) (F0 F : list ext) : Prop :=
  exists st0, F0 = (match in_x87 o rt with Some _ => st0 :: F | None => F end) /\
    (in_memory o rt = true -> X EAX = hp mod 2 ^ 32) /\
    (in_memory o rt = false -> ty_code rt <> T_VOID ->
       returned o rt d (X EAX) (X EDX) st0 /\ (small_int (ty_code rt) = true -> X EAX = word_value (ty_code rt) d)).

(** Memory in which a handler left its result, or (for one in memory) the pointer to it. *)
Definition result_left (o : sys) (rt : ftype) (d : list Z) (hp : Z) (M : Z -> Z) (a : Z) : Prop :=
  (in_memory o rt = true -> rd M a 4 = le_enc 4 hp) /\
  (in_memory o rt = false -> ty_code rt <> T_VOID ->
     zlen d = ty_size rt /\ bytes_ok d /\ rd M a (length (meaning rt d)) = meaning rt d /\
     forall n, in_x87 o rt = Some n -> signalling n (meaning rt d) = false).

Lemma flags_of o a rt ts c : prep o a rt ts = Some c -> ret_flags o a rt = Some (k_flags c).
Proof. unfold prep. destruct (ret_flags o a rt) as [f|]; [|discriminate]. intros Q. injection Q as <-. reflexivity. Qed.

Lemma meaning_zlen rt d : ty_code rt <> T_LONGDOUBLE \/ zlen d <= 16 -> zlen d <= 16 -> zlen (meaning rt d) <= 16.
Proof. intros _ H. unfold meaning. destruct (ty_code rt); try exact H. rewrite zlen_firstn. lia. Qed.

Lemma register_size o rt : ctype32 o rt -> in_memory o rt = false -> ty_size rt <= 16.
Proof.
  intros C MEM. inversion C as [|t0 I|t0 I|s0 a0 es0 offs NE F SL]; subst.
  - cbn. lia.
  - destruct o; cbn in I; in_cases I; vm_compute; discriminate.
  - destruct o; cbn in I; in_cases I; try discriminate MEM; vm_compute; discriminate.
  - unfold in_memory in MEM. cbn [ty_code ty_size] in *. destruct o; [discriminate MEM|lia|lia].
Qed.

Lemma loaded o a rt ts c d hp M sp X F :
  (ctype32 o rt \/ ty_code rt = T_VOID) -> x87_struct o rt -> prep o a rt ts = Some c -> mem_ok M -> result_left o rt d hp M sp ->
  X EAX = load_eax (ret_num (k_flags c)) (le_dec (rd M sp 4)) -> (ret_num (k_flags c) = 7 -> X EDX = le_dec (rd M (sp + 4) 4)) ->
  result_out o rt d hp X (load_st (ret_num (k_flags c)) M sp ++ F) F.
Proof.
  intros RT XS PR HM (RM & RR) XA XD. pose proof (flags_of o a rt ts c PR) as RF.
  pose (af := After (X EAX) (X EDX) (match load_st (ret_num (k_flags c)) M sp with x :: _ => Some x | [] => None end) 0).
  assert (LE : load_result (k_flags c) (rd M sp 16) (X EDX) 0 = Ok af).
  { rewrite load_is. unfold af. f_equal. f_equal; [symmetry; exact XA|]. destruct (k_flags c); try reflexivity. symmetry. apply XD. reflexivity. }
  exists (match r_st af with Some y => y | None => Ext 0 0 0 end).
  pose proof (x87_code o a rt _ RT XS RF) as XC.
  split; [|split].
  - unfold af. cbn [r_st]. destruct (in_x87 o rt) as [n|].
    + destruct XC as ([(E & _)|[(E & _)|(E & _)]] & _); rewrite E; reflexivity.
    + destruct (k_flags c); cbn [ret_num] in XC; try lia; reflexivity.
  - intros MEM. destruct (flags_memory o a rt _ RT RF) as [SR _]. rewrite MEM in SR. rewrite XA, (RM MEM), le_dec_enc.
    destruct (k_flags c); try discriminate SR; reflexivity.
  - intros MEM NV. destruct RT as [C|V]; [|contradiction]. destruct (RR MEM NV) as (ZD & BD & GD & SG).
    assert (Z16 : zlen (meaning rt d) <= 16) by (pose proof (register_size o rt C MEM); apply meaning_zlen; [right|]; lia).
    destruct (closure_result o a rt c ts d (rd M sp 16) (X EDX) 0 true C MEM XS PR ZD BD) as (af' & E & HD & HX & HW).
    + rewrite rd_zlen. lia.
    + apply rd_bytes, HM.
    + rewrite rd_get by (unfold zlen in *; lia). f_equal. rewrite Z.add_0_r. unfold zlen. rewrite Nat2Z.id. exact GD.
    + exact SG.
    + unfold closure_ret in E. rewrite load_is in E, LE. injection E as <-. cbn [r_eax r_edx r_st] in *.
      unfold af in LE. injection LE as L1 L2. unfold af. cbn [r_st]. specialize (HD (Ext 0 0 0)). rewrite L1, L2 in HD. rewrite L1 in HW.
      split; [exact HD|exact HW].
Qed.

(** ** Closures *)

Lemma popped_is o a rt ts c n : prep o a rt ts = Some c ->
  popped (plain_entry a) (inner_value c n) = (if plain_entry a then plain_pop (k_flags c) else pop_count c n).
Proof.
  intros PR. destruct (inner_split c n) as (V1 & V2 & _). unfold popped. rewrite V1, V2. destruct (plain_entry a); [|reflexivity].
  destruct (k_flags c); reflexivity.
Qed.

(** From the return of ffi_closure_inner to the caller of the closure. *)
Lemma closure_left o a rt ts c regs q vs n p d hp g e org sp X F M :
  (a = SYSV \/ a = MS_CDECL \/ ((a = STDCALL \/ a = THISCALL \/ a = FASTCALL) /\ Forall (flat o a) ts)) ->
  Forall (ctype32 o) ts -> Forall passable ts -> (ctype32 o rt \/ ty_code rt = T_VOID) -> x87_struct o rt -> total ts < 2 ^ 27 ->
  prep o a rt ts = Some c -> closure_args c regs (sp + 48) q = Ok (vs, n, p) ->
  0 <= org -> org + 2048 <= 2 ^ 32 -> 0 <= e_got e < 2 ^ 32 -> tracked e g -> mem_ok M ->
  X ESP = sp -> 4 <= sp -> sp + 60 + pops o a rt ts < 2 ^ 32 -> X EAX = inner_value c n -> (g_pic g = Plt -> X EBX = e_got e) -> zlen F < 8 ->
  result_left o rt d hp M sp ->
  exists X1 F1 M1,
    reach e (text g) org (St X F false (at_label (src g) org (back_label (plain_entry a))) M) (St X1 F1 false (le_dec (rd M (sp + 44) 4)) M1) /\
    result_out o rt d hp X1 F1 F /\ X1 ESP = sp + 48 + pops o a rt ts /\
    X1 EBX = (match g_pic g with Plt => le_dec (rd M (sp + 40) 4) | _ => X EBX end) /\ (forall i, 5 <= i -> X1 i = X i) /\
    (forall x, ~ (sp - 4 <= x < sp + 48 + pops o a rt ts) -> M1 x = M x).
Proof.
  intros AB CT PS RT XS TB PR CA Ho Ho2 HG HT HM HS S4 SE HA HB HF RL.
  destruct (inner_split c n) as (V1 & V2 & VR). set (v := inner_value c n) in *.
  pose proof (closure_pops o a rt ts c regs (sp + 48) q vs n p (rd M sp 16) 0 _ AB CT PS RT TB PR CA (load_is _ M sp 0 _)) as PP. cbn [r_pop] in PP.
  rewrite <- (popped_is o a rt ts c n PR) in PP. fold v in PP.
  assert (P0 : 0 <= pops o a rt ts).
  { rewrite <- PP. unfold popped. pose proof (Z.div_pos v 16 ltac:(lia) ltac:(lia)). destruct (plain_entry a); [destruct (v mod 16 =? 10); lia|lia]. }
  assert (RN : 0 <= ret_num (k_flags c) < 14) by (destruct (k_flags c); cbn; lia).
  destruct (clo_leave (plain_entry a) g e org X F M sp v (ret_num (k_flags c)) Ho Ho2 HG HT HM HS S4 ltac:(lia) HA VR HB) as (X1 & M1 & R1 & A1 & D1 & S1 & B1 & K1 & O1).
  - intros Q. rewrite <- PP in SE. unfold popped in SE. rewrite Q in SE. exact SE.
  - exact V1.
  - exact RN.
  - exact HF.
  - exists X1, (load_st (ret_num (k_flags c)) M sp ++ F), M1. split; [exact R1|]. split; [|split; [|split; [exact B1|split; [exact K1|]]]].
    + apply (loaded o a rt ts c d hp M sp X1 F RT XS PR HM RL A1 D1).
    + rewrite S1, PP. reflexivity.
    + intros x N. apply O1; [lia|]. intros Q. unfold popped in PP. rewrite Q in PP. lia.
Qed.

(** ** Go closures *)

(** Label of the entry code (src/x86/ffi.c:645-660). *)
Definition go_start (a : abi) (pl : bool) : Z := go_label pl (go_reg a =? R_EAX).

Lemma go_entered o a rt ts c hp objs g e org clo sp X F k M pl :
  last_lowest a = false -> go_plain a = Some pl -> Forall (ctype32 o) ts -> Forall passable ts -> (ctype32 o rt \/ ty_code rt = T_VOID) ->
  objects_ok ts objs -> total ts < 2 ^ 28 -> prep o a rt ts = Some c ->
  (16 | sp + 48) -> 4 <= sp -> sp + 48 + stack_align (k_bytes c) < 2 ^ 32 ->
  0 <= org -> org + 2048 <= 2 ^ 32 -> 0 <= e_got e < 2 ^ 32 -> (k = true -> g_cet g = true) -> regs_ok X -> mem_ok M ->
  arg_regs X (go_reg a) = clo -> clo + 12 <= 2 ^ 32 -> X ESP = sp + 44 -> clo + 12 <= sp - 4 \/ sp + 48 <= clo ->
  held (arg_regs X) (sp + 48) (reader M) (hidden o rt ++ ts) (places o a rt ts) (hidden_obj o rt hp ++ objs) ->
  exists X1 M1 vs n,
    reach e (text g) org (St X F k (at_label (src g) org (go_start a pl)) M) (St X1 F false (e_inner e) M1) /\
    inner_ready g e org pl sp (rd M (clo + 4) 4) (rd M (clo + 8) 4) (le_enc 4 clo) X M X1 M1 /\
    closure_args c (frame_regs M1 sp) (sp + 48) (reader M1) = Ok (vs, n, if in_memory o rt then RCaller (hp mod 2 ^ 32) else RTemp) /\
    seen (frame_regs M1 sp) (reader M1) ts vs objs.
Proof.
  intros LL GP CT PS RT OK TB PR AL S4 SE Ho Ho2 HG Hk HX HM HC C12 HS DJ HH.
  destruct (group_plain a (or_introl LL)) as (_ & _ & RP).
  pose proof (align_nonneg o a rt ts c CT RT TB PR) as SA.
  assert (HC' : X (if go_reg a =? R_EAX then EAX else ECX) = clo) by (rewrite <- HC; destruct a; try discriminate GP; reflexivity).
  assert (RC : 0 <= clo < 2 ^ 32) by (rewrite <- HC'; apply HX).
  assert (PE : pl = false -> (go_reg a =? R_EAX) = false) by (intros ->; destruct a; try discriminate GP; reflexivity).
  destruct (go_entry pl (go_reg a =? R_EAX) g e org X F k M clo sp Ho Ho2 Hk PE HC' ltac:(lia) C12 HS ltac:(lia) ltac:(lia) ltac:(lia)) as (X1 & M1 & R1 & S1 & K1 & E1).
  destruct (do_inner pl g e org X1 F M1 M sp _ _ _ _ _ _ Ho Ho2 HG S1 S4 ltac:(lia) E1) as (X2 & M2 & R2 & IR & V0 & V1 & V2).
  rewrite !rd_back4 in IR by exact HM.
  apply (ready_regs g e org pl sp _ _ _ X1 X) in IR; [|intros i Hi; apply K1; rn; lia].
  assert (OUT : forall x, sp + 48 <= x -> M2 x = M x) by (intros x Hx; apply IR; lia).
  destruct (closure_up o a rt ts c hp objs (arg_regs X) (frame_regs M2 sp) (sp + 48) (reader M2) LL CT PS RT OK TB PR AL ltac:(lia) SE) as (vs & n & CA & SN).
  - intros r Hr. destruct (RP r Hr) as [-> | ->]; unfold frame_regs, arg_regs; cbn [Z.eqb Pos.eqb].
    + replace (sp + 16 + 4 * 1) with (sp + 20) by lia. rewrite V1. apply word_back, HX.
    + replace (sp + 16 + 4 * 2) with (sp + 24) by lia. rewrite V2. apply word_back, HX.
  - apply held_above with (r := reader M) (lo := sp + 48); [apply reader_ext; exact OUT| |exact HH].
    intros off Hin. pose proof (places_stk o a rt ts off CT Hin). lia.
  - exists X2, M2, vs, n. split; [eapply reach_trans; eassumption|]. split; [exact IR|]. split; [exact CA|exact SN].
Qed.

Lemma go_left o a rt ts c regs q vs n p d hp g e org sp X F M pl :
  (a = SYSV \/ a = MS_CDECL \/ (a = STDCALL /\ Forall (flat o a) ts)) -> go_plain a = Some pl ->
  Forall (ctype32 o) ts -> Forall passable ts -> (ctype32 o rt \/ ty_code rt = T_VOID) -> x87_struct o rt -> total ts < 2 ^ 27 ->
  prep o a rt ts = Some c -> closure_args c regs (sp + 48) q = Ok (vs, n, p) ->
  0 <= org -> org + 2048 <= 2 ^ 32 -> 0 <= e_got e < 2 ^ 32 -> tracked e g -> mem_ok M ->
  X ESP = sp -> 4 <= sp -> sp + 60 + pops o a rt ts < 2 ^ 32 -> X EAX = inner_value c n -> (g_pic g = Plt -> X EBX = e_got e) -> zlen F < 8 ->
  result_left o rt d hp M sp ->
  exists X1 F1 M1,
    reach e (text g) org (St X F false (at_label (src g) org (back_label pl)) M) (St X1 F1 false (le_dec (rd M (sp + 44) 4)) M1) /\
    result_out o rt d hp X1 F1 F /\ X1 ESP = sp + 48 + pops o a rt ts /\
    X1 EBX = (match g_pic g with Plt => le_dec (rd M (sp + 40) 4) | _ => X EBX end) /\ (forall i, 5 <= i -> X1 i = X i) /\
    (forall x, ~ (sp - 4 <= x < sp + 48 + pops o a rt ts) -> M1 x = M x).
Proof.
  intros AB GP. assert (E : pl = plain_entry a).
  { destruct AB as [-> |[-> |(-> & _)]]; injection GP as <-; reflexivity. }
  subst pl. apply (closure_left o a rt ts c regs q vs n p d hp g e org sp X F M). intuition.
Qed.
