(** ffi_call and closures of 32-bit x86, C code and assembly code together. *)
From Coq Require Import ZifyBool ZifyNat.
From Verif Require Import Base Types LayoutSpec BaseFacts ByteMem NaturalTypes NaturalFacts X87Model X87Facts I386Model I386Spec I386RetSpec I386RawSpec I386Facts I386Call I386CallOk I386Closure I386Ret I386Raw I386Lemmas.
From Verif Require Import I386AsmModel I386AsmFacts I386AsmCall I386AsmClo I386AsmTramp I386AsmRet I386AsmRaw I386AsmEnter I386AsmBack I386AsmTop I386AsmExit I386AsmRawTop.
Local Open Scope Z_scope.
Local Arguments Z.mul : simpl never.
Local Arguments Z.add : simpl never.
Local Arguments Z.sub : simpl never.
Local Arguments Z.pow : simpl never.
Local Arguments Z.of_nat : simpl never.

Lemma call_whole o a rt ts c rv objs fn chain base blk ebp ra :
  last_lowest a = false -> Forall (ctype32 o) ts -> Forall passable ts -> (ctype32 o rt \/ ty_code rt = T_VOID) ->
  objects_ok ts objs -> total ts < 2 ^ 28 -> prep o a rt ts = Some c ->
  (16 | base) -> 4 <= base -> zlen blk = call_size c rv -> block_end base blk < 2 ^ 32 -> 0 <= fn < 2 ^ 32 -> 0 <= ra < 2 ^ 32 ->
  exists m b, call c rv objs fn chain base blk ebp ra = Ok (m, b) /\
    forall g e org X F k M,
      0 <= org -> org + 2048 <= 2 ^ 32 -> (k = true -> g_cet g = true) -> regs_ok X -> mem_ok M -> X EBP = ebp ->
      given base (base + stack_align (k_bytes c)) b ra X M ->
      exists X1 M1 hp,
        reach e (text g) org (St X F k (at_label (src g) org 1) M) (St X1 F (e_ibt e) fn M1) /\
        held (arg_regs X1) (X1 ESP + 4) (reader M1) (hidden o rt ++ ts) (places o a rt ts) (hidden_obj o rt hp ++ objs) /\
        match rv with Some p => hp = p | None => in_memory o rt = true -> base + stack_align (k_bytes c) <= hp /\ hp + ty_size rt <= block_end base blk end /\
        arg_regs X1 (chain_reg a) = chain mod 2 ^ 32 /\ entered_ok g org base c rv ra X M X1 M1.
Proof.
  intros LL CT PS RT OK TB PR AL B4 ZB EB RF RR.
  destruct (call_up o a rt ts c rv objs fn chain base blk ebp ra LL CT PS RT OK TB PR AL ltac:(lia) ZB EB) as (m & b & hp & CL & _).
  exists m, b. split; [exact CL|]. intros g e org X F k M Ho Ho2 Hk HX HM HB HG. subst ebp.
  exact (call_entered o a rt ts c rv objs fn chain base blk m b ra g e org X F k M LL CT PS RT OK TB PR AL B4 ZB EB CL Ho Ho2 Hk HX HM RF RR HG).
Qed.

Lemma call_whole_down o a rt ts c rv objs fn chain base blk ebp ra :
  last_lowest a = true -> in_memory o rt = false -> Forall (ctype32 o) ts -> Forall passable ts -> (ctype32 o rt \/ ty_code rt = T_VOID) ->
  objects_ok ts objs -> total ts < 2 ^ 28 -> prep o a rt ts = Some c ->
  4 <= base -> zlen blk = call_size c rv -> block_end base blk < 2 ^ 32 -> 0 <= fn < 2 ^ 32 -> 0 <= ra < 2 ^ 32 ->
  exists m b, call c rv objs fn chain base blk ebp ra = Ok (m, b) /\
    forall g e org X F k M,
      0 <= org -> org + 2048 <= 2 ^ 32 -> (k = true -> g_cet g = true) -> regs_ok X -> mem_ok M -> X EBP = ebp ->
      given base (base + stack_align (k_bytes c)) b ra X M ->
      exists X1 M1 gap,
        reach e (text g) org (St X F k (at_label (src g) org 1) M) (St X1 F (e_ibt e) fn M1) /\
        0 <= gap /\ gap = stack_align (k_bytes c) - stack_used o a rt ts /\
        held (arg_regs X1) (X1 ESP + 4 + gap) (reader M1) ts (places o a rt ts) objs /\
        (~ In (chain_reg a) (reg_params a) -> arg_regs X1 (chain_reg a) = chain mod 2 ^ 32) /\ entered_ok g org base c rv ra X M X1 M1.
Proof.
  intros LL MEM CT PS RT OK TB PR B4 ZB EB RF RR.
  destruct (call_down o a rt ts c rv objs fn chain base blk ebp ra LL MEM CT PS RT OK TB PR ltac:(lia) ZB EB) as (m & b & gap & CL & _).
  exists m, b. split; [exact CL|]. intros g e org X F k M Ho Ho2 Hk HX HM HB HG. subst ebp.
  exact (call_entered_down o a rt ts c rv objs fn chain base blk m b ra g e org X F k M LL MEM CT PS RT OK TB PR B4 ZB EB CL Ho Ho2 Hk HX HM RF RR HG).
Qed.

Lemma raw_whole o a rt ts c rv raw objs fn low blk ebp ra :
  stack_abi a -> Forall (ctype32 o) ts -> Forall no_struct ts -> (ctype32 o rt \/ ty_code rt = T_VOID) -> total ts < 2 ^ 28 ->
  prep o a rt ts = Some c -> Z.testbit low 4 = false -> 4 <= low -> zlen blk = raw_size c rv -> low + zlen blk < 2 ^ 32 ->
  raw_has (get_range raw) 0 ts objs -> raw_need o c rt <= zlen raw -> 0 <= fn < 2 ^ 32 -> 0 <= ra < 2 ^ 32 ->
  exists m b, raw_call c rv raw fn low blk ebp ra = Ok (m, b) /\
    forall g e org X F k M,
      0 <= org -> org + 2048 <= 2 ^ 32 -> (k = true -> g_cet g = true) -> regs_ok X -> mem_ok M -> X EBP = ebp ->
      given low (low + stack_align (k_bytes c)) b ra X M ->
      exists X1 M1 hp,
        reach e (text g) org (St X F k (at_label (src g) org 1) M) (St X1 F (e_ibt e) fn M1) /\
        held (arg_regs X1) (X1 ESP + 4) (reader M1) (hidden o rt ++ ts) (places o a rt ts) (hidden_obj o rt hp ++ objs) /\
        match rv with Some p => hp = p | None => in_memory o rt = true -> low + stack_align (k_bytes c) <= hp /\ hp + ty_size rt <= low + zlen blk end /\
        entered_ok g org low c rv ra X M X1 M1.
Proof.
  intros SA CT NS RT TB PR B4 L4 ZB EB RH RN RF RR.
  destruct (raw_ok o a rt ts c rv raw objs fn low blk ebp ra SA CT NS RT TB PR B4 ltac:(lia) ZB EB RH RN) as (m & b & hp & CL & _).
  exists m, b. split; [exact CL|]. intros g e org X F k M Ho Ho2 Hk HX HM HB HG. subst ebp.
  exact (raw_call_entered o a rt ts c rv raw objs fn low blk m b ra g e org X F k M SA CT NS RT TB PR B4 L4 ZB EB RH RN CL Ho Ho2 Hk HX HM RF RR HG).
Qed.

(** ** Registers and memory stay words and bytes *)

Definition tame (i : instr) : bool :=
  match i with Zx n _ _ => (0 <=? n) && (n <=? 32) | And _ i => i =? 15 | Shr _ i => 0 <=? i | _ => true end.

Lemma text_tame g c i : at_off (text g) c = Some i -> tame i = true.
Proof.
  assert (T : forallb (fun q => tame (snd q)) (text g) = true) by (destruct g as [[] [] []]; vm_compute; reflexivity).
  intros A. revert T A. generalize (text g) as t. induction t as [|[p j] t IH]; cbn [at_off forallb snd]; intros T A; [discriminate A|].
  apply Bool.andb_true_iff in T as [T1 T2]. destruct (p =? c); [injection A as <-; exact T1|exact (IH T2 A)].
Qed.

Lemma wrap_range x : 0 <= wrap32 x < 2 ^ 32.
Proof. apply Z.mod_pos_bound. reflexivity. Qed.
Lemma upd_ok X r w : regs_ok X -> 0 <= w < 2 ^ 32 -> regs_ok (upd X r w).
Proof. intros H W i. unfold upd. destruct (i =? r); [exact W|apply H]. Qed.
Lemma fstp_ok n x : bytes_ok (fstp n x).
Proof. unfold fstp. destruct (n =? 4); [|destruct (n =? 8)]; apply le_enc_ok. Qed.

Lemma some_eq {A} (x y : A) : Some x = Some y -> x = y.
Proof. congruence. Qed.

Lemma step_ok e g org s s' : step e (text g) org s = Some s' -> regs_ok (sx s) -> mem_ok (sm s) -> regs_ok (sx s') /\ mem_ok (sm s').
Proof.
  unfold step. destruct (at_off (text g) (spc s - org)) as [i|] eqn:A; [|intros S; discriminate S].
  apply text_tame in A. destruct s as [X F k pc M]. cbn [sx sm spc]. intros S HX HM. unfold exec in S. cbn [sx sf sm spc sk] in S.
  destruct (k && _) eqn:K in S; [discriminate S|].
  destruct i as [|m0| | |d r|n d r|n d r|d b j|d b r j|d r l|d b r l l2|d b r l|d b j|n b j r|n b j|n b j|r i|r i|r i|r i|r|near l|nt r|l|b j| |r|r| |n]; cbn [tame] in A; try (apply some_eq in S; subst s'; cbn [sx sm]; split; [try exact HX|exact HM]);
    try (apply upd_ok; [exact HX|first [apply wrap_range|apply HX|idtac]]).
  - discriminate S.
  - assert (2 ^ n <= 2 ^ 32) by (apply Z.pow_le_mono_r; lia). pose proof (Z.mod_pos_bound (X r) (2 ^ n) ltac:(apply Z.pow_pos_nonneg; lia)). lia.
  - destruct (fits _ _); [|discriminate S]. apply some_eq in S; subst s'. cbn [sx sm]. split; [apply upd_ok; [exact HX|apply word_range, HM]|exact HM].
  - destruct (fits _ _); [|discriminate S]. apply some_eq in S; subst s'. cbn [sx sm]. split; [exact HX|apply mem_ok_wr; [exact HM|apply le_enc_ok]].
  - destruct (fits _ _ && _) in S; [|discriminate S]. apply some_eq in S; subst s'. split; assumption.
  - destruct F; [discriminate S|]. destruct (fits _ _); [|discriminate S]. apply some_eq in S; subst s'. cbn [sx sm]. split; [exact HX|apply mem_ok_wr; [exact HM|apply fstp_ok]].
  - apply Z.eqb_eq in A. subst i. change 15 with (Z.ones 4). rewrite Z.land_ones by lia. pose proof (Z.mod_pos_bound (X r) (2 ^ 4) ltac:(reflexivity)). change (2 ^ 4) with 16 in *. lia.
  - pose proof (HX r) as R. rewrite Z.shiftr_div_pow2 by lia. pose proof (Z.div_pos (X r) (2 ^ i) ltac:(lia) ltac:(apply Z.pow_pos_nonneg; lia)).
    pose proof (Z.div_le_upper_bound (X r) (2 ^ i) (X r) ltac:(apply Z.pow_pos_nonneg; lia)).
    pose proof (Z.pow_le_mono_r 2 0 i ltac:(lia) ltac:(lia)). change (2 ^ 0) with 1 in *. nia.
  - destruct (fits _ _); [|discriminate S]. apply some_eq in S; subst s'. cbn [sx sm]. split; [apply upd_ok; [exact HX|apply wrap_range]|apply mem_ok_wr; [exact HM|apply le_enc_ok]].
  - destruct (fits _ _); [|discriminate S]. destruct (fits _ _); [|discriminate S]. apply some_eq in S; subst s'. cbn [sx sm]. split; [apply upd_ok; [exact HX|apply wrap_range]|apply mem_ok_wr; [exact HM|apply le_enc_ok]].
  - destruct (fits _ _); [|discriminate S]. apply some_eq in S; subst s'. cbn [sx sm]. split; [apply upd_ok; [exact HX|apply wrap_range]|apply mem_ok_wr; [exact HM|apply le_enc_ok]].
  - destruct (fits _ _); [|discriminate S]. apply some_eq in S; subst s'. cbn [sx sm]. split; [apply upd_ok; [apply upd_ok; [exact HX|apply wrap_range]|apply word_range, HM]|exact HM].
  - destruct (fits _ _); [|discriminate S]. apply some_eq in S; subst s'. cbn [sx sm]. split; [apply upd_ok; [exact HX|apply wrap_range]|apply mem_ok_wr; [exact HM|apply le_enc_ok]].
  - destruct (fits _ _); [|discriminate S]. apply some_eq in S; subst s'. cbn [sx sm]. split; [apply upd_ok; [exact HX|apply wrap_range]|exact HM].
  - destruct (fits _ _); [|discriminate S]. apply some_eq in S; subst s'. cbn [sx sm]. split; [apply upd_ok; [exact HX|apply wrap_range]|exact HM].
Qed.
Lemma steps_ok e g org n : forall s s', steps e (text g) org n s = Some s' -> regs_ok (sx s) -> mem_ok (sm s) -> regs_ok (sx s') /\ mem_ok (sm s').
Proof.
  induction n; intros s s' S HX HM; cbn [steps] in S; [injection S as <-; auto|].
  destruct (step e (text g) org s) as [s1|] eqn:E; [|discriminate S]. destruct (step_ok e g org s s1 E HX HM). eauto.
Qed.
Lemma reach_ok e g org X F k p M X1 F1 k1 p1 M1 : reach e (text g) org (St X F k p M) (St X1 F1 k1 p1 M1) -> regs_ok X -> mem_ok M -> regs_ok X1 /\ mem_ok M1.
Proof. intros (n & R) HX HM. exact (steps_ok e g org n _ _ R HX HM). Qed.

(** ** From ffi_call through a closure and back *)

Lemma pops_room o a rt ts c : last_lowest a = false -> Forall (ctype32 o) ts -> (ctype32 o rt \/ ty_code rt = T_VOID) -> total ts < 2 ^ 28 ->
  prep o a rt ts = Some c -> 0 <= pops o a rt ts <= stack_align (k_bytes c).
Proof.
  intros LL CT RT TB PR. destruct (prep_area o a rt ts c CT RT TB PR) as (_ & _ & _ & _ & _ & KB & _ & _ & US). specialize (US LL).
  change (2 ^ 29) with 536870912 in KB. rewrite stack_align_round by (change (2 ^ 31) with 2147483648; lia).
  pose proof (round_up_le (k_bytes c) 16 ltac:(lia)).
  assert (CT' : Forall (ctype32 o) (hidden o rt ++ ts)).
  { apply Forall_app; split; [|exact CT]. unfold hidden. destruct (in_memory o rt); repeat constructor. }
  assert (U0 : 0 <= stack_used o a rt ts) by (unfold stack_used, assign; rewrite LL; apply (up_mono o a _ CT')).
  assert (U4 : a = SYSV -> in_memory o rt = true -> 4 <= stack_used o a rt ts).
  { intros -> MEM. unfold stack_used, assign, hidden. rewrite MEM. change (last_lowest SYSV) with false. cbn [app assign_up reg_params].
    change (stops SYSV (ty_code ty_ptr)) with false. change (small_int (ty_code ty_ptr)) with true. cbn iota.
    change (round_up 0 (on_stack_align ty_ptr) + words ty_ptr) with 4. pose proof (up_mono o SYSV ts CT [] 4).
    destruct (assign_up SYSV [] 4 ts). cbn [snd] in *. lia. }
  destruct a; cbn [pops]; try lia; try discriminate LL. destruct (in_memory o rt); [specialize (U4 eq_refl eq_refl)|]; lia.
Qed.

(** The closure's part of the C stack and its result are as they were, when ffi_closure_inner has
    returned: it keeps ebx, ebp, esi, edi, and of the memory the words that the assembly code still
    needs; it returns [inner_value], having stored the result. *)
Definition inner_done (o : sys) (rt : ftype) (c : cif) (n base P : Z) (d : list Z) (hp : Z) (X2 M2 X3 M3 : Z -> Z) : Prop :=
  regs_ok X3 /\ mem_ok M3 /\ X3 ESP = base - 48 /\ (forall i, i = EBX \/ 5 <= i -> X3 i = X2 i) /\ X3 EAX = inner_value c n /\
  rd M3 (base - 8) 8 = rd M2 (base - 8) 8 /\ rd M3 P 20 = rd M2 P 20 /\ result_left o rt d hp M3 (base - 48).

Lemma rd_part M N a n off k : rd M a n = rd N a n -> 0 <= off -> (off + Z.of_nat k <= Z.of_nat n) -> rd M (a + off) k = rd N (a + off) k.
Proof.
  intros E O L. pose proof (rd_get M a off n (Z.of_nat k) O ltac:(lia) L) as G1. pose proof (rd_get N a off n (Z.of_nat k) O ltac:(lia) L) as G2.
  rewrite E, G2, Nat2Z.id in G1. congruence.
Qed.

Lemma closure_trip o a rt ts c rv objs clo chain base blk ebp ra :
  (a = SYSV \/ a = MS_CDECL \/ ((a = STDCALL \/ a = THISCALL \/ a = FASTCALL) /\ Forall (flat o a) ts)) ->
  Forall (ctype32 o) ts -> Forall passable ts -> (ctype32 o rt \/ ty_code rt = T_VOID) -> x87_struct o rt ->
  objects_ok ts objs -> total ts < 2 ^ 27 -> prep o a rt ts = Some c ->
  (16 | base) -> 52 <= base -> zlen blk = call_size c rv -> block_end base blk < 2 ^ 32 -> 0 <= ra < 2 ^ 32 ->
  0 <= clo -> clo + 28 < 2 ^ 32 -> clo + 28 <= base - 52 \/ block_end base blk <= clo ->
  exists m b, call c rv objs clo chain base blk ebp ra = Ok (m, b) /\
    forall g e org X F k M,
      let P := base + stack_align (k_bytes c) in
      0 <= org -> org + 2048 <= 2 ^ 32 -> 0 <= e_got e < 2 ^ 32 -> tracked e g -> (k = true -> g_cet g = true) -> regs_ok X -> mem_ok M -> X EBP = ebp -> zlen F < 8 ->
      given base P b ra X M ->
      rd M clo 14 = dyn_tramp (pushes (group_of a)) (at_label (src g) org (entry_label (group_of a))) clo ->
      exists s1 s2 X2 M2 hp vs n,
        reach e (text g) org (St X F k (at_label (src g) org 1) M) s1 /\ spc s1 = clo /\ dyn_steps 3 s1 = Some s2 /\
        reach e (text g) org s2 (St X2 F false (e_inner e) M2) /\
        X2 ECX = base - 48 /\ X2 EDX = base /\ X2 ESP = base - 52 /\ rd M2 (base - 52) 4 = le_enc 4 (at_label (src g) org (back_label (plain_entry a))) /\
        rd M2 (base - 20) 4 = rd M (clo + 16) 4 /\ rd M2 (base - 16) 4 = rd M (clo + 20) 4 /\ rd M2 (base - 12) 4 = rd M (clo + 24) 4 /\
        closure_args c (frame_regs M2 (base - 48)) base (reader M2) = Ok (vs, n, if in_memory o rt then RCaller (hp mod 2 ^ 32) else RTemp) /\
        seen (frame_regs M2 (base - 48)) (reader M2) ts vs objs /\
        match rv with Some p => hp = p | None => in_memory o rt = true -> P <= hp /\ hp + ty_size rt <= block_end base blk end /\
        forall d X3 M3,
          inner_done o rt c n base P d (hp mod 2 ^ 32) X2 M2 X3 M3 ->
          match rv with
          | Some p => 0 <= p < 2 ^ 32 /\
            (in_memory o rt = false -> ty_code rt <> T_VOID -> p + result_size rt <= 2 ^ 32 /\ (p + result_size rt <= base - 52 \/ P + 32 <= p))
          | None => True
          end ->
          exists X4 M4,
            reach e (text g) org (St X3 F false (at_label (src g) org (back_label (plain_entry a))) M3) (St X4 F false ra M4) /\
            X4 ESP = P + 8 /\ X4 EBP = ebp /\ (forall i, i = EBX \/ 6 <= i -> X4 i = X i) /\
            match rv with
            | Some p => in_memory o rt = false -> ty_code rt <> T_VOID -> result_in rt d (rd M4 p (Z.to_nat (result_size rt)))
            | None => True
            end /\
            (forall x, ~ (base - 52 <= x < P + 12) -> ~ result_bytes o rt c rv P x -> M4 x = M3 x).
Proof.
  intros AB CT PS RT XS OK TB PR AL B52 ZB EB RR C0 C28 DJ.
  assert (TB' : total ts < 2 ^ 28) by (change (2 ^ 27) with 134217728 in TB; change (2 ^ 28) with 268435456; lia).
  assert (LL : last_lowest a = false) by (destruct AB as [-> |[-> |[[-> |[-> | ->]] _]]]; reflexivity).
  destruct (call_whole o a rt ts c rv objs clo chain base blk ebp ra LL CT PS RT OK TB' PR AL ltac:(lia) ZB EB ltac:(lia) RR) as (m & b & CL & CW).
  exists m, b. split; [exact CL|]. intros g e org X F k M. cbv zeta. intros Ho Ho2 HG HT Hk HX HM HB HF GV DT.
  set (P := base + stack_align (k_bytes c)) in *.
  pose proof (align_nonneg o a rt ts c CT RT TB' PR) as SA. pose proof (rsize_prep o a rt ts c rv RT PR) as RZ.
  assert (BE : block_end base blk = P + 32 + call_rsize c rv) by (unfold block_end; rewrite ZB; unfold call_size, frame_size; subst P; lia).
  destruct (CW g e org X F k M Ho Ho2 Hk HX HM HB GV) as (X1 & M1 & hp & R1 & HH & HP & _ & (S1 & P1 & K1 & W1 & F1 & O1)). fold P in P1, F1, O1, HP.
  assert (CM : forall off n, 0 <= off -> off + Z.of_nat n <= 28 -> rd M1 (clo + off) n = rd M (clo + off) n).
  { intros off n Ho1 Hn. apply rd_ext. intros x Hx. apply O1; lia. }
  destruct (reach_ok _ _ _ _ _ _ _ _ _ _ _ _ _ R1 HX HM) as [HX1 HM1].
  assert (D14 : rd M1 clo 14 = dyn_tramp (pushes (group_of a)) (at_label (src g) org (entry_label (group_of a))) clo).
  { rewrite <- DT. replace clo with (clo + 0) by lia. apply CM; lia. }
  assert (HH' : held (arg_regs X1) (base - 48 + 48) (reader M1) (hidden o rt ++ ts) (places o a rt ts) (hidden_obj o rt hp ++ objs)).
  { replace (base - 48 + 48) with (X1 ESP + 4) by lia. exact HH. }
  destruct (closure_dynamic o a rt ts c hp objs g e org clo (base - 48) X1 F (e_ibt e) M1 LL CT PS RT OK TB' PR) as (s2 & X2 & M2 & vs & n & D2 & R2 & IR & CA & SN);
    try assumption; try lia.
  { replace (base - 48 + 48) with base by lia. exact AL. }
  destruct IR as (IC & ID & IS & IK & IB & IB40 & IW & I28 & I32 & I36 & IO).
  replace (base - 48 + 48) with base in * by lia. replace (base - 48 - 4) with (base - 52) in * by lia.
  replace (base - 48 + 28) with (base - 20) in * by lia. replace (base - 48 + 32) with (base - 16) in * by lia.
  replace (base - 48 + 36) with (base - 12) in * by lia. replace (base - 48 + 44) with (base - 4) in * by lia.
  replace (base - 48 + 40) with (base - 8) in * by lia.
  exists (St X1 F (e_ibt e) clo M1), s2, X2, M2, hp, vs, n.
  split; [exact R1|]. split; [reflexivity|]. split; [exact D2|]. split; [exact R2|]. split; [exact IC|]. split; [exact ID|]. split; [exact IS|]. split; [exact IW|].
  split; [rewrite I28; apply CM; lia|]. split; [rewrite I32; apply CM; lia|]. split; [rewrite I36; apply CM; lia|].
  split; [exact CA|]. split; [exact SN|]. split; [exact HP|].
  intros d X3 M3 (HX3 & HM3 & S3 & K3 & A3 & Q8 & Q20 & RL) HR.
  pose proof (pops_room o a rt ts c LL CT RT TB' PR) as PO.
  assert (F4 : rd M3 (base - 4) 4 = le_enc 4 (at_label (src g) org 5)).
  { pose proof (rd_part M3 M2 (base - 8) 8 4 4 Q8 ltac:(lia) ltac:(lia)) as E. replace (base - 8 + 4) with (base - 4) in E by lia.
    rewrite E, <- W1. apply rd_ext. intros x Hx. apply IO. lia. }
  assert (EX3 : X3 EBX = match g_pic g with Plt => e_got e | _ => X1 EBX end) by (rewrite K3 by auto; exact IB).
  assert (L5 : 0 <= at_label (src g) org 5 < 2 ^ 32).
  { clear - Ho Ho2. destruct g as [cet pc og]. destruct og; rewrite ?label_org; destruct cet, pc; labels; lia. }
  destruct (closure_left o a rt ts c (frame_regs M2 (base - 48)) (reader M2) vs n (if in_memory o rt then RCaller (hp mod 2 ^ 32) else RTemp) d (hp mod 2 ^ 32) g e org (base - 48) X3 F M3 AB CT PS RT XS TB PR)
    as (X5 & F5 & M5 & R5 & RO & S5 & B5 & K5 & O5);
    try assumption; try lia.
  { replace (base - 48 + 48) with base by lia. exact CA. }
  { intros Q. rewrite EX3, Q. reflexivity. }
  replace (base - 48 + 48) with base in * by lia. replace (base - 48 - 4) with (base - 52) in * by lia.
  replace (base - 48 + 44) with (base - 4) in * by lia. replace (base - 48 + 40) with (base - 8) in * by lia.
  rewrite F4, word_back in R5 by exact L5.
  destruct RO as (st0 & EF & RM & RG).
  destruct (reach_ok _ _ _ _ _ _ _ _ _ _ _ _ _ R5 HX3 HM3) as [HX5 HM5].
  assert (FA : frame_at M5 P ebp ra (ret_num (call_flags c rv)) (result_place c rv base)).
  { rewrite HB in F1. destruct F1 as (E0 & E4 & E12 & E16).
    assert (E5 : rd M5 P 20 = rd M1 P 20).
    { transitivity (rd M3 P 20); [apply rd_ext; intros x Hx; apply O5; lia|]. rewrite Q20. apply rd_ext. intros x Hx. apply IO. lia. }
    pose proof (rd_part M5 M1 P 20 0 4 E5 ltac:(lia) ltac:(lia)) as H0. rewrite Z.add_0_r in H0.
    unfold frame_at. rewrite H0, (rd_part M5 M1 P 20 4 4 E5), (rd_part M5 M1 P 20 12 4 E5), (rd_part M5 M1 P 20 16 4 E5) by lia.
    auto. }
  assert (EB0 : 0 <= ebp < 2 ^ 32) by (rewrite <- HB; apply HX).
  destruct (call_left o a rt ts c rv base d ebp ra g e org X5 F st0 M5 RT XS PR Ho Ho2 HT HX5 HM5) as (X4 & M4 & R4 & S4 & B4' & K4 & RI & O4);
    fold P; try assumption; try lia.
  { rewrite K5 by (rn; lia). rewrite K3 by (rn; lia). rewrite IK by (rn; lia). exact P1. }
  { intros Q1 Q2. destruct RL as (_ & RL). destruct (RL Q1 Q2) as (ZD & _). split; [exact ZD|]. apply RG; assumption. }
  { destruct rv as [p|]; [|exact Logic.I]. destruct HR as (HR1 & HR2). split; [exact HR1|]. intros Q1 Q2. destruct (HR2 Q1 Q2). lia. }
  exists X4, M4. split; [apply (reach_trans _ _ _ _ _ _ R5); rewrite EF; exact R4|]. split; [exact S4|]. split; [exact B4'|]. split.
  - intros i Hi. rewrite K4 by exact Hi. destruct Hi as [-> |Hi].
    + rewrite B5. rewrite <- (K1 EBX) by auto. destruct (g_pic g) eqn:Q; try exact EX3.
      pose proof (rd_part M3 M2 (base - 8) 8 0 4 Q8 ltac:(lia) ltac:(lia)) as E. rewrite Z.add_0_r in E. rewrite E, (IB40 eq_refl). apply word_back, HX1.
    + rewrite K5, K3, IK, K1 by lia. reflexivity.
  - split; [exact RI|]. intros x N1 N2. rewrite O4; [apply O5; lia|lia|lia|exact N2].
Qed.
