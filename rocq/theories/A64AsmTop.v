(** The code around calls and closures together with what A64Ret proves about results. *)
From Coq Require Import ZifyBool ZifyNat.
From Verif Require Import Base BaseFacts ByteMem Types LayoutSpec NaturalTypes NaturalFacts A64Spec A64AsmModel A64ClosureModel A64AsmFacts
  A64AsmCall A64AsmRet A64AsmCallAll A64AsmClo A64AsmExit A64AsmCloAll A64AsmTramp A64AsmEnd.
From Verif Require A64Model A64Hfa A64Main A64Ret A64Call A64Closure.
Local Open Scope Z_scope.
Local Arguments Z.mul : simpl never.
Local Arguments Z.add : simpl never.
Local Arguments Z.sub : simpl never.
Local Arguments Z.pow : simpl never.
Local Arguments Z.of_nat : simpl never.

(** The return of a closure, by the type of its result: from every state in which the C
    function can come back to [back] with a code for type [rt] in x0 and the object [d] in the
    slot, control gets to [target] with the object where AAPCS64 has it, and the stack pointer and
    callee-saved registers of the caller [X]. *)
Definition hands_back (e : env) (t : list instr) (org f back target : Z) (X X1 M1 : Z -> Z) : Prop :=
  forall X2 V2 M2 rt pl d,
    X2 SP = X1 SP -> (forall i, 19 <= i < 29 -> X2 i = X1 i) -> wide V2 -> (forall a, byte_ok (M2 a)) ->
    (forall a, f <= a < f + 16 -> M2 a = M1 a) ->
    natural rt -> A64Hfa.quads_ok pl rt -> in_memory rt = false ->
    Z.land (X2 0) 31 = Z.land (A64Main.spec_flags rt) 31 ->
    get_range (rd M2 (f + 208) 64) 0 (ty_size rt) = Some d ->
    exists X3 V3,
      reach e t org (St X2 V2 back M2) (St X3 V3 target M2) /\
      A64Spec.returned rt (two X3) (regs4 V3) d /\
      (integral (ty_code rt) = true -> X3 0 mod 2 ^ 64 = widened (ty_code rt) d) /\
      X3 SP = f + 272 /\ (forall i, 19 <= i < 30 -> X3 i = X i) /\ (forall i, 4 <= i -> V3 i = V2 i).

(** The same for a function without a result in registers (code 0). *)
Definition hands_back_none (e : env) (t : list instr) (org f back target : Z) (X X1 M1 : Z -> Z) : Prop :=
  forall X2 V2 M2,
    X2 SP = X1 SP -> (forall i, 19 <= i < 29 -> X2 i = X1 i) -> wide V2 -> (forall a, byte_ok (M2 a)) ->
    (forall a, f <= a < f + 16 -> M2 a = M1 a) -> Z.land (X2 0) 31 = 0 ->
    exists X3 V3,
      reach e t org (St X2 V2 back M2) (St X3 V3 target M2) /\
      X3 SP = f + 272 /\ (forall i, 19 <= i < 30 -> X3 i = X i) /\ (forall i, 4 <= i -> V3 i = V2 i).

Lemma regs4_len V : wide V -> zlen (regs4 V) = 64.
Proof. intros W. unfold regs4, zlen. rewrite !app_length, !W by lia. reflexivity. Qed.

Lemma hands p e t org f X X1 M1 target : comes_back p e t org f X X1 M1 target -> hands_back e t org f (X1 LR) target X X1 M1.
Proof.
  intros C X2 V2 M2 rt pl d H1 H2 W Hb Hfr Nat Q IM Fl G.
  destruct (C X2 V2 M2 H1 H2 W Hb (rd_ext M1 M2 16 f Hfr)) as (x & Lx & Bx & K).
  destruct (A64Ret.load_result rt (X2 0) (rd M2 (f + 208) 64) x (regs4 V2) d pl Nat Q IM Fl (rd_zlen _ _ _) (bytes_rd _ _ _ Hb) Lx Bx (regs4_len _ W) G)
    as (x' & v' & E & L' & B' & Lv & Rt & In).
  destruct (K x' v' E) as (X3 & V3 & R & T1 & T2 & T3 & T4 & T5). exists X3, V3. split; [exact R|].
  split; [rewrite T1, T2; exact Rt|]. split; [|split; [exact T3|split; [exact T4|exact T5]]].
  intros I. specialize (In I). rewrite <- T1 in In. unfold two in In.
  rewrite A64Ret.get_range_prefix in In by (rewrite ?zlen_enc; lia).
  pose proof (get_range_all (le_enc 8 (X3 0))) as GA. rewrite zlen_enc in GA. change (Z.of_nat 8) with 8 in GA. rewrite GA in In.
  assert (In2 : le_enc 8 (X3 0) = le_enc 8 (widened (ty_code rt) d)) by congruence. clear In. rename In2 into In. apply (f_equal le_dec) in In. rewrite !le_dec_enc in In. change (8 * Z.of_nat 8) with 64 in In.
  rewrite In. unfold widened. apply Z.mod_mod. lia.
Qed.

Lemma hands_none p e t org f X X1 M1 target : comes_back p e t org f X X1 M1 target -> hands_back_none e t org f (X1 LR) target X X1 M1.
Proof.
  intros C X2 V2 M2 H1 H2 W Hb Hfr Fl.
  destruct (C X2 V2 M2 H1 H2 W Hb (rd_ext M1 M2 16 f Hfr)) as (x & Lx & Bx & K).
  destruct (K x (regs4 V2)) as (X3 & V3 & R & T1 & T2 & T3 & T4 & T5).
  - unfold A64Model.load_ret. change A64Model.A_RET_MASK with 31. rewrite Fl. reflexivity.
  - exists X3, V3. auto.
Qed.

Lemma call_end p go e org X X1 V2 M1 X2 M2 pl abi fixed rt ts c a objs chain base g_blk g_v frame m fl r d n :
  call_returns p go e org X X1 M1 ->
  A64Main.signature_ok pl abi fixed rt ts -> A64Model.prep pl abi fixed rt ts = Ok c ->
  A64Model.call pl c (Some a) objs chain base g_blk g_v frame = Ok (m, fl, r) -> X 4 = fl ->
  natural rt -> in_memory rt = false ->
  (forall i, 19 <= i < 30 -> X2 i = X1 i) -> wide V2 -> (forall x, X 1 <= x < X 1 + 40 -> M2 x = M1 x) ->
  X 3 + Z.of_nat n <= 2 ^ 64 -> zlen d = ty_size rt -> A64Spec.returned rt (two X2) (regs4 V2) d ->
  (Z.land fl A64Model.A_NEED_COPY = 0 -> A64Ret.room rt <= Z.of_nat n) -> (Z.land fl A64Model.A_NEED_COPY <> 0 -> n = 16%nat) ->
  exists X3 M3,
    reach e (call_text p go) org (St X2 V2 (X1 LR) M2) (St X3 V2 (X LR) M3) /\
    X3 SP = X SP /\ (forall i, 19 <= i < 30 -> X3 i = X i) /\
    (forall x, ~ (X 3 <= x < X 3 + Z.of_nat n) -> M3 x = M2 x) /\
    (Z.land fl A64Model.A_NEED_COPY = 0 -> A64Ret.stored rt d (rd M2 (X 3) n) (rd M3 (X 3) n)) /\
    (Z.land fl A64Model.A_NEED_COPY <> 0 -> forall buf, A64Ret.room rt <= zlen buf ->
       exists b, set_range buf 0 (rd M3 (X 3) (Z.to_nat (ty_size rt))) = Some b /\ A64Ret.stored rt d buf b).
Proof.
  intros Back So Pr Ca E4 Nat IM Hk W Hf Hn Ld Rt N0 N1.
  assert (Lx : zlen (two X2) = 16) by (unfold two; rewrite zlen_app, !zlen_enc; reflexivity).
  assert (Bx : bytes_ok (two X2)) by (unfold two; rewrite bytes_ok_app; split; apply le_enc_ok).
  pose proof (regs4_len _ W) as Lv.
  destruct (Z.eq_dec (Z.land fl A64Model.A_NEED_COPY) 0) as [Z0|Z1].
  - destruct (A64Ret.call_result _ _ _ _ _ _ _ _ _ _ _ _ _ _ _ _ So Pr Ca Nat IM (two X2) (regs4 V2) (rd M2 0 16) (rd M2 (X 3) n) d Lx Bx Lv (rd_zlen _ _ _) Ld Rt
      ltac:(rewrite rd_zlen; auto)) as (b & Eb & Sb).
    unfold A64Model.finish in Eb. rewrite Z0 in Eb. cbn [Z.eqb] in Eb. rewrite <- E4 in Eb. unfold two in Eb.
    destruct (Back X2 V2 M2 n b Hk W Hf Hn Eb) as (X3 & M3 & R & S & C & B & O). exists X3, M3.
    split; [exact R|]. split; [exact S|]. split; [exact C|]. split; [exact O|]. split; [intros _; rewrite B; exact Sb|]. intros Q; contradiction.
  - specialize (N1 Z1). subst n.
    assert (Gen : forall buf, A64Ret.room rt <= zlen buf -> exists b, A64Model.finish c fl (A64Model.ARet (two X2) (regs4 V2)) (rd M2 (X 3) 16) buf = Ok b /\ A64Ret.stored rt d buf b).
    { intros buf Hbuf. exact (A64Ret.call_result _ _ _ _ _ _ _ _ _ _ _ _ _ _ _ _ So Pr Ca Nat IM (two X2) (regs4 V2) (rd M2 (X 3) 16) buf d Lx Bx Lv (rd_zlen _ _ _) Ld Rt Hbuf). }
    unfold A64Model.finish in Gen. replace (Z.land fl A64Model.A_NEED_COPY =? 0) with false in Gen by lia.
    destruct (A64Model.store_ret fl (A64Model.ARet (two X2) (regs4 V2)) (rd M2 (X 3) 16)) as [t| |] eqn:Et.
    2, 3: destruct (Gen (repeat 0 (Z.to_nat (A64Ret.room rt)))) as (b & Eb & _); [unfold zlen; rewrite repeat_length; lia|discriminate Eb].
    rewrite <- E4 in Et. unfold two in Et.
    destruct (Back X2 V2 M2 16%nat t Hk W Hf Hn Et) as (X3 & M3 & R & S & C & B & O). exists X3, M3.
    split; [exact R|]. split; [exact S|]. split; [exact C|]. split; [exact O|]. split; [intros Q; contradiction|].
    intros _ buf Hbuf. destruct (Gen buf Hbuf) as (b & Eb & Sb). cbn [bind] in Eb.
    assert (Kr : A64Model.k_rtype c = rt) by (rewrite (A64Main.prep_ok _ _ _ _ _ So) in Pr; injection Pr as <-; reflexivity).
    rewrite Kr in Eb.
    destruct (get_range t 0 (ty_size rt)) as [y|] eqn:Ey; cbn [of_option bind] in Eb; [|discriminate].
    rewrite <- B in Ey. apply get_rd in Ey. rewrite Z.add_0_r in Ey.
    exists b. split; [|exact Sb]. rewrite Ey. destruct (set_range buf 0 y); cbn [of_option] in Eb; congruence.
Qed.

(** ** ffi_call down to the machine *)

Lemma held_mono x v sp rd1 rd2 ts : (forall a n d, rd1 a n = Some d -> rd2 a n = Some d) ->
  forall pls objs ptrs, held x v sp rd1 ts pls objs ptrs -> held x v sp rd2 ts pls objs ptrs.
Proof.
  intros R.
  assert (P : forall t pl d, at_place x v sp rd1 t pl d -> at_place x v sp rd2 t pl d) by (intros t [i|i|o] d; cbn [at_place]; auto).
  induction ts as [|t ts IH]; intros [|pl pls] [|o objs] ptrs; cbn [held]; auto.
  destruct (by_ref t); [destruct ptrs as [|q ptrs]; [auto|]|]; intuition.
Qed.

(** Memory as the specification reads it. *)
Definition mem_read (M : Z -> Z) (a n : Z) : option (list Z) := Some (rd M a (Z.to_nat n)).

Lemma call_code pl abi fixed rt ts c rv objs chain base g_blk blk s m fl r p go e org X V M :
  A64Main.signature_ok pl abi fixed rt ts -> A64Model.prep pl abi fixed rt ts = Ok c -> objects_ok ts objs ->
  zlen g_blk = A64Model.call_size c rv -> 0 <= base -> (16 | base) -> base + A64Model.call_size c rv < 2 ^ 64 ->
  A64Main.fits pl fixed c -> pointer_slots_ok (A64Call.is_apple pl) fixed 0 ts (places (A64Call.is_apple pl) fixed ts) ->
  A64Model.put_args pl (A64Model.win_variadic c) (A64Model.k_nfixed c) base 0 (A64Model.k_args c) objs g_blk
    (A64Model.arg_init (A64Model.k_bytes c)) = Ok (blk, s) -> zlen blk = zlen g_blk ->
  A64Model.call pl c rv objs chain base g_blk (vbytes V) (saved_frame p e X) = Ok (m, fl, r) ->
  0 <= org -> org + 4 * zlen (call_text p go) <= 2 ^ 64 -> pac_ok e (X LR) (X 1) -> (forall i, word (X i)) -> wide8 V ->
  (forall x, byte_ok (M x)) -> rd M base (length blk) = blk ->
  X 0 = base -> X 1 = base + 192 + A64Model.k_bytes c -> X 3 = match r with Some a => a | None => 0 end -> X 4 = fl -> X 5 = chain ->
  exists X1 V1 M1 ptrs,
    reach e (call_text p go) org (St X V org M) (St X1 V1 (fn_target p e (X 2)) M1) /\
    X1 SP = base + 192 /\ (go = true -> X1 18 = chain) /\
    held (xbytes X1) (vbytes V1) (X1 SP) (mem_read M1) ts (places (A64Call.is_apple pl) fixed ts) objs ptrs /\
    copies_ok ts ptrs (X1 SP + stack_used (A64Call.is_apple pl) fixed ts) (X1 SP + A64Model.k_bytes c) /\
    (forall a, in_memory rt = true -> rv = Some a -> X1 8 = a) /\
    (forall x, ~ (X 1 <= x < X 1 + 40) -> M1 x = M x) /\
    (forall i, 19 <= i < 29 -> X1 i = X i) /\ (forall i, 8 <= i -> V1 i = V i) /\
    (* the results *)
    forall a d n X2 V2 M2, rv = Some a -> natural rt -> in_memory rt = false ->
      (forall i, 19 <= i < 30 -> X2 i = X1 i) -> wide V2 -> (forall x, X 1 <= x < X 1 + 40 -> M2 x = M1 x) ->
      X 3 + Z.of_nat n <= 2 ^ 64 -> zlen d = ty_size rt -> A64Spec.returned rt (two X2) (regs4 V2) d ->
      (Z.land fl A64Model.A_NEED_COPY = 0 -> A64Ret.room rt <= Z.of_nat n) -> (Z.land fl A64Model.A_NEED_COPY <> 0 -> n = 16%nat) ->
      exists X3 M3,
        reach e (call_text p go) org (St X2 V2 (X1 LR) M2) (St X3 V2 (X LR) M3) /\
        X3 SP = X SP /\ (forall i, 19 <= i < 30 -> X3 i = X i) /\
        (forall x, ~ (X 3 <= x < X 3 + Z.of_nat n) -> M3 x = M2 x) /\
        (Z.land fl A64Model.A_NEED_COPY = 0 -> A64Ret.stored rt d (rd M2 (X 3) n) (rd M3 (X 3) n)) /\
        (Z.land fl A64Model.A_NEED_COPY <> 0 -> forall buf, A64Ret.room rt <= zlen buf ->
           exists b, set_range buf 0 (rd M3 (X 3) (Z.to_nat (ty_size rt))) = Some b /\ A64Ret.stored rt d buf b).
Proof.
  intros So Pr Ob Lg B0 B16 B64 Fit Ps Put Lb Ca Ho1 Ho2 Law Wx Wv Hb Hm E0 E1 E3 E4 E5.
  assert (Lv : zlen (vbytes V) = 128) by (unfold vbytes, zlen; cbn [map concat]; rewrite !app_length, !Wv by lia; reflexivity).
  assert (Lf : zlen (saved_frame p e X) = 40) by (unfold saved_frame; rewrite !zlen_app, !zlen_enc; reflexivity).
  destruct (A64Main.call_places pl abi fixed rt ts c rv objs chain base g_blk (vbytes V) (saved_frame p e X) So Pr Ob Lg Lv Lf B0 B16 B64 Fit Ps)
    as (m' & fl' & r' & ptrs & Ca' & Sp & Ch & Lx & Lv' & Hh & Cp & X8).
  rewrite Ca in Ca'. injection Ca' as <- <- <-.
  assert (Kb : 0 <= A64Model.k_bytes c).
  { rewrite (A64Main.prep_ok _ _ _ _ _ So) in Pr. injection Pr as <-. cbn [A64Model.k_bytes]. apply A64Main.wrap32_range. }
  destruct (call_refines pl c rv objs chain base g_blk (vbytes V) blk s m fl r p go e org X V M Ho1 Ho2 Law Wx Hb B0 ltac:(lia) Kb Put Ca Hm eq_refl E0 E1 E3 E4 E5)
    as (X1 & V1 & M1 & R & Ex & Ev & E8 & E18 & Esp & Er & Em & Ecs & Ev8 & Bk).
  exists X1, V1, M1, ptrs. split; [exact R|]. split; [congruence|]. split; [intros G; rewrite E18 by exact G; exact Ch|].
  split. { rewrite Ex, Ev, Esp. apply (held_mono _ _ _ (A64Model.s_read m)); [|exact Hh]. intros a n d Hd. unfold mem_read. f_equal. apply Er, Hd. }
  split; [rewrite Esp; exact Cp|]. split. { intros a I J. rewrite E8. apply (X8 a I J). }
  split. { intros x Hx. rewrite Em. apply wr_out. rewrite Lf. lia. }
  split; [exact Ecs|]. split; [exact Ev8|].
  intros a d n X2 V2 M2 -> Nat IM Hk W Hf Hn Ld Rt N0 N1.
  eapply call_end; eassumption.
Qed.

(** ** Closures *)

(** Memory of the caller of a closure: all but the frame of the library. *)
Definition caller_read (M : Z -> Z) (f a n : Z) : option (list Z) :=
  if (a + n <=? f) || (f + 272 <=? a) then Some (rd M a (Z.to_nat n)) else None.

(** ffi_closure_SYSV_inner (A64Model.closure) started on the frame at [f] in memory [M1] gives
    the handler the arguments that the caller [X], [V], [M] passed as AAPCS64 says. *)
Definition handler_sees (flags : Z) (X : Z -> Z) (V : Z -> list Z) (M M1 : Z -> Z) (f : Z) : Prop :=
  forall pl abi fixed rt ts c objs ptrs,
    A64Main.signature_ok pl abi fixed rt ts -> A64Model.prep pl abi fixed rt ts = Ok c -> A64Model.k_flags c = flags -> objects_ok ts objs ->
    stack_used (A64Call.is_apple pl) fixed ts < 2 ^ 60 -> Forall (fun a => 0 <= a < 2 ^ 64) ptrs ->
    held (xbytes X) (vbytes V) (X SP) (caller_read M f) ts (places (A64Call.is_apple pl) fixed ts) objs ptrs ->
    let m := A64Model.AState (xbytes X) (vbytes V) (X 8) (X 18) (X SP) (caller_read M1 f) in
    exists l blk r fl,
      A64Model.closure pl c m (rd M1 (f + 16) 128) (rd M1 (f + 208) 64) = Ok (l, blk, r, fl) /\
      (if v_of flags then vbytes V else rd M1 (f + 16) 128) ++ xbytes X ++ rd M1 (f + 208) 64 = rd M1 (f + 16) 256 /\
      (forall blk2, (forall o k, 0 <= o -> 0 <= k -> o + k <= 192 -> get_range blk2 o k = get_range blk o k) ->
         A64Closure.seen m blk2 ts l objs) /\
      r = (if in_memory rt then A64Model.RCaller (X 8) else A64Model.RSlot) /\
      Z.land fl 31 = Z.land (A64Main.spec_flags rt) 31.

Lemma sees flags X V M f lr a0 a1 a2 back X1 M1 : wide8 V -> X SP = f + 272 ->
  entered (v_of flags) X V M f lr a0 a1 a2 back X1 M1 -> handler_sees flags X V M M1 f.
Proof.
  intros W Sp (_ & _ & _ & _ & _ & _ & _ & _ & _ & _ & _ & Ex & Ev & Out) pl abi fixed rt ts c objs ptrs So Pr Kf Ob Us Fp Hh m.
  assert (Lv : zlen (vbytes V) = 128) by (unfold vbytes, zlen; cbn [map concat]; rewrite !app_length, !W by lia; reflexivity).
  assert (Lx : zlen (xbytes X) = 64) by (unfold xbytes, zlen; cbn [map concat]; rewrite !app_length, !le_enc_length; reflexivity).
  assert (Hm : held (A64Model.s_x m) (A64Model.s_v m) (A64Model.s_sp m) (A64Model.s_read m) ts (places (A64Call.is_apple pl) fixed ts) objs ptrs).
  { apply (held_mono _ _ _ (caller_read M f)); [|exact Hh]. cbn [m A64Model.s_read]. intros a n d. unfold caller_read.
    destruct ((a + n <=? f) || (f + 272 <=? a)) eqn:E; [|discriminate]. intros Q. rewrite <- Q. f_equal. apply rd_ext. intros x Hx. apply Out. lia. }
  destruct (A64Closure.closure_args pl abi fixed rt ts c m objs ptrs (rd M1 (f + 16) 128) (rd M1 (f + 208) 64) So Pr Ob Lx Lv (rd_zlen _ _ _) (rd_zlen _ _ _) Us Fp Hm)
    as (l & blk & r & fl & E & _ & S & R & F).
  exists l, blk, r, fl. split; [exact E|]. split; [|split; [exact S|split; [exact R|exact F]]].
  change 256%nat with (128 + (64 + 64))%nat. rewrite !rd_app. change (Z.of_nat 128) with 128. change (Z.of_nat 64) with 64.
  replace (f + 16 + 128) with (f + 144) by lia. replace (f + 144 + 64) with (f + 208) by lia. rewrite Ex, Ev.
  destruct (v_of flags); reflexivity.
Qed.

(** A closure works: the C function is called with the closure's contents, a frame the handler
    finds the caller's arguments in, and a result slot; the caller's memory outside the frame is
    as it was; the result goes back to the caller. *)
Definition serves (e : env) (t : list instr) (org f flags cif fn ud : Z) (X : Z -> Z) (V : Z -> list Z) (M X1 M1 : Z -> Z) : Prop :=
  X1 0 = cif /\ X1 1 = fn /\ X1 2 = ud /\ X1 3 = f + 16 /\ X1 4 = X SP /\ X1 5 = f + 208 /\ X1 6 = X 8 /\ X1 SP = f /\
  (forall x, ~ (f <= x < f + 272) -> M1 x = M x) /\
  handler_sees flags X V M M1 f /\
  hands_back e t org f (X1 LR) (X LR) X X1 M1 /\ hands_back_none e t org f (X1 LR) (X LR) X X1 M1.

Lemma serves_ok p e t org flags X V M f lr a0 a1 a2 back X1 M1 : wide8 V -> X SP = f + 272 ->
  entered (v_of flags) X V M f lr a0 a1 a2 back X1 M1 -> comes_back p e t org f X X1 M1 (X LR) ->
  serves e t org f flags a0 a1 a2 X V M X1 M1.
Proof.
  intros W Sp En Cb. pose proof (sees _ _ _ _ _ _ _ _ _ _ _ _ W Sp En) as S.
  destruct En as (E0 & E1 & E2 & E3 & E4 & E5 & E6 & E7 & _ & _ & _ & _ & _ & Out). unfold serves.
  rewrite Sp. repeat (split; [assumption|]). split; [exact (hands _ _ _ _ _ _ _ _ _ Cb)|exact (hands_none _ _ _ _ _ _ _ _ _ Cb)].
Qed.

Lemma dynamic_top p alt go e org X V M f abi flags closure cif fn ud codeloc m0 m1 :
  0 <= org -> org + 4 * zlen (closure_text p false alt go) <= 2 ^ 64 -> pac_ok e (X LR) (X SP) -> wide8 V -> word (X 29) ->
  X SP = f + 272 -> 0 <= f -> f + 272 < 2 ^ 64 ->
  word cif -> word fn -> word ud -> 0 <= codeloc -> codeloc + 48 < 2 ^ 64 -> f + 272 <= codeloc \/ codeloc + 48 <= f ->
  prep_closure_loc (at_label (closure_src p false alt go) org) Dynamic abi flags closure cif fn ud codeloc m0 = (FFI_OK, m1) ->
  (forall k, 0 <= k < 48 -> M (codeloc + k) = m1 (closure + k)) ->
  exists s X1 M1,
    wsteps 3 (St X V codeloc M) = Some s /\ reach e (closure_text p false alt go) org s (St X1 V (inner e) M1) /\
    serves e (closure_text p false alt go) org f flags cif fn ud X V M X1 M1.
Proof.
  intros H1 H2 H3 W H4 Sp. intros. destruct (dynamic_whole p alt go e org X V M f abi flags closure cif fn ud codeloc m0 m1) as (s & X1 & M1 & A & B & C & D); try assumption.
  exists s, X1, M1. split; [exact A|]. split; [exact B|]. eapply serves_ok; eassumption.
Qed.

Lemma static_top p go e org torg i X V M f abi flags closure cif fn ud codeloc m0 m1 :
  0 <= org -> org + 4 * zlen (closure_text p false true go) <= 2 ^ 64 -> pac_ok e (X LR) (X SP) -> wide8 V -> word (X 29) ->
  X SP = f + 272 -> 0 <= f -> f + 272 < 2 ^ 64 ->
  word cif -> word fn -> word ud -> 0 <= closure -> closure + 48 < 2 ^ 64 -> f + 272 <= closure \/ closure + 48 <= f ->
  0 <= torg -> torg + 32768 < 2 ^ 64 -> 0 <= i < 512 ->
  let parm := torg + 16384 + 32 * i in
  f + 272 <= parm \/ parm + 16 <= f -> closure + 48 <= parm \/ parm + 16 <= closure -> (forall a, byte_ok (M a)) ->
  prep_closure_loc (at_label (closure_src p false true go) org) (Static parm) abi flags closure cif fn ud codeloc m0 = (FFI_OK, m1) ->
  (forall a, parm <= a < parm + 16 \/ closure + 24 <= a < closure + 48 -> M a = m1 a) ->
  exists s X1 M1,
    reach e static_table torg (St X V (torg + 32 * i) M) s /\
    reach e (closure_text p false true go) org s (St X1 V (inner e) M1) /\
    serves e (closure_text p false true go) org f flags cif fn ud X V M X1 M1.
Proof.
  intros H1 H2 H3 W H4 Sp. intros. destruct (static_whole p go e org torg i X V M f abi flags closure cif fn ud codeloc m0 m1) as (s & X1 & M1 & A & B & C & D); try assumption.
  exists s, X1, M1. split; [exact A|]. split; [exact B|]. eapply serves_ok; eassumption.
Qed.

Lemma mach_top p alt go e org page0 page i X V M f abi flags closure cif fn ud m0 m1 :
  0 <= org -> org + 4 * zlen (closure_text p true alt go) <= 2 ^ 64 -> pac_ok e (X LR) (X SP) -> wide8 V -> word (X 29) ->
  X SP = f + 272 -> 0 <= f -> f + 272 < 2 ^ 64 ->
  word cif -> word fn -> word ud -> 0 <= closure -> closure + 48 < 2 ^ 64 -> f + 272 <= closure \/ closure + 48 <= f ->
  0 < page -> page <= page0 -> page0 + page < 2 ^ 64 -> (16 | page) -> page < 2 ^ 20 -> 0 <= i < page / 16 ->
  let codeloc := page0 + 16 * i in
  closure + 48 <= codeloc - page \/ codeloc - page + 16 <= closure ->
  prep_closure_loc (at_label (closure_src p true alt go) org) (MachTable page) abi flags closure cif fn ud codeloc m0 = (FFI_OK, m1) ->
  (forall a, codeloc - page <= a < codeloc - page + 16 \/ closure + 16 <= a < closure + 40 -> M a = m1 a) ->
  exists s X1 M1,
    reach e (mach_table page) page0 (St X V codeloc M) s /\
    reach e (closure_text p true alt go) org s (St X1 V (inner e) M1) /\
    serves e (closure_text p true alt go) org f flags cif fn ud X V M X1 M1.
Proof.
  intros H1 H2 H3 W H4 Sp. intros. destruct (mach_whole p alt go e org page0 page i X V M f abi flags closure cif fn ud m0 m1) as (s & X1 & M1 & A & B & C & D); try assumption.
  exists s, X1, M1. split; [exact A|]. split; [exact B|]. eapply serves_ok; eassumption.
Qed.

Lemma go_top p alt e org X V M f abi flags closure cif fn m0 m1 :
  p <> Arm64e -> p = NoPac \/ Z.land flags A64Model.A_ARG_V = 0 ->
  0 <= org -> org + 4 * zlen (closure_text p false alt true) <= 2 ^ 64 -> pac_ok e (X LR) (X SP) -> wide8 V -> word (X 29) ->
  X SP = f + 272 -> 0 <= f -> f + 272 < 2 ^ 64 ->
  word cif -> word fn -> 0 <= closure -> closure + 24 < 2 ^ 64 -> f + 272 <= closure \/ closure + 24 <= f ->
  prep_go_closure (at_label (closure_src p false alt true) org) abi flags closure cif fn m0 = (FFI_OK, m1) ->
  (forall a, closure <= a < closure + 24 -> M a = m1 a) -> X 18 = closure ->
  exists X1 M1,
    reach e (closure_text p false alt true) org (St X V (le_dec (rd M closure 8)) M) (St X1 V (inner e) M1) /\
    serves e (closure_text p false alt true) org f flags cif fn closure X V M X1 M1.
Proof.
  intros Pa Pv H1 H2 H3 W H4 Sp. intros.
  assert (Pv' : p = NoPac \/ v_of flags = false) by (destruct Pv as [Pv|Pv]; [auto|right; unfold v_of; rewrite Pv; reflexivity]).
  destruct (go_whole_plain p alt e org X V M f abi flags closure cif fn m0 m1) as (X1 & M1 & A & B & C); try assumption.
  exists X1, M1. split; [exact A|]. eapply serves_ok; eassumption.
Qed.
