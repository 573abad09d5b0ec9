(** The code around calls and closures of RISC-V together with what RvWhole, RvClosure and RvRet
    prove about the C code. *)
From Coq Require Import ZifyBool ZifyNat.
From Verif Require Import Base BaseFacts ByteMem Types LayoutSpec NaturalTypes NaturalFacts RiscAsmModel RiscAsmFacts RiscAsmClo RiscAsmTop RiscAsmEnd
  RvModel RvSpec RvFlat RvCall RvMain RvWhole RvClosure RvRet.
From Verif Require A64Fits A64AsmCallAll A64Ret.
Local Open Scope Z_scope.
Local Arguments Z.mul : simpl never.
Local Arguments Z.add : simpl never.
Local Arguments Z.sub : simpl never.
Local Arguments Z.pow : simpl never.
Local Arguments Z.of_nat : simpl never.

Lemma width_fl fl : fl_ok fl -> width_ok RV fl.
Proof. unfold fl_ok, width_ok. intuition. Qed.

(** ** The length of the block *)

Lemma of_option_ok {A} (o : option A) x : of_option o = Ok x -> o = Some x.
Proof. destruct o; cbn [of_option]; congruence. Qed.
Lemma set_len (m : list Z) off d b : of_option (set_range m off d) = Ok b -> zlen b = zlen m.
Proof. intros H. apply of_option_ok in H. apply set_range_inv in H. intuition. Qed.

Ltac binds H := repeat match type of H with
  | bind _ _ = Ok _ => let x := fresh "x" in let E := fresh "E" in apply bind_ok in H as (x & E & H)
  end.

Lemma put_float_len ctx fl d s s' : put_float ctx fl d s = Ok s' -> zlen (b_blk s') = zlen (b_blk s).
Proof. unfold put_float. intros H. binds H. injection H as <-. exact (set_len _ _ _ _ E). Qed.
Lemma put_word_len ctx fl v s s' : put_word ctx fl v s = Ok s' -> zlen (b_blk s') = zlen (b_blk s).
Proof. unfold put_word. intros H. destruct (_ =? _); binds H; injection H as <-; exact (set_len _ _ _ _ E). Qed.
Lemma atom_len ctx fl c d s s' : marshal_atom ctx fl c d s = Ok s' -> zlen (b_blk s') = zlen (b_blk s).
Proof.
  unfold marshal_atom. intros H. destruct c; try discriminate; try destruct (_ <=? fl); try discriminate; binds H; eauto using put_word_len, put_float_len.
Qed.
Lemma marshal_len base ctx fl t var d gr s s' : marshal base ctx fl t var d gr s = Ok s' -> zlen (b_blk s') = zlen (b_blk s).
Proof.
  unfold marshal. intros H. destruct (elements_of _ _ _ _ _) as [[c1 [[off c2]|]]|].
  - binds H. apply atom_len in H, E. congruence.
  - apply atom_len in H. exact H.
  - destruct (_ && _); [apply atom_len in H; exact H|]. destruct (_ >? 16).
    + binds H. apply atom_len in H. cbn [b_blk] in H. rewrite H. exact (set_len _ _ _ _ E0).
    + destruct (_ || _); [apply atom_len in H; exact H|]. binds H.
      assert (L : zlen (b_blk x1) = zlen (b_blk s)).
      { transitivity (zlen (b_blk (align_pair base var t s))); [|unfold align_pair; destruct (ty_align t >? 8); reflexivity].
        destruct (_ >? 0); [apply atom_len in E1; exact E1|injection E1 as <-; reflexivity]. }
      destruct (ty_size t >? 8); [|injection H as <-; exact L]. binds H. apply atom_len in H. congruence.
Qed.
Lemma args_len base ctx fl nf gr ts : forall i objs s s', marshal_args base ctx fl nf i ts objs gr s = Ok s' -> zlen (b_blk s') = zlen (b_blk s).
Proof.
  induction ts as [|t ts IH]; intros i objs s s' H; cbn [marshal_args] in H; [injection H as <-; reflexivity|].
  destruct objs as [|o objs]; [discriminate|]. binds H. apply IH in H. apply marshal_len in E. congruence.
Qed.

(** The memory of a call state. *)
Lemma call_block fl c rv objs gr chain base blk frame m r ref :
  call fl c rv objs gr chain base blk frame = Ok (m, r, ref) ->
  exists b, zlen b = zlen blk /\ s_read m = (fun p n => get_range b (p - base) n) /\ s_sp m = base /\
    get_range b (ctx_at c rv) (8 * fl) = Some (s_fa m) /\ get_range b (ctx_at c rv + 8 * fl) 64 = Some (s_a m) /\
    get_range b (ctx_at c rv + 8 * fl + 64) (zlen frame) = Some frame.
Proof.
  unfold call. intros H. binds H. injection H as <- _ _. cbn [s_read s_sp s_fa s_a].
  exists x1. apply of_option_ok in E2, E3. pose proof (set_len _ _ _ _ E1) as L. apply of_option_ok in E1.
  split.
  - apply args_len in E0. destruct (passed_by_ref _ _ _ _ _); [apply marshal_len in E|injection E as <-]; cbn [b_blk] in *; congruence.
  - repeat (split; [first [reflexivity|assumption]|]). exact (get_set_same _ _ _ _ E1).
Qed.

(** Memory that holds a block. *)
Lemma whole_block (M : Z -> Z) base b k frame :
  0 <= k -> zlen b = k + zlen frame -> get_range b k (zlen frame) = Some frame ->
  (forall p n d, get_range b (p - base) n = Some d -> p + n <= base + k -> rd M p (Z.to_nat n) = d) ->
  rd M (base + k) (Z.to_nat (zlen frame)) = frame ->
  rd M base (length b) = b.
Proof.
  intros K L G H F.
  destruct (get_range b 0 k) as [b0|] eqn:G0; [|rewrite get_range_some in G0 by (pose proof (zlen_nonneg frame); lia); discriminate].
  pose proof (A64Ret.get_range_app b 0 k (zlen frame) b0 frame G0 ltac:(rewrite Z.add_0_l; exact G)) as S.
  pose proof (get_range_all b) as GA. rewrite L in GA. rewrite GA in S.
  assert (Eb : b = b0 ++ frame) by congruence.
  assert (L0 : zlen b0 = k) by (apply get_range_inv in G0; lia).
  rewrite Eb at 1. rewrite app_length, rd_app.
  rewrite Eb. f_equal.
  - transitivity (rd M base (Z.to_nat k)); [f_equal; unfold zlen in L0; lia|]. apply (H base k b0); [rewrite Z.sub_diag; exact G0|lia].
  - transitivity (rd M (base + k) (Z.to_nat (zlen frame))); [|exact F]. f_equal; unfold zlen in *; lia.
Qed.

Lemma held_mono fl a fa sp rd1 rd2 ts : (forall p n d, rd1 p n = Some d -> rd2 p n = Some d) ->
  forall pls objs ptrs, held fl a fa sp rd1 ts pls objs ptrs -> held fl a fa sp rd2 ts pls objs ptrs.
Proof.
  intros R.
  assert (W : forall w x, word_of a sp rd1 w = Some x -> word_of a sp rd2 w = Some x) by (intros [i|o] x; cbn [word_of]; auto).
  assert (Ws : forall l x, words_of a sp rd1 l = Some x -> words_of a sp rd2 l = Some x).
  { induction l as [|w l IH]; intros x; cbn [words_of]; [auto|]. destruct (word_of a sp rd1 w) as [y|] eqn:E; [|discriminate].
    rewrite (W _ _ E). destruct (words_of a sp rd1 l) as [z|] eqn:F; [|discriminate]. rewrite (IH _ eq_refl). auto. }
  assert (P : forall t pl d, at_place fl a fa sp rd1 t pl d -> at_place fl a fa sp rd2 t pl d).
  { intros t [] d; cbn [at_place]; auto. intros (w & H1 & H2). exists w. auto. }
  induction ts as [|t ts IH]; intros [|pl pls] [|o objs] ptrs; cbn [held]; auto.
  destruct pl; try (intros [H1 H2]; split; [exact (P _ _ _ H1)|auto]).
  destruct ptrs as [|q ptrs]; [auto|]. intros (H1 & H2 & H3). auto.
Qed.

Lemma stack_used_nonneg fl fixed rt ts : 0 <= stack_used fl fixed rt ts.
Proof.
  unfold stack_used. destruct (assign fl fixed 0 ts (first_reg fl rt) 0 0) as [pls e] eqn:ASG. cbn [snd].
  assert (RM : room (first_reg fl rt) 0 1).
  { destruct (first_reg_cases fl rt) as [-> | ->]; repeat split; try lia; apply Z.divide_0_r. }
  apply (assign_room _ _ _ _ _ _ _ _ _ _ RM ASG).
Qed.

(** Memory as the specification reads it. *)
Definition mem_read (M : Z -> Z) (a n : Z) : option (list Z) := if 0 <=? n then Some (rd M a (Z.to_nat n)) else None.
Lemma mem_read_ok M : reads_ok (mem_read M).
Proof. intros p n x. unfold mem_read. destruct (0 <=? n) eqn:E; [|discriminate]. intros H. injection H as <-. rewrite rd_zlen. lia. Qed.

(** ** ffi_call down to the machine *)

Lemma call_code fl fixed rt ts rv objs gr chain base blk m r e org X V M :
  let c := prep fixed rt ts in
  let ctx := base + ctx_at c rv in
  fl_ok fl -> signature_ok rt ts -> objects_ok ts objs -> A64Fits.total_size ts < 2 ^ 31 -> ty_size rt < 2 ^ 31 ->
  lone_reals_ok fl fixed 0 ts (places fl fixed rt ts) ->
  zlen blk = alloc_size fl c rv -> (forall i, zlen (gr i) = 16 /\ bytes_ok (gr i)) ->
  0 <= base -> (16 | base) -> base + alloc_size fl c rv < 2 ^ 64 -> (forall a, rv = Some a -> 0 <= a < 2 ^ 64) ->
  call fl c rv objs gr chain base blk (le_enc 8 (X (FP RV)) ++ le_enc 8 (X (RA RV))) = Ok (m, r, in_memory fl rt) ->
  0 <= org -> org + 4 * zlen (call_text RV fl) <= 2 ^ 64 -> (forall x, byte_ok (M x)) ->
  (forall p n d, s_read m p n = Some d -> p + n <= ctx + 8 * fl + 64 -> rd M p (Z.to_nat n) = d) ->
  X (AR RV 0) = base -> X (AR RV 1) = ctx -> X (AR RV 3) = chain ->
  0 <= X (FP RV) < 2 ^ 64 -> code_addr RV (X (RA RV)) -> code_addr RV (X (AR RV 2)) ->
  exists X1 V1 M1 ptrs,
    reach RV e (call_text RV fl) org (St X V org M) (St X1 V1 (X (AR RV 2)) M1) /\
    X1 (SP RV) = base /\ X1 (T2 RV) = chain /\
    held fl (abytes RV X1) (fbytes RV fl V1) base (mem_read M1) ts (places fl fixed rt ts) objs ptrs /\
    copies_ok (fun _ => 8) ts (places fl fixed rt ts) ptrs (base + stack_used fl fixed rt ts + rval_bytes c rv) ctx /\
    (in_memory fl rt = true -> exists a, r = Some a /\ X1 (AR RV 0) mod 2 ^ 64 = a /\ (forall a', rv = Some a' -> a = a')) /\
    (forall x, ~ (ctx + 8 * fl + 64 <= x < ctx + FRAME_LEN fl) -> M1 x = M x) /\
    (forall i, saved RV i = true -> i <> FP RV -> X1 i = X i) /\ (forall i, fsaved RV i = true -> V1 i = V i) /\
    (* the results *)
    forall X2 V2 M2,
      (forall i, saved RV i = true -> X2 i = X1 i) -> wide V2 ->
      (forall x, ctx + 8 * fl + 64 <= x < ctx + FRAME_LEN fl -> M2 x = M1 x) ->
      exists X3 M3,
        reach RV e (call_text RV fl) org (St X2 V2 (X1 (RA RV)) M2) (St X3 V2 (X (RA RV)) M3) /\
        X3 (SP RV) = ctx /\ (16 | ctx) /\ (forall i, saved RV i = true -> X3 i = X i) /\
        (forall x, ~ (ctx <= x < ctx + FRAME_LEN fl) -> M3 x = M2 x) /\
        back_in_context RV fl ctx X2 V2 M2 M3 /\
        forall d b, natural rt -> in_memory fl rt = false -> zlen d = ty_size rt -> returned fl rt (two RV X2) (ftwo RV fl V2) d ->
          ty_size rt <= zlen b -> (narrow (ty_code rt) = true -> 8 <= zlen b) ->
          exists b', finish fl c (mem_read M3) (RRet (two RV X2) (ftwo RV fl V2)) (rd M2 ctx (Z.to_nat (FRAME_LEN fl))) (in_memory fl rt) (Some b) = Ok (Some b') /\
            if narrow (ty_code rt) then get_range b' 0 8 = Some (le_enc 8 (extended (ty_code rt) d)) else same_fields rt b' d.
Proof.
  intros c ctx FL So Ob T TR LO ZB GR B0 B16 BB RVB Ca Ho1 Ho2 Hb HM E0 E1 E3 Wfp Wra Wfn.
  pose proof (width_fl fl FL) as W. pose proof (flcases fl FL) as F0.
  set (frame := le_enc 8 (X (FP RV)) ++ le_enc 8 (X (RA RV))) in *.
  assert (Lfr : zlen frame = 16) by (unfold frame; rewrite zlen_app, !zlen_enc; reflexivity).
  destruct (call_ok fl fixed rt ts rv objs gr chain base blk frame FL So Ob T TR LO ZB Lfr GR B0 B16 BB RVB)
    as (m' & r' & ptrs & Ca' & Sp & Ch & La & Lf & Hh & Cp & Rp).
  fold c in Ca', Cp, Rp. rewrite Ca in Ca'. injection Ca' as <- <-.
  destruct (call_block _ _ _ _ _ _ _ _ _ _ _ _ Ca) as (b & Lb & Er & _ & Gf & Ga & Gfr).
  destruct (areas_fit fl fixed rt ts ltac:(apply So) T) as (AB & DA & SU & SB & DS & CS). fold c in AB, DA, SU, SB, DS, CS.
  assert (RB : 0 <= rval_bytes c rv /\ (16 | rval_bytes c rv)).
  { unfold rval_bytes. destruct rv as [a|]; [split; [lia|apply Z.divide_0_r]|].
    destruct (ty_size (k_rtype c) >? 16) eqn:E; [|split; [lia|apply Z.divide_0_r]]. change (k_rtype c) with rt in *.
    assert (P16 : is_pow2 16) by (exists 4; split; [lia|reflexivity]).
    pose proof (round_up_le (ty_size rt) 16 ltac:(lia)). pose proof (round_up_lt (ty_size rt) 16 ltac:(lia)).
    rewrite ffi_align_round by (auto; lia). split; [lia|apply round_up_divide]. }
  assert (C0 : 0 <= ctx_at c rv) by (unfold ctx_at; lia).
  assert (D16 : (16 | ctx)) by (unfold ctx, ctx_at; repeat apply Z.divide_add_r; tauto).
  unfold alloc_size, ctx_size in ZB, BB.
  rewrite Er in HM. cbv beta in HM.
  assert (F80 : FRAME_LEN fl = 8 * fl + 80) by reflexivity.
  destruct (call_machine RV e fl org X V M W Ho1 Ho2 Hb) as (X1 & V1 & M1 & R & EA & EF & ESp & ET2 & Out & R16 & Sv & Fv & Bk);
    try assumption; try (rewrite ?E1; lia).
  rewrite E1 in EA, EF, Out, R16, Bk. fold frame in R16.
  (* registers *)
  assert (Ha : abytes RV X1 = s_a m).
  { rewrite EA. apply (HM (ctx + 8 * fl) 64); [|lia]. replace (ctx + 8 * fl - base) with (ctx_at c rv + 8 * fl) by (unfold ctx; lia). exact Ga. }
  assert (Hf : fbytes RV fl V1 = s_fa m).
  { rewrite EF. apply (HM ctx (8 * fl)); [|lia]. replace (ctx - base) with (ctx_at c rv) by (unfold ctx; lia). exact Gf. }
  (* memory *)
  assert (Mb : rd M1 base (length b) = b).
  { apply (whole_block M1 base b (ctx_at c rv + 8 * fl + 64) frame); [lia|lia|exact Gfr| |].
    - intros p n d G L. rewrite <- (HM p n d G) by (unfold ctx; lia). apply get_range_inv in G as (G1 & G2 & G3 & _).
      apply rd_ext. intros x Hx. apply Out. unfold ctx in *. lia.
    - rewrite Lfr. rewrite <- R16. f_equal. unfold ctx. lia. }
  exists X1, V1, M1, ptrs. split; [exact R|]. split; [congruence|]. split; [congruence|].
  split.
  { rewrite Ha, Hf. rewrite Sp in Hh. revert Hh. apply held_mono. rewrite Er. intros p n d G. unfold mem_read.
    pose proof G as G'. apply get_range_inv in G' as (_ & N0 & _). replace (0 <=? n) with true by lia. f_equal.
    rewrite <- Mb in G. apply get_rd in G. rewrite <- G. f_equal. lia. }
  split; [exact Cp|].
  split.
  { intros I. destruct (Rp I) as (a & Ra & Ga0 & Rv & _). exists a. split; [exact Ra|]. split; [|exact Rv].
    rewrite <- Ha in Ga0. unfold abytes, eight in Ga0. cbn [map concat] in Ga0.
    rewrite A64Ret.get_range_prefix in Ga0 by (rewrite ?zlen_enc; lia).
    pose proof (get_range_all (le_enc 8 (X1 (AR RV 0)))) as GA. rewrite zlen_enc in GA. change (Z.of_nat 8) with 8 in GA. rewrite GA in Ga0.
    assert (Q : le_enc 8 (X1 (AR RV 0)) = le_enc 8 a) by congruence. apply (f_equal le_dec) in Q. rewrite !le_dec_enc in Q.
    change (8 * Z.of_nat 8) with 64 in Q. rewrite Q. apply Z.mod_small.
    destruct rv as [a'|].
    - rewrite (Rv a' eq_refl). apply RVB. reflexivity.
    - destruct (Rp I) as (a2 & Ra2 & _ & _ & R3). rewrite Ra in Ra2. injection Ra2 as <-. destruct (R3 eq_refl).
      assert (0 < ty_size rt) by (destruct So as (_ & _ & [-> |[Nr _]]); [reflexivity|apply (natural_basic _ Nr)]).
      assert (0 <= stack_used fl fixed rt ts) by (apply stack_used_nonneg). unfold ctx_at in *. lia. }
  split; [exact Out|]. split; [exact Sv|]. split; [exact Fv|].
  intros X2 V2 M2 HS Wv Hfr. destruct (Bk X2 V2 M2 HS Wv Hfr) as (X3 & M3 & R3 & Bc & Out3 & Sp3 & Sv3).
  exists X3, M3. split; [exact R3|]. split; [exact Sp3|]. split; [exact D16|]. split; [exact Sv3|]. split; [exact Out3|]. split; [exact Bc|].
  intros d b0 Nat IM Ld Rt Lb0 Lb8. rewrite IM.
  apply (finish_ok fl fixed rt ts (mem_read M3) (RRet (two RV X2) (ftwo RV fl V2)) _ b0 d FL Nat IM (mem_read_ok M3)); auto.
  - rewrite rd_zlen. unfold ctx_size. lia.
  - apply ftwo_len; assumption.
Qed.

(** ** Closures *)

(** Memory of the caller of a closure: all but the frame of the library. *)
Definition caller_read (fl : Z) (M : Z -> Z) (f p n : Z) : option (list Z) :=
  if (0 <=? n) && ((p + n <=? f) || (f + FRAME_LEN fl <=? p)) then Some (rd M p (Z.to_nat n)) else None.
Lemma caller_read_ok fl M f : reads_ok (caller_read fl M f).
Proof. intros p n x. unfold caller_read. destruct (0 <=? n) eqn:E; [|discriminate]. cbn [andb]. destruct (_ || _); [|discriminate]. intros H. injection H as <-. rewrite rd_zlen. lia. Qed.

(** ffi_closure_inner (RvModel.closure) started on the frame at [f] in memory [M1] gives the
    handler the arguments that the caller [X], [V], [M] passed as the calling convention says. *)
Definition handler_sees (fl : Z) (X : Z -> Z) (V : Z -> list Z) (M M1 : Z -> Z) (f : Z) : Prop :=
  forall fixed rt ts objs ptrs sto slot res,
    signature_ok rt ts -> objects_ok ts objs -> lone_reals_ok fl fixed 0 ts (places fl fixed rt ts) ->
    (16 | X (SP RV)) -> X (SP RV) + stack_used fl fixed rt ts + 32 < 2 ^ 64 ->
    (forall i, zlen (sto i) = 16) -> zlen slot = 16 -> Forall (fun p => 0 <= p < 2 ^ 64) ptrs ->
    held fl (abytes RV X) (fbytes RV fl V) (X (SP RV)) (caller_read fl M f) ts (places fl fixed rt ts) objs ptrs ->
    (in_memory fl rt = true -> 0 <= res < 2 ^ 64 /\ X (AR RV 0) mod 2 ^ 64 = res) ->
    let m := RState (abytes RV X) (fbytes RV fl V) (X (T2 RV)) (X (SP RV)) (caller_read fl M1 f) in
    exists l r,
      closure fl (prep fixed rt ts) m (le_enc 8 (X (FP RV)) ++ le_enc 8 (X (RA RV))) sto slot = Ok (l, rd M1 f (Z.to_nat (FRAME_LEN fl)), r) /\
      received (s_read m) ts l objs /\
      r = (if in_memory fl rt then RCaller res else RSlot (ty_size rt)).

(** A handler's result [d] of type [rt], put in the frame by ffi_closure_inner (RvModel.load_ret),
    gets to the caller, in the registers of the calling convention. *)
Definition hands_back (e fl : Z) (t : list instr) (org f : Z) (X X1 : Z -> Z) (M1 : Z -> Z) : Prop :=
  forall fixed rt ts d gr, natural rt -> in_memory fl rt = false -> zlen d = ty_size rt -> bytes_ok d -> zlen gr = 16 -> bytes_ok gr ->
    exists r, load_ret fl (prep fixed rt ts) (rd M1 f (Z.to_nat (FRAME_LEN fl))) d gr = Ok r /\
    forall X2 V2 M2,
      X2 (SP RV) = X1 (SP RV) -> (forall i, saved RV i = true -> i <> FP RV -> X2 i = X1 i) -> (forall x, byte_ok (M2 x)) ->
      (forall x, f + 8 * fl + 64 <= x < f + FRAME_LEN fl -> M2 x = M1 x) ->
      rd M2 f (Z.to_nat (2 * fl)) = r_fa r -> rd M2 (f + 8 * fl) 16 = r_a r ->
      exists X3 V3,
        reach RV e t org (St X2 V2 (X1 (RA RV)) M2) (St X3 V3 (X (RA RV)) M2) /\
        returned fl rt (two RV X3) (ftwo RV fl V3) d /\
        X3 (SP RV) = X (SP RV) /\ (forall i, saved RV i = true -> X3 i = X i) /\ (forall i, fsaved RV i = true -> V3 i = V2 i).

(** The same for functions without a result in registers. *)
Definition hands_back_none (e fl : Z) (t : list instr) (org f : Z) (X X1 : Z -> Z) (M1 : Z -> Z) : Prop :=
  forall X2 V2 M2,
    X2 (SP RV) = X1 (SP RV) -> (forall i, saved RV i = true -> i <> FP RV -> X2 i = X1 i) -> (forall x, byte_ok (M2 x)) ->
    (forall x, f + 8 * fl + 64 <= x < f + FRAME_LEN fl -> M2 x = M1 x) ->
    exists X3 V3,
      reach RV e t org (St X2 V2 (X1 (RA RV)) M2) (St X3 V3 (X (RA RV)) M2) /\
      X3 (SP RV) = X (SP RV) /\ (forall i, saved RV i = true -> X3 i = X i) /\ (forall i, fsaved RV i = true -> V3 i = V2 i).

(** A closure works: ffi_closure_inner is called with the closure's contents, the caller's stack
    and a frame in which it finds the arguments; the caller's memory outside the frame is as it
    was; the result goes back to the caller, whose stack and registers are restored. *)
Definition serves (e fl : Z) (t : list instr) (org f cif fn ud : Z) (X : Z -> Z) (V : Z -> list Z) (M X1 M1 : Z -> Z) : Prop :=
  X1 (AR RV 0) = cif /\ X1 (AR RV 1) = fn /\ X1 (AR RV 2) = ud /\ X1 (AR RV 3) = X (SP RV) /\ X1 (AR RV 4) = f /\ X1 (SP RV) = f /\
  (forall x, ~ (f <= x < f + FRAME_LEN fl) -> M1 x = M x) /\
  handler_sees fl X V M M1 f /\ hands_back e fl t org f X X1 M1 /\ hands_back_none e fl t org f X X1 M1.

Lemma serves_ok e fl t org X V M f cif fn ud back X1 M1 :
  fl_ok fl -> wide V -> X (SP RV) = f + FRAME_LEN fl -> 0 <= f ->
  entered RV fl X V M f cif fn ud back X1 M1 -> comes_back RV e fl t org f X X1 M1 ->
  serves e fl t org f cif fn ud X V M X1 M1.
Proof.
  intros FL Wv Esp Hf (E0 & E1 & E2 & E3 & E4 & E5 & E6 & E7 & E8 & E9) Cb.
  pose proof (width_fl fl FL) as W. pose proof (flcases fl FL) as F0.
  assert (F80 : FRAME_LEN fl = 8 * fl + 80) by reflexivity. pose proof (fl_bound RV fl W) as FB.
  assert (Lf : zlen (fbytes RV fl V) = 8 * fl).
  { unfold fbytes, eight, zlen. cbn [map concat]. rewrite !app_length, !firstn_length, !Wv. cbn [length]. lia. }
  assert (La : zlen (abytes RV X) = 64).
  { unfold abytes, eight, zlen. cbn [map concat]. rewrite !app_length, !le_enc_length. cbn [length]. lia. }
  unfold serves. repeat (split; [first [assumption|congruence]|]).
  split; [|split].
  - intros fixed rt ts objs ptrs sto slot res So Ob LO S16 SB Zs Zl Fp Hh Rs m.
    assert (Hm : held fl (s_a m) (s_fa m) (s_sp m) (s_read m) ts (places fl fixed rt ts) objs ptrs).
    { revert Hh. apply held_mono. intros p n d. cbn [m s_read]. unfold caller_read.
      destruct ((0 <=? n) && ((p + n <=? f) || (f + FRAME_LEN fl <=? p))) eqn:E; [|discriminate]. intros Q. rewrite <- Q. f_equal.
      apply rd_ext. intros x Hx. apply E9. lia. }
    destruct (closure_ok fl fixed rt ts m (le_enc 8 (X (FP RV)) ++ le_enc 8 (X (RA RV))) sto slot objs ptrs res FL So Ob LO La Lf) as (l & r & Ec & Rc & R1 & R2); auto.
    + cbn [m s_sp]. lia.
    + apply caller_read_ok.
    + intros I. destruct (Rs I) as [R0 Rm]. split; [exact R0|]. cbn [m s_a]. unfold abytes, eight. cbn [map concat].
      rewrite A64Ret.get_range_prefix by (rewrite ?zlen_enc; lia).
      pose proof (get_range_all (le_enc 8 (X (AR RV 0)))) as GA. rewrite zlen_enc in GA. change (Z.of_nat 8) with 8 in GA. rewrite GA. f_equal.
      rewrite <- (le_enc_mod 8 (X (AR RV 0))). change (8 * Z.of_nat 8) with 64. rewrite Rm. reflexivity.
    + exists l, r. split; [rewrite E8; exact Ec|]. split; [exact Rc|]. destruct (in_memory fl rt); auto.
  - intros fixed rt ts d gr Nat IM Ld Bd Lg Bg.
    destruct (load_ret_ok fl fixed rt ts (rd M1 f (Z.to_nat (FRAME_LEN fl))) d gr FL Nat IM ltac:(rewrite rd_zlen; unfold ctx_size; lia) Ld Bd Lg Bg) as (r & Er & _ & _ & Rt).
    exists r. split; [exact Er|]. intros X2 V2 M2 H1 H2 H3 H4 Hf2 Ha2.
    destruct (Cb X2 V2 M2 H1 H2 H3 H4) as (X3 & V3 & R & T & Tf & S & Sv & Fv).
    exists X3, V3. split; [exact R|]. split; [rewrite T, Tf, Hf2, Ha2; exact Rt|]. split; [congruence|]. auto.
  - intros X2 V2 M2 H1 H2 H3 H4.
    destruct (Cb X2 V2 M2 H1 H2 H3 H4) as (X3 & V3 & R & T & Tf & S & Sv & Fv).
    exists X3, V3. split; [exact R|]. split; [congruence|]. auto.
Qed.

Lemma dynamic_top e fl org X V M f abi closure cif fn ud codeloc m0 m1 :
  fl_ok fl -> code_addr RV org -> org + 4 * zlen (closure_text RV fl) <= 2 ^ 64 -> wide V ->
  X (SP RV) = f + FRAME_LEN fl -> 0 <= f -> f + FRAME_LEN fl < 2 ^ 64 -> 0 <= X (FP RV) < 2 ^ 64 -> code_addr RV (X (RA RV)) ->
  0 <= cif < 2 ^ 64 -> 0 <= fn < 2 ^ 64 -> 0 <= ud < 2 ^ 64 ->
  0 <= codeloc -> codeloc + 48 <= 2 ^ 64 -> f + FRAME_LEN fl <= codeloc \/ codeloc + 48 <= f ->
  prep_closure_loc RV org None abi closure cif fn ud m0 = (FFI_OK, m1) ->
  (forall k, 0 <= k < 48 -> M (codeloc + k) = m1 (closure + k)) ->
  exists s X1 M1,
    wsteps RV 3 (St X V codeloc M) = Some s /\ reach RV e (closure_text RV fl) org s (St X1 V e M1) /\
    serves e fl (closure_text RV fl) org f cif fn ud X V M X1 M1.
Proof.
  intros FL H1 H2 Wv Esp Hf. intros. destruct (dynamic_whole RV e fl org X V M f abi closure cif fn ud codeloc m0 m1 (width_fl fl FL)) as (s & X1 & M1 & A & C & D & E); try assumption.
  exists s, X1, M1. split; [exact A|]. split; [exact C|]. eapply serves_ok; eassumption.
Qed.

Lemma go_top e fl org X V M f abi closure cif fn m0 m1 :
  fl_ok fl -> code_addr RV org -> org + 4 * zlen (go_text RV fl) <= 2 ^ 64 -> wide V ->
  X (SP RV) = f + FRAME_LEN fl -> 0 <= f -> f + FRAME_LEN fl < 2 ^ 64 -> 0 <= X (FP RV) < 2 ^ 64 -> code_addr RV (X (RA RV)) ->
  0 <= cif < 2 ^ 64 -> 0 <= fn < 2 ^ 64 ->
  0 <= closure -> closure + 24 <= 2 ^ 64 -> f + FRAME_LEN fl <= closure \/ closure + 24 <= f ->
  prep_go_closure RV org abi closure cif fn m0 = (FFI_OK, m1) ->
  (forall x, closure <= x < closure + 24 -> M x = m1 x) -> X (T2 RV) = closure ->
  exists X1 M1,
    reach RV e (go_text RV fl) org (St X V (le_dec (rd M closure 8)) M) (St X1 V e M1) /\
    serves e fl (go_text RV fl) org f cif fn closure X V M X1 M1.
Proof.
  intros FL H1 H2 Wv Esp Hf. intros. destruct (go_whole RV e fl org X V M f abi closure cif fn m0 m1 (width_fl fl FL)) as (X1 & M1 & A & C & D); try assumption.
  exists X1, M1. split; [exact A|]. eapply serves_ok; eassumption.
Qed.
