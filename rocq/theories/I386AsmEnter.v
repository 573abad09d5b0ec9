(** The C code of ffi_call_int and ffi_raw_call (I386Model) and the assembly code that goes on
    from it. *)
From Coq Require Import ZifyBool ZifyNat.
From Verif Require Import Base Types BaseFacts ByteMem X87Model I386Model I386Spec I386RetSpec I386RawSpec I386Facts I386Call I386CallOk I386Ret I386Raw.
From Verif Require Import I386AsmModel I386AsmFacts I386AsmCall.
Local Open Scope Z_scope.
Local Arguments Z.mul : simpl never.
Local Arguments Z.add : simpl never.
Local Arguments Z.sub : simpl never.
Local Arguments Z.pow : simpl never.
Local Arguments Z.of_nat : simpl never.

(** The machine's state as the conventions speak of it. *)
Definition arg_regs (X : Z -> Z) : Z -> Z := fun r => if r =? 0 then X EAX else if r =? 1 then X EDX else X ECX.
Definition reader (M : Z -> Z) : Z -> Z -> option (list Z) := fun p n => if 0 <=? n then Some (rd M p (Z.to_nat n)) else None.

Lemma held_mono regs sp r r' : (forall p n d, r p n = Some d -> r' p n = Some d) ->
  forall ts ls objs, held regs sp r ts ls objs -> held regs sp r' ts ls objs.
Proof.
  intros H. induction ts as [|t ts IH]; intros [|l ls] [|d objs] HH; try exact HH; try contradiction.
  destruct HH as [A C]. split; [|apply IH, C]. destruct l; [exact A|]. destruct A as [A D]. split; [apply H, A|intros Q; apply H, D, Q].
Qed.

Lemma held_regs regs regs' sp r : (forall i, regs' i = regs i) ->
  forall ts ls objs, held regs sp r ts ls objs -> held regs' sp r ts ls objs.
Proof.
  intros H. induction ts as [|t ts IH]; intros [|l ls] [|d objs] HH; try exact HH; try contradiction.
  destruct HH as [A C]. split; [|apply IH, C]. destruct l; [|exact A]. cbn [at_loc] in *. rewrite H. exact A.
Qed.

Lemma reader_block M base b : rd M base (length b) = b -> forall p n d, reads base b p n = Some d -> reader M p n = Some d.
Proof.
  intros R p n d G. unfold reads in G. pose proof G as G'. rewrite <- R in G'. apply get_rd in G'. replace (base + (p - base)) with p in G' by lia.
  apply get_range_inv in G. unfold reader. destruct (0 <=? n) eqn:N; [rewrite G'; reflexivity|lia].
Qed.

(** What ffi_call_i386 is given: pointers to a frame and to arguments, and the block prepared by
    the C code, of which the first two words of the frame are yet to be set. *)
Definition given (base P : Z) (b : list Z) (ra : Z) (X M : Z -> Z) : Prop :=
  X ECX = P /\ X EDX = base /\ X ESP + 4 <= 2 ^ 32 /\ rd M (X ESP) 4 = le_enc 4 ra /\
  (forall i, 0 <= i < zlen b -> ~ (P <= base + i < P + 8) -> M (base + i) = nth (Z.to_nat i) b 0).

(** The frame when the function is entered. *)
Definition frame_at (M : Z -> Z) (P ebp ra code place : Z) : Prop :=
  rd M P 4 = le_enc 4 ebp /\ rd M (P + 4) 4 = le_enc 4 ra /\ rd M (P + 12) 4 = le_enc 4 code /\ rd M (P + 16) 4 = le_enc 4 place.

Lemma nth_range (b : list Z) off n d k : get_range b off n = Some d -> 0 <= k < n -> nth (Z.to_nat (off + k)) b 0 = nth (Z.to_nat k) d 0.
Proof.
  intros G K. pose proof (get_range_inv b off n d G) as (A1 & A2 & A3 & _ & A5). unfold zlen in *.
  pose proof (nth_error_get_range b off n d (Z.to_nat k) G ltac:(lia)) as E.
  rewrite (nth_error_nth' d 0) in E by lia. symmetry in E. apply nth_error_nth with (d := 0) in E. rewrite <- E. f_equal. lia.
Qed.

(** The block in memory when the function is entered. *)
Lemma given_block base P b ra X M lab :
  given base P b ra X M -> get_range b (P - base) 4 = Some (le_enc 4 (X EBP)) -> get_range b (P + 4 - base) 4 = Some (le_enc 4 ra) ->
  rd (wr (wr (wr M P (le_enc 4 (X EBP))) (P + 4) (le_enc 4 ra)) (base - 4) (le_enc 4 lab)) base (length b) = b.
Proof.
  intros (_ & _ & _ & _ & HB) G0 G4. apply rd_is. intros k Hk.
  rewrite wr_out by (rewrite le_enc_zlen; lia).
  destruct (Z_le_dec (P + 4) (base + Z.of_nat k)) as [A|A]; [destruct (Z_lt_dec (base + Z.of_nat k) (P + 8)) as [C|C]|].
  - rewrite wr_in by (rewrite le_enc_zlen; lia). rewrite <- (nth_range b (P + 4 - base) 4 _ (base + Z.of_nat k - (P + 4)) G4) by lia. f_equal. lia.
  - rewrite !wr_out by (rewrite le_enc_zlen; lia). rewrite HB by (unfold zlen; lia). f_equal. lia.
  - rewrite wr_out by (rewrite le_enc_zlen; lia). destruct (Z_le_dec P (base + Z.of_nat k)) as [D|D].
    + rewrite wr_in by (rewrite le_enc_zlen; lia). rewrite <- (nth_range b (P - base) 4 _ (base + Z.of_nat k - P) G0) by lia. f_equal. lia.
    + rewrite wr_out by (rewrite le_enc_zlen; lia). rewrite HB by (unfold zlen; lia). f_equal. lia.
Qed.

Lemma block_rd M base b off n d : rd M base (length b) = b -> get_range b off n = Some d -> rd M (base + off) (Z.to_nat n) = d.
Proof. intros R G. rewrite <- R in G. apply get_rd in G. exact G. Qed.

(** Entry of the function from a prepared block. *)
Lemma entered g e org X F k M base P b ra fn code place (sr : Z -> Z) wax wdx wcx :
  0 <= org -> org + 2048 <= 2 ^ 32 -> (k = true -> g_cet g = true) -> regs_ok X -> mem_ok M ->
  4 <= base -> base <= P -> P + 32 <= 2 ^ 32 -> 0 <= fn < 2 ^ 32 -> 0 <= ra < 2 ^ 32 ->
  given base P b ra X M ->
  get_range b (P - base) 4 = Some (le_enc 4 (X EBP)) -> get_range b (P + 4 - base) 4 = Some (le_enc 4 ra) ->
  get_range b (P + 8 - base) 4 = Some (le_enc 4 fn) -> get_range b (P + 12 - base) 4 = Some (le_enc 4 code) ->
  get_range b (P + 16 - base) 4 = Some (le_enc 4 place) ->
  get_range b (P + 20 - base) 4 = Some wax -> get_range b (P + 24 - base) 4 = Some wdx -> get_range b (P + 28 - base) 4 = Some wcx ->
  sr = (fun r => if r =? R_EAX then le_dec wax else if r =? R_EDX then le_dec wdx else le_dec wcx) ->
  exists X1 M1,
    reach e (text g) org (St X F k (at_label (src g) org 1) M) (St X1 F (e_ibt e) fn M1) /\
    (forall r, arg_regs X1 r = sr r) /\ X1 ESP = base - 4 /\ X1 EBP = P /\ (forall i, i = EBX \/ 6 <= i -> X1 i = X i) /\
    rd M1 (base - 4) 4 = le_enc 4 (at_label (src g) org 5) /\ frame_at M1 P (X EBP) ra code place /\
    rd M1 base (length b) = b /\
    (forall x, ~ (P <= x < P + 8) -> ~ (base - 4 <= x < base) -> M1 x = M x).
Proof.
  intros Ho Ho2 Hk HX HM B4 BP P32 RF RR HG G0 G4 G8 G12 G16 G20 G24 G28 ->.
  pose proof HG as (HC & HD & HS & HR & HB).
  destruct (call_enter g e org X F k M P base Ho Ho2 Hk HX HC HD B4 BP P32 HS) as (X1 & M1 & R1 & E1 & EM).
  rewrite HR, (word_back ra RR) in EM.
  pose proof (given_block base P b ra X M (at_label (src g) org 5) HG G0 G4) as BK. rewrite <- EM in BK.
  assert (RD : forall a n d, get_range b (a - base) n = Some d -> rd M1 a (Z.to_nat n) = d).
  { intros a n d G. replace a with (base + (a - base)) by lia. eapply block_rd; eassumption. }
  assert (RM : forall a d, P + 8 <= a -> get_range b (a - base) 4 = Some d -> rd M a 4 = d).
  { intros a d Ha G. rewrite <- (RD _ _ _ G). change (Z.to_nat 4) with 4%nat. rewrite EM, !rd_wr_other by (rewrite le_enc_zlen; lia). reflexivity. }
  rewrite (RM (P + 8) _ ltac:(lia) G8), (word_back fn RF) in R1.
  exists X1, M1. split; [exact R1|]. split; [|split; [|split; [|split; [|split; [|split; [|split]]]]]].
  - intros r. unfold arg_regs, R_EAX, R_EDX. rewrite !E1. unfold call_regs. rn. regs.
    rewrite (RM (P + 20) _ ltac:(lia) G20), (RM (P + 24) _ ltac:(lia) G24), (RM (P + 28) _ ltac:(lia) G28). reflexivity.
  - rewrite E1. unfold call_regs. rn. regs. reflexivity.
  - rewrite E1. unfold call_regs. rn. regs. reflexivity.
  - intros i Hi. rewrite E1. unfold call_regs. rn. rewrite !upd_other by lia. reflexivity.
  - rewrite EM. apply rd_wr_same. reflexivity.
  - unfold frame_at. repeat split; apply (RD _ 4); assumption.
  - exact BK.
  - intros x N1 N2. rewrite EM, !wr_out by (rewrite le_enc_zlen; lia). reflexivity.
Qed.

(** ** What the C code leaves in the block *)

Lemma store_last base blk a d b : store base blk a d = Ok b -> get_range b (a - base) (zlen d) = Some d /\
  forall off n, off + n <= a - base \/ a - base + zlen d <= off -> get_range b off n = get_range blk off n.
Proof.
  unfold store. destruct (set_range blk (a - base) d) as [x|] eqn:E; cbn [of_option]; [|discriminate]. intros Q. injection Q as <-. split.
  - apply (get_set_same _ _ _ _ E).
  - intros off n D. eapply get_set_disjoint; [exact E|lia].
Qed.

Ltac take1 H x E := match type of H with bind ?r _ = Ok _ => destruct r as [x| |] eqn:E; cbn [bind] in H; [|discriminate H|discriminate H] end.

Lemma call_inv c rv objs fn chain base blk ebp ra m b :
  call c rv objs fn chain base blk ebp ra = Ok (m, b) ->
  let P := base + stack_align (k_bytes c) in
  get_range b (P - base) 4 = Some (le_enc 4 ebp) /\ get_range b (P + 4 - base) 4 = Some (le_enc 4 ra) /\ s_read m = reads base b /\
  exists wax wdx wcx, get_range b (P + 20 - base) 4 = Some wax /\ get_range b (P + 24 - base) 4 = Some wdx /\ get_range b (P + 28 - base) 4 = Some wcx /\
    s_regs m = (fun r => if r =? R_EAX then le_dec wax else if r =? R_EDX then le_dec wdx else le_dec wcx).
Proof.
  intros H P. unfold call in H. fold P in H.
  take1 H b1 E1. take1 H b2 E2. take1 H b3 E3. take1 H b4 E4. take1 H s1 E5. take1 H s2 E6. take1 H b5 E7. take1 H b6 E8.
  take1 H wax E9. take1 H wdx E10. take1 H wcx E11. injection H as Hm Hb. subst b6.
  apply store_last in E7. rewrite le_enc_zlen in E7. change (Z.of_nat 4) with 4 in E7. destruct E7 as [S7 _].
  apply store_last in E8. rewrite le_enc_zlen in E8. change (Z.of_nat 4) with 4 in E8. destruct E8 as [S8 K8].
  assert (OO : forall off (x : list Z), of_option (get_range b off 4) = Ok x -> get_range b off 4 = Some x).
  { intros off x. destruct (get_range b off 4); cbn [of_option]; [|discriminate]. intros Q. injection Q as <-. reflexivity. }
  apply OO in E9, E10, E11. unfold R_EAX, R_EDX, R_ECX in E9, E10, E11.
  split; [rewrite K8 by lia; exact S7|]. split; [exact S8|]. split; [rewrite <- Hm; reflexivity|].
  exists wax, wdx, wcx. replace (P + 20 - base) with (stack_align (k_bytes c) + 20 + 4 * 0) by lia.
  replace (P + 24 - base) with (stack_align (k_bytes c) + 20 + 4 * 1) by lia. replace (P + 28 - base) with (stack_align (k_bytes c) + 20 + 4 * 2) by lia.
  split; [exact E9|]. split; [exact E10|]. split; [exact E11|]. rewrite <- Hm. reflexivity.
Qed.

Lemma raw_call_inv c rv raw fn low blk ebp ra m b :
  raw_call c rv raw fn low blk ebp ra = Ok (m, b) -> Z.ldiff low 16 = low ->
  let P := low + stack_align (k_bytes c) in
  get_range b (P - low) 4 = Some (le_enc 4 ebp) /\ get_range b (P + 4 - low) 4 = Some (le_enc 4 ra) /\ s_read m = reads low b /\
  exists wax wdx wcx, get_range b (P + 20 - low) 4 = Some wax /\ get_range b (P + 24 - low) 4 = Some wdx /\ get_range b (P + 28 - low) 4 = Some wcx /\
    s_regs m = (fun r => if r =? R_EAX then le_dec wax else if r =? R_EDX then le_dec wdx else le_dec wcx).
Proof.
  intros H LD P. unfold raw_call in H. rewrite LD in H. fold P in H.
  take1 H b1 E1. take1 H b2 E2. take1 H b3 E3. take1 H s1 E4. take1 H w E5. destruct w as [w more]. take1 H b4 E6. take1 H b5 E7. take1 H b6 E8.
  take1 H wax E9. take1 H wdx E10. take1 H wcx E11. injection H as Hm Hb. subst b6.
  apply store_last in E7. rewrite le_enc_zlen in E7. change (Z.of_nat 4) with 4 in E7. destruct E7 as [S7 _].
  apply store_last in E8. rewrite le_enc_zlen in E8. change (Z.of_nat 4) with 4 in E8. destruct E8 as [S8 K8].
  assert (OO : forall off (x : list Z), of_option (get_range b off 4) = Ok x -> get_range b off 4 = Some x).
  { intros off x. destruct (get_range b off 4); cbn [of_option]; [|discriminate]. intros Q. injection Q as <-. reflexivity. }
  apply OO in E9, E10, E11. unfold R_EAX, R_EDX, R_ECX in E9, E10, E11.
  split; [rewrite K8 by lia; exact S7|]. split; [exact S8|]. split; [rewrite <- Hm; reflexivity|].
  exists wax, wdx, wcx. replace (P + 20 - low) with (P - low + 20 + 4 * 0) by lia.
  replace (P + 24 - low) with (P - low + 20 + 4 * 1) by lia. replace (P + 28 - low) with (P - low + 20 + 4 * 2) by lia.
  split; [exact E9|]. split; [exact E10|]. split; [exact E11|]. rewrite <- Hm. reflexivity.
Qed.

(** ** ffi_call and ffi_raw_call up to the function *)

(** Everything about the state in which the function [fn] is entered except its arguments. *)
Definition entered_ok (g : cfg) (org base : Z) (c : cif) (rv : option Z) (ra : Z) (X M X1 M1 : Z -> Z) : Prop :=
  let P := base + stack_align (k_bytes c) in
  X1 ESP = base - 4 /\ X1 EBP = P /\ (forall i, i = EBX \/ 6 <= i -> X1 i = X i) /\
  rd M1 (base - 4) 4 = le_enc 4 (at_label (src g) org 5) /\
  frame_at M1 P (X EBP) ra (ret_num (call_flags c rv)) (result_place c rv base) /\
  (forall x, ~ (P <= x < P + 8) -> ~ (base - 4 <= x < base) -> M1 x = M x).

Lemma block_room base c rv (blk b : list Z) : zlen blk = call_size c rv -> zlen b = zlen blk -> 0 <= call_rsize c rv -> base + zlen blk < 2 ^ 32 ->
  base + stack_align (k_bytes c) + 32 <= 2 ^ 32.
Proof. unfold call_size, frame_size. lia. Qed.

Lemma rsize_prep o a rt ts c rv : (ctype32 o rt \/ ty_code rt = T_VOID) -> prep o a rt ts = Some c -> 0 <= call_rsize c rv.
Proof.
  intros RT PR. pose proof PR as PR'. unfold prep in PR. destruct (ret_flags o a rt) as [f|] eqn:RF; [|discriminate PR]. injection PR as <-.
  destruct (flags_void o a rt f RT RF) as [->|V]; unfold call_rsize; cbn [k_flags k_rtype]; destruct rv; try lia; destruct f; lia.
Qed.

Lemma align_nonneg o a rt ts c : Forall (ctype32 o) ts -> (ctype32 o rt \/ ty_code rt = T_VOID) -> total ts < 2 ^ 28 -> prep o a rt ts = Some c ->
  0 <= stack_align (k_bytes c).
Proof.
  intros CT RT TB PR. destruct (prep_area o a rt ts c CT RT TB PR) as (_ & _ & _ & _ & _ & KB & _). change (2 ^ 29) with 536870912 in KB.
  rewrite stack_align_round by (change (2 ^ 31) with 2147483648; lia). pose proof (round_up_le (k_bytes c) 16 ltac:(lia)). lia.
Qed.

Lemma call_entered o a rt ts c rv objs fn chain base blk m b ra g e org X F k M :
  last_lowest a = false -> Forall (ctype32 o) ts -> Forall passable ts -> (ctype32 o rt \/ ty_code rt = T_VOID) ->
  objects_ok ts objs -> total ts < 2 ^ 28 -> prep o a rt ts = Some c ->
  (16 | base) -> 4 <= base -> zlen blk = call_size c rv -> block_end base blk < 2 ^ 32 ->
  call c rv objs fn chain base blk (X EBP) ra = Ok (m, b) ->
  0 <= org -> org + 2048 <= 2 ^ 32 -> (k = true -> g_cet g = true) -> regs_ok X -> mem_ok M -> 0 <= fn < 2 ^ 32 -> 0 <= ra < 2 ^ 32 ->
  given base (base + stack_align (k_bytes c)) b ra X M ->
  exists X1 M1 hp,
    reach e (text g) org (St X F k (at_label (src g) org 1) M) (St X1 F (e_ibt e) fn M1) /\
    held (arg_regs X1) (X1 ESP + 4) (reader M1) (hidden o rt ++ ts) (places o a rt ts) (hidden_obj o rt hp ++ objs) /\
    match rv with Some p => hp = p | None => in_memory o rt = true -> base + stack_align (k_bytes c) <= hp /\ hp + ty_size rt <= block_end base blk end /\
    arg_regs X1 (chain_reg a) = chain mod 2 ^ 32 /\ entered_ok g org base c rv ra X M X1 M1.
Proof.
  intros LL CT PS RT OK TB PR AL B4 ZB EB CL Ho Ho2 Hk HX HM RF RR HG.
  destruct (call_up o a rt ts c rv objs fn chain base blk (X EBP) ra LL CT PS RT OK TB PR AL ltac:(lia) ZB EB)
    as (m' & b' & hp & CL' & ZB' & SP & HH & HP & (K8 & K12 & K16) & CR).
  rewrite CL in CL'. injection CL' as <- <-.
  pose proof (align_nonneg o a rt ts c CT RT TB PR) as SA. pose proof (rsize_prep o a rt ts c rv RT PR) as RZ.
  pose proof (block_room base c rv blk b ZB ZB' RZ EB) as PR32.
  destruct (call_inv _ _ _ _ _ _ _ _ _ _ _ CL) as (G0 & G4 & SR & wax & wdx & wcx & G20 & G24 & G28 & SG). cbv zeta in *.
  set (P := base + stack_align (k_bytes c)) in *.
  replace (stack_align (k_bytes c) + 8) with (P + 8 - base) in K8 by lia. replace (stack_align (k_bytes c) + 12) with (P + 12 - base) in K12 by lia.
  replace (stack_align (k_bytes c) + 16) with (P + 16 - base) in K16 by lia.
  destruct (entered g e org X F k M base P b ra fn _ _ _ wax wdx wcx Ho Ho2 Hk HX HM B4 ltac:(lia) PR32 RF RR HG G0 G4 K8 K12 K16 G20 G24 G28 SG)
    as (X1 & M1 & R1 & A1 & S1 & P1 & K1 & W1 & F1 & BK & O1).
  exists X1, M1, hp. split; [exact R1|]. split; [|split; [exact HP|split]].
  - rewrite S1. replace (base - 4 + 4) with base by lia. rewrite SP, SR in HH.
    apply held_mono with (r := reads base b); [apply reader_block, BK|]. apply (held_regs (s_regs m)); [exact A1|exact HH].
  - rewrite A1. exact CR.
  - unfold entered_ok. fold P. repeat (split; [assumption|]). exact O1.
Qed.

Lemma call_entered_down o a rt ts c rv objs fn chain base blk m b ra g e org X F k M :
  last_lowest a = true -> in_memory o rt = false -> Forall (ctype32 o) ts -> Forall passable ts -> (ctype32 o rt \/ ty_code rt = T_VOID) ->
  objects_ok ts objs -> total ts < 2 ^ 28 -> prep o a rt ts = Some c ->
  4 <= base -> zlen blk = call_size c rv -> block_end base blk < 2 ^ 32 ->
  call c rv objs fn chain base blk (X EBP) ra = Ok (m, b) ->
  0 <= org -> org + 2048 <= 2 ^ 32 -> (k = true -> g_cet g = true) -> regs_ok X -> mem_ok M -> 0 <= fn < 2 ^ 32 -> 0 <= ra < 2 ^ 32 ->
  given base (base + stack_align (k_bytes c)) b ra X M ->
  exists X1 M1 gap,
    reach e (text g) org (St X F k (at_label (src g) org 1) M) (St X1 F (e_ibt e) fn M1) /\
    0 <= gap /\ gap = stack_align (k_bytes c) - stack_used o a rt ts /\
    held (arg_regs X1) (X1 ESP + 4 + gap) (reader M1) ts (places o a rt ts) objs /\
    (~ In (chain_reg a) (reg_params a) -> arg_regs X1 (chain_reg a) = chain mod 2 ^ 32) /\ entered_ok g org base c rv ra X M X1 M1.
Proof.
  intros LL MEM CT PS RT OK TB PR B4 ZB EB CL Ho Ho2 Hk HX HM RF RR HG.
  destruct (call_down o a rt ts c rv objs fn chain base blk (X EBP) ra LL MEM CT PS RT OK TB PR ltac:(lia) ZB EB)
    as (m' & b' & gap & CL' & ZB' & SP & G1 & G2 & HH & (K8 & K12 & K16) & CR).
  rewrite CL in CL'. injection CL' as <- <-.
  pose proof (align_nonneg o a rt ts c CT RT TB PR) as SA. pose proof (rsize_prep o a rt ts c rv RT PR) as RZ.
  pose proof (block_room base c rv blk b ZB ZB' RZ EB) as PR32.
  destruct (call_inv _ _ _ _ _ _ _ _ _ _ _ CL) as (G0 & G4 & SR & wax & wdx & wcx & G20 & G24 & G28 & SG). cbv zeta in *.
  set (P := base + stack_align (k_bytes c)) in *.
  replace (stack_align (k_bytes c) + 8) with (P + 8 - base) in K8 by lia. replace (stack_align (k_bytes c) + 12) with (P + 12 - base) in K12 by lia.
  replace (stack_align (k_bytes c) + 16) with (P + 16 - base) in K16 by lia.
  destruct (entered g e org X F k M base P b ra fn _ _ _ wax wdx wcx Ho Ho2 Hk HX HM B4 ltac:(lia) PR32 RF RR HG G0 G4 K8 K12 K16 G20 G24 G28 SG)
    as (X1 & M1 & R1 & A1 & S1 & P1 & K1 & W1 & F1 & BK & O1).
  exists X1, M1, gap. split; [exact R1|]. split; [exact G1|]. split; [exact G2|]. split; [|split].
  - rewrite S1. replace (base - 4 + 4 + gap) with (base + gap) by lia. rewrite SP, SR in HH.
    apply held_mono with (r := reads base b); [apply reader_block, BK|]. apply (held_regs (s_regs m)); [exact A1|exact HH].
  - intros N. rewrite A1. exact (CR N).
  - unfold entered_ok. fold P. repeat (split; [assumption|]). exact O1.
Qed.

Lemma ldiff_16 low : 0 <= low -> Z.testbit low 4 = false -> Z.ldiff low 16 = low.
Proof.
  intros L T. apply Z.bits_inj'. intros n Hn. rewrite Z.ldiff_spec. change 16 with (2 ^ 4). rewrite Z.pow2_bits_eqb by lia.
  destruct (Z.eqb_spec 4 n) as [<-|N]; [rewrite T; reflexivity|]. apply Bool.andb_true_r.
Qed.

Lemma raw_call_entered o a rt ts c rv raw objs fn low blk m b ra g e org X F k M :
  stack_abi a -> Forall (ctype32 o) ts -> Forall no_struct ts -> (ctype32 o rt \/ ty_code rt = T_VOID) -> total ts < 2 ^ 28 ->
  prep o a rt ts = Some c -> Z.testbit low 4 = false -> 4 <= low -> zlen blk = raw_size c rv -> low + zlen blk < 2 ^ 32 ->
  raw_has (get_range raw) 0 ts objs -> raw_need o c rt <= zlen raw ->
  raw_call c rv raw fn low blk (X EBP) ra = Ok (m, b) ->
  0 <= org -> org + 2048 <= 2 ^ 32 -> (k = true -> g_cet g = true) -> regs_ok X -> mem_ok M -> 0 <= fn < 2 ^ 32 -> 0 <= ra < 2 ^ 32 ->
  given low (low + stack_align (k_bytes c)) b ra X M ->
  exists X1 M1 hp,
    reach e (text g) org (St X F k (at_label (src g) org 1) M) (St X1 F (e_ibt e) fn M1) /\
    held (arg_regs X1) (X1 ESP + 4) (reader M1) (hidden o rt ++ ts) (places o a rt ts) (hidden_obj o rt hp ++ objs) /\
    match rv with Some p => hp = p | None => in_memory o rt = true -> low + stack_align (k_bytes c) <= hp /\ hp + ty_size rt <= low + zlen blk end /\
    entered_ok g org low c rv ra X M X1 M1.
Proof.
  intros SB CT NS RT TB PR TL B4 ZB EB RH RN CL Ho Ho2 Hk HX HM RF RR HG.
  destruct (raw_ok o a rt ts c rv raw objs fn low blk (X EBP) ra SB CT NS RT TB PR TL ltac:(lia) ZB EB RH RN)
    as (m' & b' & hp & CL' & ZB' & SP & HH & HP & (K8 & K12 & K16)).
  rewrite CL in CL'. injection CL' as <- <-.
  pose proof (align_nonneg o a rt ts c CT RT TB PR) as SA. pose proof (rsize_prep o a rt ts c rv RT PR) as RZ.
  assert (PR32 : low + stack_align (k_bytes c) + 32 <= 2 ^ 32) by (unfold raw_size, frame_size in ZB; lia).
  destruct (raw_call_inv _ _ _ _ _ _ _ _ _ _ CL (ldiff_16 low ltac:(lia) TL)) as (G0 & G4 & SR & wax & wdx & wcx & G20 & G24 & G28 & SG). cbv zeta in *.
  set (P := low + stack_align (k_bytes c)) in *.
  replace (stack_align (k_bytes c) + 8) with (P + 8 - low) in K8 by lia. replace (stack_align (k_bytes c) + 12) with (P + 12 - low) in K12 by lia.
  replace (stack_align (k_bytes c) + 16) with (P + 16 - low) in K16 by lia.
  destruct (entered g e org X F k M low P b ra fn _ _ _ wax wdx wcx Ho Ho2 Hk HX HM B4 ltac:(lia) PR32 RF RR HG G0 G4 K8 K12 K16 G20 G24 G28 SG)
    as (X1 & M1 & R1 & A1 & S1 & P1 & K1 & W1 & F1 & BK & O1).
  exists X1, M1, hp. split; [exact R1|]. split; [|split; [exact HP|]].
  - rewrite S1. replace (low - 4 + 4) with low by lia. rewrite SP, SR in HH.
    apply held_mono with (r := reads low b); [apply reader_block, BK|]. apply (held_regs (s_regs m)); [exact A1|exact HH].
  - unfold entered_ok. fold P. repeat (split; [assumption|]). exact O1.
Qed.
