(** When the argument area is large enough. *)
From Coq Require Import ZifyBool ZifyNat.
From Verif Require Import Base BaseFacts Types LayoutSpec NaturalTypes NaturalFacts A64Model A64Spec A64Hfa A64Facts A64Call A64Main.
Local Arguments Z.mul : simpl never.
Local Arguments Z.add : simpl never.

(** Reserved bytes without wrap around. *)
Fixpoint reserve (ts : list ftype) (b : Z) : Z :=
  match ts with
  | [] => b
  | t :: r => reserve r (round_up b (ty_align t) + round_up (ty_size t) 8)
  end.

(** A bound on the size of all arguments together. *)
Fixpoint total_size (ts : list ftype) : Z :=
  match ts with [] => 0 | t :: r => ty_size t + 24 + total_size r end.

Lemma total_nonneg ts : Forall natural ts -> 0 <= total_size ts.
Proof. induction 1 as [|t r N _ IH]; cbn [total_size]; [lia|]. destruct (natural_basic _ N) as (SP & _). lia. Qed.

Lemma reserve_bound ts : Forall natural ts -> forall b, 0 <= b -> b <= reserve ts b <= b + total_size ts.
Proof.
  induction 1 as [|t r N F IH]; intros b B; cbn [reserve total_size]; [lia|].
  pose proof (natural_basic _ N) as (SP & PW & A16 & _). pose proof (is_pow2_pos _ PW).
  pose proof (round_up_le b (ty_align t) ltac:(lia)). pose proof (round_up_lt b (ty_align t) ltac:(lia)).
  pose proof (round_up_le (ty_size t) 8 ltac:(lia)). pose proof (round_up_lt (ty_size t) 8 ltac:(lia)).
  specialize (IH (round_up b (ty_align t) + round_up (ty_size t) 8) ltac:(lia)). lia.
Qed.

Lemma land_aligned b a : is_pow2 a -> 0 <= b -> (Z.land (a - 1) b =? 0) = true -> round_up b a = b.
Proof.
  intros (k & K & ->) B H. apply round_up_id; [lia|].
  assert (E : Z.land (2 ^ k - 1) b = b mod 2 ^ k).
  { rewrite Z.land_comm. replace (2 ^ k - 1) with (Z.ones k) by (rewrite Z.ones_equiv; lia). apply Z.land_ones. lia. }
  apply Z.mod_divide; [lia|]. lia.
Qed.

Lemma core_args_reserve ts : Forall natural ts -> forall b, 0 <= b -> reserve ts b < 2 ^ 32 -> core_bytes_args ts b = reserve ts b.
Proof.
  induction 1 as [|t r N F IH]; intros b B L; cbn [core_bytes_args reserve] in *; [reflexivity|].
  pose proof (natural_basic _ N) as (SP & PW & A16 & _). pose proof (is_pow2_pos _ PW) as AP.
  pose proof (round_up_le b (ty_align t) ltac:(lia)) as R1. pose proof (round_up_lt b (ty_align t) ltac:(lia)).
  pose proof (round_up_le (ty_size t) 8 ltac:(lia)) as R2. pose proof (round_up_lt (ty_size t) 8 ltac:(lia)).
  pose proof (reserve_bound r F (round_up b (ty_align t) + round_up (ty_size t) 8) ltac:(lia)) as RB.
  assert (P8 : is_pow2 8) by (exists 3; split; [lia|reflexivity]).
  assert (S8 : wrap32 (stack_arg_size (ty_size t)) = round_up (ty_size t) 8).
  { unfold stack_arg_size. rewrite ffi_align_round by (auto; lia). unfold wrap32, wrap. apply Z.mod_small. lia. }
  rewrite S8.
  assert (E : (if Z.land (ty_align t - 1) b =? 0 then b else wrap32 (ffi_align b (ty_align t))) = round_up b (ty_align t)).
  { destruct (Z.land (ty_align t - 1) b =? 0) eqn:D.
    - symmetry. apply land_aligned; auto.
    - rewrite ffi_align_round by (auto; lia). unfold wrap32, wrap. apply Z.mod_small. lia. }
  rewrite E. unfold wrap32, wrap. rewrite Z.mod_small by lia. apply IH; lia.
Qed.

Lemma bytes_at_least p abi fixed rt ts c : signature_ok p abi fixed rt ts -> prep p abi fixed rt ts = Ok c ->
  total_size ts < 2 ^ 31 -> k_args c = ts /\ (16 | k_bytes c) /\
    exists b0, (b0 = 0 \/ b0 = 8) /\ reserve ts b0 <= k_bytes c.
Proof.
  intros SO PR T. rewrite (prep_ok _ _ _ _ _ SO) in PR. injection PR as <-. cbn [k_args k_bytes].
  pose proof SO as (N & _). split; [reflexivity|].
  assert (P16 : is_pow2 16) by (exists 4; split; [lia|reflexivity]).
  unfold core_bytes. set (b0 := match ty_code rt with T_STRUCT => stack_arg_size 8 | _ => 0 end).
  assert (B0 : b0 = 0 \/ b0 = 8) by (unfold b0; destruct (ty_code rt); auto; right; reflexivity).
  pose proof (reserve_bound ts N b0 ltac:(lia)) as RB. pose proof (total_nonneg ts N).
  rewrite core_args_reserve by (auto; lia).
  set (e := if by_ref rt then 8 else 0). assert (E0 : e = 0 \/ e = 8) by (unfold e; destruct (by_ref rt); auto).
  pose proof (round_up_le (reserve ts b0 + e) 16 ltac:(lia)). pose proof (round_up_lt (reserve ts b0 + e) 16 ltac:(lia)).
  rewrite ffi_align_round by (auto; lia). unfold wrap32, wrap. rewrite Z.mod_small by lia.
  split; [apply round_up_divide|]. exists b0. split; [exact B0|]. lia.
Qed.

(** No argument by reference. *)
Lemma no_copies ts hi : (forall t, In t ts -> by_ref t = false) -> lowest_copy ts hi = hi.
Proof. induction ts as [|t r IH]; intros H; cbn [lowest_copy]; [reflexivity|]. rewrite (H t) by (left; auto). apply IH. intros. apply H. right; auto. Qed.

Lemma stack_size_le apple s : 0 < s -> stack_size apple s <= round_up s 8.
Proof. intros. unfold stack_size. pose proof (round_up_le s 8 ltac:(lia)). destruct apple; lia. Qed.

Lemma round_up_max8 b a : is_pow2 a -> (8 | b) -> round_up b (Z.max 8 a) = round_up b a.
Proof.
  intros P D. pose proof (is_pow2_pos _ P). destruct (Z.le_gt_cases a 8).
  - rewrite Z.max_l by lia. assert (P8 : is_pow2 8) by (exists 3; split; [lia|reflexivity]).
    rewrite !round_up_id; auto; try lia. apply Z.divide_trans with 8; [apply is_pow2_divide; auto|exact D].
  - rewrite Z.max_r by lia. reflexivity.
Qed.

Lemma assign_reserve apple fixed ts : Forall natural ts -> (forall t, In t ts -> by_ref t = false) ->
  forall i g v s b pls e, assign apple fixed i ts g v s = (pls, e) -> s <= b -> (8 | b) -> 0 <= b -> e <= reserve ts b.
Proof.
  induction 1 as [|t r N F IH]; intros NB i g v s b pls e A S D B; cbn [assign reserve] in *; [injection A as <- <-; lia|].
  pose proof (natural_basic _ N) as (SP & PW & A16 & _). pose proof (is_pow2_pos _ PW) as AP.
  destruct (place_arg apple (variadic apple fixed i) t g v s) as [[[pl g'] v'] s'] eqn:PL.
  destruct (assign apple fixed (i + 1) r g' v' s') as [l e'] eqn:AS. injection A as <- <-.
  assert (D2 : (8 | round_up b (ty_align t) + round_up (ty_size t) 8)).
  { apply Z.divide_add_r; [|apply round_up_divide]. rewrite <- round_up_max8 by auto.
    apply Z.divide_trans with (Z.max 8 (ty_align t)); [|apply round_up_divide].
    assert (P8 : is_pow2 8) by (exists 3; split; [lia|reflexivity]).
    apply is_pow2_divide; [auto|apply is_pow2_max; auto|lia]. }
  pose proof (round_up_le b (ty_align t) ltac:(lia)) as R1. pose proof (round_up_le (ty_size t) 8 ltac:(lia)) as R2.
  apply (IH (fun t H => NB t (or_intror H)) _ _ _ _ _ _ _ AS); [|exact D2|lia].
  assert (ST : forall var, round_up s (stack_align apple var (ty_align t)) + stack_size apple (ty_size t) <= round_up b (ty_align t) + round_up (ty_size t) 8).
  { intros var. pose proof (stack_size_le apple (ty_size t) SP).
    assert (round_up s (stack_align apple var (ty_align t)) <= round_up b (ty_align t)); [|lia].
    unfold stack_align. destruct (apple && negb var).
    - apply round_up_mono; lia.
    - rewrite <- (round_up_max8 b) by auto. apply round_up_mono; lia. }
  unfold place_arg in PL. rewrite (NB t (or_introl eq_refl)) in PL.
  destruct (hfa_of t) as [[c n]|].
  - destruct (negb _ && _); injection PL as <- <- <- <-; [lia|apply ST].
  - destruct (negb _ && _); injection PL as <- <- <- <-; [lia|apply ST].
Qed.

(** Alignments of at most 8. *)
Definition words (ts : list ftype) : Z := fold_right (fun t a => round_up (ty_size t) 8 + a) 0 ts.
Definition copy_words (ts : list ftype) : Z := fold_right (fun t a => (if by_ref t then round_up (ty_size t) 8 else 0) + a) 0 ts.

Definition narrow (ts : list ftype) : Prop := Forall (fun t => ty_align t <= 8) ts.

Lemma reserve_words ts : Forall natural ts -> narrow ts -> forall b, (8 | b) -> reserve ts b = b + words ts.
Proof.
  induction 1 as [|t r N F IH]; intros NA b D; cbn [reserve words fold_right]; [lia|]. inversion NA as [|? ? NT NR]; subst.
  pose proof (natural_basic _ N) as (SP & PW & A16 & _). pose proof (is_pow2_pos _ PW) as AP.
  rewrite <- (round_up_max8 b) by auto. rewrite Z.max_l by lia. rewrite (round_up_id b) by (auto; lia).
  rewrite IH; auto; [unfold words; lia|]. apply Z.divide_add_r; [auto|apply round_up_divide].
Qed.

Lemma copies_low ts : Forall natural ts -> narrow ts -> forall hi h8, (8 | h8) -> h8 <= hi ->
  h8 - copy_words ts <= lowest_copy ts hi.
Proof.
  induction 1 as [|t r N F IH]; intros NA hi h8 D L; cbn [lowest_copy copy_words fold_right]; [lia|]. inversion NA as [|? ? NT NR]; subst.
  pose proof (natural_basic _ N) as (SP & PW & A16 & _). pose proof (is_pow2_pos _ PW) as AP.
  change (fold_right _ 0 r) with (copy_words r). destruct (by_ref t).
  - assert (D2 : (8 | h8 - round_up (ty_size t) 8)) by (apply Z.divide_sub_r; [auto|apply round_up_divide]).
    specialize (IH NR (round_down (hi - ty_size t) (ty_align t)) (h8 - round_up (ty_size t) 8) D2).
    assert (h8 - round_up (ty_size t) 8 <= round_down (hi - ty_size t) (ty_align t)); [|specialize (IH ltac:(auto)); lia].
    pose proof (round_up_le (ty_size t) 8 ltac:(lia)).
    assert (P8 : is_pow2 8) by (exists 3; split; [lia|reflexivity]).
    assert (DA : (ty_align t | h8 - round_up (ty_size t) 8)) by (apply Z.divide_trans with 8; [apply is_pow2_divide; auto|exact D2]).
    destruct DA as (q & EQ). rewrite EQ. unfold round_down. rewrite (Z.mul_comm q). apply Z.mul_le_mono_nonneg_l; [lia|].
    apply Z.div_le_lower_bound; lia.
  - specialize (IH NR hi h8 D L). lia.
Qed.

Lemma assign_words apple fixed ts : Forall natural ts -> narrow ts ->
  forall i g v s s8 pls e, assign apple fixed i ts g v s = (pls, e) -> s <= s8 -> (8 | s8) ->
  e + register_bytes ts pls + copy_words ts <= s8 + words ts + 8 * stacked_pointers ts pls.
Proof.
  induction 1 as [|t r N F IH]; intros NA i g v s s8 pls e A S D; cbn [assign] in *; [injection A as <- <-; cbn; lia|].
  inversion NA as [|? ? NT NR]; subst.
  pose proof (natural_basic _ N) as (SP & PW & A16 & _). pose proof (is_pow2_pos _ PW) as AP.
  destruct (place_arg apple (variadic apple fixed i) t g v s) as [[[pl g'] v'] s'] eqn:PL.
  destruct (assign apple fixed (i + 1) r g' v' s') as [l e'] eqn:AS. injection A as <- <-.
  cbn [register_bytes stacked_pointers copy_words words fold_right].
  change (fold_right (fun t a => (if by_ref t then round_up (ty_size t) 8 else 0) + a) 0 r) with (copy_words r).
  change (fold_right (fun t a => round_up (ty_size t) 8 + a) 0 r) with (words r).
  pose proof (round_up_divide (ty_size t) 8) as DS.
  assert (P8 : is_pow2 8) by (exists 3; split; [lia|reflexivity]).
  assert (ST : forall var a sz, is_pow2 a -> a <= 8 -> 0 < sz -> round_up s (stack_align apple var a) + stack_size apple sz <= s8 + round_up sz 8).
  { intros var a sz PA LA SZ. pose proof (stack_size_le apple sz SZ). pose proof (is_pow2_pos _ PA).
    assert (round_up s (stack_align apple var a) <= s8); [|lia].
    apply round_up_least; [unfold stack_align; destruct (apple && negb var); lia| |exact S].
    unfold stack_align. destruct (apple && negb var); [apply Z.divide_trans with 8; [apply is_pow2_divide; auto|auto]|].
    rewrite Z.max_l by lia. exact D. }
  assert (D8 : (8 | s8 + 8)) by (apply Z.divide_add_r; [auto|exists 1; lia]).
  assert (DT : (8 | s8 + round_up (ty_size t) 8)) by (apply Z.divide_add_r; auto).
  unfold place_arg in PL. destruct (hfa_of t) as [[c n]|] eqn:HF.
  - assert (BR : by_ref t = false) by (unfold by_ref; rewrite HF; reflexivity). rewrite BR.
    destruct (negb _ && _); injection PL as <- <- <- <-.
    + specialize (IH NR _ _ _ _ s8 _ _ AS S D). lia.
    + specialize (IH NR _ _ _ _ (s8 + round_up (ty_size t) 8) _ _ AS (ST _ _ _ PW NT SP) DT). lia.
  - destruct (by_ref t).
    + destruct (negb _ && _); injection PL as <- <- <- <-.
      * specialize (IH NR _ _ _ _ s8 _ _ AS S D). lia.
      * specialize (IH NR _ _ _ _ (s8 + 8) _ _ AS (ST _ 8 8 P8 ltac:(lia) ltac:(lia)) D8). lia.
    + destruct (negb _ && _); injection PL as <- <- <- <-.
      * specialize (IH NR _ _ _ _ s8 _ _ AS S D). lia.
      * specialize (IH NR _ _ _ _ (s8 + round_up (ty_size t) 8) _ _ AS (ST _ _ _ PW NT SP) DT). lia.
Qed.

(** Enough room: nothing is passed by reference, or alignments are at most 8 and there are at
    least as many words of arguments in registers as pointers to copies on the stack. *)
Definition area_enough (apple : bool) (fixed : option Z) (ts : list ftype) : Prop :=
  (forall t, In t ts -> by_ref t = false) \/
  (narrow ts /\ 8 * stacked_pointers ts (places apple fixed ts) <= register_bytes ts (places apple fixed ts)).

Theorem area_fits p abi fixed rt ts c : signature_ok p abi fixed rt ts -> prep p abi fixed rt ts = Ok c ->
  total_size ts < 2 ^ 31 -> area_enough (is_apple p) fixed ts -> fits p fixed c.
Proof.
  intros SO PR T AE. destruct (bytes_at_least _ _ _ _ _ _ SO PR T) as (EA & D16 & b0 & B0 & RB).
  pose proof SO as (N & _). unfold fits. rewrite EA.
  assert (D0 : (8 | b0)) by (destruct B0 as [-> | ->]; [exists 0; lia|exists 1; lia]).
  unfold area_enough, places, stack_used in *. destruct (assign (is_apple p) fixed 0 ts 0 0 0) as [pls e] eqn:AS. cbn [fst snd] in *.
  destruct AE as [NB | [NA BAL]].
  - rewrite no_copies by auto. pose proof (assign_reserve _ _ _ N NB _ _ _ _ b0 _ _ AS ltac:(lia) D0 ltac:(lia)). lia.
  - rewrite (reserve_words ts N NA b0 D0) in RB.
    assert (D8 : (8 | k_bytes c)) by (apply Z.divide_trans with 16; [exists 2; lia|auto]).
    pose proof (copies_low ts N NA (k_bytes c) (k_bytes c) D8 ltac:(lia)) as CL.
    pose proof (assign_words _ _ _ N NA _ _ _ _ 0 _ _ AS ltac:(lia) ltac:(exists 0; lia)) as AW. lia.
Qed.

(** Pointer slots. *)
Lemma slots_of_narrow fixed ts : narrow ts -> Forall natural ts -> forall i pls, pointer_slots_ok false fixed i ts pls.
Proof.
  induction ts as [|t r IH]; intros NA N i pls; cbn [pointer_slots_ok]; [exact Logic.I|]. destruct pls as [|pl l]; [exact Logic.I|].
  inversion NA; inversion N; subst. split; [|apply IH; auto]. intros _ o _. unfold stack_align. cbn [andb]. lia.
Qed.

Lemma slots_of_direct apple fixed ts : (forall t, In t ts -> by_ref t = false) -> forall i pls, pointer_slots_ok apple fixed i ts pls.
Proof.
  induction ts as [|t r IH]; intros H i pls; cbn [pointer_slots_ok]; [exact Logic.I|]. destruct pls as [|pl l]; [exact Logic.I|].
  split; [|apply IH; intros; apply H; right; auto]. rewrite (H t) by (left; auto). discriminate.
Qed.

(** Pointers to copies in registers need no slot. *)
Lemma slots_of_registers apple fixed ts : forall i pls, stacked_pointers ts pls = 0 -> pointer_slots_ok apple fixed i ts pls.
Proof.
  assert (NN : forall ts pls, 0 <= stacked_pointers ts pls).
  { induction ts0 as [|t r IH]; intros [|pl l]; cbn [stacked_pointers]; try lia. specialize (IH l). destruct pl; try destruct (by_ref t); lia. }
  induction ts as [|t r IH]; intros i pls H; cbn [pointer_slots_ok]; [exact Logic.I|]. destruct pls as [|pl l]; [exact Logic.I|].
  cbn [stacked_pointers] in H. specialize (NN r l). split.
  - intros B o ->. rewrite B in H. lia.
  - apply IH. destruct pl; try destruct (by_ref t); lia.
Qed.
