(** Closures of the or1k backend. *)
From Coq Require Import ZifyBool ZifyNat.
From Verif Require Import Base BaseFacts Types ByteMem S390Model S390Facts Or1kModel Or1kSpec Or1kFacts Or1kAsmModel Or1kAsmRun.
Local Open Scope Z_scope.
Local Arguments Z.mul : simpl never.
Local Arguments Z.add : simpl never.
Local Arguments Z.sub : simpl never.
Local Arguments Z.pow : simpl never.
Local Arguments Z.div : simpl never.
Local Arguments Z.modulo : simpl never.
Local Arguments Z.of_nat : simpl never.
Local Arguments be_enc : simpl never.
Local Arguments be_dec : simpl never.
Local Arguments rd : simpl never.

(** ** Arguments *)

(** Where a closure finds the contents of a place. *)
Definition cspot (ra sp : Z) (l : loc) : Z := match l with LR r => ra + 4 * (r - 3) | LS o => sp + o end.
Definition pos (ra sp q : Z) : Z := if q <? 24 then ra + q else sp + (q - 24).
Definition pick (m : Z -> Z) (t : ftype) (p : Z) : Z :=
  if aggregate t then be_dec (rd m p 4) else if ty_size t <? 4 then p + (4 - ty_size t) else p.

Lemma clo_arg_eq ra sp m t ptr count fixed : otype t ->
  let b := (fixed =? 0) && (count <? 24) in
  let ptr1 := if b then sp else ptr in let count1 := if b then 24 else count in
  let p := if (words t =? 2) && (ptr1 =? ra + 20) then sp else ptr1 in
  clo_arg ra sp m t (ptr, count, fixed) = (pick m t p, (if count1 + 4 * words t =? 24 then sp else p + 4 * words t, count1 + 4 * words t, fixed - 1)).
Proof.
  intros O b ptr1 count1 p. unfold clo_arg. fold b. fold ptr1 count1. clearbody ptr1 count1. clear b.
  unfold pick, p, words, aggregate. unfold otype in O.
  destruct (ty_code t) eqn:E; try contradiction; rewrite ?O; cbn [Z.eqb Pos.eqb andb Z.ltb Z.compare Pos.compare Pos.compare_cont];
    change (4 * 1) with 4; change (4 * 2) with (4 + 4); rewrite ?Z.add_assoc; reflexivity.
Qed.

Lemma clo_arg_inv ra sp m t g s fixed count :
  otype t -> 0 <= g <= 6 -> 0 <= s -> (g < 6 -> s = 0) -> (fixed < 0 -> g = 6) -> ra + 24 <= sp ->
  count = 4 * g + s \/ 24 < count /\ 24 < 4 * g + s ->
  let '(l, g', s') := if (0 <? fixed) && (g + words t <=? 6) then (LR (3 + g), g + words t, s) else (LS s, 6, s + 4 * words t) in
  exists count', clo_arg ra sp m t (pos ra sp (4 * g + s), count, fixed) = (pick m t (cspot ra sp l), (pos ra sp (4 * g' + s'), count', fixed - 1)) /\
  (count' = 4 * g' + s' \/ 24 < count' /\ 24 < 4 * g' + s') /\ 0 <= g' <= 6 /\ 0 <= s' /\ (g' < 6 -> s' = 0) /\ (fixed - 1 < 0 -> g' = 6).
Proof.
  intros O G S GS FX RS C. rewrite clo_arg_eq by exact O.
  assert (P1 : 4 * g + s < 24 -> pos ra sp (4 * g + s) = ra + (4 * g + s)) by (unfold pos; destruct (_ <? _) eqn:?; lia).
  assert (P2 : 24 <= 4 * g + s -> pos ra sp (4 * g + s) = sp + (4 * g + s - 24)) by (unfold pos; destruct (_ <? _) eqn:?; lia).
  set (q := pos ra sp (4 * g + s)) in *. clearbody q.
  destruct (words_cases t) as [W|W]; rewrite W; cbn [Z.eqb Pos.eqb andb];
    match goal with |- context [(0 <? fixed) && ?b] => destruct ((0 <? fixed) && b) eqn:E2 end;
    destruct ((fixed =? 0) && (count <? 24)) eqn:E1; try lia;
    try (match goal with |- context [?a =? ra + 20] => destruct (a =? ra + 20) eqn:E3 end); try lia;
    eexists; (split; [f_equal; [f_equal; cbn [cspot]; lia|f_equal; f_equal; unfold pos; match goal with |- (if ?a =? 24 then _ else _) = (if ?b <? 24 then _ else _) => destruct (a =? 24) eqn:E4; destruct (b <? 24) eqn:E5 end; lia]|lia]).
Qed.

Lemma low_part n w : (n <= 4)%nat -> skipn (4 - n) (be_enc 4 w) = be_enc n w.
Proof.
  intros H. unfold be_enc. rewrite skipn_rev, le_enc_length. replace (4 - (4 - n))%nat with n by lia. rewrite le_enc_firstn by lia. reflexivity.
Qed.

(** One argument. *)
Lemma pick_value X M m1 ra sp l t v :
  otype t -> is_value t v -> bytes_in M ->
  rd m1 (cspot ra sp l) (Z.to_nat (4 * words t)) = content X M l (words t) ->
  (forall x, ~ (ra <= x < ra + 24) -> m1 x = M x) ->
  (aggregate t = true -> let p := value (content X M l 1) in p + ty_size t <= ra \/ ra + 24 <= p) ->
  carries M t (content X M l (words t)) v -> bytes_at m1 (pick m1 t (cspot ra sp l)) (ty_size t) = v.
Proof.
  intros O V B R ME NR C. unfold carries, pick in *. destruct (aggregate t) eqn:Ag.
  - assert (W : words t = 1) by (unfold words; rewrite Ag; reflexivity). rewrite W in *. change (Z.to_nat (4 * 1)) with 4%nat in R. rewrite R.
    rewrite value_dec in *. specialize (NR eq_refl). rewrite <- C, !bytes_at_rd. apply rd_ext. intros x Hx. apply ME.
    assert (0 < ty_size t) by (unfold otype, aggregate in *; destruct (ty_code t); try discriminate Ag; lia). cbv zeta in NR. lia.
  - destruct (ty_size t <? 4) eqn:Sm.
    + assert (W : words t = 1) by (unfold words; rewrite Ag; replace (ty_size t =? 8) with false by lia; reflexivity). rewrite W in *.
      change (Z.to_nat (4 * 1)) with 4%nat in R.
      assert (SZ : ty_size t = 1 \/ ty_size t = 2) by (unfold otype, aggregate in *; destruct (ty_code t); try contradiction; try discriminate Ag; lia).
      assert (CO : content X M l 1 = be_enc 4 (extended t v)).
      { rewrite value_dec in C. assert (K : be_enc 4 (be_dec (content X M l 1)) = content X M l 1).
        { rewrite <- R at 2. replace 4%nat with (length (content X M l 1)) at 1 by (rewrite <- R; apply rd_length). rewrite R. apply be_enc_dec.
          destruct l as [r|o]; cbn [content Z.eqb Pos.eqb]; [rewrite word_enc; apply be_enc_ok|rewrite bytes_at_rd; apply rd_ok, B]. }
        rewrite <- K, C. change (2 ^ 32) with (2 ^ (8 * Z.of_nat 4)). apply be_enc_mod. }
      set (n := Z.to_nat (ty_size t)). assert (Hn : (n <= 4)%nat) by lia.
      assert (RP : rd m1 (cspot ra sp l + (4 - ty_size t)) n = skipn (4 - n) (rd m1 (cspot ra sp l) 4)).
      { replace 4%nat with ((4 - n) + n)%nat at 2 by lia. rewrite rd_app, skipn_app, rd_length.
        rewrite skipn_all2 by (rewrite rd_length; lia). cbn [app]. rewrite Nat.sub_diag. cbn [skipn]. f_equal. lia. }
      rewrite bytes_at_rd. fold n. rewrite RP, R, CO, low_part by lia.
      assert (EX : be_enc n (extended t v) = be_enc n (be_dec v)).
      { unfold extended. rewrite value_dec. replace (2 ^ (8 * ty_size t)) with (2 ^ (8 * Z.of_nat n)) by (f_equal; lia).
        assert (K : be_enc n (be_dec v - 2 ^ (8 * Z.of_nat n)) = be_enc n (be_dec v)).
        { rewrite <- be_enc_mod. rewrite <- (be_enc_mod n (be_dec v)). f_equal. rewrite Zminus_mod, Z_mod_same_full, Z.sub_0_r, Zmod_mod. reflexivity. }
        destruct (ty_code t); try reflexivity; match goal with |- context [if ?c then _ else _] => destruct c end; first [reflexivity|exact K]. }
      rewrite EX. destruct V as (L & Bv). unfold zlen in L. replace n with (length v) by lia. apply be_enc_dec, Bv.
    + rewrite <- C, <- R, bytes_at_rd. f_equal. unfold words. rewrite Ag. unfold otype, aggregate in *.
      destruct (ty_code t); try contradiction; try discriminate Ag; rewrite ?O in *; try discriminate Sm; reflexivity.
Qed.

Lemma clo_loop_inv X M m1 ra ts : forall vs g s fixed count,
  Forall2 is_value ts vs -> Forall otype ts -> bytes_in M -> ra + 24 <= X 1 ->
  (forall l w, (w = 1 \/ w = 2) -> match l with LR r => 3 <= r /\ r + w <= 9 | LS o => 0 <= o end -> rd m1 (cspot ra (X 1) l) (Z.to_nat (4 * w)) = content X M l w) ->
  (forall x, ~ (ra <= x < ra + 24) -> m1 x = M x) ->
  0 <= g <= 6 -> 0 <= s -> (g < 6 -> s = 0) -> (fixed < 0 -> g = 6) -> count = 4 * g + s \/ 24 < count /\ 24 < 4 * g + s ->
  passed_in X M (places g s fixed ts) ts vs -> refs_outside X M ra (ra + 24) (places g s fixed ts) ts ->
  values_at m1 ts (clo_loop ra (X 1) m1 ts (pos ra (X 1) (4 * g + s), count, fixed)) vs.
Proof.
  induction ts as [|t ts IH]; intros vs g s fixed count FV OT B RS CT ME G S GS FX C P RO; inversion FV as [|? v ? vs' V FV']; subst; [exact I|].
  inversion OT as [|? ? O OT']; subst. cbn [places] in *. cbn [clo_loop].
  pose proof (clo_arg_inv ra (X 1) m1 t g s fixed count O G S GS FX RS C) as K.
  destruct ((0 <? fixed) && (g + words t <=? 6)) eqn:E; destruct K as (count' & K1 & K2 & K3 & K4 & K5 & K6); rewrite K1; cbn [passed_in refs_outside values_at] in *;
    destruct P as (P1 & P2); destruct RO as (R1 & R2).
  - split; [|apply IH; auto]. eapply pick_value; eauto. apply CT; [apply words_cases|]. cbn match. lia.
  - split; [|apply IH; auto]. eapply pick_value; eauto. apply CT; [apply words_cases|]. exact S.
Qed.

Definition arg_regs (X : Z -> Z) : list Z := [X 3; X 4; X 5; X 6; X 7; X 8].
Lemma spilled X M ra : bytes_in M -> let m1 := spill ra (arg_regs X) M in
  (forall x, ~ (ra <= x < ra + 24) -> m1 x = M x) /\ (forall r, 3 <= r <= 8 -> rd m1 (ra + 4 * (r - 3)) 4 = be_enc 4 (X r)) /\ bytes_in m1.
Proof.
  intros B m1. unfold m1, arg_regs. cbn [spill]. split; [|split].
  - intros x Hx. rewrite !wr_out by (ze; lia). reflexivity.
  - intros r Hr. assert (D : r = 3 \/ r = 4 \/ r = 5 \/ r = 6 \/ r = 7 \/ r = 8) by lia.
    destruct D as [D|[D|[D|[D|[D|D]]]]]; subst r;
      match goal with |- rd _ ?a _ = _ => let e := fresh in remember a as e eqn:E in |- * end;
      repeat first [rewrite rd_wr_other by (ze; lia)]; subst;
      match goal with |- rd (wr _ ?b _) ?a _ = _ => replace a with b by lia; rs end.
  - repeat (apply wr_bytes; [|apply be_enc_ok]). exact B.
Qed.

Lemma closure_args_ok rt ts fixed flags vs X M ra buf :
  Forall otype ts -> 0 <= fixed -> Forall2 is_value ts vs -> bytes_in M -> ra + 24 <= X 1 ->
  passed rt fixed ts vs X M -> refs_outside X M ra (ra + 24) (places (hidden rt) 0 fixed ts) ts ->
  exists m1 avs, closure_args (OCif ts rt fixed flags) (arg_regs X) (X 1) ra buf M = (m1, if hidden rt =? 1 then X 3 else buf, avs) /\
    values_at m1 ts avs vs /\ (forall x, ~ (ra <= x < ra + 24) -> m1 x = M x).
Proof.
  intros OT F V B RS P RO. unfold closure_args. cbn [oc_rt oc_args oc_fixed].
  destruct (spilled X M ra B) as (S1 & S2 & S3). set (m1 := spill ra (arg_regs X) M) in *.
  assert (CT : forall l w, (w = 1 \/ w = 2) -> match l with LR r => 3 <= r /\ r + w <= 9 | LS o => 0 <= o end -> rd m1 (cspot ra (X 1) l) (Z.to_nat (4 * w)) = content X M l w).
  { intros [r|o] w Hw Hl; cbn [cspot content].
    - destruct Hw as [-> | ->]; cbn [Z.eqb Pos.eqb].
      + change (Z.to_nat (4 * 1)) with 4%nat. rewrite S2 by lia. symmetry. apply word_enc.
      + change (Z.to_nat (4 * 2)) with 8%nat. rewrite rd_8, S2 by lia. replace (ra + 4 * (r - 3) + 4) with (ra + 4 * (r + 1 - 3)) by lia. rewrite S2 by lia. rewrite !word_enc. reflexivity.
    - rewrite bytes_at_rd. apply rd_ext. intros x Hx. apply S1. lia. }
  rewrite is_struct_eq. unfold passed, hidden in *.
  destruct (aggregate rt); (eexists m1, _; split; [reflexivity|split; [|exact S1]]).
  - replace (ra + 4) with (pos ra (X 1) (4 * 1 + 0)) by (unfold pos; destruct (_ <? _) eqn:?; lia).
    eapply (clo_loop_inv X M m1 ra ts vs 1 0 fixed 4); auto; lia.
  - replace ra with (pos ra (X 1) (4 * 0 + 0)) at 2 by (unfold pos; destruct (_ <? _) eqn:?; lia).
    eapply (clo_loop_inv X M m1 ra ts vs 0 0 fixed 0); auto; lia.
Qed.

(** ** Results *)

Lemma closure_result_ok rt ts fixed flags v buf M X :
  rtype_ok rt -> (ty_code rt <> T_VOID -> is_value rt v) -> bytes_in M -> bytes_at M buf (zlen (stored rt v)) = stored rt v ->
  match closure_result (OCif ts rt fixed flags) buf M with
  | Some (a, b) => hidden rt = 0 /\ returned rt v (upd (upd X 11 a) 12 b)
  | None => hidden rt = 1
  end.
Proof.
  intros RT V B R. unfold closure_result. cbn [oc_rt]. rewrite is_struct_eq. unfold hidden. destruct (aggregate rt) eqn:Ag; [reflexivity|].
  split; [reflexivity|]. unfold returned, stored in *. regs.
  destruct RT as [(E & _)|O]; [rewrite E; exact I|].
  assert (NV : ty_code rt <> T_VOID) by (unfold otype in O; destruct (ty_code rt); congruence || contradiction).
  assert (NS : ty_code rt <> T_STRUCT) by (unfold aggregate in Ag; destruct (ty_code rt); congruence).
  specialize (V NV). destruct V as (L & Bv).
  assert (EQ : forall (A : Type) (a b : A), match ty_code rt with T_VOID | T_STRUCT => a | _ => b end = b) by (intros; destruct (ty_code rt); congruence).
  rewrite EQ in R |- *. destruct (ty_size rt =? 8) eqn:E8.
  - rewrite !word_enc, !rd_word by exact B. rewrite bytes_at_rd, L in R. replace (Z.to_nat (ty_size rt)) with 8%nat in R by lia. rewrite rd_8 in R. exact R.
  - rewrite word_enc, bytes_at_rd, be_enc_zlen in R. change (Z.to_nat (Z.of_nat 4)) with 4%nat in R. rewrite R, be_dec_enc. change (8 * Z.of_nat 4) with 32. apply Zmod_mod.
Qed.
