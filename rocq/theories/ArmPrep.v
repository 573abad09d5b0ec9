(** ffi_prep_cif and the memory that ffi_call fills on ARM. *)
From Coq Require Import ZifyBool ZifyNat.
From Verif Require Import Base BaseFacts Types LayoutSpec NaturalTypes NaturalFacts ByteMem ArmModel ArmSpec ArmHfa ArmFp ArmPlan ArmCall.
Local Arguments Z.mul : simpl never.
Local Arguments Z.add : simpl never.

Definition hard_of (a : abi) : bool := match a with VFP => true | SYSV => false end.

(** ** The result code *)

Lemma ctype_code t : ctype t -> ty_code t <> T_VOID /\ ty_code t <> T_LONGDOUBLE /\ ty_code t <> T_INT.
Proof.
  intros C. inversion C as [|t0 H|t0 H|s0 a0 es0 offs NE F SL]; subst; try (cbn; repeat split; discriminate).
  cbn in H. in_cases H; cbn; repeat split; discriminate.
Qed.
Ltac kc := unfold K_VFP_S, K_VFP_D, K_VFP_N, K_INT64, K_INT, K_VOID, K_STRUCT.
Lemma ret_flags_spec a rt : rtype_ok rt -> exists f, ret_flags a rt = Ok f /\ (f =? K_STRUCT) = in_memory (hard_of a) rt /\ 0 <= f <= 6.
Proof.
  intros [-> |C].
  - exists K_VOID. split; [reflexivity|]. split; [destruct a; reflexivity|]. unfold K_VOID. lia.
  - unfold ret_flags, in_memory. destruct (ctype_code rt C) as (E1 & E2 & E3).
    destruct (ty_code rt) eqn:E; try congruence.
    all: try (eexists; split; [reflexivity|split; [destruct a; reflexivity|destruct a; kc; lia]]).
    all: assert (CO : exists f, (if ty_size rt <=? 4 then Ok K_INT else Ok K_STRUCT) = Ok f /\ (f =? K_STRUCT) = (4 <? ty_size rt) /\ 0 <= f <= 6)
        by (destruct (Z.leb_spec (ty_size rt) 4); eexists; (split; [reflexivity|]); (split; [|kc; lia]);
            [replace (4 <? ty_size rt) with false by lia|replace (4 <? ty_size rt) with true by lia]; reflexivity).
    all: destruct a; cbn [hard_of]; try exact CO.
    all: rewrite (vfp_type_exact rt C); cbn [bind]; rewrite vfp_code_zero; destruct (hfa_of rt) as [[c n]|]; try exact CO.
    all: destruct (vfp_code rt =? 256 + 2); [|destruct (vfp_code rt =? 256 + 3)]; eexists; (split; [reflexivity|split; [reflexivity|kc; lia]]).
Qed.

(** ** Floating point registers in use *)

Lemma fpu_incl ts : forall u r, In r u -> In r (fpu u ts).
Proof.
  induction ts as [|t ts IH]; intros u r H; cbn [fpu]; auto. destruct (fp_need t) as [[k a]|]; auto.
  destruct (find_fp u k a); auto. apply IH. apply in_app_iff. auto.
Qed.
Lemma find_nil k a : 1 <= k <= 8 -> a = 1 \/ a = 2 -> find_fp [] k a = Some 0.
Proof.
  intros K A. apply find_fp_some; [lia| |lia]. apply free_at_spec. split; [destruct A as [-> | ->]; reflexivity|]. split; [lia|]. intros j _ [].
Qed.
Lemma fpu_some ts : Forall ctype ts -> existsb is_fp ts = true -> In 0 (fpu [] ts).
Proof.
  induction 1 as [|t ts C F IH]; cbn [existsb fpu]; [discriminate|]. intros E. unfold is_fp in E at 1.
  destruct (fp_need t) as [[k a]|] eqn:N; [|auto]. destruct (fp_need_size t k a C N) as (_ & _ & K & A).
  rewrite find_nil by lia. apply fpu_incl. apply range_in. lia.
Qed.
Lemma layout_none ts : Forall ctype ts -> existsb is_fp ts = false -> forall v, layout_args ts v = Ok v.
Proof.
  induction 1 as [|t ts C F IH]; cbn [existsb layout_args]; [reflexivity|]. intros E v. apply orb_false_iff in E. destruct E as [E1 E2].
  rewrite (vfp_type_exact t C). cbn [bind]. rewrite (fp_need_code t C). unfold is_fp in E1. destruct (fp_need t); [discriminate E1|]. auto.
Qed.
Lemma no_fp_forall ts : existsb is_fp ts = false -> forallb (fun t => negb (is_fp t)) ts = true.
Proof. induction ts as [|t ts IH]; cbn; [reflexivity|]. intros E. apply orb_false_iff in E. destruct E as [-> E]. cbn. auto. Qed.

(** The state of the preparation, by the properties used. *)
Record prepared (c : acif) (hard : bool) (rt : ftype) (ts : list ftype) : Prop := Prepared {
  pr_hard : hard_of (k_abi c) = hard;
  pr_args : k_args c = ts;
  pr_rtype : k_rtype c = rt;
  pr_flags : ret_flags (k_abi c) rt = Ok (k_flags c);
  pr_mem : (k_flags c =? K_STRUCT) = in_memory hard rt;
  pr_range : 0 <= k_flags c <= 6;
  pr_min : 16 <= k_bytes c;
  pr_align : (8 | k_bytes c);
  pr_max : k_bytes c <= total ts + 40;
  pr_fits : bad_result hard rt = false \/ Forall (fun t => ty_align t <> 8) ts -> fits (k_bytes c) ts (plan hard ts (first_core hard rt) [] 0);
  pr_over : fits (k_bytes c + 4) ts (plan hard ts (first_core hard rt) [] 0);
  pr_use : use_vfp c = hard && existsb is_fp ts;
  pr_vfp : hard = true -> v_args (k_vfp c) = fps [] ts;
  pr_bits : forall r, hard = true -> In r (fpu [] ts) -> Z.testbit (v_used (k_vfp c)) r = true;
  pr_used : 0 <= v_used (k_vfp c) < 65536
}.

Lemma sums_mono ts : forall a b, a <= b -> sums ts a <= sums ts b.
Proof. induction ts as [|t ts IH]; intros a b L; cbn [sums]; [auto|]. apply IH. pose proof (round_al_mono a b t L). lia. Qed.
Lemma sums_8 ts : forall a, sums ts (8 + a) = 8 + sums ts a.
Proof.
  induction ts as [|t ts IH]; intros a; cbn [sums]; [auto|]. rewrite <- IH. f_equal.
  rewrite round_up_add; [lia|destruct (al_cases t); lia|]. destruct (al_cases t) as [-> | ->]; [exists 2|exists 1]; reflexivity.
Qed.
Lemma sums_4 ts : Forall (fun t => ty_align t <> 8) ts -> forall a, sums ts (4 + a) = 4 + sums ts a.
Proof.
  induction 1 as [|t ts N F IH]; intros a; cbn [sums]; [auto|]. rewrite <- IH. f_equal.
  assert (E : al t = 4) by (unfold al; replace (ty_align t =? 8) with false by lia; reflexivity). rewrite E.
  rewrite round_up_add; [lia|lia|]. exists 1. reflexivity.
Qed.

Theorem prep_spec var a rt ts : Forall ctype ts -> rtype_ok rt -> total ts < 2 ^ 31 ->
  exists c, prep var a rt ts = Ok c /\ prepared c (hard_of (if var then SYSV else a)) rt ts.
Proof.
  intros F R T. unfold prep, machdep. set (ab := if var then SYSV else a). set (hard := hard_of ab).
  destruct (ret_flags_spec ab rt R) as (f & F1 & F2 & F3).
  set (b0 := match ty_code rt with T_STRUCT => stack_arg_size 4 | _ => 0 end).
  assert (B0 : b0 = if tcode_eqb (ty_code rt) T_STRUCT then 4 else 0) by (subst b0; destruct (ty_code rt); reflexivity).
  assert (B4 : 0 <= b0 <= 4 /\ (4 | b0)) by (rewrite B0; destruct (tcode_eqb _ _); split; try lia; [exists 1|exists 0]; reflexivity).
  destruct B4 as [B4 D4]. change (2 ^ 31) with 2147483648 in T.
  assert (SUM : core_bytes rt ts = sums ts b0) by (apply core_bytes_sums; auto; change (2 ^ 32) with 4294967296; lia).
  destruct (sums_bound ts F b0 ltac:(lia) D4) as [SD SB]. pose proof (total_nonneg ts F) as TN.
  assert (LAY : exists v, (match ab with VFP => layout_vfp_args ts | SYSV => Ok (VSt 0 0 []) end) = Ok v /\
    0 <= v_used v < 65536 /\ (hard = true -> v_args v = fps [] ts /\ (forall r, In r (fpu [] ts) -> Z.testbit (v_used v) r = true) /\ negb (v_used v =? 0) = existsb is_fp ts)).
  { subst hard. destruct ab; cbn [hard_of].
    - exists (VSt 0 0 []). split; [reflexivity|]. split; [cbn; lia|]. discriminate.
    - destruct (layout_spec ts F [] (VSt 0 0 []) rel_start) as (v & V1 & V2 & V3 & V4). exists v. split; [exact V1|]. split; [auto|].
      intros _. split; [exact V2|]. split; [intros r H; apply V3; auto|].
      destruct (existsb is_fp ts) eqn:E.
      + pose proof (fpu_some ts F E) as I0. apply V3 in I0. destruct I0 as [_ I0].
        destruct (Z.eqb_spec (v_used v) 0) as [Q|Q]; [|reflexivity]. rewrite Q, Z.bits_0 in I0. discriminate I0.
      + rewrite (layout_none ts F E) in V1. injection V1 as <-. reflexivity. }
  destruct LAY as (v & V1 & V2 & V3). rewrite V1. cbn [bind]. rewrite F1. cbn [bind]. rewrite SUM, F2.
  set (b1 := if in_memory (hard_of ab) rt then wrap32 (sums ts b0 + 4) else sums ts b0).
  assert (B1 : b1 = sums ts b0 + (if in_memory hard rt then 4 else 0)).
  { subst b1 hard. destruct (in_memory _ rt); [|lia]. unfold wrap32, wrap. apply Z.mod_small. change (2 ^ 32) with 4294967296. lia. }
  assert (L1 : sums ts b0 <= b1 <= sums ts b0 + 4) by (rewrite B1; destruct (in_memory hard rt); lia).
  pose proof (round_up_le b1 8 ltac:(lia)) as RL. pose proof (round_up_lt b1 8 ltac:(lia)) as RT.
  rewrite align_w_round; [|apply pow2_small|lia|change (2 ^ 32) with 4294967296; lia].
  set (b3 := if round_up b1 8 <? 16 then 16 else round_up b1 8).
  assert (L3 : 16 <= b3 /\ b1 <= b3 <= total ts + 40 /\ (8 | b3)).
  { subst b3. destruct (Z.ltb_spec (round_up b1 8) 16); split; try lia; (split; [lia|]); [exists 2; reflexivity|apply round_up_divide]. }
  destruct L3 as (L3 & L4 & L5).
  eexists. split; [reflexivity|].
  assert (FC : 0 <= first_core hard rt <= 1) by (unfold first_core; destruct (in_memory hard rt); lia).
  assert (PF : forall b, 0 <= b -> (4 | b) -> 4 * first_core hard rt <= b -> fits (Z.max 16 (sums ts b)) ts (plan hard ts (first_core hard rt) [] 0)).
  { intros b P D L. apply plan_fits; auto; try lia; try apply packed_nil. exists 0; reflexivity. }
  assert (ST : bad_result hard rt = false -> 4 * first_core hard rt <= b0).
  { unfold bad_result, first_core. rewrite B0. intros E. destruct (in_memory hard rt) eqn:Q; [|destruct (tcode_eqb (ty_code rt) T_STRUCT); lia].
    rewrite andb_true_r in E. unfold in_memory in Q. destruct (ty_code rt); try discriminate Q; try discriminate E. cbn. lia. }
  assert (BR : bad_result hard rt = true -> b0 = 0 /\ b1 = sums ts b0 + 4).
  { unfold bad_result. intros E. apply andb_prop in E. destruct E as [E1 E2]. rewrite E2 in B1. split; [|lia].
    rewrite B0. unfold tcode_eqb in *. destruct (ty_code rt); cbn in *; congruence. }
  constructor; cbn [k_abi k_args k_rtype k_flags k_bytes k_vfp]; auto.
  - lia.
  - intros H. destruct (bad_result hard rt) eqn:E.
    + destruct (BR eq_refl) as [Z0 Z1]. destruct H as [H|H]; [discriminate H|].
      apply (fits_le (Z.max 16 (sums ts 4))); [|apply PF; [lia|exists 1; reflexivity|lia]].
      pose proof (sums_4 ts H 0) as S4. replace (4 + 0) with 4 in S4 by lia. rewrite Z0 in *. lia.
    + apply (fits_le (Z.max 16 (sums ts b0))); [lia|]. apply PF; auto; lia.
  - destruct (bad_result hard rt) eqn:E.
    + destruct (BR eq_refl) as [Z0 Z1].
      apply (fits_le (Z.max 16 (sums ts 4))); [|apply PF; [lia|exists 1; reflexivity|lia]].
      pose proof (sums_8 ts 0) as S8. replace (8 + 0) with 8 in S8 by lia. pose proof (sums_mono ts 4 8 ltac:(lia)). rewrite Z0 in *. lia.
    + apply (fits_le (Z.max 16 (sums ts b0))); [lia|]. apply PF; auto; lia.
  - unfold use_vfp. cbn [k_abi k_vfp]. subst hard. destruct ab; cbn [hard_of andb] in *; [reflexivity|]. apply V3. reflexivity.
  - intros H. apply V3. exact H.
  - intros r H. apply V3. exact H.
Qed.
