(** Where the ARM backend puts arguments: the placement of the standard but for rule C.6. *)
From Coq Require Import ZifyBool ZifyNat.
From Verif Require Import Base BaseFacts Types LayoutSpec NaturalTypes NaturalFacts ByteMem ArmModel ArmSpec ArmHfa ArmFp.
Local Arguments Z.mul : simpl never.
Local Arguments Z.add : simpl never.

Definition al (t : ftype) : Z := if ty_align t =? 8 then 8 else 4.

Lemma al_cases t : al t = 4 \/ al t = 8.
Proof. unfold al. destruct (ty_align t =? 8); auto. Qed.
Lemma al_pow2 t : is_pow2 (al t).
Proof. destruct pow2_small as (_ & _ & P4 & P8). destruct (al_cases t) as [-> | ->]; auto. Qed.
Lemma round_up_4 x : (4 | round_up x 4).
Proof. apply round_up_divide. Qed.
Lemma al_4 x t : (4 | round_up x (al t)).
Proof.
  destruct (al_cases t) as [-> | ->]; [apply round_up_divide|].
  apply Z.divide_trans with 8; [exists 2; reflexivity|apply round_up_divide].
Qed.
Lemma words_4 t : (4 | words t).
Proof. apply round_up_divide. Qed.
Lemma words_ge t : ctype t -> ty_size t <= words t < ty_size t + 4 /\ 4 <= words t.
Proof.
  intros C. destruct (ctype_basic t C) as (S & _). unfold words.
  pose proof (round_up_le (ty_size t) 4 ltac:(lia)). pose proof (round_up_lt (ty_size t) 4 ltac:(lia)).
  pose proof (round_up_4 (ty_size t)) as [k K]. lia.
Qed.
Lemma words_exact t : ctype t -> (4 | ty_size t) -> words t = ty_size t.
Proof. intros C D. apply round_up_id; [lia|auto]. Qed.
Lemma size_8 t : ctype t -> ty_align t = 8 -> (8 | ty_size t).
Proof. intros C E. destruct (ctype_basic t C) as (_ & _ & _ & D). rewrite E in D. exact D. Qed.

(** Core registers as in the standard, but the next register [n] stays when the stack is in use. *)
Definition code_arg (t : ftype) (n s : Z) : loc * Z * Z :=
  let n1 := if ty_align t =? 8 then round_up n 2 else n in
  let w := words t / 4 in
  if n1 + w <=? 4 then (Core n1, n1 + w, s)
  else if (n1 <? 4) && (s =? 0) then (Core n1, 4, 4 * (n1 + w - 4))
  else (Stk (round_up s (al t)), if s =? 0 then 4 else n, round_up s (al t) + words t).

Definition need (hard : bool) (t : ftype) : option (Z * Z) := if hard then fp_need t else None.

Fixpoint plan (hard : bool) (ts : list ftype) (n : Z) (u : list Z) (s : Z) : list loc :=
  match ts with
  | [] => []
  | t :: r =>
    match need hard t with
    | Some (k, a) =>
      match find_fp u k a with
      | Some f => Fp f :: plan hard r n (u ++ range f k) s
      | None => Stk (round_up s (al t)) :: plan hard r n all_fp (round_up s (al t) + words t)
      end
    | None => let '(p, n', s') := code_arg t n s in p :: plan hard r n' u s'
    end
  end.

(** The facts about one step in core registers. *)
Lemma n1_spec t n : 0 <= n <= 4 -> let n1 := if ty_align t =? 8 then round_up n 2 else n in
  n <= n1 <= 4 /\ 4 * n1 = round_up (4 * n) (al t).
Proof.
  intros B. unfold al. destruct (ty_align t =? 8); cbv zeta.
  - assert (Q : n = 0 \/ n = 1 \/ n = 2 \/ n = 3 \/ n = 4) by lia. destruct Q as [-> |[-> |[-> |[-> | ->]]]]; (split; [split; vm_compute; discriminate|vm_compute; reflexivity]).
  - split; [lia|]. symmetry. apply round_up_id; [lia|]. apply Z.divide_factor_l.
Qed.

Lemma code_core t n s : ctype t -> 0 <= n <= 4 -> 0 <= s -> (4 | s) ->
  forall p n' s', code_arg t n s = (p, n', s') ->
  0 <= n' <= 4 /\ n <= n' /\ s <= s' /\ (4 | s') /\
  match p with
  | Core i => 4 * i = round_up (4 * n) (al t) /\ n <= i /\ 4 * n' <= 4 * i + words t /\
      ((4 * i + words t <= 16 /\ s' = s /\ 4 * n' = 4 * i + words t) \/
       (16 < 4 * i + words t /\ i < 4 /\ s = 0 /\ n' = 4 /\ s' = 4 * i + words t - 16))
  | Stk o => o = round_up s (al t) /\ s' = o + words t /\ 16 < round_up (4 * n) (al t) + words t /\
      (n' = if s =? 0 then 4 else n) /\ (s = 0 -> round_up (4 * n) (al t) = 16)
  | Fp _ => False
  end.
Proof.
  intros C B S D p n' s'. unfold code_arg. destruct (n1_spec t n B) as [N1 N2].
  set (n1 := if ty_align t =? 8 then round_up n 2 else n) in *. cbv zeta.
  pose proof (words_ge t C) as [W1 W2]. destruct (words_4 t) as [w W]. rewrite W. rewrite Z.div_mul by lia.
  pose proof (round_up_le s (al t)) as RL. destruct (al_4 s t) as [r R]. assert (0 < al t) by (destruct (al_cases t); lia).
  destruct (n1 + w <=? 4) eqn:Q1; [|destruct ((n1 <? 4) && (s =? 0)) eqn:Q2]; intros E; injection E as <- <- <-.
  - split; [lia|]. split; [lia|]. split; [lia|]. split; [auto|]. split; [auto|]. split; [lia|]. split; [lia|]. left. lia.
  - split; [lia|]. split; [lia|]. split; [lia|]. split; [apply Z.divide_factor_l|]. split; [auto|]. split; [lia|]. split; [lia|]. right. lia.
  - split; [destruct (s =? 0); lia|]. split; [destruct (s =? 0); lia|]. split; [lia|].
    split; [apply Z.divide_add_r; [exists r; lia|apply Z.divide_factor_r]|].
    split; [reflexivity|]. split; [lia|]. split; [lia|]. split; [reflexivity|]. lia.
Qed.

(** ** The plan and the standard *)

Lemma core_code t n s : code_arg t n s = core_arg t n s \/
  (s <> 0 /\ n <> 4 /\ exists o s', code_arg t n s = (Stk o, n, s') /\ core_arg t n s = (Stk o, 4, s')).
Proof.
  unfold code_arg, core_arg, al. set (n1 := if ty_align t =? 8 then round_up n 2 else n). cbv zeta.
  destruct (n1 + words t / 4 <=? 4); auto. destruct ((n1 <? 4) && (s =? 0)); auto.
  destruct (Z.eqb_spec s 0) as [-> |N]; auto. destruct (Z.eq_dec n 4) as [-> |M]; auto.
  right. split; [auto|]. split; [auto|]. eauto.
Qed.

Lemma core_full t n s p n' s' : ctype t -> (s = 0 \/ n = 4) -> core_arg t n s = (p, n', s') -> s' = 0 \/ n' = 4.
Proof.
  intros C H. unfold core_arg. set (n1 := if ty_align t =? 8 then round_up n 2 else n). cbv zeta.
  destruct (words_ge t C) as [_ W]. destruct (words_4 t) as [w E]. rewrite E, Z.div_mul by lia.
  destruct (n1 + w <=? 4) eqn:Q; [|destruct ((n1 <? 4) && (s =? 0))]; intros CA; injection CA as <- <- <-; auto.
  destruct H as [-> | ->]; [auto|]. exfalso. subst n1. destruct (ty_align t =? 8).
  - change (round_up 4 2) with 4 in *. lia.
  - lia.
Qed.

Lemma plan_soft ts : Forall ctype ts -> forall n u s, (s = 0 \/ n = 4) -> plan false ts n u s = fst (assign false ts n u s).
Proof.
  induction 1 as [|t ts C F IH]; intros n u s H; cbn [plan assign need]; [reflexivity|].
  destruct (core_code t n s) as [E|(X & Y & _)]; [|destruct H; congruence].
  rewrite E. destruct (core_arg t n s) as [[p n'] s'] eqn:CA.
  pose proof (core_full _ _ _ _ _ _ C H CA) as K.
  specialize (IH n' u s' K). destruct (assign false ts n' u s') as [l e]. cbn [fst] in *. rewrite IH. reflexivity.
Qed.

(** Only arguments for floating point registers. *)
Lemma plan_fp_only ts : forallb is_fp ts = true -> forall n n' u s, plan true ts n u s = fst (assign true ts n' u s).
Proof.
  induction ts as [|t ts IH]; cbn [forallb plan assign need]; intros A n n' u s; [reflexivity|].
  apply andb_prop in A. destruct A as [A1 A2]. unfold is_fp in A1. destruct (fp_need t) as [[k a]|]; [|discriminate A1].
  destruct (find_fp u k a) as [f|].
  - rewrite (IH A2 n n'). destruct (assign true ts n' (u ++ range f k) s). reflexivity.
  - fold (al t). rewrite (IH A2 n n'). destruct (assign true ts n' all_fp _). reflexivity.
Qed.

Lemma plan_tidy ts : forall n u s, tidy ts n u s = true -> plan true ts n u s = fst (assign true ts n u s).
Proof.
  induction ts as [|t ts IH]; intros n u s; cbn [tidy plan assign need]; [reflexivity|].
  destruct (fp_need t) as [[k a]|].
  - destruct (find_fp u k a) as [f|]; intros T.
    + rewrite IH by auto. destruct (assign true ts n (u ++ range f k) s). reflexivity.
    + fold (al t) in *. rewrite IH by auto. destruct (assign true ts n all_fp _). reflexivity.
  - destruct (core_code t n s) as [E|(X & Y & o & s' & E1 & E2)].
    + rewrite E. destruct (core_arg t n s) as [[p n'] s']. intros T. apply andb_prop in T. destruct T as [_ T].
      rewrite IH by auto. destruct (assign true ts n' u s'). reflexivity.
    + rewrite E1, E2. intros T. apply andb_prop in T. destruct T as [T _].
      replace (s =? 0) with false in T by lia. replace (n =? 4) with false in T by lia. cbn [orb] in T.
      rewrite (plan_fp_only ts T n 4). destruct (assign true ts 4 u s'). reflexivity.
Qed.

(** No argument for floating point registers. *)
Lemma plan_no_fp ts : forallb (fun t => negb (is_fp t)) ts = true -> forall n u s,
  plan true ts n u s = plan false ts n u s /\ assign true ts n u s = assign false ts n u s.
Proof.
  induction ts as [|t ts IH]; cbn [forallb plan assign need]; intros A n u s; [auto|].
  apply andb_prop in A. destruct A as [A1 A2]. unfold is_fp in A1. destruct (fp_need t) as [[k a]|]; [discriminate A1|].
  destruct (code_arg t n s) as [[p n'] s']. destruct (core_arg t n s) as [[q m'] r'].
  rewrite (proj1 (IH A2 n' u s')), (proj2 (IH A2 m' u r')). auto.
Qed.

(** ** Space for the arguments *)

Definition loc_end (t : ftype) (l : loc) : Z :=
  match l with Core i => 4 * i + words t | Stk o => 16 + o + words t | Fp _ => 0 end.
Definition fits (bnd : Z) (ts : list ftype) (ls : list loc) : Prop := Forall2 (fun t l => loc_end t l <= bnd) ts ls.

Lemma fits_le a b ts ls : a <= b -> fits a ts ls -> fits b ts ls.
Proof. intros L F. induction F; constructor; auto; lia. Qed.

(** The end of what is used so far. *)
Definition fill (n s : Z) : Z := if s =? 0 then 4 * n else 16 + s.

Fixpoint sums (ts : list ftype) (b : Z) : Z :=
  match ts with [] => b | t :: r => sums r (round_up b (al t) + words t) end.

Lemma round_al b t : ctype t -> (4 | b) -> round_up b (ty_align t) = round_up b (al t).
Proof.
  intros C D. unfold al. destruct (align_cases t C) as [E|[E|[E|E]]]; rewrite E; cbn [Z.eqb Pos.eqb]; auto.
  - rewrite !round_up_id; auto; try lia. exists b; lia.
  - rewrite !round_up_id; auto; try lia. apply Z.divide_trans with 4; [exists 2; reflexivity|auto].
Qed.

Lemma sums_step b t : ctype t -> 0 <= b -> (4 | b) -> let b' := round_up b (al t) + words t in
  (4 | b') /\ b + 4 <= b' <= b + ty_size t + 8.
Proof.
  intros C P D. cbv zeta. destruct (words_ge t C) as [W1 W2].
  pose proof (round_up_le b (al t)). pose proof (round_up_lt b (al t)) as RL. destruct (al_4 b t) as [r R]. destruct D as [d D].
  assert (0 < al t <= 8) by (destruct (al_cases t); lia).
  split; [apply Z.divide_add_r; [exists r; auto|apply words_4]|].
  destruct (Z.eq_dec (ty_align t) 8) as [E|E].
  - pose proof (size_8 t C E) as D8. rewrite (words_exact t C) by (apply Z.divide_trans with 8; [exists 2; reflexivity|auto]). destruct D8 as [d8 D8]. lia.
  - unfold al in *. replace (ty_align t =? 8) with false in * by lia. lia.
Qed.
Lemma sums_bound ts : Forall ctype ts -> forall b, 0 <= b -> (4 | b) -> (4 | sums ts b) /\ b <= sums ts b <= b + total ts.
Proof.
  induction 1 as [|t ts C F IH]; intros b P D; cbn [sums total]; [split; [auto|lia]|].
  destruct (sums_step b t C P D) as (D' & L). destruct (IH (round_up b (al t) + words t) ltac:(lia) D') as [I1 I2]. split; [auto|lia].
Qed.
Lemma total_nonneg ts : Forall ctype ts -> 0 <= total ts.
Proof. induction 1 as [|t ts C F IH]; cbn [total]; [lia|]. destruct (ctype_basic t C) as (S & _). lia. Qed.

Lemma align_w_round v a : is_pow2 a -> 0 <= v -> round_up v a < 2 ^ 32 -> ffi_align_w 32 v a = round_up v a.
Proof. intros. apply ffi_align_w_round; auto. lia. Qed.

Lemma core_bytes_sums ts : Forall ctype ts -> forall b, 0 <= b -> (4 | b) -> b + total ts < 2 ^ 32 -> core_bytes_args ts b = sums ts b.
Proof.
  induction 1 as [|t ts C F IH]; intros b P D L; cbn [core_bytes_args sums total] in *; [reflexivity|].
  destruct (sums_step b t C P D) as (D' & B'). pose proof (total_nonneg ts F).
  destruct (ctype_basic t C) as (Sz & P2 & _). pose proof (is_pow2_pos _ P2) as AP.
  destruct (words_ge t C) as [W1 W2].
  assert (E : (if Z.land (ty_align t - 1) b =? 0 then b else ffi_align_w 32 b (ty_align t)) = round_up b (al t)).
  { rewrite <- (round_al b t C D). destruct P2 as (k & K & E). rewrite E, Z.land_comm.
    replace (2 ^ k - 1) with (Z.ones k) by (rewrite Z.ones_equiv; lia). rewrite Z.land_ones by lia.
    destruct (b mod 2 ^ k =? 0) eqn:Q.
    - symmetry. apply round_up_id; [lia|]. apply Z.mod_divide; lia.
    - rewrite <- E. apply align_w_round; [exists k; auto|auto|]. rewrite (round_al b t C D).
      pose proof (round_up_lt b (al t)). assert (0 < al t <= 8) by (destruct (al_cases t); lia). lia. }
  rewrite E. unfold stack_arg_size. rewrite align_w_round; [|apply pow2_small|lia|fold (words t); lia]. fold (words t).
  pose proof (round_up_nonneg b (al t)).
  unfold wrap32, wrap. rewrite Z.mod_small by lia. apply IH; try lia. exact D'.
Qed.

Lemma round_al_mono a b t : a <= b -> round_up a (al t) <= round_up b (al t).
Proof. intros. apply round_up_mono; auto. destruct (al_cases t); lia. Qed.
Lemma round_16 s t : round_up (16 + s) (al t) = 16 + round_up s (al t).
Proof. apply round_up_add; [destruct (al_cases t); lia|]. destruct (al_cases t) as [-> | ->]; [exists 4|exists 2]; reflexivity. Qed.

Lemma packed_all : packed all_fp.
Proof.
  split; [apply range_nodup|]. split; [intros r H; apply range_in in H; lia|].
  exists 16. split; [lia|]. split; [intros r H; apply range_in in H; lia|]. intros r H _. apply range_in. lia.
Qed.

Theorem plan_fits hard ts : Forall ctype ts -> forall n u s b,
  0 <= n <= 4 -> 0 <= s -> (4 | s) -> packed u -> 0 <= b -> (4 | b) -> fill n s <= b -> (s <> 0 \/ 4 * zlen u <= b) ->
  fits (Z.max 16 (sums ts b)) ts (plan hard ts n u s).
Proof.
  induction 1 as [|t ts C F IH]; intros n u s b N S D P B BD E V; cbn [plan sums]; [constructor|].
  destruct (sums_step b t C B BD) as (D' & L'). set (b' := round_up b (al t) + words t) in *.
  pose proof (sums_bound ts F b' ltac:(lia) D') as (_ & SB).
  destruct (words_ge t C) as [W1 W2].
  assert (ST : forall o, o = round_up s (al t) -> (s <> 0 \/ 16 <= b) -> 16 + o + words t <= b' /\ fill n (o + words t) <= b' /\ (o + words t <> 0) /\ 0 <= o + words t /\ (4 | o + words t)).
  { intros o O H. assert (16 + o <= round_up b (al t)).
    { rewrite O, <- round_16. apply round_al_mono. unfold fill in E. destruct (Z.eqb_spec s 0); lia. }
    pose proof (round_up_nonneg s (al t)). assert (0 < al t) by (destruct (al_cases t); lia).
    unfold fill. replace (o + words t =? 0) with false by lia. repeat split; try lia.
    apply Z.divide_add_r; [rewrite O; apply al_4|apply words_4]. }
  destruct (need hard t) as [[k a]|] eqn:ND.
  - assert (FN : fp_need t = Some (k, a)) by (destruct hard; [auto|discriminate ND]).
    destruct (fp_need_size t k a C FN) as (SZ & _ & KB & _).
    destruct (find_fp u k a) as [f|] eqn:FF.
    + destruct (packed_step t k a u f C FN P FF) as (P' & _). constructor; [cbn [loc_end]; lia|].
      apply IH; auto; try lia.
      destruct V as [V|V]; [auto|right]. rewrite zlen_app. unfold zlen at 2. rewrite range_length.
      subst b'. rewrite words_exact by (auto; exists k; lia).
      pose proof (round_up_le b (al t)). assert (0 < al t) by (destruct (al_cases t); lia). lia.
    + pose proof (packed_full t k a u C FN P FF) as FU.
      destruct (ST _ eq_refl ltac:(lia)) as (S1 & S2 & S3 & S4 & S5).
      constructor; [cbn [loc_end]; lia|]. apply IH; auto; try lia. apply packed_all.
  - destruct (code_arg t n s) as [[p n'] s'] eqn:CA.
    destruct (code_core t n s C N S D p n' s' CA) as (N' & NN & SS & DD & M).
    destruct p as [i|i|o]; [|contradiction|].
    + destruct M as (I1 & I2 & I3 & I4). constructor.
      * cbn [loc_end]. destruct I4 as [(Q1 & Q2 & Q3)|(Q1 & Q2 & Q3 & Q4 & Q5)]; [lia|].
        assert (4 * i <= round_up b (al t)) by (rewrite I1; apply round_al_mono; unfold fill in E; subst s; cbn [Z.eqb] in E; lia). lia.
      * apply IH; auto; try lia. unfold fill in *.
        destruct I4 as [(Q1 & Q2 & Q3)|(Q1 & Q2 & Q3 & Q4 & Q5)].
        -- subst s'. destruct (s =? 0); [|lia].
           assert (4 * i <= round_up b (al t)) by (rewrite I1; apply round_al_mono; lia). lia.
        -- subst s. cbn [Z.eqb] in E. assert (4 * i <= round_up b (al t)) by (rewrite I1; apply round_al_mono; lia).
           replace (s' =? 0) with false by lia. lia.
    + destruct M as (I1 & I2 & I3 & I4 & I5).
      assert (16 + o <= round_up b (al t)).
      { unfold fill in E. destruct (Z.eqb_spec s 0) as [Z0|Z0].
        - rewrite I1, Z0. rewrite (round_up_id 0) by (destruct (al_cases t); try lia; apply Z.divide_0_r).
          rewrite <- (I5 Z0) at 1. rewrite Z.add_0_r. apply round_al_mono. lia.
        - rewrite I1, <- round_16. apply round_al_mono. lia. }
      pose proof (round_up_nonneg s (al t)). assert (0 < al t) by (destruct (al_cases t); lia).
      constructor; [cbn [loc_end]; lia|]. apply IH; auto; try lia. unfold fill. replace (s' =? 0) with false by lia. lia.
Qed.
