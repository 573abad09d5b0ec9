(** The loop of ffi_call_int. *)
From Coq Require Import ZifyBool ZifyNat.
From Verif Require Import Base BaseFacts Types LayoutSpec NaturalTypes NaturalFacts ByteMem S390Model S390Spec S390Facts S390Arg.
Local Open Scope Z_scope.
Local Arguments Z.mul : simpl never.
Local Arguments Z.add : simpl never.
Local Arguments Z.sub : simpl never.
Local Arguments Z.pow : simpl never.
Local Arguments Z.div : simpl never.
Local Arguments Z.modulo : simpl never.
Local Arguments Z.of_nat : simpl never.
Local Arguments be_enc : simpl never.

Definition r16 (s : Z) : Z := (s + 15) / 16 * 16.
Lemma r16_bound s : s <= r16 s < s + 16.
Proof. unfold r16. pose proof (Z.div_mod (s + 15) 16). pose proof (Z.mod_pos_bound (s + 15) 16). lia. Qed.
Lemma round_size_r16 s : 0 <= s -> s + 15 < 2 ^ 64 -> round_size s = r16 s.
Proof.
  intros H0 H1. unfold round_size. assert (E : wrap64 (Z.lnot 15) = Z.land (Z.lnot 15) (Z.ones 64)) by reflexivity.
  rewrite E. unfold wrap64, wrap. rewrite Z.mod_small by lia. rewrite Z.land_assoc, Z.land_ones by lia.
  rewrite <- Z.ldiff_land. change 15 with (Z.ones 4) at 2. rewrite Z.ldiff_ones_r, Z.shiftl_mul_pow2, Z.shiftr_div_pow2 by lia.
  change (2 ^ 4) with 16. unfold r16. apply Z.mod_small. pose proof (r16_bound s). unfold r16 in *.
  pose proof (Z.div_pos (s + 15) 16). lia.
Qed.

(** ** Counting *)

Lemma ints_snoc h l t : ints h (l ++ [t]) = ints h l + (if floating t then 0 else 1).
Proof. unfold ints, count. rewrite filter_app, zlen_app. cbn [filter]. destruct (floating t); cbn [negb]; unfold zlen at 2; cbn; lia. Qed.
Lemma fps_snoc l t : fps (l ++ [t]) = fps l + (if floating t then 1 else 0).
Proof. unfold fps, count. rewrite filter_app, zlen_app. cbn [filter]. destruct (floating t); unfold zlen at 2; cbn; lia. Qed.
Lemma ints_ge h l : 0 <= h -> 0 <= ints h l.
Proof. unfold ints, count. pose proof (zlen_nonneg (filter (fun t => negb (floating t)) l)). lia. Qed.
Lemma fps_ge l : 0 <= fps l.
Proof. apply zlen_nonneg. Qed.
Lemma ints_app h l k : ints h l <= ints h (l ++ k).
Proof. unfold ints, count. rewrite filter_app, zlen_app. pose proof (zlen_nonneg (filter (fun t => negb (floating t)) k)). lia. Qed.
Lemma fps_app l k : fps l <= fps (l ++ k).
Proof. unfold fps, count. rewrite filter_app, zlen_app. pose proof (zlen_nonneg (filter floating k)). lia. Qed.
Lemma slots_app h l k : slots h l <= slots h (l ++ k).
Proof. unfold slots. pose proof (ints_app h l k). pose proof (fps_app l k). lia. Qed.
Lemma copies_ge ts : Forall ctype ts -> 0 <= copies ts.
Proof.
  induction 1 as [|t l C _ IH]; cbn [copies]; [lia|]. pose proof (ctype_size t C). pose proof (r16_bound (ty_size t)). unfold r16 in *.
  destruct (by_ref t); lia.
Qed.
Lemma objects_types M lo hi ts : forall args vs, objects M lo hi ts args vs -> Forall ctype ts.
Proof. induction ts as [|t l IH]; intros [|a args] [|v vs] H; cbn in H; try contradiction; constructor; [tauto|]. eapply IH. apply H. Qed.
Lemma objects_ext M M' lo hi ts : (forall x, ~ lo <= x < hi -> M' x = M x) -> forall args vs, objects M lo hi ts args vs -> objects M' lo hi ts args vs.
Proof.
  intros E. induction ts as [|t l IH]; intros [|a args] [|v vs] H; cbn in H |- *; try contradiction; [exact Logic.I|].
  destruct H as (C & V & R & D & H). pose proof (ctype_size t C). repeat (split; auto).
  rewrite <- R, !bytes_at_rd. apply rd_ext. intros x Hx. apply E. lia.
Qed.

(** ** Words in memory before they are in registers *)

Definition addr (stack frame : Z) (l : loc) : Z :=
  match l with LG r => frame + 16 + 8 * (r - 2) | LF r => frame + 128 + 4 * r | LS i => stack + 8 * i end.
Definition fword (stack frame : Z) (m : Z -> Z) (l : loc) : Z := be_dec (rd m (addr stack frame l) 8).

Lemma carries_ext M M' t l w v : (by_ref t = true -> forall x, w <= x < w + ty_size t -> M' x = M x) -> 0 < ty_size t ->
  carries M t l w v -> carries M' t l w v.
Proof.
  intros E S H. unfold carries in *. destruct (by_ref t); [|exact H]. rewrite <- H, !bytes_at_rd. apply rd_ext.
  intros x Hx. apply E; [reflexivity|lia].
Qed.

Record inv (h : Z) (pre : list ftype) (s : cst) : Prop := Inv {
  i_g : n_gpr s = Z.min 5 (ints h pre); i_f : n_fpr s = Z.min 4 (fps pre); i_o : n_ov s = slots h pre }.

Definition fresh (stack frame : Z) (s : cst) (x : Z) : Prop :=
  stack + 8 * n_ov s <= x < p_struct s \/ frame + 16 + 8 * n_gpr s <= x < frame + 56 \/ frame + 128 + 8 * n_fpr s <= x < frame + 160.

(** The slot of the next argument. *)
Lemma next_slot h pre t s stack frame : 0 <= h -> inv h pre s ->
  stack + 8 * slots h (pre ++ [t]) <= p_struct s -> p_struct s <= frame -> 0 <= stack ->
  let a := addr stack frame (place h pre t) in
  stack <= a /\ a + 8 <= frame + 160 /\
  (forall x, a <= x < a + 8 -> fresh stack frame s x) /\ (a + 8 <= stack + 8 * slots h (pre ++ [t]) \/ frame + 16 <= a).
Proof.
  intros H0 [G F O] R P S0. unfold fresh, place. rewrite G, F, O. unfold slots in *. rewrite ints_snoc, fps_snoc in *.
  pose proof (ints_ge h pre H0). pose proof (fps_ge pre).
  destruct (floating t); [destruct (fps pre <? 4) eqn:E|destruct (ints h pre <? 5) eqn:E]; cbn [addr]; repeat split; intros; lia.
Qed.

Lemma store_step h pre t s w stack frame s1 : 0 <= h -> inv h pre s -> word_ok w ->
  stack + 8 * slots h (pre ++ [t]) <= p_struct s -> p_struct s <= frame -> 0 <= stack ->
  s1 = CSt (wr (c_m s) (addr stack frame (place h pre t)) (be_enc 8 w)) (Z.min 5 (ints h (pre ++ [t]))) (Z.min 4 (fps (pre ++ [t]))) (slots h (pre ++ [t])) (p_struct s) ->
  inv h (pre ++ [t]) s1 /\ fword stack frame (c_m s1) (place h pre t) = w /\
  (forall x, addr stack frame (place h pre t) <= x < addr stack frame (place h pre t) + 8 -> ~ fresh stack frame s1 x) /\
  (forall x, fresh stack frame s1 x -> fresh stack frame s x) /\
  (forall x, ~ fresh stack frame s x -> c_m s1 x = c_m s x).
Proof.
  intros H0 I W R P S0 ->. destruct (next_slot h pre t s stack frame H0 I R P S0) as (A1 & A2 & A3 & A4).
  split; [constructor; reflexivity|]. split.
  { unfold fword. cbn [c_m]. rewrite rd_wr_same by (rewrite be_enc_length; reflexivity). rewrite be_dec_enc. apply Z.mod_small. exact W. }
  split; [|split].
  - intros x Hx. unfold fresh. cbn [n_ov n_gpr n_fpr p_struct]. clear A3. unfold place in *. destruct I as [G F O].
    unfold slots in *. rewrite ints_snoc, fps_snoc in *. pose proof (ints_ge h pre H0). pose proof (fps_ge pre).
    destruct (floating t); [destruct (fps pre <? 4) eqn:E|destruct (ints h pre <? 5) eqn:E]; cbn [addr] in *; lia.
  - intros x. unfold fresh. cbn [n_ov n_gpr n_fpr p_struct]. destruct I as [G F O]. rewrite G, F, O.
    pose proof (slots_app h pre [t]). pose proof (ints_app h pre [t]). pose proof (fps_app pre [t]). lia.
  - intros x Hx. cbn [c_m]. apply wr_out. rewrite be_enc_zlen. change (Z.of_nat 8) with 8. intros Hy. apply Hx, A3, Hy.
Qed.

Lemma do_int_eq h pre t s w stack frame : 0 <= h -> inv h pre s -> floating t = false ->
  do_int stack frame w s = CSt (wr (c_m s) (addr stack frame (place h pre t)) (be_enc 8 w)) (Z.min 5 (ints h (pre ++ [t]))) (Z.min 4 (fps (pre ++ [t]))) (slots h (pre ++ [t])) (p_struct s).
Proof.
  intros H0 [G F O] FL. unfold do_int, place, slots, MAX_GPR, O_GPR. rewrite ints_snoc, fps_snoc, FL. rewrite G, F, O. unfold slots.
  pose proof (ints_ge h pre H0). pose proof (fps_ge pre).
  destruct (ints h pre <? 5) eqn:E.
  - rewrite (proj2 (Z.ltb_lt _ _)) by lia. f_equal; try lia. f_equal. cbn [addr]. lia.
  - rewrite (proj2 (Z.ltb_ge _ _)) by lia. f_equal; try lia.
Qed.
Lemma do_fp_eq h pre t s reg ov stack frame : 0 <= h -> inv h pre s -> floating t = true ->
  do_fp stack frame reg ov s = CSt (wr (c_m s) (addr stack frame (place h pre t)) (be_enc 8 (if fps pre <? 4 then reg else ov))) (Z.min 5 (ints h (pre ++ [t]))) (Z.min 4 (fps (pre ++ [t]))) (slots h (pre ++ [t])) (p_struct s).
Proof.
  intros H0 [G F O] FL. unfold do_fp, place, slots, MAX_FPR, O_FPR. rewrite ints_snoc, fps_snoc, FL. rewrite G, F, O. unfold slots.
  pose proof (ints_ge h pre H0). pose proof (fps_ge pre).
  destruct (fps pre <? 4) eqn:E.
  - rewrite (proj2 (Z.ltb_lt _ _)) by lia. f_equal; try lia. f_equal. cbn [addr]. lia.
  - rewrite (proj2 (Z.ltb_ge _ _)) by lia. f_equal; try lia.
Qed.

(** Where a copy may be. *)
Definition copy_in (lo hi : Z) (t : ftype) (w : Z) : Prop := by_ref t = true -> lo <= w /\ w + ty_size t <= hi.

(** One argument. *)
Lemma arg_step h pre t v a s stack frame hi :
  0 <= h -> inv h pre s -> ctype t -> is_value t v -> rd (c_m s) a (Z.to_nat (ty_size t)) = v ->
  (a + ty_size t <= stack \/ hi <= a) -> frame + 160 <= hi -> hi <= 2 ^ 64 ->
  0 <= stack -> p_struct s <= frame -> stack + 8 * slots h (pre ++ [t]) + copies [t] <= p_struct s ->
  exists s1, call_arg stack frame t a s = Ok s1 /\ inv h (pre ++ [t]) s1 /\ p_struct s1 = p_struct s - copies [t] /\
    (forall x, fresh stack frame s1 x -> fresh stack frame s x) /\
    (forall x, ~ fresh stack frame s x -> c_m s1 x = c_m s x) /\
    (forall x, addr stack frame (place h pre t) <= x < addr stack frame (place h pre t) + 8 -> ~ fresh stack frame s1 x) /\
    (let w := fword stack frame (c_m s1) (place h pre t) in
     carries (c_m s1) t (place h pre t) w v /\ copy_in (p_struct s1) (p_struct s) t w).
Proof.
  intros H0 I C V R D Hf Hi S0 P Sp. cbn [copies] in Sp |- *. rewrite Z.add_0_r in *.
  pose proof (ctype_size t C) as Ps. pose proof (r16_bound (ty_size t)) as Rb. unfold r16 in Rb.
  destruct (call_arg_cases stack frame t a s v C V R) as [(B & F & K)|[(B & F & reg & ov & K & Wr & Wo & Ca)|(B & F & w & K & W & Ca)]]; rewrite B in *; rewrite K.
  - assert (Z0 : 0 <= stack + 8 * slots h (pre ++ [t])).
    { unfold slots. pose proof (ints_ge h (pre ++ [t]) H0). lia. }
    unfold do_ref. rewrite round_size_r16 by lia. unfold r16. set (p := p_struct s - (ty_size t + 15) / 16 * 16) in *.
    assert (Wp : wrap64 p = p) by (apply Z.mod_small; lia). rewrite Wp. rewrite R.
    set (s0 := CSt (wr (c_m s) p v) (n_gpr s) (n_fpr s) (n_ov s) p).
    assert (I0 : inv h pre s0) by (destruct I; constructor; assumption).
    assert (Lv : zlen v = ty_size t) by (apply V).
    destruct (store_step h pre t s0 p stack frame (do_int stack frame p s0) H0 I0) as (I1 & Fw & Fr1 & Fr2 & Fr3); try (cbn [p_struct s0]; lia).
    { unfold word_ok. lia. }
    { apply do_int_eq; auto. }
    assert (Ps1 : p_struct (do_int stack frame p s0) = p) by (unfold do_int; destruct (_ <? _); reflexivity).
    assert (Sl : slots h pre <= slots h (pre ++ [t])) by apply slots_app.
    assert (Fs : forall x, fresh stack frame s0 x -> fresh stack frame s x).
    { intros x. unfold fresh, s0. cbn [n_ov n_gpr n_fpr p_struct]. lia. }
    exists (do_int stack frame p s0). split; [reflexivity|]. split; [exact I1|]. split; [lia|].
    split; [intros x Hx; apply Fs, Fr2, Hx|]. split.
    { intros x Hx. rewrite Fr3 by (intros Hy; apply Hx, Fs, Hy). unfold s0. cbn [c_m]. apply wr_out. rewrite Lv. intros Hy. apply Hx. unfold fresh. destruct I as [G1 F1 O1]. rewrite O1. lia. }
    split; [exact Fr1|]. rewrite Fw. split; [|intros _; rewrite Ps1; lia].
    unfold carries. rewrite B. rewrite bytes_at_rd.
    transitivity (rd (c_m s0) p (Z.to_nat (ty_size t))).
    + apply rd_ext. intros x Hx. apply Fr3. unfold fresh, s0. cbn [n_ov n_gpr n_fpr p_struct]. destruct I as [G1 F1 O1].
      rewrite G1, F1, O1. pose proof (ints_ge h pre H0). pose proof (fps_ge pre). lia.
    + unfold s0. cbn [c_m]. apply rd_wr_same. unfold zlen in Lv. lia.
  - rewrite Z.sub_0_r, Z.add_0_r in *.
    destruct (store_step h pre t s (if fps pre <? 4 then reg else ov) stack frame (do_fp stack frame reg ov s) H0 I) as (I1 & Fw & Fr1 & Fr2 & Fr3); try lia.
    { destruct (fps pre <? 4); auto. }
    { apply do_fp_eq; auto. }
    assert (Ps1 : p_struct (do_fp stack frame reg ov s) = p_struct s) by (unfold do_fp; destruct (n_fpr s <? MAX_FPR); reflexivity).
    exists (do_fp stack frame reg ov s). split; [reflexivity|]. split; [exact I1|]. split; [lia|].
    split; [exact Fr2|]. split; [exact Fr3|]. split; [exact Fr1|]. rewrite Fw. split; [|intros B'; congruence].
    unfold place. rewrite F. destruct (fps pre <? 4); apply Ca; exact 0.
  - rewrite Z.sub_0_r, Z.add_0_r in *.
    destruct (store_step h pre t s w stack frame (do_int stack frame w s) H0 I) as (I1 & Fw & Fr1 & Fr2 & Fr3); try lia; auto.
    { apply do_int_eq; auto. }
    assert (Ps1 : p_struct (do_int stack frame w s) = p_struct s) by (unfold do_int; destruct (n_gpr s <? MAX_GPR); reflexivity).
    exists (do_int stack frame w s). split; [reflexivity|]. split; [exact I1|]. split; [lia|].
    split; [exact Fr2|]. split; [exact Fr3|]. split; [exact Fr1|]. rewrite Fw. split; [apply Ca|intros B'; congruence].
Qed.

Lemma fresh_bounds h pre stack frame s x : 0 <= h -> inv h pre s -> p_struct s <= frame -> stack <= frame -> fresh stack frame s x -> stack <= x < frame + 160.
Proof.
  intros H0 [G F O] P Q. unfold fresh. rewrite G, F, O. unfold slots. pose proof (ints_ge h pre H0). pose proof (fps_ge pre). lia.
Qed.

(** All arguments. *)
Lemma args_ok h stack frame hi : 0 <= h -> frame + 160 <= hi -> hi <= 2 ^ 64 -> 0 <= stack ->
  forall ts args vs pre s, inv h pre s -> objects (c_m s) stack hi ts args vs ->
  p_struct s <= frame -> stack + 8 * slots h (pre ++ ts) + copies ts <= p_struct s ->
  exists s', call_args stack frame ts args s = Ok s' /\ inv h (pre ++ ts) s' /\ p_struct s' = p_struct s - copies ts /\
    (forall x, ~ fresh stack frame s x -> c_m s' x = c_m s x) /\
    (forall i t v, nth_error ts i = Some t -> nth_error vs i = Some v ->
       let l := place h (pre ++ firstn i ts) t in let w := fword stack frame (c_m s') l in
       carries (c_m s') t l w v /\ copy_in (p_struct s') (p_struct s) t w).
Proof.
  intros H0 Hf Hi S0. induction ts as [|t ts IH]; intros args vs pre s I Ob P Sp.
  - exists s. cbn [call_args copies]. rewrite app_nil_r. destruct args; (split; [reflexivity|]); (split; [exact I|]); (split; [lia|]); (split; [auto|]);
      intros [|i] t v H; discriminate H.
  - destruct args as [|a args]; [contradiction|]. destruct vs as [|v vs]; [contradiction|].
    cbn [objects] in Ob. destruct Ob as (C & V & R & D & Ob). rewrite bytes_at_rd in R.
    pose proof (copies_ge ts (objects_types _ _ _ _ _ _ Ob)) as Cg.
    assert (Ap : pre ++ t :: ts = (pre ++ [t]) ++ ts) by (rewrite <- app_assoc; reflexivity).
    rewrite Ap in *. pose proof (slots_app h (pre ++ [t]) ts) as Sl. cbn [copies] in Sp.
    destruct (arg_step h pre t v a s stack frame hi H0 I C V R D Hf Hi S0 P) as (s1 & K & I1 & P1 & Fr2 & Fr3 & Fr1 & Cw & Ci).
    { cbn [copies]. lia. }
    assert (C1 : copies [t] = (if by_ref t then (ty_size t + 15) / 16 * 16 else 0)) by (cbn [copies]; lia).
    pose proof (ctype_size t C) as Ps. pose proof (r16_bound (ty_size t)) as Rb. unfold r16 in Rb.
    assert (C0 : 0 <= copies [t]) by (rewrite C1; destruct (by_ref t); lia).
    assert (Qf : stack <= frame) by (unfold slots in *; lia).
    assert (Ob1 : objects (c_m s1) stack hi ts args vs).
    { eapply objects_ext; [|exact Ob]. intros x Hx. apply Fr3. intros Hy. apply Hx. pose proof (fresh_bounds h pre stack frame s x H0 I P Qf Hy). lia. }
    destruct (IH args vs (pre ++ [t]) s1 I1 Ob1) as (s' & K2 & I2 & P2 & Fr4 & Ca); [lia|lia|].
    exists s'. cbn [call_args]. rewrite K. cbn [bind]. split; [exact K2|]. split; [exact I2|].
    split; [cbn [copies]; lia|]. split.
    { intros x Hx. rewrite Fr4 by (intros Hy; apply Hx, Fr2, Hy). apply Fr3, Hx. }
    intros [|i] t' v' Nt Nv.
    + cbn in Nt, Nv. injection Nt as <-. injection Nv as <-. cbn [firstn]. rewrite app_nil_r. cbv zeta in *.
      assert (Ew : fword stack frame (c_m s') (place h pre t) = fword stack frame (c_m s1) (place h pre t)).
      { unfold fword. f_equal. apply rd_ext. intros x Hx. apply Fr4, Fr1. lia. }
      rewrite Ew. split.
      * eapply carries_ext; [|lia|exact Cw]. intros B x Hx. apply Fr4. destruct (Ci B) as (L1 & L2). destruct I1 as [G1 F1 O1]. unfold fresh. rewrite G1, F1, O1.
        pose proof (ints_ge h (pre ++ [t]) H0). pose proof (fps_ge (pre ++ [t])). lia.
      * intros B. destruct (Ci B). lia.
    + cbn in Nt, Nv. cbn [firstn]. replace (pre ++ t :: firstn i ts) with ((pre ++ [t]) ++ firstn i ts) by (rewrite <- app_assoc; reflexivity).
      destruct (Ca i t' v' Nt Nv) as (Q1 & Q2). split; [exact Q1|]. intros B. destruct (Q2 B). lia.
Qed.
