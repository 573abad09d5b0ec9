(** The C types of 32-bit ARM systems; vfp_type_p recognises floating point aggregates. *)
From Coq Require Import ZifyBool ZifyNat.
From Verif Require Import Base BaseFacts Types LayoutSpec NaturalTypes NaturalFacts ByteMem ArmModel ArmSpec.
Local Arguments Z.mul : simpl never.
Local Arguments Z.add : simpl never.

Ltac in_cases H := repeat (destruct H as [<-|H]; [|]); [..|contradiction].

Lemma pow2_small : is_pow2 1 /\ is_pow2 2 /\ is_pow2 4 /\ is_pow2 8.
Proof.
  repeat split.
  - exists 0; split; [lia|reflexivity].
  - exists 1; split; [lia|reflexivity].
  - exists 2; split; [lia|reflexivity].
  - exists 3; split; [lia|reflexivity].
Qed.

Lemma numbers_basic t : In t numbers -> basic t.
Proof.
  destruct pow2_small as (P1 & P2 & P4 & P8).
  intros H. cbn in H. in_cases H; cbn; repeat split; cbn; auto; try lia; first [exists 1; reflexivity|exists 2; reflexivity|exists 3; reflexivity].
Qed.
Lemma numbers_align t : In t numbers -> ty_align t <= 8.
Proof. intros H. cbn in H; in_cases H; cbn; lia. Qed.

Lemma ctype_basic t : ctype t -> basic t.
Proof.
  destruct pow2_small as (P1 & P2 & P4 & P8).
  induction t as [c s a es IH] using ftype_ind'. intros N.
  inversion N as [|t0 H|t0 H|s0 a0 es0 offs NE F SL]; subst.
  - split; [cbn; lia|]. split; [exact P4|]. split; [cbn; lia|]. exists 1; reflexivity.
  - eapply numbers_basic; eauto.
  - assert (B : basic t0) by (eapply numbers_basic; eauto).
    destruct B as (B1 & B2 & B3 & B4).
    change (0 < 2 * ty_size t0 /\ is_pow2 (ty_align t0) /\ ty_align t0 <= 16 /\ (ty_align t0 | 2 * ty_size t0)).
    split; [lia|]. split; [auto|]. split; [auto|]. apply Z.divide_mul_r; auto.
  - eapply struct_basic; eauto. rewrite Forall_forall in *. auto.
Qed.

Lemma ctype_align t : ctype t -> ty_align t <= 8.
Proof.
  induction t as [c s a es IH] using ftype_ind'. intros N.
  inversion N as [|t0 H|t0 H|s0 a0 es0 offs NE F SL]; subst.
  - cbn; lia.
  - apply numbers_align; auto.
  - cbn [ty_align]. apply numbers_align; auto.
  - cbn [ty_align]. destruct (struct_basic s a es offs NE) as (_ & _ & ->); auto.
    + rewrite Forall_forall in *. intros x X. eapply ctype_basic; eauto.
    + clear -IH F. induction F as [|t es Ht F IHF]; cbn [map].
      * cbn; lia.
      * inversion IH as [|? ? I1 I2]; subst.
        change (max_align (lay t :: map lay es)) with (Z.max (ty_align t) (max_align (map lay es))).
        specialize (I1 Ht). specialize (IHF I2). lia.
Qed.

(** Alignments are 1, 2, 4 or 8. *)
Lemma align_cases t : ctype t -> ty_align t = 1 \/ ty_align t = 2 \/ ty_align t = 4 \/ ty_align t = 8.
Proof.
  intros C. pose proof (ctype_align t C) as L. destruct (ctype_basic t C) as (_ & (k & K & E) & _).
  assert (k < 4) by (destruct (Z.lt_ge_cases k 4); [auto|]; pose proof (Z.pow_le_mono_r 2 4 k); lia).
  assert (Q : k = 0 \/ k = 1 \/ k = 2 \/ k = 3) by lia. destruct Q as [-> |[-> |[-> | ->]]]; rewrite E; cbn; auto.
Qed.

Definition all_members (es : list ftype) : list tcode := concat (map members es).

Lemma members_struct s a es : members (FT T_STRUCT s a es) = all_members es.
Proof. cbn [members]. unfold all_members. induction es as [|e r IH]; cbn [map concat]; [reflexivity|]. rewrite <- IH. reflexivity. Qed.

Lemma num_inj c d : tcode_num c = tcode_num d -> c = d.
Proof. destruct c, d; cbn; intros; first [reflexivity|discriminate]. Qed.

Lemma eqb_eq c d : tcode_eqb c d = true <-> c = d.
Proof. unfold tcode_eqb. rewrite Z.eqb_eq. split; [apply num_inj|congruence]. Qed.

(** Leaves of C types. *)
Definition scalars : list ftype := ty_ptr :: numbers.
Lemma ctype_cases t : ctype t ->
  (In t scalars) \/
  (exists u, In u numbers /\ t = FT T_COMPLEX (2 * ty_size u) (ty_align u) [u]) \/
  (exists s a es, t = FT T_STRUCT s a es /\ es <> [] /\ Forall ctype es).
Proof.
  intros N. inversion N as [|t0 H|t0 H|s0 a0 es0 offs NE F SL]; subst.
  - left. left. reflexivity.
  - left. right. auto.
  - right; left. eauto.
  - right; right. exists s0, a0, es0. auto.
Qed.

Lemma scalar_leaf t : In t scalars -> members t = [ty_code t] /\ aggregate (tcode_num (ty_code t)) = false /\ 0 <= tcode_num (ty_code t).
Proof. intros H. cbn in H. repeat (destruct H as [<-|H]; [cbn; repeat split; lia|]). contradiction. Qed.

Lemma int_float_scalar t : In t numbers -> In t scalars.
Proof. intros H. right. exact H. Qed.

Lemma ctype_struct_inv s a es : ctype (FT T_STRUCT s a es) ->
  es <> [] /\ Forall ctype es /\ s = round_up (end_at 0 es) a /\ a = max_align (map lay es).
Proof.
  intros N. inversion N as [|t0 H|t0 H|s0 a0 es0 offs NE F SL]; subst.
  - exfalso. cbn in H. repeat (destruct H as [H|H]; [discriminate H|]). contradiction.
  - split; auto. split; auto.
    assert (FB : Forall basic es) by (rewrite Forall_forall in *; auto using ctype_basic).
    destruct (struct_basic _ _ _ _ NE FB SL) as (_ & A & B). auto.
Qed.

Lemma members_nonempty t : ctype t -> members t <> [].
Proof.
  induction t as [c s a es IH] using ftype_ind'. intros N.
  destruct (ctype_cases _ N) as [H|[(u & H & E)|(s0 & a0 & es0 & E & NE & F)]].
  - rewrite (proj1 (scalar_leaf _ H)). discriminate.
  - rewrite E. discriminate.
  - injection E as -> -> -> ->. rewrite members_struct. destruct es0 as [|e r]; [congruence|].
    inversion F as [|? ? Ne Fr]; subst. inversion IH as [|? ? He Hr]; subst.
    unfold all_members. cbn [map concat]. specialize (He Ne). destruct (members e); [congruence|discriminate].
Qed.

(** First member. *)
Definition first_code (t : ftype) : Z := match members t with c :: _ => tcode_num c | [] => -1 end.

Lemma num_nonneg c : 0 <= tcode_num c.
Proof. destruct c; cbn; lia. Qed.

Lemma first_code_nonneg t : ctype t -> 0 <= first_code t.
Proof. intros N. unfold first_code. pose proof (members_nonempty t N). destruct (members t); [congruence|apply num_nonneg]. Qed.

Lemma is_hfa0_first t : ctype t -> aggregate (tcode_num (ty_code t)) = true -> is_hfa0 t = first_code t.
Proof.
  induction t as [c s a es IH] using ftype_ind'. intros N A.
  destruct (ctype_cases _ N) as [H|[(u & H & E)|(s0 & a0 & es0 & E & NE & F)]].
  - rewrite (proj1 (proj2 (scalar_leaf _ H))) in A. discriminate.
  - injection E as -> -> -> ->. pose proof (scalar_leaf _ (int_float_scalar _ H)) as (_ & B & C).
    cbn [is_hfa0]. rewrite B. reflexivity.
  - injection E as -> -> -> ->. destruct es0 as [|e r]; [congruence|].
    inversion F as [|? ? Ne Fr]; subst. inversion IH as [|? ? He Hr]; subst.
    cbn [is_hfa0]. destruct (aggregate (tcode_num (ty_code e))) eqn:Ae.
    + rewrite (He Ne eq_refl). pose proof (first_code_nonneg e Ne) as P.
      replace (first_code e <? 0) with false by lia.
      unfold first_code. rewrite members_struct. unfold all_members. cbn [map concat].
      pose proof (members_nonempty e Ne). destruct (members e); [congruence|reflexivity].
    + unfold first_code. rewrite members_struct. unfold all_members. cbn [map concat].
      destruct (ctype_cases _ Ne) as [H|[(u & H & E)|(s1 & a1 & es1 & E & _)]].
      * rewrite (proj1 (scalar_leaf _ H)). reflexivity.
      * subst e. discriminate Ae.
      * subst e. discriminate Ae.
Qed.

Lemma is_hfa1_all t k : ctype t -> aggregate (tcode_num (ty_code t)) = true ->
  is_hfa1 t k = forallb (fun c => tcode_num c =? k) (members t).
Proof.
  induction t as [c s a es IH] using ftype_ind'. intros N A.
  destruct (ctype_cases _ N) as [H|[(u & H & E)|(s0 & a0 & es0 & E & NE & F)]].
  - rewrite (proj1 (proj2 (scalar_leaf _ H))) in A. discriminate.
  - injection E as -> -> -> ->. pose proof (scalar_leaf _ (int_float_scalar _ H)) as (_ & B & C).
    cbn [is_hfa1 members forallb]. rewrite B. destruct (tcode_num (ty_code u) =? k); reflexivity.
  - injection E as -> -> -> ->. rewrite members_struct. clear NE N A. unfold all_members.
    cbn [is_hfa1]. induction es0 as [|e r IHr]; [reflexivity|].
    inversion F as [|? ? Ne Fr]; subst. inversion IH as [|? ? He Hr]; subst.
    cbn [map concat]. rewrite forallb_app, <- (IHr Hr Fr).
    destruct (aggregate (tcode_num (ty_code e))) eqn:Ae.
    + rewrite (He Ne eq_refl). destruct (forallb _ (members e)); reflexivity.
    + assert (M : members e = [ty_code e]).
      { destruct (ctype_cases _ Ne) as [H|[(u & H & E)|(s1 & a1 & es1 & E & _)]].
        - apply scalar_leaf; auto.
        - subst e. discriminate Ae.
        - subst e. discriminate Ae. }
      rewrite M. cbn [forallb]. destruct (tcode_num (ty_code e) =? k); reflexivity.
Qed.

(** Size of homogeneous types. *)
Lemma repeat_app_inv {A} (c : A) n l m : l ++ m = repeat c n -> exists i j, l = repeat c i /\ m = repeat c j /\ (i + j = n)%nat.
Proof.
  revert n. induction l as [|x l IH]; intros n E; cbn in E.
  - exists O, n. auto.
  - destruct n as [|n]; [discriminate|]. cbn in E. injection E as -> E. destruct (IH _ E) as (i & j & -> & -> & <-).
    exists (S i), j. auto.
Qed.

(** Size of a floating point member. *)
Definition fsize (c : tcode) : Z := match c with T_DOUBLE => 8 | _ => 4 end.
Lemma fsize_pos c : 0 < fsize c.
Proof. destruct c; cbn; lia. Qed.

Lemma homogeneous_size t : ctype t -> forall c n, floating c = true -> members t = repeat c n ->
  ty_size t = Z.of_nat n * fsize c /\ ty_align t = fsize c.
Proof.
  induction t as [c s a es IH] using ftype_ind'. intros N d n Fd M.
  destruct (ctype_cases _ N) as [H|[(u & H & E)|(s0 & a0 & es0 & E & NE & F)]].
  - rewrite (proj1 (scalar_leaf _ H)) in M. destruct n as [|[|n]]; try discriminate. cbn [repeat] in M.
    injection M as M. revert M Fd. cbn in H.
    repeat (destruct H as [H|H]; [injection H as <- <- <- <-; cbn; intros <-; cbn; first [discriminate|intros _; split; reflexivity]|]).
    contradiction.
  - injection E as -> -> -> ->. cbn [members] in M. destruct n as [|[|[|n]]]; try discriminate. cbn [repeat] in M.
    injection M as M _. revert M Fd. cbn [ty_size ty_align].
    cbn in H. repeat (destruct H as [<-|H]; [cbn; intros <-; cbn; first [discriminate|intros _; split; reflexivity]|]).
    contradiction.
  - injection E as -> -> -> ->. rewrite members_struct in M.
    destruct (ctype_struct_inv _ _ _ N) as (_ & _ & Es & Ea). cbn [ty_size ty_align].
    assert (G : forall l k e, Forall ctype l ->
      Forall (fun t => ctype t -> forall c n, floating c = true -> members t = repeat c n ->
        ty_size t = Z.of_nat n * fsize c /\ ty_align t = fsize c) l ->
      all_members l = repeat d k -> (fsize d | e) ->
      end_at e l = e + Z.of_nat k * fsize d /\ (l <> [] -> max_align (map lay l) = fsize d)).
    { clear -Fd. induction l as [|t l IHl]; intros k e F IH M De.
      - destruct k; [|discriminate]. cbn [end_at]. split; [lia|congruence].
      - inversion F as [|? ? Nt Fl]; subst. inversion IH as [|? ? Ht Hl]; subst.
        unfold all_members in M. cbn [map concat] in M. apply repeat_app_inv in M.
        destruct M as (i & j & M1 & M2 & <-). destruct (Ht Nt d i Fd M1) as [S1 A1].
        pose proof (fsize_pos d) as P.
        cbn [end_at map]. rewrite A1, S1. rewrite (round_up_id e _ P De).
        destruct (IHl j (e + Z.of_nat i * fsize d) Fl Hl M2) as [E2 X2].
        { apply Z.divide_add_r; [auto|]. apply Z.divide_factor_r. }
        rewrite E2. split; [lia|]. intros _.
        change (max_align (lay t :: map lay l)) with (Z.max (ty_align t) (max_align (map lay l))).
        destruct l as [|t2 l].
        + cbn [map]. rewrite A1. change (max_align []) with 1. lia.
        + rewrite X2 by discriminate. lia. }
    destruct (G es0 n 0 F IH M (Z.divide_0_r _)) as [E1 E2].
    rewrite Es, Ea, (E2 NE), E1. split; [|reflexivity].
    apply round_up_id; [apply fsize_pos|]. apply Z.divide_factor_r.
Qed.

Lemma forallb_repeat (l : list tcode) c : forallb (fun d => tcode_num d =? tcode_num c) l = true -> l = repeat c (length l).
Proof.
  induction l as [|d l IH]; cbn [forallb length repeat]; intros H; [reflexivity|].
  apply andb_prop in H. destruct H as [E H]. apply Z.eqb_eq, num_inj in E. subst d. rewrite <- IH; auto.
Qed.

Lemma repeat_forallb c n : forallb (fun d => tcode_num d =? tcode_num c) (repeat c n) = true.
Proof. induction n; cbn [forallb repeat]; [reflexivity|]. rewrite Z.eqb_refl. auto. Qed.

Lemma repeat_nth_inj {A} (c d : A) n m : (1 <= n)%nat -> repeat c n = repeat d m -> c = d /\ n = m.
Proof.
  intros P E. assert (L : length (repeat c n) = length (repeat d m)) by (rewrite E; reflexivity).
  rewrite !repeat_length in L. subst m. destruct n; [lia|]. injection E as ->. auto.
Qed.

(** The size of a candidate. *)
Definition unit_of (k : Z) : Z := if k =? 2 then 4 else if k =? 3 then 8 else 0.

Lemma unit_floating c : floating c = true -> unit_of (tcode_num c) = fsize c.
Proof. destruct c; cbn; try discriminate; reflexivity. Qed.
Lemma unit_not_floating c : floating c = false -> unit_of (tcode_num c) = 0.
Proof. destruct c; cbn; first [discriminate|reflexivity]. Qed.

Lemma vfp_struct s a es : vfp_type (FT T_STRUCT s a es) =
  if (s <? 4) || (s >? 32) then Ok 0
  else match es with
  | [] => UB
  | e0 :: _ =>
    let* cand := if aggregate (tcode_num (ty_code e0)) then first_scalar es else Ok (tcode_num (ty_code e0)) in
    let u := unit_of cand in
    if u =? 0 then Ok 0
    else let count := s / u in
      if negb (s =? count * u) then Ok 0 else if count >? 4 then Ok 0
      else if is_hfa1 (FT T_STRUCT s a es) cand then Ok (Z.lor (count * 2 ^ 8) cand) else Ok 0
  end.
Proof. reflexivity. Qed.

(** The exact result of vfp_type_p. *)
Definition vfp_code (t : ftype) : Z :=
  match hfa_of t with Some (c, n) => Z.lor (Z.of_nat n * 2 ^ 8) (tcode_num c) | None => 0 end.

Lemma hfa_of_spec t c n : hfa_of t = Some (c, n) <-> hfa t c n.
Proof.
  unfold hfa_of, hfa. destruct (members t) as [|d r] eqn:M.
  - split; [discriminate|]. intros (E & _ & L). destruct n; [lia|discriminate].
  - assert (EQ : forallb (tcode_eqb d) r = forallb (fun x => tcode_num x =? tcode_num d) r).
    { clear. induction r as [|x r IH]; cbn [forallb]; [reflexivity|]. unfold tcode_eqb at 1. rewrite Z.eqb_sym, IH. reflexivity. }
    split.
    + destruct (floating d) eqn:Fd; [|discriminate]. cbn [andb]. destruct (forallb _ r) eqn:A; [|discriminate].
      cbn [andb]. destruct (length r <=? 3)%nat eqn:L; [|discriminate]. intros E. injection E as <- <-.
      apply Nat.leb_le in L. symmetry in EQ. clear A. apply forallb_repeat in EQ. rename EQ into A.
      cbn [repeat]. rewrite <- A. repeat split; auto; lia.
    + intros (E & Fc & L). destruct n as [|n]; [lia|]. cbn [repeat] in E. injection E as -> ->.
      rewrite Fc, EQ, repeat_forallb, repeat_length. cbn [andb].
      replace (n <=? 3)%nat with true by (symmetry; apply Nat.leb_le; lia). reflexivity.
Qed.

Lemma hfa_of_none t : hfa_of t = None -> forall c n, ~ hfa t c n.
Proof. intros H c n X. apply hfa_of_spec in X. congruence. Qed.

Lemma first_scalar_members es : es <> [] -> Forall ctype es ->
  aggregate (tcode_num (ty_code (hd ty_void es))) = true ->
  first_scalar es = Ok (match all_members es with c :: _ => tcode_num c | [] => -1 end).
Proof.
  destruct es as [|e r]; [congruence|]. cbn [hd]. intros _ F A. inversion F as [|? ? Ne Fr]; subst.
  cbn [first_scalar]. rewrite (is_hfa0_first e Ne A). pose proof (first_code_nonneg e Ne) as P.
  replace (0 <=? first_code e) with true by lia.
  unfold all_members, first_code. cbn [map concat]. pose proof (members_nonempty e Ne).
  destruct (members e); [congruence|reflexivity].
Qed.

Theorem vfp_type_exact t : ctype t -> vfp_type t = Ok (vfp_code t).
Proof.
  intros N. destruct (ctype_cases _ N) as [H|[(u & H & E)|(s & a & es & E & NE & F)]].
  - clear N. cbn in H. repeat (destruct H as [<-|H]; [reflexivity|]). contradiction.
  - subst t. cbn in H. repeat (destruct H as [<-|H]; [reflexivity|]). contradiction.
  - subst t. rewrite vfp_struct.
    destruct (members (FT T_STRUCT s a es)) as [|c r] eqn:M; [exfalso; exact (members_nonempty _ N M)|].
    assert (B : 0 < s) by exact (proj1 (ctype_basic _ N)).
    assert (CAND : (if aggregate (tcode_num (ty_code (hd ty_void es))) then first_scalar es else Ok (tcode_num (ty_code (hd ty_void es)))) = Ok (tcode_num c)).
    { rewrite members_struct in M. destruct (aggregate _) eqn:A.
      - rewrite (first_scalar_members es NE F A), M. reflexivity.
      - destruct es as [|e es]; [congruence|]. cbn [hd] in *. inversion F as [|? ? Ne Fr]; subst.
        destruct (ctype_cases _ Ne) as [H|[(u & H & E)|(s1 & a1 & es1 & E & _)]]; try (subst e; discriminate A).
        unfold all_members in M. cbn [map concat] in M. rewrite (proj1 (scalar_leaf _ H)) in M.
        injection M as <- _. reflexivity. }
    assert (HF1 : is_hfa1 (FT T_STRUCT s a es) (tcode_num c) = forallb (fun d => tcode_num d =? tcode_num c) (c :: r)).
    { rewrite is_hfa1_all by (auto; reflexivity). rewrite M. reflexivity. }
    unfold vfp_code. destruct (hfa_of (FT T_STRUCT s a es)) as [[d n]|] eqn:HF.
    + apply hfa_of_spec in HF. destruct HF as (E & Fd & L).
      destruct (homogeneous_size _ N d n Fd E) as [S1 _]. cbn [ty_size] in S1.
      rewrite M in E. destruct n as [|n]; [lia|]. cbn [repeat] in E. injection E as -> ->.
      assert (SB : 4 <= s <= 32) by (destruct d; try discriminate Fd; cbn [fsize] in S1; lia).
      replace ((s <? 4) || (s >? 32)) with false by lia.
      destruct es as [|e es]; [congruence|]. cbn [hd] in CAND. rewrite CAND. cbn [bind].
      rewrite (unit_floating d Fd). cbv zeta. pose proof (fsize_pos d) as P.
      replace (fsize d =? 0) with false by lia.
      assert (D : s / fsize d = Z.of_nat (S n)) by (rewrite S1; apply Z.div_mul; lia).
      rewrite D. replace (s =? Z.of_nat (S n) * fsize d) with true by lia. cbn [negb].
      replace (Z.of_nat (S n) >? 4) with false by lia.
      rewrite HF1. change (d :: repeat d n) with (repeat d (S n)). rewrite repeat_forallb. reflexivity.
    + destruct ((s <? 4) || (s >? 32)) eqn:SZ; [reflexivity|].
      destruct es as [|e es]; [congruence|]. cbn [hd] in CAND. rewrite CAND. cbn [bind].
      destruct (floating c) eqn:Fc.
      * rewrite (unit_floating c Fc). cbv zeta. pose proof (fsize_pos c) as P.
        replace (fsize c =? 0) with false by lia.
        destruct (negb (s =? s / fsize c * fsize c)); [reflexivity|].
        destruct (s / fsize c >? 4) eqn:CNT; [reflexivity|].
        rewrite HF1. destruct (forallb _ (c :: r)) eqn:A; [|reflexivity].
        exfalso. apply forallb_repeat in A.
        assert (E : members (FT T_STRUCT s a (e :: es)) = repeat c (length (c :: r))) by (rewrite M; exact A).
        destruct (homogeneous_size _ N c _ Fc E) as [S1 _]. cbn [ty_size] in S1.
        assert (D : s / fsize c = Z.of_nat (length (c :: r))) by (rewrite S1; apply Z.div_mul; lia).
        apply (hfa_of_none _ HF c (length (c :: r))). split; [auto|]. split; [auto|]. cbn [length] in *. lia.
      * rewrite (unit_not_floating c Fc). reflexivity.
Qed.


Lemma code_value c n : floating c = true -> (n <= 4)%nat -> Z.lor (Z.of_nat n * 2 ^ 8) (tcode_num c) = 256 * Z.of_nat n + tcode_num c.
Proof.
  intros F L. assert (C : n = 0%nat \/ n = 1%nat \/ n = 2%nat \/ n = 3%nat \/ n = 4%nat) by lia.
  destruct c; try discriminate F; destruct C as [-> |[-> |[-> |[-> | ->]]]]; reflexivity.
Qed.
Lemma vfp_code_some t c n : hfa_of t = Some (c, n) -> vfp_code t = 256 * Z.of_nat n + tcode_num c /\ vfp_code t <> 0.
Proof.
  intros H. unfold vfp_code. rewrite H. apply hfa_of_spec in H. destruct H as (_ & F & L).
  rewrite code_value by (auto; lia). split; [reflexivity|]. pose proof (num_nonneg c). lia.
Qed.
Lemma vfp_code_zero t : (vfp_code t =? 0) = match hfa_of t with Some _ => false | None => true end.
Proof.
  destruct (hfa_of t) as [[c n]|] eqn:E.
  - destruct (vfp_code_some t c n E). lia.
  - unfold vfp_code. rewrite E. reflexivity.
Qed.

Theorem hfa_recognition t : ctype t ->
  exists h, vfp_type t = Ok h /\
    (forall c n, hfa t c n -> h = 256 * Z.of_nat n + tcode_num c /\ h <> 0) /\
    (h <> 0 -> exists c n, hfa t c n).
Proof.
  intros N. exists (vfp_code t). split; [apply vfp_type_exact; auto|]. split.
  - intros c n H. apply hfa_of_spec in H. apply vfp_code_some; auto.
  - unfold vfp_code. destruct (hfa_of t) as [[c n]|] eqn:E; [|congruence]. intros _. exists c, n. apply hfa_of_spec; auto.
Qed.

(** Sizes of arguments for floating point registers. *)
Lemma fp_need_size t k al : ctype t -> fp_need t = Some (k, al) ->
  ty_size t = 4 * k /\ ty_align t = 4 * al /\ 1 <= k <= 8 /\ ((al = 1 /\ k <= 4) \/ (al = 2 /\ (2 | k))).
Proof.
  intros C. unfold fp_need. destruct (hfa_of t) as [[c n]|] eqn:E; [|discriminate].
  apply hfa_of_spec in E. destruct E as (M & F & L). destruct (homogeneous_size t C c n F M) as [S1 A1].
  destruct c; try discriminate F; intros Q; injection Q as <- <-; rewrite S1, A1; cbn [fsize]; repeat split; try lia.
  right. split; [reflexivity|]. apply Z.divide_factor_l.
Qed.
