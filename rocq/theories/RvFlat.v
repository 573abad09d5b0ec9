(** RISC-V: the code's flattening of structs against the members of the calling convention. *)
From Coq Require Import ZifyBool ZifyNat.
From Verif Require Import Base BaseFacts Types LayoutSpec NaturalTypes NaturalFacts RvModel RvSpec.

(** Scalar descriptions below a type. *)
Fixpoint leaves (t : ftype) : list ftype :=
  match t with
  | FT T_STRUCT _ _ es => flat_map leaves es
  | _ => [t]
  end.

Definition fields_all (l : list ftype) (o : Z) : list (tcode * Z * Z) :=
  (fix all (l : list ftype) (o : Z) : list (tcode * Z * Z) :=
     match l with
     | [] => []
     | e :: r => let o' := round_up o (ty_align e) in fields e o' ++ all r (o' + ty_size e)
     end) l o.
Lemma fields_struct s a es o : fields (FT T_STRUCT s a es) o = fields_all es o.
Proof. reflexivity. Qed.
Lemma fields_all_cons e r o : fields_all (e :: r) o =
  fields e (round_up o (ty_align e)) ++ fields_all r (round_up o (ty_align e) + ty_size e).
Proof. reflexivity. Qed.

Definition flatten_go (l : list ftype) (o : list ftype) : list ftype :=
  (fix go (l : list ftype) (o : list ftype) : list ftype :=
     match l with [] => o | e :: r => go r (flatten3 e o) end) l o.

Lemma flatten3_leaves t : forall out, (length out <= 3)%nat -> flatten3 t out = firstn 3 (out ++ leaves t).
Proof.
  induction t as [c s a es IH] using ftype_ind'. intros out L.
  assert (FULL : length out = 3%nat -> forall l, firstn 3 (out ++ l) = out).
  { intros E l. rewrite firstn_app, E. change (3 - 3)%nat with 0%nat. rewrite firstn_O, app_nil_r. rewrite <- E. apply firstn_all. }
  assert (ONE : c <> T_STRUCT -> flatten3 (FT c s a es) out = firstn 3 (out ++ [FT c s a es])).
  { intros NS. transitivity (if (length out =? 3)%nat then out else out ++ [FT c s a es]); [destruct c; try reflexivity; congruence|].
    destruct (length out =? 3)%nat eqn:E; [rewrite FULL by lia; reflexivity|].
    rewrite firstn_all2; [reflexivity|rewrite app_length; cbn [length]; lia]. }
  destruct c; try (apply ONE; discriminate).
  change (flatten3 (FT T_STRUCT s a es) out) with (if (length out =? 3)%nat then out else flatten_go es out).
  cbn [leaves]. destruct (length out =? 3)%nat eqn:E; [rewrite FULL by lia; reflexivity|].
  clear ONE FULL E. revert out L. induction es as [|e r IHr]; intros out L.
  - cbn [flatten_go flat_map]. rewrite app_nil_r, firstn_all2 by lia. reflexivity.
  - change (flatten_go (e :: r) out) with (flatten_go r (flatten3 e out)). inversion IH as [|? ? He Hr]; subst.
    cbn [flat_map]. rewrite He by auto. rewrite IHr; [|exact Hr|rewrite firstn_length; lia].
    rewrite app_assoc. generalize (out ++ leaves e). intros m.
    rewrite !firstn_app, firstn_firstn, firstn_length, Nat.min_id.
    destruct (Nat.le_gt_cases 3 (length m)).
    + rewrite !Nat.min_l by lia. replace (3 - length m)%nat with 0%nat by lia. reflexivity.
    + rewrite Nat.min_r by lia. reflexivity.
Qed.

Lemma flatten3_top t : flatten3 t [] = firstn 3 (leaves t).
Proof. rewrite flatten3_leaves by (cbn; lia). reflexivity. Qed.

Lemma natural_leaves t : natural t -> leaves t <> [] /\ Forall natural (leaves t) /\ Forall (fun x => ty_code x <> T_STRUCT) (leaves t).
Proof.
  induction t as [c s a es IH] using ftype_ind'. intros N.
  assert (ONE : c <> T_STRUCT -> leaves (FT c s a es) = [FT c s a es]) by (destruct c; try reflexivity; congruence).
  destruct (tcode_eqb c T_STRUCT) eqn:E.
  - assert (c = T_STRUCT) by (destruct c; try discriminate; reflexivity). subst c. clear E ONE.
    destruct (natural_struct_inv _ _ _ N) as (NE & F & _ & _). clear N. cbn [leaves].
    assert (forall e, In e es -> leaves e <> [] /\ Forall natural (leaves e) /\ Forall (fun x => ty_code x <> T_STRUCT) (leaves e)).
    { intros e I. rewrite Forall_forall in IH, F. auto. } clear IH F.
    split. { destruct es as [|e r]; [congruence|]. cbn [flat_map]. intros X. apply app_eq_nil in X as (X & _).
      destruct (H e (or_introl eq_refl)) as (A & _). contradiction. }
    split; apply Forall_forall; intros x I; apply in_flat_map in I as (e & I & J); destruct (H e I) as (_ & A & B);
      rewrite Forall_forall in A, B; auto.
  - assert (c <> T_STRUCT) by (intros ->; discriminate). rewrite ONE by auto. split; [discriminate|].
    split; constructor; auto.
Qed.

Lemma leaf_not_struct t : ty_code t <> T_STRUCT -> leaves t = [t] /\ forall o, fields t o = [(ty_code t, o, ty_size t)].
Proof. destruct t as [c s a es]. cbn. intros N. destruct c; split; try reflexivity; congruence. Qed.

Lemma fields_length t : forall o, length (fields t o) = length (leaves t).
Proof.
  induction t as [c s a es IH] using ftype_ind'. intros o.
  destruct (tcode_eqb c T_STRUCT) eqn:E.
  - assert (c = T_STRUCT) by (destruct c; try discriminate; reflexivity). subst c. rewrite fields_struct. cbn [leaves].
    clear E. revert o. induction es as [|e r IHr]; intros o; [reflexivity|]. inversion IH as [|? ? He Hr]; subst.
    rewrite fields_all_cons. cbn [flat_map]. rewrite !app_length, He, IHr by auto. reflexivity.
  - assert (N : c <> T_STRUCT) by (intros ->; discriminate). destruct (leaf_not_struct (FT c s a es)) as (A & B); [exact N|].
    rewrite A, B. reflexivity.
Qed.

(** A struct of one member is like the member. *)
Lemma struct_one s a e : natural (FT T_STRUCT s a [e]) -> s = ty_size e /\ a = ty_align e /\ natural e.
Proof.
  intros N. destruct (natural_struct_inv _ _ _ N) as (_ & F & S & A). inversion F as [|? ? N0 _]; subst.
  destruct (natural_basic _ N0) as (B1 & B2 & B3 & B4). pose proof (is_pow2_pos _ B2).
  cbn [map lay max_align fold_right snd end_at]. rewrite Z.max_l by lia. rewrite round_up_0 by lia.
  rewrite round_up_id by (try lia; rewrite Z.add_0_l; exact B4). auto.
Qed.

Lemma app_one {A} (l m : list A) x : l ++ m = [x] -> l <> [] -> l = [x] /\ m = [].
Proof. destruct l as [|y [|z r]]; cbn; intros H N; [congruence| |discriminate]. injection H as -> ->. auto. Qed.
Lemma app_two {A} (l m : list A) x y : l ++ m = [x; y] -> l <> [] -> l = [x; y] /\ m = [] \/ l = [x] /\ m = [y].
Proof.
  destruct l as [|u [|v [|w r]]]; cbn; intros H N; [congruence| | |discriminate].
  - injection H as -> ->. auto.
  - injection H as -> -> ->. auto.
Qed.

Lemma one_leaf t x : natural t -> leaves t = [x] ->
  ty_size t = ty_size x /\ ty_align t = ty_align x /\
  forall o, (ty_align t | o) -> fields t o = [(ty_code x, o, ty_size x)].
Proof.
  induction t as [c s a es IH] using ftype_ind'. intros N L.
  destruct (tcode_eqb c T_STRUCT) eqn:E.
  - assert (c = T_STRUCT) by (destruct c; try discriminate; reflexivity). subst c. clear E.
    destruct (natural_struct_inv _ _ _ N) as (NE & F & _ & _). destruct es as [|e r]; [congruence|].
    inversion F as [|? ? N0 Fr]; subst. cbn [leaves flat_map] in L.
    destruct (natural_leaves _ N0) as (NL & _). destruct (app_one _ _ _ L NL) as (L0 & Lr).
    assert (r = []). { destruct r as [|e2 r2]; auto. inversion Fr as [|? ? N2 _]; subst. cbn [flat_map] in Lr.
      apply app_eq_nil in Lr as (X & _). destruct (natural_leaves _ N2). contradiction. } subst r.
    destruct (struct_one _ _ _ N) as (-> & -> & _). inversion IH as [|? ? IH0 _]; subst.
    destruct (IH0 N0 L0) as (A & B & C). split; [exact A|]. split; [exact B|]. intros o D. cbn [ty_align] in D.
    rewrite fields_struct, fields_all_cons. cbn [fields_all]. rewrite app_nil_r.
    destruct (natural_basic _ N0) as (_ & P & _). pose proof (is_pow2_pos _ P). rewrite round_up_id by (auto; lia). apply C; auto.
  - assert (c <> T_STRUCT) by (intros ->; discriminate). destruct (leaf_not_struct (FT c s a es)) as (A & B); [exact H|].
    rewrite A in L. injection L as <-. split; [reflexivity|]. split; [reflexivity|]. intros o _. apply B.
Qed.

Lemma two_leaves t x y : natural t -> leaves t = [x; y] ->
  ty_align t = Z.max (ty_align x) (ty_align y) /\
  ty_size t = round_up (round_up (ty_size x) (ty_align y) + ty_size y) (ty_align t) /\
  forall o, (ty_align t | o) ->
    fields t o = [(ty_code x, o, ty_size x); (ty_code y, o + round_up (ty_size x) (ty_align y), ty_size y)].
Proof.
  induction t as [c s a es IH] using ftype_ind'. intros N L.
  destruct (tcode_eqb c T_STRUCT) eqn:E.
  2: { assert (c <> T_STRUCT) by (intros ->; discriminate). destruct (leaf_not_struct (FT c s a es)) as (A & B); [exact H|].
    rewrite A in L. discriminate. }
  assert (c = T_STRUCT) by (destruct c; try discriminate; reflexivity). subst c. clear E.
  destruct (natural_struct_inv _ _ _ N) as (NE & F & S & A). destruct es as [|e r]; [congruence|].
  inversion F as [|? ? N0 Fr]; subst e r. cbn [leaves flat_map] in L. 
  destruct (natural_leaves _ N0) as (NL & _). destruct (natural_basic _ N0) as (_ & P0 & _ & D0). pose proof (is_pow2_pos _ P0).
  assert (NIL : forall m, Forall natural m -> flat_map leaves m = [] -> m = []).
  { intros [|e2 r2] Fm Lm; auto. inversion Fm as [|? ? N2 _]; subst. cbn [flat_map] in Lm.
    apply app_eq_nil in Lm as (X & _). destruct (natural_leaves _ N2). contradiction. }
  destruct (app_two _ _ _ _ L NL) as [(L0 & Lr)|(L0 & Lr)].
  - apply NIL in Lr; auto. subst l. destruct (struct_one _ _ _ N) as (Es & Ea & _). pose proof (Forall_inv IH) as IH0.
    destruct (IH0 N0 L0) as (A1 & B1 & C1). cbn [ty_align ty_size] in *. rewrite Ea, Es. split; [exact A1|]. split; [exact B1|]. intros o D.
    rewrite fields_struct, fields_all_cons. cbn [fields_all]. rewrite app_nil_r. rewrite round_up_id by (auto; lia). apply C1; auto.
  - destruct l as [|e2 r2]; [discriminate|]. inversion Fr as [|? ? N2 Fr2]; subst. cbn [flat_map] in Lr.
    destruct (natural_leaves _ N2) as (NL2 & _). destruct (app_one _ _ _ Lr NL2) as (L2 & Lr2). apply NIL in Lr2; auto. subst r2.
    destruct (one_leaf _ _ N0 L0) as (A1 & B1 & C1). destruct (one_leaf _ _ N2 L2) as (A2 & B2 & C2).
    destruct (natural_basic _ N2) as (_ & P2 & _ & _). pose proof (is_pow2_pos _ P2).
    cbn [ty_align ty_size map lay max_align fold_right snd end_at] in *.
    rewrite round_up_0 by lia. rewrite Z.add_0_l. rewrite <- A1, <- B1, <- A2, <- B2.
    rewrite (Z.max_l (ty_align e2)) by lia. split; [reflexivity|]. split; [reflexivity|]. intros o D.
    assert (D1 : (ty_align x0 | o)).
    { eapply Z.divide_trans; [|exact D]. apply is_pow2_divide; auto; [apply is_pow2_max; auto|lia]. }
    assert (D2 : (ty_align e2 | o)).
    { eapply Z.divide_trans; [|exact D]. apply is_pow2_divide; auto; [apply is_pow2_max; auto|lia]. }
    rewrite fields_struct, !fields_all_cons. cbn [fields_all]. rewrite app_nil_r. rewrite (round_up_id o) by (auto; lia).
    rewrite C1 by auto. rewrite round_up_add by (auto; lia). rewrite C2 by (apply Z.divide_add_r; [auto|apply round_up_divide]).
    rewrite A1, A2. reflexivity.
Qed.

(** ** Structs passed as elements *)

Definition fl_ok (fl : Z) : Prop := fl = 0 \/ fl = 4 \/ fl = 8.

Lemma is_float_real fl c : fl_ok fl -> is_float_code fl c = real fl c.
Proof. intros [-> | [-> | ->]]; destruct c; reflexivity. Qed.
Lemma is_int_whole c : is_int_code c = whole c.
Proof. destruct c; reflexivity. Qed.

Lemma scalar_size x c : natural x -> ty_code x = c -> c <> T_STRUCT -> c <> T_COMPLEX ->
  ty_align x = ty_size x /\ (c = T_FLOAT -> ty_size x = 4) /\ (c = T_DOUBLE -> ty_size x = 8) /\
  (whole c = true -> ty_size x <= 8) /\ (c = T_POINTER -> ty_size x = 8) /\ 1 <= ty_size x <= 16 /\ c <> T_VOID /\ c <> T_INT /\
  (c = T_UINT8 \/ c = T_SINT8 -> ty_size x = 1) /\ (c = T_UINT16 \/ c = T_SINT16 -> ty_size x = 2) /\
  (c = T_UINT32 \/ c = T_SINT32 -> ty_size x = 4) /\ (c = T_UINT64 \/ c = T_SINT64 -> ty_size x = 8).
Proof.
  intros N E S C. inversion N as [t0 H|t0 H|s0 a0 es0 offs NE F SL]; subst; try (cbn in *; congruence).
  cbn in H. repeat (destruct H as [<-|H]; [cbn; repeat split; intros; try discriminate; try lia; intuition discriminate|]). contradiction.
Qed.

(** What the code decides, in terms of the shape. *)
Lemma elements_shape fl g f t : fl_ok fl -> natural t -> ty_code t = T_STRUCT ->
  passed_as_elements fl g f t =
  match shape_of fl t with
  | OneReal n => match fields t 0 with (c, _, _) :: _ => Some (c, None) | [] => None end
  | TwoReals n1 o2 n2 => if (f + 2 >? 8) || (g >? 8) then None
      else match fields t 0 with [(c1, _, _); (c2, _, _)] => Some (c1, Some (o2, c2)) | _ => None end
  | RealInt n1 o2 n2 | IntReal n1 o2 n2 => if (f + 1 >? 8) || (g + 1 >? 8) then None
      else match fields t 0 with [(c1, _, _); (c2, _, _)] => Some (c1, Some (o2, c2)) | _ => None end
  | Other => None
  end.
Proof.
  intros FL N C. unfold passed_as_elements, shape_of. rewrite flatten3_top.
  destruct (natural_leaves _ N) as (NE & NL & NS).
  destruct (leaves t) as [|x [|y [|z r]]] eqn:L.
  - congruence.
  - cbn [firstn]. destruct (one_leaf _ _ N L) as (_ & _ & F). rewrite (F 0) by apply Z.divide_0_r. rewrite is_float_real by auto.
    destruct (real fl (ty_code x)); reflexivity.
  - cbn [firstn]. destruct (two_leaves _ _ _ N L) as (_ & _ & F). rewrite (F 0) by apply Z.divide_0_r.
    rewrite !is_float_real by auto. rewrite !is_int_whole. rewrite Z.add_0_l.
    assert (OFF : real fl (ty_code x) = true \/ whole (ty_code x) = true -> real fl (ty_code y) = true \/ whole (ty_code y) = true ->
      let o := round_up (ty_size x) (ty_align y) in wrap 8 (ffi_align (ty_size x) (ty_align y)) = o /\ (o =? 0) = false).
    { intros Hx Hy. inversion NL as [|? ? Nx NL1]; subst. inversion NL1 as [|? ? Ny _]; subst.
      assert (CX : ty_code x <> T_STRUCT /\ ty_code x <> T_COMPLEX) by (destruct Hx as [Hx|Hx]; split; intros E; rewrite E in Hx; discriminate).
      assert (CY : ty_code y <> T_STRUCT /\ ty_code y <> T_COMPLEX) by (destruct Hy as [Hy|Hy]; split; intros E; rewrite E in Hy; discriminate).
      destruct (scalar_size x _ Nx eq_refl (proj1 CX) (proj2 CX)) as (_ & _ & _ & _ & _ & SX & _).
      destruct (scalar_size y _ Ny eq_refl (proj1 CY) (proj2 CY)) as (AY & _ & _ & _ & _ & SY & _).
      destruct (natural_basic _ Ny) as (_ & PY & _). pose proof (is_pow2_pos _ PY) as PP.
      pose proof (round_up_le (ty_size x) (ty_align y) ltac:(lia)). pose proof (round_up_lt (ty_size x) (ty_align y) ltac:(lia)).
      cbv zeta. rewrite ffi_align_round by (auto; lia). unfold wrap. rewrite Z.mod_small by lia. split; [reflexivity|lia]. }
    assert (EX : real fl (ty_code x) = true -> whole (ty_code x) = false) by (destruct (ty_code x); cbn; intros; try discriminate; reflexivity).
    assert (EY : real fl (ty_code y) = true -> whole (ty_code y) = false) by (destruct (ty_code y); cbn; intros; try discriminate; reflexivity).
    destruct (real fl (ty_code x)) eqn:RX, (real fl (ty_code y)) eqn:RY; cbn [andb orb negb].
    + rewrite EX, EY by reflexivity. destruct OFF as (-> & ->); [auto|auto|]. cbn [Z.add Z.sub Z.eqb negb orb Z.opp Pos.eqb Pos.add].
      rewrite Z.add_0_r. reflexivity.
    + rewrite EX by reflexivity. destruct (whole (ty_code y)) eqn:WY; cbn [andb].
      * destruct OFF as (-> & ->); [auto|auto|]. reflexivity.
      * destruct (whole (ty_code x)); reflexivity.
    + rewrite EY by reflexivity. destruct (whole (ty_code x)) eqn:WX; cbn [andb].
      * destruct OFF as (-> & ->); [auto|auto|]. reflexivity.
      * reflexivity.
    + rewrite !andb_false_r. reflexivity.
  - cbn [firstn]. pose proof (fields_length t 0) as FLn. rewrite L in FLn. cbn [length] in FLn.
    destruct (fields t 0) as [|a1 [|a2 [|a3 q]]]; cbn [length] in FLn; try lia. destruct a1 as [[? ?] ?], a2 as [[? ?] ?]. reflexivity.
Qed.

(** Bytes of a scalar type code. *)
Definition csize (c : tcode) : Z :=
  match c with
  | T_UINT8 | T_SINT8 => 1 | T_UINT16 | T_SINT16 => 2 | T_UINT32 | T_SINT32 | T_FLOAT => 4 | _ => 8
  end.

Lemma csize_of fl x : natural x -> real fl (ty_code x) = true \/ whole (ty_code x) = true -> ty_size x = csize (ty_code x).
Proof.
  intros N H. assert (CX : ty_code x <> T_STRUCT /\ ty_code x <> T_COMPLEX) by (destruct H as [H|H]; split; intros E; rewrite E in H; discriminate).
  destruct (scalar_size x _ N eq_refl (proj1 CX) (proj2 CX)) as (_ & S1 & S2 & _ & _ & _ & _ & _ & Q1 & Q2 & Q3 & Q4).
  destruct (ty_code x) eqn:E; cbn [csize]; auto; destruct H as [H|H]; discriminate H.
Qed.

Definition two_fields (t : ftype) (c1 c2 : tcode) (n1 o2 n2 : Z) : Prop :=
  fields t 0 = [(c1, 0, n1); (c2, o2, n2)] /\ n1 = csize c1 /\ n2 = csize c2 /\ n1 <= o2 /\ o2 + n2 <= ty_size t /\ ty_size t <= 16.

Lemma shape_fields fl t : natural t ->
  match shape_of fl t with
  | OneReal n => exists c, fields t 0 = [(c, 0, n)] /\ real fl c = true /\ n = csize c /\ ty_size t = n
  | TwoReals n1 o2 n2 => exists c1 c2, two_fields t c1 c2 n1 o2 n2 /\ real fl c1 = true /\ real fl c2 = true
  | RealInt n1 o2 n2 => exists c1 c2, two_fields t c1 c2 n1 o2 n2 /\ real fl c1 = true /\ whole c2 = true
  | IntReal n1 o2 n2 => exists c1 c2, two_fields t c1 c2 n1 o2 n2 /\ whole c1 = true /\ real fl c2 = true
  | Other => True
  end.
Proof.
  intros N. unfold shape_of. destruct (natural_leaves _ N) as (NE & NL & NS).
  destruct (leaves t) as [|x [|y [|z r]]] eqn:L.
  - congruence.
  - destruct (one_leaf _ _ N L) as (SZ & _ & F). rewrite (F 0) by apply Z.divide_0_r.
    destruct (real fl (ty_code x)) eqn:R; auto. exists (ty_code x). pose proof (Forall_inv NL) as NX.
    rewrite SZ. rewrite (csize_of fl x NX) by auto. auto.
  - destruct (two_leaves _ _ _ N L) as (AL & SZ & F). rewrite (F 0) by apply Z.divide_0_r. rewrite Z.add_0_l.
    inversion NL as [|? ? Nx NL1]; subst. inversion NL1 as [|? ? Ny _]; subst.
    assert (T : real fl (ty_code x) = true \/ whole (ty_code x) = true -> real fl (ty_code y) = true \/ whole (ty_code y) = true ->
      two_fields t (ty_code x) (ty_code y) (ty_size x) (round_up (ty_size x) (ty_align y)) (ty_size y)).
    { intros HX HY. unfold two_fields. rewrite (F 0) by apply Z.divide_0_r. rewrite Z.add_0_l.
      pose proof (csize_of fl x Nx HX) as CX. pose proof (csize_of fl y Ny HY) as CY.
      destruct (natural_basic _ Ny) as (_ & PY & _). pose proof (is_pow2_pos _ PY) as PP.
      destruct (natural_basic _ Nx) as (_ & PX & _). pose proof (is_pow2_pos _ PX) as PPX.
      pose proof (round_up_le (ty_size x) (ty_align y) ltac:(lia)).
      pose proof (round_up_le (round_up (ty_size x) (ty_align y) + ty_size y) (ty_align t) ltac:(lia)).
      do 4 (split; [auto|]). split; [lia|]. rewrite SZ.
      assert (DX : ty_code x <> T_STRUCT /\ ty_code x <> T_COMPLEX) by (destruct HX as [HX|HX]; split; intros E; rewrite E in HX; discriminate).
      assert (DY : ty_code y <> T_STRUCT /\ ty_code y <> T_COMPLEX) by (destruct HY as [HY|HY]; split; intros E; rewrite E in HY; discriminate).
      destruct (scalar_size x _ Nx eq_refl (proj1 DX) (proj2 DX)) as (AX & _).
      destruct (scalar_size y _ Ny eq_refl (proj1 DY) (proj2 DY)) as (AY & _).
      assert (M : forall c, csize c = 1 \/ csize c = 2 \/ csize c = 4 \/ csize c = 8) by (intros c; destruct c; cbn; auto).
      rewrite AL, AX, AY, CX, CY.
      destruct (M (ty_code x)) as [-> | [-> | [-> | ->]]]; destruct (M (ty_code y)) as [-> | [-> | [-> | ->]]]; vm_compute; discriminate. }
    destruct (real fl (ty_code x)) eqn:RX, (real fl (ty_code y)) eqn:RY; cbn [andb].
    + exists (ty_code x), (ty_code y). auto.
    + destruct (whole (ty_code y)) eqn:WY; [exists (ty_code x), (ty_code y); auto|]. rewrite andb_false_r. exact Logic.I.
    + rewrite andb_true_r. destruct (whole (ty_code x)) eqn:WX; [exists (ty_code x), (ty_code y); auto|exact Logic.I].
    + rewrite andb_false_r. exact Logic.I.
  - assert (FT : exists a b c l, fields t 0 = a :: b :: c :: l).
    { pose proof (fields_length t 0) as FLN. rewrite L in FLN. destruct (fields t 0) as [|a [|b [|c l]]]; try discriminate FLN. eauto. }
    destruct FT as (a & b & c & l & ->). destruct a as [[? ?] ?], b as [[? ?] ?], c as [[? ?] ?]. exact Logic.I.
Qed.
