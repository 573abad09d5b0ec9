(** Classification of natural types: the code agrees with the psABI. *)
From Coq Require Import ZifyBool ZifyNat.
From Verif Require Import Base BaseFacts Types LayoutSpec NaturalTypes NaturalFacts Unix64Model Unix64Spec.
Ltac Zify.zify_post_hook ::= Z.div_mod_to_equations.

Local Arguments Z.mul : simpl never.
Local Arguments Z.add : simpl never.
Local Arguments Z.sub : simpl never.
Local Arguments Z.pow : simpl never.
Local Arguments Z.div : simpl never.
Local Arguments Z.modulo : simpl never.
Local Arguments Z.leb : simpl never.
Local Arguments Z.ltb : simpl never.
Local Arguments Z.eqb : simpl never.
Local Arguments Z.gtb : simpl never.

(** ** Flattening *)

Lemma natural_inv c s a es : natural (FT c s a es) ->
  In (FT c s a es) scalar_types \/
  (exists u, In u (int_types ++ float_types) /\ c = T_COMPLEX /\ s = 2 * ty_size u /\ a = ty_align u /\ es = [u]) \/
  (c = T_STRUCT /\ es <> [] /\ Forall natural es /\ exists offs, struct_layout (map lay es) offs s a).
Proof.
  intros N. remember (FT c s a es) as t eqn:E. destruct N as [t H|u H|s' a' es' offs NE F SL].
  - subst. auto.
  - injection E as <- <- <- <-. right; left. exists u. auto.
  - injection E as <- <- <- <-. right; right. eauto 6.
Qed.

Lemma scalar_not_agg c s a es : In (FT c s a es) scalar_types -> c <> T_STRUCT /\ c <> T_COMPLEX.
Proof.
  cbn. intros H. repeat (destruct H as [H|H]; [injection H as <- _ _ _; split; discriminate|]). contradiction.
Qed.

Fixpoint members (l : list ftype) (o : Z) : list scalar :=
  match l with
  | [] => []
  | e :: r => let o' := round_up o (ty_align e) in flatten e o' ++ members r (o' + ty_size e)
  end.

Lemma flatten_struct s a es off : flatten (FT T_STRUCT s a es) off = members es off.
Proof. cbn [flatten]. revert off. induction es as [|e es IH]; intros; cbn; [|rewrite IH]; reflexivity. Qed.

Definition shift (d : Z) (s : scalar) : scalar := let '(o, n, k) := s in (o + d, n, k).

Lemma round_up_shift v d a : 0 < a -> (a | d) -> round_up (v + d) a = round_up v a + d.
Proof. intros. rewrite Z.add_comm, round_up_add by auto. lia. Qed.

Lemma flatten_other c s a es off : c <> T_STRUCT -> c <> T_COMPLEX ->
  flatten (FT c s a es) off = [(off, s, kind_of c)].
Proof. destruct c; intros; try congruence; reflexivity. Qed.

Lemma flatten_shift t : natural t -> forall o d, (ty_align t | d) ->
  flatten t (o + d) = map (shift d) (flatten t o).
Proof.
  induction t as [c s a es IH] using ftype_ind'. intros N o d D.
  destruct (natural_inv _ _ _ _ N) as [H|[(t0 & H & -> & -> & -> & ->)|(-> & NE & F & offs & SL)]].
  - assert (Hc : c <> T_STRUCT /\ c <> T_COMPLEX).
    { exact (scalar_not_agg _ _ _ _ H). }
    rewrite !flatten_other by tauto. reflexivity.
  - cbn [flatten map shift]. replace (o + d + ty_size t0) with (o + ty_size t0 + d) by lia. reflexivity.
  - rewrite !flatten_struct. cbn [ty_align] in D.
    assert (Da : forall e, In e es -> (ty_align e | d)).
    { intros e I. eapply Z.divide_trans; [|exact D]. eapply natural_elem_align; eauto. }
    assert (Pos : forall e, In e es -> 0 < ty_align e).
    { intros e I. rewrite Forall_forall in F. pose proof (basic_align_pos _ (natural_basic _ (F e I))). lia. }
    clear N SL NE D. revert o. induction es as [|e es IHes]; intros o; [reflexivity|]. cbn [members].
    inversion IH as [|? ? He Hes]; subst. inversion F as [|? ? Fe Fes]; subst.
    rewrite round_up_shift by (try apply Pos; try apply Da; left; auto).
    rewrite map_app. f_equal.
    + apply He; auto. apply Da. left; auto.
    + replace (round_up o (ty_align e) + d + ty_size e) with (round_up o (ty_align e) + ty_size e + d) by lia.
      apply IHes; auto; intros; [apply Da|apply Pos]; right; auto.
Qed.

Definition inside (lo hi : Z) (s : scalar) : Prop := let '(o, n, _) := s in lo <= o /\ 0 < n /\ o + n <= hi.

Lemma inside_mono lo hi lo' hi' s : lo' <= lo -> hi <= hi' -> inside lo hi s -> inside lo' hi' s.
Proof. destruct s as [[o n] k]; cbn; lia. Qed.

Lemma flatten_complex s a u off : flatten (FT T_COMPLEX s a [u]) off =
  [(off, ty_size u, kind_of (ty_code u)); (off + ty_size u, ty_size u, kind_of (ty_code u))].
Proof. reflexivity. Qed.

Lemma flatten_inside t : natural t -> forall off, (ty_align t | off) ->
  Forall (inside off (off + ty_size t)) (flatten t off).
Proof.
  induction t as [c s a es IH] using ftype_ind'. intros N off D.
  pose proof (natural_basic _ N) as (B1 & _). cbn [ty_size] in *.
  destruct (natural_inv _ _ _ _ N) as [H|[(t0 & H & -> & -> & -> & ->)|(-> & NE & F & offs & SL)]].
  - assert (Hc : c <> T_STRUCT /\ c <> T_COMPLEX).
    { exact (scalar_not_agg _ _ _ _ H). }
    rewrite !flatten_other by tauto. repeat constructor; lia.
  - assert (0 < ty_size t0) by (apply (scalar_basic t0); right; auto).
    rewrite flatten_complex. change (ty_size (FT T_COMPLEX (2 * ty_size t0) (ty_align t0) [t0])) with (2 * ty_size t0) in *.
    repeat constructor; lia.
  - rewrite flatten_struct. cbn [ty_align] in D.
    assert (FB : Forall basic es) by (rewrite Forall_forall in *; auto using natural_basic).
    destruct (natural_struct_inv _ _ _ N) as (_ & _ & Hs & Ha).
    assert (Pos : 0 < a) by (pose proof (basic_align_pos _ (natural_basic _ N)); cbn in *; lia).
    assert (E : off + s = round_up (end_at off es) a \/ True) by auto. clear E.
    assert (Hend : end_at off es = off + end_at 0 es).
    { assert (Da : forall e, In e es -> (ty_align e | off)).
      { intros e I. eapply Z.divide_trans; [|exact D]. eapply natural_elem_align; eauto. }
      clear -FB Da. replace off with (0 + off) at 1 by lia. generalize 0 as z.
      induction FB as [|t es B F IH]; intros z; cbn [end_at]; [lia|].
      pose proof (basic_align_pos _ B). rewrite round_up_shift; [|lia|apply Da; left; auto].
      replace (round_up z (ty_align t) + off + ty_size t) with (round_up z (ty_align t) + ty_size t + off) by lia.
      apply IH. intros; apply Da; right; auto. }
    assert (Hle : end_at off es <= off + s).
    { rewrite Hend, Hs. pose proof (round_up_le (end_at 0 es) a Pos). lia. }
    assert (G : forall o, off <= o -> end_at o es <= off + s -> Forall (inside off (off + s)) (members es o)).
    2: { apply G; [lia|auto]. }
    clear -IH F FB. induction es as [|e es IHes]; intros o Ho He; [constructor|].
    inversion IH as [|? ? IHe IHr]; subst. inversion F as [|? ? Fe Fes]; subst. inversion FB as [|? ? Be Bes]; subst.
    cbn [members end_at] in *. pose proof (basic_align_pos _ Be).
    pose proof (end_at_ge es Bes (round_up o (ty_align e) + ty_size e)).
    pose proof (round_up_le o (ty_align e) ltac:(lia)). destruct Be as (Bs & _).
    apply Forall_app. split.
    + eapply Forall_impl; [|apply (IHe Fe (round_up o (ty_align e))); apply round_up_divide].
      intros x. apply inside_mono; lia.
    + apply IHes; auto. lia.
Qed.

(** ** Eightbyte classes *)

Definition join (a b : eclass) : eclass :=
  match a, b with
  | EInt, _ | _, EInt => EInt
  | ESse, _ | _, ESse => ESse
  | ENone, ENone => ENone
  end.

Lemma eightbyte_app ss ss' k : eightbyte (ss ++ ss') k = join (eightbyte ss k) (eightbyte ss' k).
Proof.
  unfold eightbyte. rewrite !existsb_app.
  destruct (existsb (fun s => is_int s && touches8 s k) ss), (existsb (fun s => is_int s && touches8 s k) ss'),
    (existsb (fun s => is_sse s && touches8 s k) ss), (existsb (fun s => is_sse s && touches8 s k) ss'); reflexivity.
Qed.

Lemma join_comm a b : join a b = join b a.
Proof. destruct a, b; reflexivity. Qed.
Lemma join_none a : join a ENone = a.
Proof. destruct a; reflexivity. Qed.

Lemma eightbyte_out ss lo hi k : Forall (inside lo hi) ss -> (hi <= 8 * k \/ 8 * k + 8 <= lo) ->
  eightbyte ss k = ENone.
Proof.
  intros F H. unfold eightbyte.
  assert (E : forall p : scalar -> bool, existsb (fun s => p s && touches8 s k) ss = false).
  { intros p. induction F as [|[[o n] kk] ss I F IH]; cbn [existsb]; [reflexivity|]. rewrite IH.
    cbn in I |- *. rewrite orb_false_r. destruct (p (o, n, kk)); cbn; lia. }
  rewrite !E. reflexivity.
Qed.

Lemma existsb_map {A B} (f : A -> B) p l : existsb p (map f l) = existsb (fun x => p (f x)) l.
Proof. induction l; cbn; [|rewrite IHl]; reflexivity. Qed.

Lemma existsb_ext' {A} (p q : A -> bool) l : (forall x, p x = q x) -> existsb p l = existsb q l.
Proof. intros H. induction l; cbn; [|rewrite IHl, H]; reflexivity. Qed.

Lemma eightbyte_shift ss p k : eightbyte (map (shift (8 * p)) ss) (k + p) = eightbyte ss k.
Proof.
  assert (T : forall s, touches8 (shift (8 * p) s) (k + p) = touches8 s k).
  { intros [[o n] kk]. unfold touches8, shift. f_equal; lia. }
  unfold eightbyte. rewrite !existsb_map.
  rewrite (existsb_ext' _ (fun s => is_int s && touches8 s k)).
  2: { intros s. rewrite T. destruct s as [[o n] []]; reflexivity. }
  rewrite (existsb_ext' (fun x => is_sse (shift (8 * p) x) && touches8 (shift (8 * p) x) (k + p)) (fun s => is_sse s && touches8 s k)).
  2: { intros s. rewrite T. destruct s as [[o n] []]; reflexivity. }
  reflexivity.
Qed.

(** ** Classes of the code *)

Definition plain (c : rclass) : bool :=
  match c with
  | NO_CLASS | INTEGER_CLASS | INTEGERSI_CLASS | SSE_CLASS | SSESF_CLASS | SSEDF_CLASS => true
  | _ => false
  end.

Definition proj (c : rclass) : eclass :=
  match c with
  | INTEGER_CLASS | INTEGERSI_CLASS => EInt
  | SSE_CLASS | SSESF_CLASS | SSEDF_CLASS => ESse
  | _ => ENone
  end.

Lemma merge_plain a b : plain a = true -> plain b = true ->
  plain (merge_classes a b) = true /\ proj (merge_classes a b) = join (proj a) (proj b).
Proof. destruct a, b; cbn; intros; try discriminate; auto. Qed.

Definition not_up (c : rclass) : bool := negb (rclass_eqb c SSEUP_CLASS).

Lemma merge_not_up a b : not_up a = true -> not_up b = true -> not_up (merge_classes a b) = true.
Proof. destruct a, b; cbn; intros; try discriminate; auto. Qed.

Lemma merge_at_length pos : forall sub cl, length (merge_at pos sub cl) = length cl.
Proof.
  induction pos as [|p IH]; intros sub cl.
  - revert sub. induction cl as [|c cl IHc]; intros [|s sub]; cbn; auto.
  - destruct cl; cbn; auto.
Qed.

Lemma merge_at_nth pos : forall sub cl k, (k < length cl)%nat ->
  nth k (merge_at pos sub cl) NO_CLASS =
  if (pos <=? k)%nat && (k <? pos + length sub)%nat
  then merge_classes (nth (k - pos) sub NO_CLASS) (nth k cl NO_CLASS) else nth k cl NO_CLASS.
Proof.
  induction pos as [|p IH]; intros sub cl k H.
  - revert sub k H. induction cl as [|c cl IHc]; intros sub k H; [cbn in H; lia|].
    destruct sub as [|s sub]; cbn [merge_at].
    + cbn [length]. replace ((0 <=? k)%nat && (k <? 0 + 0)%nat) with false by lia. reflexivity.
    + destruct k as [|k]; cbn [nth]; [reflexivity|]. cbn [length] in H. rewrite IHc by lia.
      rewrite !Nat.sub_0_r. cbn [length nth Nat.add].
      replace (0 <=? S k)%nat with true by lia. replace (0 <=? k)%nat with true by lia.
      replace (S k <? S (length sub))%nat with (k <? length sub)%nat by lia. reflexivity.
  - destruct cl as [|c cl]; [cbn in H; lia|]. cbn [merge_at].
    destruct k as [|k]; cbn [nth].
    + reflexivity.
    + cbn [length] in H. rewrite IH by lia. cbn [Nat.sub Nat.add].
      replace (S p <=? S k)%nat with (p <=? k)%nat by lia.
      replace (S k <? S (p + length sub))%nat with (k <? p + length sub)%nat by lia. reflexivity.
Qed.

Lemma merge_at_forall (P : rclass -> bool) :
  (forall a b, P a = true -> P b = true -> P (merge_classes a b) = true) ->
  forall pos sub cl, forallb P sub = true -> forallb P cl = true -> forallb P (merge_at pos sub cl) = true.
Proof.
  intros HP. induction pos as [|p IH]; intros sub cl Hs Hc.
  - revert sub Hs. induction cl as [|c cl IHc]; intros [|s sub] Hs; cbn in *; auto.
    apply andb_prop in Hc as [H1 H2]. apply andb_prop in Hs as [H3 H4].
    rewrite HP by auto. cbn. auto.
  - destruct cl as [|c cl]; cbn in *; auto. apply andb_prop in Hc as [H1 H2]. rewrite H1. cbn. auto.
Qed.

(** The member loop of [classify], by itself. *)
Fixpoint fields (l : list ftype) (boff : Z) (cl : list rclass) : res (list rclass) :=
  match l with
  | [] => Ok cl
  | e :: rest =>
    let b := ffi_align boff (ty_align e) in
    let* sub := classify e (b mod 8) in
    match sub with
    | [] => Ok []
    | _ => fields rest (wrap64 (b + ty_size e)) (merge_at (Z.to_nat (b / 8)) sub cl)
    end
  end.

Lemma classify_struct size a es off : classify (FT T_STRUCT size a es) off =
  if size >? 32 then Ok []
  else
    let words := (size + off + 8 - 1) / 8 in
    if words >? MAX_CLASSES then UB
    else if words =? 0 then Ok [NO_CLASS]
    else
      let* r := fields es off (repeat NO_CLASS (Z.to_nat words)) in
      match r with
      | [] => Ok []
      | _ =>
        if (words >? 2) && big_in_memory r then Ok []
        else match cleanup 0 NO_CLASS r with Some r' => Ok r' | None => Ok [] end
      end.
Proof. reflexivity. Qed.

Lemma cleanup_plain cl : forall i prev, forallb plain cl = true -> cleanup i prev cl = Some cl.
Proof.
  induction cl as [|c cl IH]; intros i prev H; [reflexivity|]. cbn in H. apply andb_prop in H as [H1 H2].
  cbn [cleanup]. destruct c; cbn in H1; try discriminate; cbn; rewrite ?andb_false_r; cbn; rewrite IH; auto.
Qed.

Lemma cleanup_not_up cl : forall i prev cl', forallb not_up cl = true -> cleanup i prev cl = Some cl' ->
  forallb not_up cl' = true /\ length cl' = length cl.
Proof.
  induction cl as [|c cl IH]; intros i prev cl' H E; cbn in H.
  - injection E as <-. auto.
  - apply andb_prop in H as [H1 H2]. cbn [cleanup] in E.
    destruct (rclass_eqb c MEMORY_CLASS); [discriminate|].
    assert (rclass_eqb c SSEUP_CLASS = false) as R by (unfold not_up in H1; destruct (rclass_eqb c SSEUP_CLASS); auto).
    rewrite R in E. rewrite !andb_false_r in E. cbn [andb] in E.
    destruct (_ && _ && _); [discriminate|].
    destruct (cleanup (S i) c cl) as [r|] eqn:C; [|discriminate]. injection E as <-.
    destruct (IH _ _ _ H2 C) as [A B]. cbn. rewrite H1, A, B. auto.
Qed.

Lemma ffi_align_small v a : is_pow2 a -> a <= 16 -> 0 <= v <= 64 -> ffi_align v a = round_up v a.
Proof.
  intros P L V. pose proof (is_pow2_pos _ P). apply ffi_align_round; auto; [lia|].
  pose proof (round_up_lt v a). lia.
Qed.

Lemma wrap64_small v : 0 <= v < 2 ^ 64 -> wrap64 v = v.
Proof. intros. unfold wrap64, wrap. apply Z.mod_small. auto. Qed.

(** Scalars and complex numbers, one by one. *)
Lemma scalar_cases t : In t scalar_types ->
  t = ty_pointer \/ t = ty_uint8 \/ t = ty_sint8 \/ t = ty_uint16 \/ t = ty_sint16 \/ t = ty_uint32 \/
  t = ty_sint32 \/ t = ty_uint64 \/ t = ty_sint64 \/ t = ty_float \/ t = ty_double \/ t = ty_longdouble.
Proof. cbn. intuition congruence. Qed.

(** ** Safety: never UB, never Abort, never SSEUP *)

Definition min8 (a : Z) : Z := Z.min 8 a.

Lemma align_mod8 e b : is_pow2 (ty_align e) -> ty_align e <= 16 -> (ty_align e | b) ->
  (min8 (ty_align e) | b mod 8).
Proof.
  intros P L D. unfold min8. destruct (Z.le_gt_cases (ty_align e) 8).
  - rewrite Z.min_r by lia.
    assert (D8 : (ty_align e | 8)).
    { apply is_pow2_divide; auto. exists 3. split; [lia|reflexivity]. }
    rewrite Z.mod_eq by lia. apply Z.divide_sub_r; auto. apply Z.divide_mul_l; auto.
  - rewrite Z.min_l by lia.
    assert (ty_align e = 16).
    { destruct P as (k & Hk & Ek). assert (k = 4); [|subst; lia].
      assert (3 < k) by (destruct (Z.le_gt_cases k 3); auto; pose proof (Z.pow_le_mono_r 2 k 3); lia).
      assert (k < 5) by (destruct (Z.lt_ge_cases k 5); auto; pose proof (Z.pow_le_mono_r 2 5 k); lia). lia. }
    destruct D as [q ->]. replace (q * ty_align e) with (q * 2 * 8) by lia. rewrite Z.mod_mul by lia. apply Z.divide_0_r.
Qed.

Lemma classify_safe t : natural t -> forall off, 0 <= off < 8 -> (min8 (ty_align t) | off) ->
  (ty_size t <= 32 -> off + ty_size t <= 32) ->
  exists cl, classify t off = Ok cl /\ zlen cl <= 4 /\ forallb not_up cl = true /\
    (ty_code t = T_STRUCT -> 16 < off + ty_size t -> cl = []).
Proof.
  induction t as [c s a es IH] using ftype_ind'. intros N off Ho D Hsz. cbn [ty_size ty_align ty_code] in *.
  destruct (natural_inv _ _ _ _ N) as [H|[(t0 & H & -> & -> & -> & ->)|(-> & NE & F & offs & SL)]].
  - apply scalar_cases in H. unfold min8 in D.
    repeat (destruct H as [H|H]); injection H as -> -> -> ->; cbn [classify];
    rewrite ?wrap64_small by lia;
    try (unfold classify_integer, classify_float; eexists; split; [reflexivity|];
         repeat match goal with |- context [if ?b then _ else _] => destruct b end;
         repeat split; try (cbn; lia); discriminate).
  - cbn in H. unfold min8 in D.
    repeat (destruct H as [<-|H]; [cbn [classify ty_code ty_size ty_uint8 ty_sint8 ty_uint16 ty_sint16 ty_uint32 ty_sint32 ty_uint64 ty_sint64 ty_float ty_double ty_longdouble] in *;
      rewrite ?wrap64_small by lia; unfold classify_integer, classify_float;
      repeat match goal with |- context [if ?b then Ok _ else _] => destruct b end;
      (eexists; split; [reflexivity|]);
      repeat match goal with |- context [if ?b then _ else _] => destruct b end;
      repeat split; try (cbn; lia); discriminate|]). contradiction.
  - rewrite classify_struct. destruct (Z.gtb_spec s 32) as [G|G].
    { exists []. repeat split; auto. cbn; lia. }
    specialize (Hsz ltac:(lia)). cbn zeta.
    pose proof (natural_basic _ N) as (Bs & Bp & Ba & _). cbn [ty_size ty_align] in *.
    set (words := (s + off + 8 - 1) / 8).
    assert (Hw : 1 <= words <= 4) by (unfold words; lia).
    replace (words >? MAX_CLASSES) with false by (unfold MAX_CLASSES; lia).
    replace (words =? 0) with false by lia.
    assert (FB : Forall basic es) by (rewrite Forall_forall in *; auto using natural_basic).
    destruct (natural_struct_inv _ _ _ N) as (_ & _ & Hs & Ha).
    (* the loop *)
    assert (L : forall cl0 boff, forallb not_up cl0 = true -> 0 <= boff -> end_at boff es <= 40 ->
              (forall b e l1 l2, es = l1 ++ e :: l2 -> b = round_up (end_at boff l1) (ty_align e) ->
                   b mod 8 + ty_size e <= 32) ->
              exists cl, fields es boff cl0 = Ok cl /\ (cl = [] \/ length cl = length cl0) /\ forallb not_up cl = true).
    { clear -IH F FB. induction es as [|e es IHes]; intros cl0 boff Hc Hb He Hin.
      - exists cl0. cbn. auto.
      - inversion IH as [|? ? IHe IHr]; subst. inversion F as [|? ? Fe Fes]; subst. inversion FB as [|? ? Be Bes]; subst.
        destruct Be as (Bs & Bp & Ba & Bd). pose proof (is_pow2_pos _ Bp).
        cbn [end_at] in He. pose proof (end_at_ge es Bes (round_up boff (ty_align e) + ty_size e)).
        pose proof (round_up_le boff (ty_align e) ltac:(lia)).
        cbn [fields]. rewrite ffi_align_small by (auto; lia). cbn zeta.
        set (b := round_up boff (ty_align e)) in *.
        destruct (IHe Fe (b mod 8)) as (sub & R & Ls & Us & _).
        + lia.
        + apply align_mod8; auto. apply round_up_divide.
        + intros _. apply (Hin b e [] es); reflexivity.
        + rewrite R. cbn [bind]. destruct sub as [|s0 sub]; [exists []; auto|].
          rewrite wrap64_small by lia.
          destruct (IHes IHr Fes Bes (merge_at (Z.to_nat (b / 8)) (s0 :: sub) cl0) (b + ty_size e)) as (cl & R' & Ln & U').
          * apply merge_at_forall; auto using merge_not_up.
          * lia.
          * auto.
          * intros b' e' l1 l2 -> ->. eapply (Hin _ e' (e :: l1) l2); reflexivity.
          * exists cl. rewrite merge_at_length in Ln. auto. }
    assert (Hend : end_at off es <= off + s).
    { (* the offset is a multiple of min 8 align; rounding from off never exceeds off + rounding from 0 *)
      assert (Pa : 0 < a) by (pose proof (is_pow2_pos _ Bp); lia).
      pose proof (round_up_le (end_at 0 es) a Pa).
      assert (K : forall l z, Forall basic l -> (forall e, In e l -> (ty_align e | a)) -> 0 <= z ->
                 (a | off) \/ (off = 0) -> end_at (z + off) l = end_at z l + off).
      { clear. induction l as [|e l IHl]; intros z FB Da Hz Hoff; cbn [end_at]; [lia|].
        inversion FB as [|? ? Be Bes]; subst. pose proof (basic_align_pos _ Be).
        rewrite round_up_shift.
        - replace (round_up z (ty_align e) + off + ty_size e) with (round_up z (ty_align e) + ty_size e + off) by lia.
          apply IHl; auto. { intros; apply Da; right; auto. }
          pose proof (round_up_le z (ty_align e)). destruct Be. lia.
        - lia.
        - destruct Hoff as [Ho| ->]; [|apply Z.divide_0_r].
          eapply Z.divide_trans; [|exact Ho]. apply Da. left; auto. }
      specialize (K es 0 FB). rewrite Z.add_0_l in K. rewrite K; [lia| |lia|].
      - intros e I. eapply natural_elem_align; eauto.
      - unfold min8 in D. destruct (Z.le_gt_cases a 8); [rewrite Z.min_r in D by lia; auto|].
        rewrite Z.min_l in D by lia. right. destruct D as [q ->]. lia. }
    destruct (L (repeat NO_CLASS (Z.to_nat words)) off) as (r & R & Ln & U).
    { clear. induction (Z.to_nat words); cbn; auto. }
    { lia. } { lia. }
    { intros b e l1 l2 -> ->.
      assert (Be : basic e) by (rewrite Forall_forall in FB; apply FB; apply in_or_app; right; left; auto).
      assert (F1 : Forall basic l1) by (apply Forall_app in FB; tauto).
      assert (F2 : Forall basic l2) by (apply Forall_app in FB as [_ FB2]; inversion FB2; auto).
      pose proof (basic_align_pos _ Be). pose proof (end_at_ge l1 F1 off).
      pose proof (round_up_le (end_at off l1) (ty_align e) ltac:(lia)).
      assert (end_at off (l1 ++ e :: l2) = end_at (round_up (end_at off l1) (ty_align e) + ty_size e) l2).
      { clear. revert off. induction l1; intros; cbn; auto. }
      pose proof (end_at_ge l2 F2 (round_up (end_at off l1) (ty_align e) + ty_size e)). lia. }
    rewrite R. cbn [bind].
    destruct r as [|r0 r]; [exists []; repeat split; auto; cbn; lia|].
    destruct Ln as [Ln|Ln]; [discriminate|]. rewrite repeat_length in Ln.
    destruct (Z.gtb_spec words 2) as [W2|W2].
    { assert (big_in_memory (r0 :: r) = true) as ->.
      { cbn [big_in_memory]. destruct r as [|r1 r]; [cbn in Ln; lia|].
        cbn in U. apply andb_prop in U as [_ U]. apply andb_prop in U as [U _]. cbn. unfold not_up in U. rewrite U.
        cbn. apply orb_true_r. }
      cbn [andb]. exists []. repeat split; auto. cbn; lia. }
    cbn [andb]. destruct (cleanup 0 NO_CLASS (r0 :: r)) as [r'|] eqn:C.
    + destruct (cleanup_not_up _ _ _ _ U C) as [U' L']. exists r'. repeat split; auto.
      * unfold zlen. lia.
      * intros _ H. exfalso. unfold words in W2. lia.
    + exists []. repeat split; auto. cbn; lia.
Qed.

(** ** Types without x87 members that fit two eightbytes *)

Definition x87_in (t : ftype) : bool := existsb is_x87 (flatten t 0).

Lemma existsb_x87_shift d ss : existsb is_x87 (map (shift d) ss) = existsb is_x87 ss.
Proof. rewrite existsb_map. apply existsb_ext'. intros [[o n] []]; reflexivity. Qed.

Lemma x87_at t off : natural t -> (ty_align t | off) -> existsb is_x87 (flatten t off) = x87_in t.
Proof.
  intros N D. unfold x87_in. rewrite <- (existsb_x87_shift off (flatten t 0)), <- flatten_shift by auto. reflexivity.
Qed.

Lemma x87_members es : Forall natural es -> forall o, existsb is_x87 (members es o) = existsb x87_in es.
Proof.
  induction 1 as [|e es N F IH]; intros o; [reflexivity|]. cbn [members existsb].
  rewrite existsb_app, IH, x87_at; auto. apply round_up_divide.
Qed.

Lemma x87_struct s a es : Forall natural es -> x87_in (FT T_STRUCT s a es) = existsb x87_in es.
Proof. intros. unfold x87_in at 1. rewrite flatten_struct. apply x87_members; auto. Qed.

Lemma x87_scalar t : In t (scalar_types) -> x87_in t = true -> t = ty_longdouble.
Proof. intros H. apply scalar_cases in H. repeat (destruct H as [->|H]); [..|subst]; cbn; congruence. Qed.

(** Elements without x87 members keep the alignment at most 8. *)
Lemma nox87_align t : natural t -> x87_in t = false -> ty_align t <= 8.
Proof.
  induction t as [c s a es IH] using ftype_ind'. intros N X.
  destruct (natural_inv _ _ _ _ N) as [H|[(t0 & H & -> & -> & -> & ->)|(-> & NE & F & offs & SL)]].
  - apply scalar_cases in H. repeat (destruct H as [H|H]); injection H as -> -> -> ->; cbn; try lia. discriminate.
  - cbn in H. repeat (destruct H as [<-|H]; [vm_compute in X |- *; try discriminate|]). contradiction.
  - destruct (natural_struct_inv _ _ _ N) as (_ & _ & _ & ->). cbn [ty_align].
    rewrite x87_struct in X by auto. clear -IH F X.
    induction es as [|e es IHes]; cbn [map]; [cbn; lia|].
    inversion IH as [|? ? IHe IHr]; subst. inversion F as [|? ? Fe Fr]; subst.
    cbn [existsb] in X. apply orb_false_elim in X as [X1 X2]. specialize (IHe Fe X1). specialize (IHes IHr X2 Fr).
    change (max_align (lay e :: map lay es)) with (Z.max (ty_align e) (max_align (map lay es))). lia.
Qed.

Lemma zseq_length z n : length (zseq z n) = n.
Proof. revert z. induction n; intros; cbn; auto. Qed.

Lemma map_zseq {A} (f : Z -> A) (cl : list A) n : length cl = n ->
  (forall k d, (k < n)%nat -> nth k cl d = f (Z.of_nat k)) -> cl = map f (zseq 0 n).
Proof.
  intros L H. apply nth_error_ext. intros i.
  destruct (Nat.lt_ge_cases i n) as [Hi|Hi].
  - assert (E : nth_error (map f (zseq 0 n)) i = Some (f (Z.of_nat i))).
    { clear L H. assert (G : forall n z i, (i < n)%nat -> nth_error (map f (zseq z n)) i = Some (f (z + Z.of_nat i))).
      { clear. induction n; intros z i Hi; [lia|]. destruct i as [|i]; cbn [zseq map nth_error].
        - do 2 f_equal. lia.
        - rewrite IHn by lia. do 2 f_equal. lia. }
      rewrite G by auto. reflexivity. }
    rewrite E. destruct (nth_error cl i) as [x|] eqn:N.
    + f_equal. rewrite <- (H i x Hi). symmetry. apply nth_error_nth. auto.
    + apply nth_error_None in N. lia.
  - assert (nth_error cl i = None) as -> by (apply nth_error_None; lia).
    symmetry. apply nth_error_None. rewrite map_length, zseq_length. lia.
Qed.

Lemma map_zseq_nth {A} (f : Z -> A) n k d : (k < n)%nat -> nth k (map f (zseq 0 n)) d = f (Z.of_nat k).
Proof.
  assert (G : forall n z k, (k < n)%nat -> nth k (map f (zseq z n)) d = f (z + Z.of_nat k)).
  { clear. induction n; intros z i Hi; [lia|]. destruct i as [|i]; cbn [zseq map nth].
    - f_equal. lia.
    - rewrite IHn by lia. f_equal. lia. }
  intros H. rewrite G by auto. reflexivity.
Qed.

Lemma zseq_8 (off : Z) : 0 <= off < 8 -> off = 0 \/ off = 1 \/ off = 2 \/ off = 3 \/ off = 4 \/ off = 5 \/ off = 6 \/ off = 7.
Proof. lia. Qed.

Definition words_of (t : ftype) (off : Z) : list eclass :=
  map (eightbyte (flatten t off)) (zseq 0 (Z.to_nat (eightbytes (off + ty_size t)))).

(** A class that copies a whole eightbyte from memory; one that copies half. *)
Definition whole (c : rclass) : bool := match c with SSE_CLASS | SSEDF_CLASS => true | _ => false end.
Definition half (c : rclass) : bool := match c with SSESF_CLASS => true | _ => false end.
Definition touches_high (k : Z) (s : scalar) : bool :=
  let '(o, n, _) := s in (o <? 8 * k + 8) && (8 * k + 4 <? o + n).

(** Per eightbyte: whole and half copies stay inside the object, and a half copy
    misses no member. *)
Definition extent_ok (ss : list scalar) (hi : Z) (k : Z) (c : rclass) : bool :=
  implb (whole c) (8 * k + 8 <=? hi) &&
  implb (half c) ((8 * k + 4 <=? hi) && negb (existsb (touches_high k) ss)).

Fixpoint extents (ss : list scalar) (hi : Z) (k : Z) (cl : list rclass) : bool :=
  match cl with
  | [] => true
  | c :: r => extent_ok ss hi k c && extents ss hi (k + 1) r
  end.

Lemma extents_nth ss hi cl : forall k, extents ss hi k cl = true <->
  forall i, (i < length cl)%nat -> extent_ok ss hi (k + Z.of_nat i) (nth i cl NO_CLASS) = true.
Proof.
  induction cl as [|c cl IH]; intros k; cbn [extents length].
  - split; auto. intros _ i H. lia.
  - rewrite andb_true_iff, IH. split.
    + intros [H1 H2] [|i] Hi; cbn [nth].
      * rewrite Z.add_0_r. auto.
      * replace (k + Z.of_nat (S i)) with (k + 1 + Z.of_nat i) by lia. apply H2. lia.
    + intros H. split.
      * specialize (H 0%nat ltac:(lia)). rewrite Z.add_0_r in H. auto.
      * intros i Hi. specialize (H (S i) ltac:(lia)). cbn [nth] in H.
        replace (k + Z.of_nat (S i)) with (k + 1 + Z.of_nat i) in H by lia. auto.
Qed.

Definition good (t : ftype) (off : Z) (cl : list rclass) : Prop :=
  classify t off = Ok cl /\ forallb plain cl = true /\ map proj cl = words_of t off /\
  extents (flatten t off) (off + ty_size t) 0 cl = true.

Lemma touches_high_shift p k ss : existsb (touches_high (k + p)) (map (shift (8 * p)) ss) = existsb (touches_high k) ss.
Proof.
  rewrite existsb_map. apply existsb_ext'. intros [[o n] kk]. unfold touches_high, shift. f_equal; lia.
Qed.

Lemma touches_high_out ss lo hi k : Forall (inside lo hi) ss -> (hi <= 8 * k + 4 \/ 8 * k + 8 <= lo) ->
  existsb (touches_high k) ss = false.
Proof.
  intros F H. induction F as [|[[o n] kk] ss I F IH]; cbn [existsb]; [reflexivity|]. rewrite IH.
  unfold inside in I. unfold touches_high. lia.
Qed.

(** Nothing of class NO_CLASS is touched by a scalar that is not x87. *)
Lemma none_untouched ss k : existsb is_x87 ss = false -> eightbyte ss k = ENone -> existsb (touches_high k) ss = false.
Proof.
  intros X E. unfold eightbyte in E.
  destruct (existsb (fun s => is_int s && touches8 s k) ss) eqn:E1; [discriminate|].
  destruct (existsb (fun s => is_sse s && touches8 s k) ss) eqn:E2; [discriminate|]. clear E.
  induction ss as [|s ss IH]; [reflexivity|]. cbn [existsb] in *.
  apply orb_false_elim in X as [X1 X2]. apply orb_false_elim in E1 as [A1 A2]. apply orb_false_elim in E2 as [B1 B2].
  rewrite IH by auto. destruct s as [[o n] []]; try discriminate; unfold touches8, touches_high in *; cbn [is_int is_sse andb] in *; lia.
Qed.

Ltac bl :=
  repeat match goal with
  | |- context [existsb ?f ?l] => destruct (existsb f l)
  | H : context [existsb ?f ?l] |- _ => destruct (existsb f l)
  end;
  repeat match goal with
  | |- context [whole ?c] => destruct (whole c)
  | |- context [half ?c] => destruct (half c)
  end;
  cbn [negb orb andb implb] in *; try congruence; try lia.

(** Merging classes keeps the extents. *)
Lemma merge_extent ss ss' hi k a b : plain a = true -> plain b = true ->
  existsb is_x87 ss = false -> existsb is_x87 ss' = false ->
  proj a = eightbyte ss k -> proj b = eightbyte ss' k ->
  extent_ok ss hi k a = true -> extent_ok ss' hi k b = true -> extent_ok (ss ++ ss') hi k (merge_classes a b) = true.
Proof.
  intros Pa Pb X X' Ea Eb A B. unfold extent_ok in *. rewrite existsb_app.
  pose proof (none_untouched ss k X). pose proof (none_untouched ss' k X').
  destruct a; try discriminate Pa; destruct b; try discriminate Pb; cbn in Ea, Eb, A, B |- *; auto;
    match goal with |- context [merge_classes ?a ?b] =>
      let r := eval vm_compute in (merge_classes a b) in change (merge_classes a b) with r end;
    cbn [whole half implb andb]; auto;
    rewrite <- ?Ea, <- ?Eb in *;
    repeat match goal with H : ENone = ENone -> _ |- _ => specialize (H eq_refl) end; bl.
Qed.

Ltac no_div :=
  match goal with
  | D : (?a | ?b) |- _ =>
    exfalso; apply Z.mod_divide in D; [vm_compute in D; discriminate D | discriminate]
  end.

Lemma classify_good t : natural t -> x87_in t = false -> forall off, 0 <= off < 8 -> (ty_align t | off) ->
  off + ty_size t <= 16 -> exists cl, good t off cl.
Proof.
  induction t as [c s a es IH] using ftype_ind'. intros N X off Ho D Hsz.
  pose proof (nox87_align _ N X) as A8. cbn [ty_align] in A8, D.
  destruct (natural_inv _ _ _ _ N) as [H|[(t0 & H & -> & -> & -> & ->)|(-> & NE & F & offs & SL)]].
  - apply scalar_cases in H. apply zseq_8 in Ho.
    repeat (destruct H as [H|H]); injection H as -> -> -> ->; try discriminate X;
    repeat (destruct Ho as [->|Ho]); subst; try no_div;
    try (eexists; split; [vm_compute; reflexivity|split; [|split]; vm_compute; reflexivity]).
  - cbn in H. apply zseq_8 in Ho.
    repeat (destruct H as [<-|H]; [repeat (destruct Ho as [->|Ho]); subst; try no_div; try discriminate X;
      try (eexists; split; [vm_compute; reflexivity|split; [|split]; vm_compute; reflexivity]); vm_compute in Hsz; exfalso; apply Hsz; reflexivity|]).
    contradiction.
  - cbn [ty_size] in Hsz.
    pose proof (natural_basic _ N) as (Bs & Bp & Ba & _). cbn [ty_size ty_align] in *.
    assert (FB : Forall basic es) by (rewrite Forall_forall in *; auto using natural_basic).
    destruct (natural_struct_inv _ _ _ N) as (_ & _ & Hs & Ha).
    rewrite x87_struct in X by auto.
    assert (Pa : 0 < a) by (pose proof (is_pow2_pos _ Bp); lia).
    set (words := (s + off + 8 - 1) / 8).
    assert (Hw : 1 <= words <= 2) by (unfold words; lia).
    assert (Hend : end_at off es <= off + s).
    { pose proof (round_up_le (end_at 0 es) a Pa).
      assert (Da : forall e, In e es -> (ty_align e | off)).
      { intros e I. eapply Z.divide_trans; [|exact D]. eapply natural_elem_align; eauto. }
      assert (K : forall l z, Forall basic l -> (forall e, In e l -> (ty_align e | off)) -> end_at (z + off) l = end_at z l + off).
      { clear. induction l as [|e l IHl]; intros z FB Da; cbn [end_at]; [lia|].
        inversion FB as [|? ? Be Bes]; subst. pose proof (basic_align_pos _ Be).
        rewrite round_up_shift by (try apply Da; try left; auto; lia).
        replace (round_up z (ty_align e) + off + ty_size e) with (round_up z (ty_align e) + ty_size e + off) by lia.
        apply IHl; auto. intros; apply Da; right; auto. }
      specialize (K es 0 FB Da). rewrite Z.add_0_l in K. lia. }
    assert (L : forall ss cl0 boff, forallb plain cl0 = true -> length cl0 = Z.to_nat words ->
       (forall k, (k < length cl0)%nat -> proj (nth k cl0 NO_CLASS) = eightbyte ss (Z.of_nat k)) ->
       existsb is_x87 ss = false -> extents ss (off + s) 0 cl0 = true ->
       0 <= boff -> end_at boff es <= off + s ->
       exists cl, fields es boff cl0 = Ok cl /\ forallb plain cl = true /\ length cl = Z.to_nat words /\
         extents (ss ++ members es boff) (off + s) 0 cl = true /\
         forall k, (k < length cl)%nat -> proj (nth k cl NO_CLASS) = eightbyte (ss ++ members es boff) (Z.of_nat k)).
    { clearbody words. clear Hend Hs Ha SL NE N D. induction es as [|e es IHes]; intros ss cl0 boff Hp Hl Hk Xs Hx Hb He.
      - exists cl0. cbn [fields members]. rewrite app_nil_r. auto.
      - inversion IH as [|? ? IHe IHr]; subst. inversion F as [|? ? Fe Fr]; subst. inversion FB as [|? ? Be Br]; subst.
        cbn [existsb] in X. apply orb_false_elim in X as [X1 X2].
        pose proof (nox87_align _ Fe X1) as E8.
        destruct Be as (Es & Ep & Ea & Ed). pose proof (is_pow2_pos _ Ep) as Epos.
        cbn [end_at] in He. pose proof (end_at_ge es Br (round_up boff (ty_align e) + ty_size e)).
        pose proof (round_up_le boff (ty_align e) ltac:(lia)).
        cbn [fields members]. rewrite ffi_align_small by (auto; lia). cbn zeta.
        set (b := round_up boff (ty_align e)) in *.
        assert (Db : (ty_align e | b)) by apply round_up_divide.
        assert (Dm : (ty_align e | b mod 8)).
        { pose proof (align_mod8 e b Ep Ea Db) as Q. unfold min8 in Q. rewrite Z.min_r in Q by lia. auto. }
        assert (D8 : (ty_align e | 8 * (b / 8))).
        { replace (8 * (b / 8)) with (b - b mod 8) by lia. apply Z.divide_sub_r; auto. }
        destruct (IHe Fe X1 (b mod 8)) as (sub & R & Ps & Ws & Es'); [lia|auto|lia|].
        assert (Fl : flatten e b = map (shift (8 * (b / 8))) (flatten e (b mod 8))).
        { rewrite <- flatten_shift by auto. f_equal. lia. }
        assert (Len : length sub = Z.to_nat (eightbytes (b mod 8 + ty_size e))).
        { apply (f_equal (@length _)) in Ws. unfold words_of in Ws. rewrite !map_length, zseq_length in Ws. auto. }
        rewrite R. cbn [bind].
        destruct sub as [|s0 sub']; [exfalso; cbn in Len; unfold eightbytes in Len; lia|]. set (sub := s0 :: sub') in *.
        rewrite wrap64_small by lia.
        rewrite app_assoc. apply (IHes IHr X2 Fr Br).
        + apply merge_at_forall; auto. intros; apply merge_plain; auto.
        + rewrite merge_at_length. auto.
        + intros k Hlt. rewrite merge_at_length in Hlt. rewrite merge_at_nth by auto. rewrite eightbyte_app, Fl.
          replace (Z.of_nat k) with (Z.of_nat k - b / 8 + b / 8) at 2 by lia. rewrite eightbyte_shift.
          destruct ((Z.to_nat (b / 8) <=? k)%nat && (k <? Z.to_nat (b / 8) + length sub)%nat) eqn:C.
          * assert (H1 : (k - Z.to_nat (b / 8) < length sub)%nat) by lia.
            assert (Pn : plain (nth (k - Z.to_nat (b / 8)) sub NO_CLASS) = true).
            { rewrite forallb_forall in Ps. apply Ps. apply nth_In. auto. }
            assert (Pc : plain (nth k cl0 NO_CLASS) = true).
            { rewrite forallb_forall in Hp. apply Hp. apply nth_In. auto. }
            destruct (merge_plain _ _ Pn Pc) as [_ ->]. rewrite Hk by auto. rewrite join_comm. f_equal.
            change (proj (nth (k - Z.to_nat (b / 8)) sub NO_CLASS)) with (proj (nth (k - Z.to_nat (b / 8)) sub NO_CLASS)).
            rewrite <- (map_nth proj sub NO_CLASS). rewrite Ws. unfold words_of. rewrite map_zseq_nth by lia.
            f_equal. lia.
          * rewrite Hk by auto. rewrite (eightbyte_out (flatten e (b mod 8)) (b mod 8) (b mod 8 + ty_size e)).
            { rewrite join_none. auto. }
            { apply flatten_inside; auto. }
            { unfold eightbytes in Len. lia. }
        + rewrite existsb_app, Xs, x87_at by auto. auto.
        + apply extents_nth. intros i Hi. rewrite merge_at_length in Hi. rewrite Z.add_0_l.
          rewrite extents_nth in Hx. specialize (Hx i Hi). rewrite Z.add_0_l in Hx.
          rewrite extents_nth in Es'.
          assert (Pc : plain (nth i cl0 NO_CLASS) = true).
          { rewrite forallb_forall in Hp. apply Hp. apply nth_In. auto. }
          assert (Xb : existsb is_x87 (flatten e b) = false) by (rewrite x87_at; auto).
          rewrite merge_at_nth by auto.
          destruct ((Z.to_nat (b / 8) <=? i)%nat && (i <? Z.to_nat (b / 8) + length sub)%nat) eqn:C.
          * assert (H1 : (i - Z.to_nat (b / 8) < length sub)%nat) by lia.
            assert (Pn : plain (nth (i - Z.to_nat (b / 8)) sub NO_CLASS) = true).
            { rewrite forallb_forall in Ps. apply Ps. apply nth_In. auto. }
            specialize (Es' _ H1). rewrite Z.add_0_l in Es'.
            assert (Pj : proj (nth (i - Z.to_nat (b / 8)) sub NO_CLASS) = eightbyte (flatten e b) (Z.of_nat i)).
            { rewrite <- (map_nth proj sub NO_CLASS). rewrite Ws. unfold words_of. rewrite map_zseq_nth by lia.
              rewrite Fl. replace (Z.of_nat i) with (Z.of_nat i - b / 8 + b / 8) by lia. rewrite eightbyte_shift. f_equal. lia. }
            assert (Ex : extent_ok (flatten e b) (off + s) (Z.of_nat i) (nth (i - Z.to_nat (b / 8)) sub NO_CLASS) = true).
            { unfold extent_ok in Es' |- *. rewrite Fl.
              replace (Z.of_nat i) with (Z.of_nat (i - Z.to_nat (b / 8)) + b / 8) by lia. rewrite touches_high_shift. bl. }
            assert (Perm : extent_ok (flatten e b ++ ss) (off + s) (Z.of_nat i)
                     (merge_classes (nth (i - Z.to_nat (b / 8)) sub NO_CLASS) (nth i cl0 NO_CLASS)) = true).
            { apply merge_extent; auto. }
            unfold extent_ok in Perm |- *. rewrite existsb_app in Perm |- *. bl.
          * unfold extent_ok in Hx |- *. rewrite existsb_app.
            rewrite (touches_high_out (flatten e b) b (b + ty_size e)).
            { rewrite orb_false_r. auto. }
            { apply flatten_inside; auto. }
            { unfold eightbytes in Len. lia. }
        + lia.
        + auto. }
    assert (Rep : forallb plain (repeat NO_CLASS (Z.to_nat words)) = true).
    { clear. induction (Z.to_nat words); cbn; auto. }
    destruct (L [] (repeat NO_CLASS (Z.to_nat words)) off Rep) as (r & R & Pr & Lr & Er & Kr).
    { apply repeat_length. }
    { intros k _. assert (nth k (repeat NO_CLASS (Z.to_nat words)) NO_CLASS = NO_CLASS) as ->; [|reflexivity].
      generalize (Z.to_nat words) as m. clear. induction k; intros [|m]; cbn; auto. }
    { reflexivity. }
    { apply extents_nth. intros i _. assert (nth i (repeat NO_CLASS (Z.to_nat words)) NO_CLASS = NO_CLASS) as ->; [|reflexivity].
      generalize (Z.to_nat words) as m. clear. induction i; intros [|m]; cbn; auto. }
    { lia. } { auto. }
    exists r. split; [|split; [auto|split]].
    + rewrite classify_struct. replace (s >? 32) with false by lia. cbn zeta. fold words.
      replace (words >? MAX_CLASSES) with false by (unfold MAX_CLASSES; lia).
      replace (words =? 0) with false by lia. rewrite R. cbn [bind].
      replace (words >? 2) with false by lia. rewrite cleanup_plain by auto. destruct r; reflexivity.
    + unfold words_of. cbn [ty_size]. rewrite flatten_struct.
      replace (eightbytes (off + s)) with words by (unfold eightbytes, words; f_equal; lia).
      apply map_zseq; [rewrite map_length; auto|]. intros k d Hk.
      rewrite (nth_indep _ d (proj NO_CLASS)) by (rewrite map_length; lia). rewrite map_nth. apply Kr. lia.
    + rewrite flatten_struct. exact Er.
Qed.

(** ** Types with x87 members *)

Lemma x87_size t : natural t -> x87_in t = true -> 16 <= ty_size t.
Proof.
  induction t as [c s a es IH] using ftype_ind'. intros N X.
  destruct (natural_inv _ _ _ _ N) as [H|[(t0 & H & -> & -> & -> & ->)|(-> & NE & F & offs & SL)]].
  - rewrite (x87_scalar _ H X). cbn. lia.
  - cbn in H. repeat (destruct H as [<-|H]; [vm_compute in X |- *; try discriminate|]). contradiction.
  - destruct (natural_struct_inv _ _ _ N) as (_ & _ & Hs & _). cbn [ty_size].
    rewrite x87_struct in X by auto.
    assert (Pa : 0 < a) by (pose proof (basic_align_pos _ (natural_basic _ N)); cbn in *; lia).
    pose proof (round_up_le (end_at 0 es) a Pa).
    assert (G : forall o, 0 <= o -> 16 <= end_at o es); [|specialize (G 0); lia].
    clear -IH F X. induction es as [|e es IHes]; [discriminate|]. intros o Ho. cbn [end_at].
    inversion IH as [|? ? IHe IHr]; subst. inversion F as [|? ? Fe Fr]; subst.
    pose proof (natural_basic _ Fe) as Be. pose proof (basic_align_pos _ Be). destruct Be as (Bs & _).
    pose proof (round_up_le o (ty_align e) ltac:(lia)).
    assert (FB : Forall basic es) by (rewrite Forall_forall in *; auto using natural_basic).
    pose proof (end_at_ge es FB (round_up o (ty_align e) + ty_size e)).
    cbn [existsb] in X. apply orb_prop in X as [X|X].
    + specialize (IHe Fe X). lia.
    + apply IHes; auto. lia.
Qed.

Lemma classify_x87 t : natural t -> x87_in t = true -> ty_size t <= 16 -> classify t 0 = Ok [X87_CLASS; X87UP_CLASS].
Proof.
  induction t as [c s a es IH] using ftype_ind'. intros N X Hsz.
  destruct (natural_inv _ _ _ _ N) as [H|[(t0 & H & -> & -> & -> & ->)|(-> & NE & F & offs & SL)]].
  - rewrite (x87_scalar _ H X). reflexivity.
  - cbn in H. repeat (destruct H as [<-|H]; [vm_compute in X, Hsz |- *; try discriminate; exfalso; apply Hsz; reflexivity|]). contradiction.
  - pose proof (x87_size _ N X) as S16. cbn [ty_size] in *. assert (s = 16) by lia. subst s.
    destruct (natural_struct_inv _ _ _ N) as (_ & _ & Hs & _).
    rewrite x87_struct in X by auto.
    assert (Pa : 0 < a) by (pose proof (basic_align_pos _ (natural_basic _ N)); cbn in *; lia).
    pose proof (round_up_le (end_at 0 es) a Pa).
    assert (E : exists e, es = [e] /\ x87_in e = true /\ ty_size e <= 16).
    { destruct es as [|e es]; [congruence|]. inversion F as [|? ? Fe Fr]; subst.
      pose proof (natural_basic _ Fe) as Be. pose proof (basic_align_pos _ Be). destruct Be as (Bs & _).
      assert (FB : Forall basic es) by (rewrite Forall_forall in *; auto using natural_basic).
      cbn [end_at] in *. rewrite round_up_0 in * by lia. pose proof (end_at_ge es FB (0 + ty_size e)).
      cbn [existsb] in X. apply orb_prop in X as [X|X].
      - pose proof (x87_size _ Fe X). destruct es as [|e2 es].
        + exists e. split; [reflexivity|]. split; [auto|lia].
        + exfalso. pose proof (end_at_gt (e2 :: es) FB ltac:(discriminate) (0 + ty_size e)). lia.
      - exfalso. assert (G : forall o, 0 < o -> 16 < end_at o es); [|specialize (G (0 + ty_size e)); lia].
        clear -Fr X. induction Fr as [|e es Fe Fr IHes]; [discriminate|]. intros o Ho. cbn [end_at].
        pose proof (natural_basic _ Fe) as Be. pose proof (basic_align_pos _ Be). destruct Be as (Bs & _).
        pose proof (round_up_le o (ty_align e) ltac:(lia)).
        assert (FB : Forall basic es) by (rewrite Forall_forall in *; auto using natural_basic).
        pose proof (end_at_ge es FB (round_up o (ty_align e) + ty_size e)).
        cbn [existsb] in X. apply orb_prop in X as [X|X].
        + pose proof (x87_size _ Fe X). lia.
        + apply IHes; auto. lia. }
    destruct E as (e & -> & Xe & Se). inversion IH as [|? ? IHe _]; subst. inversion F as [|? ? Fe _]; subst.
    rewrite classify_struct. change ((16 >? 32)) with false. cbn zeta iota.
    change ((16 + 0 + 8 - 1) / 8) with 2. change (2 >? MAX_CLASSES) with false. change (2 =? 0) with false. cbn iota.
    pose proof (natural_basic _ Fe) as (Bs & Bp & Ba & _).
    cbn [fields]. rewrite ffi_align_small by (auto; lia). pose proof (is_pow2_pos _ Bp). rewrite round_up_0 by lia. cbn zeta.
    change (0 mod 8) with 0. rewrite IHe by auto. reflexivity.
Qed.

(** ** examine_argument *)

Lemma count_plain cl : forall b all g x, forallb plain cl = true ->
  count_classes b all cl g x = Ok (ERegs all (g + count is_eint (map proj cl)) (x + count is_esse (map proj cl))).
Proof.
  unfold count. induction cl as [|c cl IH]; intros b all g x H; cbn [count_classes map filter].
  - change (zlen (@nil eclass)) with 0. rewrite !Z.add_0_r. reflexivity.
  - cbn in H. apply andb_prop in H as [H1 H2].
    destruct c; try discriminate; rewrite IH by auto; cbn [proj is_eint is_esse]; rewrite ?zlen_cons; do 2 f_equal; lia.
Qed.

Definition mem_word (p : passing) : bool := match p with PRegs _ => false | _ => true end.

(** The result of examine_argument follows the specification. *)
Definition exam_ok (t : ftype) (b : bool) (e : exam) : Prop :=
  match passing_of t with
  | PMemory => e = EMem
  | PX87 => e = if b then EX87 [X87_CLASS; X87UP_CLASS] else EMem
  | PX87x2 => e = if b then EX87 [COMPLEX_X87_CLASS] else EMem
  | PRegs l => exists cl, e = ERegs cl (count is_eint l) (count is_esse l) /\ map proj cl = l /\
      forallb plain cl = true /\ extents (flatten t 0) (ty_size t) 0 cl = true /\
      l = words_of t 0 /\ x87_in t = false /\ ty_size t <= 16
  end.

Lemma examine_ok t b : natural t -> exists e, examine t b = Ok e /\ exam_ok t b e.
Proof.
  intros N. destruct t as [c s a es].
  assert (CLD : (c = T_COMPLEX /\ es = [ty_longdouble] /\ s = 32) \/
     (passing_of (FT c s a es) = (if s >? 16 then PMemory else if x87_in (FT c s a es) then PX87
        else PRegs (words_of (FT c s a es) 0)) /\ (16 < s -> c = T_STRUCT))).
  { destruct (natural_inv _ _ _ _ N) as [H|[(t0 & H & -> & -> & -> & ->)|(-> & NE & F & offs & SL)]].
    - right. apply scalar_cases in H. repeat (destruct H as [H|H]); injection H as -> -> -> ->;
        (split; [vm_compute; reflexivity|cbn; lia]).
    - cbn in H. repeat (destruct H as [<-|H]; [try (right; split; [vm_compute; reflexivity|cbn; lia]); left; auto|]). contradiction.
    - right. split; [|auto]. unfold passing_of, x87_in, words_of. cbn [ty_size]. rewrite Z.add_0_l. reflexivity. }
  destruct CLD as [(-> & -> & ->)|[P Hst]].
  - unfold exam_ok, examine. cbn. destruct b; eexists; split; reflexivity.
  - unfold exam_ok. rewrite P. unfold examine. clear P.
    destruct (Z.gtb_spec s 16) as [G|G].
    + destruct (classify_safe _ N 0) as (cl & R & _ & _ & E).
      * lia.
      * apply Z.divide_0_r.
      * lia.
      * rewrite R. cbn [bind]. cbn [ty_code ty_size] in E. rewrite E by (auto; lia). eexists. split; reflexivity.
    + destruct (x87_in (FT c s a es)) eqn:X.
      * rewrite classify_x87 by auto. cbn. destruct b; eexists; split; reflexivity.
      * destruct (classify_good _ N X 0) as (cl & R & Pl & W & Ex).
        -- lia.
        -- apply Z.divide_0_r.
        -- cbn [ty_size]. lia.
        -- rewrite R. cbn [bind]. destruct cl as [|c0 cl].
           { exfalso. apply (f_equal (@length _)) in W. unfold words_of in W. rewrite !map_length, zseq_length in W.
             pose proof (natural_basic _ N) as (Bs & _). cbn in W, Bs. unfold eightbytes in W. lia. }
           rewrite count_plain by auto. eexists. split; [reflexivity|]. exists (c0 :: cl).
           cbn [ty_size]. rewrite W, !Z.add_0_l. rewrite Z.add_0_l in Ex. cbn [ty_size] in Ex.
           split; [reflexivity|]. split; [auto|]. split; [auto|]. split; [auto|]. split; [auto|]. split; [auto|lia].
Qed.
