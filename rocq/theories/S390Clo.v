(** Preparing a cif, and the arguments and results of closures. *)
From Coq Require Import ZifyBool ZifyNat.
From Verif Require Import Base BaseFacts Types LayoutSpec NaturalTypes NaturalFacts ByteMem S390Model S390Spec S390Facts S390Arg S390Call.
Local Open Scope Z_scope.
Local Arguments Z.mul : simpl never.
Local Arguments Z.add : simpl never.
Local Arguments Z.sub : simpl never.
Local Arguments Z.pow : simpl never.
Local Arguments Z.div : simpl never.
Local Arguments Z.modulo : simpl never.
Local Arguments Z.of_nat : simpl never.
Local Arguments be_enc : simpl never.

Lemma scalar_code t : ctype t -> ty_code t <> T_STRUCT -> ty_code t <> T_COMPLEX -> t = ty_pointer \/ In t numbers.
Proof.
  intros C N1 N2. inversion C as [|t0 H|t0 H|s0 a0 es offs NE FA SL]; subst; auto; cbn in *; congruence.
Qed.

(** How an argument is passed. *)
Lemma passed_cases t : ctype t -> exists c, passed_as t = (c, by_ref t) /\
  (floating t = true -> by_ref t = false /\ ((c = T_FLOAT /\ ty_size t = 4) \/ (c = T_DOUBLE /\ ty_size t = 8))) /\
  (floating t = false -> c <> T_FLOAT /\ c <> T_DOUBLE /\ (by_ref t = false -> ty_size t <= 8) /\
   forall gpr fpr ov k, arg_slot gpr fpr ov c k =
     let off := if by_ref t then 0 else 8 - ty_size t in
     if k_gpr k <? 5 then Ok (gpr + 8 * k_gpr k + off, Cnt (k_gpr k + 1) (k_fpr k) (k_ov k) 0)
     else Ok (ov + 8 * k_ov k + off, Cnt (k_gpr k) (k_fpr k) (k_ov k + 1) 0)).
Proof.
  intros C. destruct (ty_code t) eqn:EC.
  all: try (destruct (scalar_code t C ltac:(congruence) ltac:(congruence)) as [->|H]; try discriminate EC;
    cbn in H; repeat destruct H as [H|H]; try contradiction; subst t; try discriminate EC;
    eexists; (split; [reflexivity|]); cbn [floating by_ref ty_code ty_size ty_float ty_double ty_uint8 ty_sint8 ty_uint16 ty_sint16 ty_uint32 ty_sint32 ty_uint64 ty_sint64 ty_quad];
    (split; [intros X; try discriminate X; cbn; auto|intros X; first [discriminate X|split; [discriminate|split; [discriminate|split; [intros Y; first [discriminate Y|cbn; lia]|intros; reflexivity]]]]]); fail).
  - destruct (check_cases t C EC) as [(B & F & K)|[(B & F & K)|(B & F & K)]]; rewrite B, F; unfold passed_as; rewrite EC.
    + exists T_POINTER. rewrite K. split; [reflexivity|]. split; [discriminate|]. intros _. split; [discriminate|]. split; [discriminate|]. split; [discriminate|]. intros. reflexivity.
    + exists (check_struct t). split; [destruct K as [(K & _)|(K & _)]; rewrite K; reflexivity|]. split; [auto|discriminate].
    + exists (check_struct t). split; [destruct K as [(K & _)|[(K & _)|[(K & _)|(K & _)]]]; rewrite K; reflexivity|]. split; [discriminate|]. intros _.
      destruct K as [(K & E)|[(K & E)|[(K & E)|(K & E)]]]; rewrite K, E; (split; [discriminate|]; split; [discriminate|]; split; [lia|]; intros; reflexivity).
  - assert (t = ty_pointer) as ->.
    { destruct (scalar_code t C ltac:(congruence) ltac:(congruence)) as [H|H]; [exact H|]. cbn in H; repeat destruct H as [H|H]; try contradiction; subst t; discriminate EC. }
    eexists. split; [reflexivity|]. split; [discriminate|]. intros _. split; [discriminate|]. split; [discriminate|]. split; [cbn; lia|intros; reflexivity].
  - assert (F : floating t = false) by (destruct t as [c ? ? ?]; cbn in EC; subst c; reflexivity).
    unfold passed_as, by_ref. rewrite EC, F. eexists. split; [reflexivity|]. split; [discriminate|]. intros _. split; [discriminate|]. split; [discriminate|]. split; [discriminate|]. intros; reflexivity.
Qed.

(** ** ffi_prep_cif_machdep *)

Lemma rtype_flags rt : rtype_ok rt -> exists fl, ret_flags rt = Some (fl, hidden rt) /\ in_mem fl = (hidden rt =? 1) /\
  fl = match ty_code rt with T_VOID => 4 | T_STRUCT | T_LONGDOUBLE | T_COMPLEX => 12 | T_FLOAT => 1 | T_DOUBLE => 0 | _ => 2 end.
Proof. intros _. unfold ret_flags, hidden. destruct (ty_code rt); eexists; repeat split. Qed.

Lemma count_arg_eq h pre t k : 0 <= h -> ctype t -> 0 <= k_size k -> k_size k + copies [t] < 2 ^ 64 ->
  k_gpr k = Z.min 5 (ints h pre) -> k_fpr k = Z.min 4 (fps pre) -> k_ov k = slots h pre ->
  let k' := count_arg t k in
  k_gpr k' = Z.min 5 (ints h (pre ++ [t])) /\ k_fpr k' = Z.min 4 (fps (pre ++ [t])) /\ k_ov k' = slots h (pre ++ [t]) /\ k_size k' = k_size k + copies [t].
Proof.
  intros H0 C K0 Ks G F O k'. cbn [copies] in *. rewrite Z.add_0_r in *. unfold slots in *. rewrite ints_snoc, fps_snoc.
  pose proof (ints_ge h pre H0). pose proof (fps_ge pre). pose proof (ctype_size t C). pose proof (r16_bound (ty_size t)) as Rb.
  destruct (passed_cases t C) as (c & P & PF & PN). unfold k', count_arg. rewrite P.
  assert (Es : (if by_ref t then wrap64 (k_size k + round_size (ty_size t)) else k_size k) = k_size k + (if by_ref t then (ty_size t + 15) / 16 * 16 else 0)).
  { destruct (by_ref t); [|lia]. unfold r16 in Rb. rewrite round_size_r16 by lia. unfold r16, wrap64, wrap. apply Z.mod_small. lia. }
  rewrite Es. clear Es. set (size := k_size k + _).
  destruct (floating t) eqn:FL.
  - assert (E : match c with T_DOUBLE | T_FLOAT => true | _ => false end = true) by (destruct (PF eq_refl) as (_ & [(-> & _)|(-> & _)]); reflexivity).
    destruct c; try discriminate E; unfold MAX_FPR; destruct (k_fpr k <? 4) eqn:L; cbn [k_gpr k_fpr k_ov k_size]; repeat split; lia.
  - destruct (PN eq_refl) as (N1 & N2 & _).
    destruct c; try congruence; unfold MAX_GPR; destruct (k_gpr k <? 5) eqn:L; cbn [k_gpr k_fpr k_ov k_size]; repeat split; lia.
Qed.
Lemma count_all h ts : 0 <= h -> Forall ctype ts -> forall pre k, 0 <= k_size k -> k_size k + copies ts < 2 ^ 64 ->
  k_gpr k = Z.min 5 (ints h pre) -> k_fpr k = Z.min 4 (fps pre) -> k_ov k = slots h pre ->
  let k' := fold_left (fun k t => count_arg t k) ts k in
  k_ov k' = slots h (pre ++ ts) /\ k_size k' = k_size k + copies ts.
Proof.
  intros H0. induction 1 as [|t ts C Cs IH]; intros pre k K0 Ks G F O.
  - cbn. rewrite app_nil_r. split; [auto|lia].
  - cbn [fold_left]. cbn [copies] in Ks |- *. pose proof (copies_ge ts Cs). pose proof (ctype_size t C). pose proof (r16_bound (ty_size t)) as Rb. unfold r16 in Rb.
    assert (C1 : copies [t] = (if by_ref t then (ty_size t + 15) / 16 * 16 else 0)) by (cbn [copies]; lia).
    assert (C0 : 0 <= copies [t]) by (rewrite C1; destruct (by_ref t); lia).
    destruct (count_arg_eq h pre t k H0 C K0 ltac:(lia) G F O) as (G1 & F1 & O1 & S1).
    destruct (IH (pre ++ [t]) (count_arg t k)) as (A & B); auto; try lia.
    cbn zeta. rewrite A, B, <- app_assoc. split; [reflexivity|lia].
Qed.
Definition need (h : Z) (ts : list ftype) : Z := r16 (8 * slots h ts) + copies ts.
Lemma slots_ge h ts : 0 <= slots h ts.
Proof. unfold slots. lia. Qed.
Lemma hidden_ge rt : 0 <= hidden rt <= 1.
Proof. unfold hidden. destruct (ty_code rt); lia. Qed.
Lemma machdep_ok rt ts : rtype_ok rt -> Forall ctype ts -> need (hidden rt) ts < 2 ^ 32 ->
  exists fl, machdep rt ts = Ok (ZCif ts rt (need (hidden rt) ts) fl) /\ in_mem fl = (hidden rt =? 1) /\
  fl = match ty_code rt with T_VOID => 4 | T_STRUCT | T_LONGDOUBLE | T_COMPLEX => 12 | T_FLOAT => 1 | T_DOUBLE => 0 | _ => 2 end.
Proof.
  intros R C N. destruct (rtype_flags rt R) as (fl & E & M & V). exists fl. split; [|auto].
  unfold machdep. rewrite E. pose proof (hidden_ge rt) as H0. pose proof (slots_ge (hidden rt) ts) as S0. pose proof (copies_ge ts C) as C0.
  unfold need in N. pose proof (r16_bound (8 * slots (hidden rt) ts)).
  destruct (count_all (hidden rt) ts ltac:(lia) C [] (Cnt (hidden rt) 0 0 0)) as (A & B); cbn [k_size k_gpr k_fpr k_ov]; try lia.
  - unfold ints, count, zlen. cbn. lia.
  - reflexivity.
  - unfold slots, ints, fps, count, zlen. cbn. lia.
  - cbn [app] in A. rewrite A, B. cbn [k_size]. unfold wrap64, wrap. rewrite (Z.mod_small (slots (hidden rt) ts * 8)) by lia.
    rewrite round_size_r16 by lia. rewrite (Z.mul_comm (slots (hidden rt) ts)). unfold wrap32, wrap, need. rewrite !Z.mod_small by lia. repeat f_equal.
Qed.

(** ** Arguments of closures *)

Lemma rd_part m a k n N : (k + n <= N)%nat -> rd m (a + Z.of_nat k) n = firstn n (skipn k (rd m a N)).
Proof.
  intros H. replace N with (k + (n + (N - k - n)))%nat by lia. rewrite !rd_app.
  rewrite skipn_app, skipn_all2 by (rewrite rd_length; lia). rewrite rd_length, Nat.sub_diag. cbn [skipn app].
  rewrite firstn_app, rd_length, Nat.sub_diag, firstn_O, app_nil_r, firstn_all2 by (rewrite rd_length; lia). reflexivity.
Qed.

Lemma low_bytes n v w : (n <= 8)%nat -> (0 < n)%nat -> length v = n -> bytes_ok v -> w mod 2 ^ (8 * Z.of_nat n) = be_dec v -> word_bytes (8 - n) n w = v.
Proof. intros N N0 L B E. rewrite word_low by lia. rewrite <- be_enc_mod, E, <- L. apply be_enc_dec, B. Qed.

Lemma extended_low t v : In t int_types \/ t = ty_pointer -> length v = Z.to_nat (ty_size t) -> bytes_ok v -> extended t v mod 2 ^ (8 * ty_size t) = be_dec v.
Proof.
  intros H L B. pose proof (be_dec_bound v B) as Bd. unfold zlen in Bd. rewrite L in Bd.
  rewrite Z2Nat.id in Bd by (destruct H as [H|H]; [cbn in H; repeat destruct H as [H|H]; try contradiction|]; subst t; cbn; lia).
  unfold extended. rewrite !value_dec.
  destruct H as [H|H]; [cbn in H; repeat destruct H as [H|H]; try contradiction|]; subst t; cbn [ty_code ty_size ty_pointer ty_uint8 ty_sint8 ty_uint16 ty_sint16 ty_uint32 ty_sint32 ty_uint64 ty_sint64] in *;
    change (8 * 1) with 8 in *; change (8 * 2) with 16 in *; change (8 * 4) with 32 in *; change (8 * 8) with 64 in *;
    try (apply Z.mod_small; lia);
    match goal with |- (if ?b then _ else ?x - ?n) mod _ = _ => destruct b; [apply Z.mod_small; lia|] end;
    match goal with |- (?x - ?n) mod ?k = _ => replace (x - n) with (x + -1 * k) by lia end; rewrite Z.mod_add by lia; apply Z.mod_small; lia.
Qed.

(** The bytes of a value passed in a word. *)
Definition part (t : ftype) (l : loc) : Z := if floating t then match l with LF _ => 0 | _ => 8 - ty_size t end else 8 - ty_size t.
Lemma slot_value M' M a t l w v : ctype t -> is_value t v -> by_ref t = false -> carries M t l w v -> rd M' a 8 = be_enc 8 w ->
  rd M' (a + part t l) (Z.to_nat (ty_size t)) = v.
Proof.
  intros C (Vl & Vb) B Ca R. pose proof (ctype_size t C) as S0. assert (Lv : length v = Z.to_nat (ty_size t)) by (unfold zlen in Vl; lia).
  destruct (passed_cases t C) as (c & P & PF & PN). unfold carries in Ca. rewrite B in Ca. unfold part.
  assert (S8 : ty_size t <= 8).
  { destruct (floating t) eqn:F; [destruct (PF eq_refl) as (_ & [(_ & E)|(_ & E)]); lia|]. apply PN; auto. }
  assert (G : forall k, (k + Z.to_nat (ty_size t) <= 8)%nat -> rd M' (a + Z.of_nat k) (Z.to_nat (ty_size t)) = word_bytes k (Z.to_nat (ty_size t)) w).
  { intros k Hk. rewrite (rd_part M' a k _ 8) by lia. rewrite R, word_part by lia. reflexivity. }
  destruct (floating t) eqn:F.
  - destruct l as [r|r|i].
    + replace (8 - ty_size t) with (Z.of_nat (Z.to_nat (8 - ty_size t))) by lia. rewrite G by lia. exact Ca.
    + change 0 with (Z.of_nat 0). rewrite G by lia. exact Ca.
    + replace (8 - ty_size t) with (Z.of_nat (Z.to_nat (8 - ty_size t))) by lia. rewrite G by lia. exact Ca.
  - replace (8 - ty_size t) with (Z.of_nat (Z.to_nat (8 - ty_size t))) by lia. rewrite G by lia.
    assert (D : ty_code t = T_STRUCT \/ ty_code t <> T_STRUCT) by (destruct (ty_code t); auto; right; discriminate).
    destruct D as [D|D]; [rewrite D in Ca; exact Ca|].
    assert (It : In t int_types \/ t = ty_pointer).
    { destruct (scalar_code t C D) as [H|H]; [destruct (ty_code t) eqn:EC; try discriminate; unfold by_ref in B; rewrite EC in B; discriminate|auto|].
      left. cbn in H. repeat destruct H as [H|H]; try contradiction; subst t; try discriminate F; try discriminate B; cbn; tauto. }
    replace (Z.to_nat (8 - ty_size t)) with (8 - Z.to_nat (ty_size t))%nat by lia.
    apply low_bytes; auto; try lia.
    rewrite <- (extended_low t v It Lv Vb). rewrite Z2Nat.id by lia.
    assert (Ce : w mod 2 ^ 64 = extended t v mod 2 ^ 64) by (destruct (ty_code t); try exact Ca; congruence).
    assert (Dv : (2 ^ (8 * ty_size t) | 2 ^ 64)).
    { exists (2 ^ (64 - 8 * ty_size t)). rewrite <- Z.pow_add_r by lia. f_equal. lia. }
    rewrite (Znumtheory.Zmod_div_mod _ (2 ^ 64) w) by (auto; lia). rewrite Ce. symmetry. apply Znumtheory.Zmod_div_mod; auto; lia.
Qed.

(** Where arg_slot looks is where the argument is. *)
Lemma arg_slot_place h pre t c k sp : 0 <= h -> ctype t -> passed_as t = (c, by_ref t) ->
  k_gpr k = Z.min 5 (ints h pre) -> k_fpr k = Z.min 4 (fps pre) -> k_ov k = slots h pre ->
  exists k', arg_slot (sp + 16) (sp + 128) (sp + 160) c k =
    Ok (addr (sp + 160) sp (place h pre t) + (if by_ref t then 0 else part t (place h pre t)), k') /\
  k_gpr k' = Z.min 5 (ints h (pre ++ [t])) /\ k_fpr k' = Z.min 4 (fps (pre ++ [t])) /\ k_ov k' = slots h (pre ++ [t]).
Proof.
  intros H0 C P G F O. destruct (passed_cases t C) as (c' & P' & PF & PN). rewrite P in P'. injection P' as <-.
  pose proof (ints_ge h pre H0). pose proof (fps_ge pre). unfold slots in *. rewrite ints_snoc, fps_snoc. unfold place, part.
  destruct (floating t) eqn:FL.
  - destruct (PF eq_refl) as (B & D). rewrite B. assert (E : (k_fpr k <? 4) = (fps pre <? 4)) by lia.
    destruct D as [(-> & E4)|(-> & E8)]; cbn [arg_slot]; unfold MAX_FPR; rewrite E; destruct (fps pre <? 4) eqn:L; eexists;
      (split; [f_equal; f_equal; cbn [addr]; unfold slots; lia|]); cbn [k_gpr k_fpr k_ov]; repeat split; lia.
  - destruct (PN eq_refl) as (N1 & N2 & _ & A). rewrite A. cbv zeta. assert (E : (k_gpr k <? 5) = (ints h pre <? 5)) by lia.
    rewrite E. destruct (ints h pre <? 5) eqn:L; eexists;
      (split; [f_equal; f_equal; cbn [addr]; unfold slots; lia|]); cbn [k_gpr k_fpr k_ov]; repeat split; lia.
Qed.

Lemma clo_args h sp M1 (W : loc -> Z) : 0 <= h -> forall ts vs pre k, Forall ctype ts -> Forall2 is_value ts vs ->
  k_gpr k = Z.min 5 (ints h pre) -> k_fpr k = Z.min 4 (fps pre) -> k_ov k = slots h pre ->
  (forall i t v, nth_error ts i = Some t -> nth_error vs i = Some v ->
     let l := place h (pre ++ firstn i ts) t in carries M1 t l (W l) v /\ rd M1 (addr (sp + 160) sp l) 8 = be_enc 8 (W l) /\ word_ok (W l)) ->
  exists avs, closure_args (sp + 16) (sp + 128) (sp + 160) M1 ts k = Ok avs /\
    Forall2 (fun p tv => rd M1 p (Z.to_nat (ty_size (fst tv))) = snd tv) avs (combine ts vs) /\ length avs = length ts /\
    (forall i t p, nth_error ts i = Some t -> nth_error avs i = Some p ->
       let l := place h (pre ++ firstn i ts) t in p = if by_ref t then W l else addr (sp + 160) sp l + part t l).
Proof.
  intros H0. induction ts as [|t ts IH]; intros vs pre k Ct Iv G F O Hyp.
  - exists []. cbn. split; [reflexivity|]. split; [constructor|]. split; [reflexivity|]. intros [|i] t p Ht; discriminate Ht.
  - inversion Iv as [|? v ? vs' V Vs]; subst. inversion Ct as [|? ? C Cs]; subst. rename vs' into vs.
    destruct (passed_cases t C) as (c & P & _). cbn [closure_args]. rewrite P.
    destruct (arg_slot_place h pre t c k sp H0 C P G F O) as (k' & E & G1 & F1 & O1). rewrite E. cbn [bind].
    destruct (IH vs (pre ++ [t]) k' Cs Vs G1 F1 O1) as (avs & E2 & A & L & Q).
    { intros i t' v' Ht Hv. rewrite <- app_assoc. exact (Hyp (S i) t' v' Ht Hv). }
    rewrite E2. cbn [bind].
    destruct (Hyp 0%nat t v eq_refl eq_refl) as (Ca & R & Wo). cbn [firstn] in *. rewrite app_nil_r in *.
    eexists. split; [reflexivity|].
    assert (Ep : (if by_ref t then be_dec (rd M1 (addr (sp + 160) sp (place h pre t) + (if by_ref t then 0 else part t (place h pre t))) 8) else addr (sp + 160) sp (place h pre t) + (if by_ref t then 0 else part t (place h pre t)))
              = if by_ref t then W (place h pre t) else addr (sp + 160) sp (place h pre t) + part t (place h pre t)).
    { destruct (by_ref t); [|reflexivity]. rewrite Z.add_0_r, R, be_dec_enc. apply Z.mod_small. exact Wo. }
    split; [|split].
    + cbn [combine]. constructor; [|exact A]. cbn [fst snd]. rewrite Ep. destruct (by_ref t) eqn:B.
      * unfold carries in Ca. rewrite B, bytes_at_rd in Ca. exact Ca.
      * eapply slot_value; eauto.
    + cbn. rewrite L. reflexivity.
    + intros [|i] t' p' Ht Hp; cbn in Ht, Hp.
      * injection Ht as <-. injection Hp as <-. cbn [firstn]. rewrite app_nil_r. exact Ep.
      * cbn [firstn]. replace (pre ++ t :: firstn i ts) with ((pre ++ [t]) ++ firstn i ts) by (rewrite <- app_assoc; reflexivity). apply Q; auto.
Qed.
