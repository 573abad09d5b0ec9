(** Proofs about type layout and preparation. *)
From Coq Require Import ZifyBool ZifyNat.
From Verif Require Import Base BaseFacts Types TypeHeapModel LayoutSpec TypeHeapSpec.

Lemma least_multiple_round a v : 0 < a -> least_multiple a v (round_up v a).
Proof.
  intros. repeat split; auto using round_up_divide, round_up_le, round_up_least.
Qed.
Lemma least_multiple_unique a v m m' : least_multiple a v m -> least_multiple a v m' -> m = m'.
Proof. intros (A & B & C) (D & E & F). apply Z.le_antisymm; auto. Qed.
Lemma least_multiple_eq a v m : 0 < a -> least_multiple a v m -> m = round_up v a.
Proof. intros. eapply least_multiple_unique; eauto using least_multiple_round. Qed.

Lemma members_at_det ms : forall e offs1 e1 offs2 e2,
  members_at e ms offs1 e1 -> members_at e ms offs2 e2 -> offs1 = offs2 /\ e1 = e2.
Proof.
  induction ms as [|[s a] ms IH]; intros e offs1 e1 offs2 e2 M1 M2.
  - inversion M1; inversion M2; subst; auto.
  - inversion M1 as [|? ? ? off1 ? ? ? L1 N1]; subst. inversion M2 as [|? ? ? off2 ? ? ? L2 N2]; subst.
    assert (off1 = off2) by eauto using least_multiple_unique. subst.
    edestruct IH; [exact N1|exact N2|]. subst; auto.
Qed.
Lemma struct_layout_det ms offs1 s1 a1 offs2 s2 a2 :
  struct_layout ms offs1 s1 a1 -> struct_layout ms offs2 s2 a2 -> offs1 = offs2 /\ s1 = s2 /\ a1 = a2.
Proof.
  intros (e1 & A & -> & C) (e2 & D & -> & F).
  edestruct members_at_det; [exact A|exact D|]. subst.
  repeat split; eauto using least_multiple_unique.
Qed.

Lemma max_align_cons m ms : max_align (m :: ms) = Z.max (snd m) (max_align ms).
Proof. reflexivity. Qed.
Lemma max_align_pos ms : 1 <= max_align ms.
Proof. induction ms; [cbn; lia|rewrite max_align_cons; lia]. Qed.

(** Effective layout as a direct relation on the heap, for rank induction. *)
Inductive eff (h : theap) : tptr -> Z -> Z -> Prop :=
| eff_known : forall p o, h p = Some o -> o_size o <> 0 -> eff h p (o_size o) (o_align o)
| eff_struct : forall p o es ms offs s a,
    h p = Some o -> o_size o = 0 -> o_elems o = Some es -> es <> [] ->
    Forall2 (fun e m => eff h e (fst m) (snd m)) es ms ->
    struct_layout ms offs s a -> eff h p s a.

Lemma Forall2_impl_in {A B} (P Q : A -> B -> Prop) l m :
  (forall a b, In a l -> P a b -> Q a b) -> Forall2 P l m -> Forall2 Q l m.
Proof.
  intros H F. induction F; constructor; auto.
  - apply H; cbn; auto.
  - apply IHF. intros; apply H; cbn; auto.
Qed.

Section Rank.
Context (rank : tptr -> nat).

Lemma rank_ind (P : tptr -> Prop) :
  (forall p, (forall q, (rank q < rank p)%nat -> P q) -> P p) -> forall p, P p.
Proof.
  intros H. assert (forall n p, (rank p < n)%nat -> P p) as G.
  { induction n; intros p Hp; [lia|]. apply H. intros q Hq. apply IHn; lia. }
  intros p. eapply G. apply Nat.lt_succ_diag_r.
Qed.

Lemma eff_det h : wf_theap rank h ->
  forall p s a s' a', eff h p s a -> eff h p s' a' -> s = s' /\ a = a'.
Proof.
  intros W. induction p as [p IH] using rank_ind. intros s a s' a' E1 E2.
  inversion E1 as [p1 o1 G1 Z1|p1 o1 es1 ms1 offs1 ss1 aa1 G1 Z1 L1 N1 F1 S1];
  inversion E2 as [p2 o2 G2 Z2|p2 o2 es2 ms2 offs2 ss2 aa2 G2 Z2 L2 N2 F2 S2]; subst;
    rewrite G1 in G2; injection G2 as <-; try congruence; auto.
  rewrite L1 in L2; injection L2 as <-.
  assert (ms1 = ms2) as ->.
  { destruct (W _ _ G1) as (_ & _ & Wm).
    assert (Hin : forall e, In e es1 -> (rank e < rank p)%nat) by (intros; eapply Wm; eauto).
    clear - F1 F2 IH Hin. revert ms2 F2. induction F1 as [|e [s1 a1] es ms1 He F1 IHF]; intros ms2 F2;
      inversion F2 as [|? [s2 a2] ? ms2' He2 F2']; subst; auto.
    destruct (IH e (Hin e (or_introl eq_refl)) _ _ _ _ He He2) as [Hs Ha]; cbn in Hs, Ha; subst.
    f_equal. apply IHF; auto. intros; apply Hin; cbn; auto. }
  pose proof (struct_layout_det _ _ _ _ _ _ _ S1 S2). tauto.
Qed.

Lemma eff_eff_layout h : wf_theap rank h -> forall p s a, eff h p s a <-> eff_layout h p s a.
Proof.
  intros W. induction p as [p IH] using rank_ind. intros s a. split.
  - intros E. inversion E as [p1 o1 G1 Z1|p1 o1 es1 ms1 offs1 ss1 aa1 G1 Z1 L1 N1 F1 S1]; subst.
    + exists (CKnown (o_size o1) (o_align o1)). split; constructor; auto.
    + assert (exists ts, Forall2 (describes h) es1 ts /\ c_layouts ts ms1) as (ts & D & C).
      { destruct (W _ _ G1) as (_ & _ & Wm).
        assert (Hin : forall e, In e es1 -> (rank e < rank p)%nat) by (intros; eapply Wm; eauto).
        clear - F1 IH Hin. induction F1 as [|e [s1 a1] es ms1 He F1 IHF].
        - exists []. split; constructor.
        - destruct IHF as (ts & D & C); [intros; apply Hin; cbn; auto|].
          apply IH in He as (t & Dt & Ct); [|apply Hin; cbn; auto].
          exists (t :: ts). split; constructor; auto. }
      exists (CStruct ts). split; econstructor; eauto.
  - intros (t & D & C). inversion D as [p1 o1 G1 Z1|p1 o1 es1 ts1 G1 Z1 L1 N1 F1]; subst.
    + inversion C; subst. constructor; auto.
    + inversion C as [|members ms offs s1 a1 C1 S1]; subst.
      eapply eff_struct; eauto.
      destruct (W _ _ G1) as (_ & _ & Wm).
      assert (Hin : forall e, In e es1 -> (rank e < rank p)%nat) by (intros; eapply Wm; eauto).
      clear - F1 C1 IH Hin. revert ms C1. induction F1 as [|e t es ts He F1 IHF]; intros ms C1;
        inversion C1; subst; constructor.
      * apply IH; [apply Hin; cbn; auto|]. exists t; auto.
      * apply IHF; auto. intros; apply Hin; cbn; auto.
Qed.

(** Every object either has an effective layout or is undescribed. *)
Lemma eff_pow2 h : wf_theap rank h -> forall p s a, eff h p s a -> is_pow2 a /\ 0 < s.
Proof.
  intros W. induction p as [p IH] using rank_ind. intros s a E.
  inversion E as [p1 o1 G1 Z1|p1 o1 es1 ms1 offs1 ss1 aa1 G1 Z1 L1 N1 F1 S1]; subst.
  - destruct (W _ _ G1) as (A & B & _). split; [auto|lia].
  - destruct (W _ _ G1) as (_ & _ & Wm).
    assert (Hin : forall e, In e es1 -> (rank e < rank p)%nat) by (intros; eapply Wm; eauto).
    assert (P : Forall (fun m => is_pow2 (snd m) /\ 0 < fst m) ms1).
    { clear - F1 IH Hin. induction F1 as [|e m es ms He F1 IHF]; constructor.
      - destruct (IH e (Hin e (or_introl eq_refl)) _ _ He). auto.
      - apply IHF. intros; apply Hin; cbn; auto. }
    destruct S1 as (e & M & -> & LM). split.
    + clear - P. induction P as [|m ms [Hm _] P IHP]; cbn.
      * exists 0. lia.
      * apply is_pow2_max; auto.
    + assert (0 < e); [|destruct LM as (_ & ? & _); lia].
      destruct ms1 as [|m ms1]; [inversion F1; subst; congruence|].
      inversion P as [|? ? [Pm1 Pm2] Pr]; subst.
      inversion M as [|? sm am off ? ? ? LM1 M1]; subst. cbn in Pm1, Pm2.
      assert (forall e0 l offs0 e1, members_at e0 l offs0 e1 -> Forall (fun m => is_pow2 (snd m) /\ 0 < fst m) l -> e0 <= e1) as Mono.
      { clear. intros e0 l offs0 e1 M. induction M as [|? ? ? ? ? ? ? LM M IHM]; intros F; [lia|].
        inversion F as [|? ? [Q1 Q2] Q3]; subst. cbn in Q1, Q2.
        destruct LM as (_ & ? & _). specialize (IHM Q3). lia. }
      specialize (Mono _ _ _ _ M1 Pr). destruct LM1 as (_ & ? & _). lia.
Qed.

Lemma eff_or_undescribed h : wf_theap rank h ->
  forall p, h p <> None -> (exists s a, eff h p s a) \/ undescribed h p.
Proof.
  intros W. induction p as [p IH] using rank_ind. intros Hp.
  destruct (h p) as [o|] eqn:G; [|congruence]. clear Hp.
  destruct (Z.eq_dec (o_size o) 0) as [Z0|Z0].
  2: { left. exists (o_size o), (o_align o). constructor; auto. }
  destruct (o_elems o) as [es|] eqn:L.
  2: { right. eapply undescribed_null; eauto. }
  destruct es as [|e0 es0].
  { right. eapply undescribed_empty; eauto. }
  destruct (W _ _ G) as (_ & _ & Wm).
  assert (Hin : forall e, In e (e0 :: es0) -> h e <> None /\ (rank e < rank p)%nat) by (intros; eapply Wm; eauto).
  assert ((exists ms, Forall2 (fun e m => eff h e (fst m) (snd m)) (e0 :: es0) ms) \/
          (exists e, In e (e0 :: es0) /\ undescribed h e)) as [(ms & F)|(e & He & U)].
  { clear - Hin IH. induction (e0 :: es0) as [|e es IHes].
    - left. exists []. constructor.
    - destruct (Hin e (or_introl eq_refl)) as [Hn Hr].
      destruct (IH e Hr Hn) as [(s & a & E)|U].
      + destruct IHes as [(ms & F)|(e' & He' & U)].
        * intros; apply Hin; cbn; auto.
        * left. exists ((s, a) :: ms). constructor; auto.
        * right. exists e'. cbn; auto.
      + right. exists e. cbn; auto. }
  - left.
    assert (P : Forall (fun m => is_pow2 (snd m)) ms).
    { clear - F W. induction F; constructor; auto. eapply eff_pow2; eauto. }
    assert (A : forall ms e, Forall (fun m => is_pow2 (snd m)) ms -> exists offs e', members_at e ms offs e').
    { clear. induction ms as [|[s a] ms IHm]; intros e P.
      - exists [], e. constructor.
      - inversion P as [|? ? P1 P2]; subst. cbn in P1. destruct (IHm (round_up e a + s) P2) as (offs & e' & M).
        exists (round_up e a :: offs), e'. econstructor; eauto.
        apply least_multiple_round. pose proof (is_pow2_pos _ P1). lia. }
    destruct (A ms 0 P) as (offs & e' & M).
    exists (round_up e' (max_align ms)), (max_align ms).
    eapply eff_struct with (offs := offs); eauto; [congruence|]. exists e'. repeat split; auto.
    + apply round_up_divide.
    + apply round_up_le. pose proof (max_align_pos ms); lia.
    + intros. apply round_up_least; auto. pose proof (max_align_pos ms); lia.
  - right. eapply undescribed_member; eauto.
Qed.

Lemma eff_not_undescribed h : wf_theap rank h ->
  forall p s a, eff h p s a -> undescribed h p -> False.
Proof.
  intros W. induction p as [p IH] using rank_ind. intros s a E U.
  inversion E as [p1 o1 G1 Z1|p1 o1 es1 ms1 offs1 ss1 aa1 G1 Z1 L1 N1 F1 S1]; subst;
  inversion U as [p2 o2 G2 Z2 L2|p2 o2 G2 Z2 L2|p2 o2 es2 e2 G2 Z2 L2 I2 U2]; subst;
    rewrite G1 in G2; injection G2 as <-; try congruence.
  rewrite L1 in L2; injection L2 as <-.
  destruct (W _ _ G1) as (_ & _ & Wm). destruct (Wm _ _ L1 I2) as [_ Hr].
  clear - F1 I2 U2 IH Hr.
  induction F1 as [|e m es ms He F1 IHF]; [contradiction|].
  destruct I2 as [->|I2]; eauto.
Qed.

(** ** Effects on memory *)

(** [h'] results from [h] by recording effective layouts at some objects of rank
    below [r]. *)
Definition refines_below (r : nat) (h h' : theap) : Prop :=
  forall q, h' q = h q \/
    ((rank q < r)%nat /\ exists o s a, h q = Some o /\ o_size o = 0 /\ eff h q s a /\
                  h' q = Some (set_layout o s a)).

Lemma refines_below_refl r h : refines_below r h h.
Proof. intros q; auto. Qed.

Lemma refines_below_mono r r' h h' : (r <= r')%nat -> refines_below r h h' -> refines_below r' h h'.
Proof. intros L R q. destruct (R q) as [|(A & B)]; [auto|right; split; [lia|auto]]. Qed.

Lemma wf_set_layout h p o s a : wf_theap rank h -> h p = Some o -> 0 <= s -> (s <> 0 -> is_pow2 a) ->
  wf_theap rank (hset h p (set_layout o s a)).
Proof.
  intros W G Hs Ha q o' Hq. unfold hset in *. destruct (Nat.eqb_spec q p).
  - injection Hq as <-. subst. cbn. destruct (W _ _ G) as (A & B & C). repeat split; auto.
    + destruct (Nat.eqb_spec e p); [congruence|]. eapply C; eauto.
    + eapply C; eauto.
  - destruct (W _ _ Hq) as (A & B & C). repeat split; auto.
    + destruct (Nat.eqb_spec e p); [congruence|]. eapply C; eauto.
    + eapply C; eauto.
Qed.

Lemma refines_wf r h h' : wf_theap rank h -> refines_below r h h' -> wf_theap rank h'.
Proof.
  intros W R q o Hq.
  assert (Hdom : forall e, h e <> None -> h' e <> None).
  { intros e He. destruct (R e) as [->|(_ & o' & s & a & _ & _ & _ & ->)]; congruence. }
  destruct (R q) as [E|(Lq & o' & s & a & G & Z0 & E & G')].
  - rewrite E in Hq. destruct (W _ _ Hq) as (A & B & C). repeat split; auto.
    + apply Hdom. eapply C; eauto.
    + eapply C; eauto.
  - rewrite G' in Hq. injection Hq as <-. cbn.
    destruct (eff_pow2 h W _ _ _ E). destruct (W _ _ G) as (A & B & C).
    repeat split; auto; try lia.
    + apply Hdom. eapply C; eauto.
    + eapply C; eauto.
Qed.

Lemma refines_eff r h h' : wf_theap rank h -> refines_below r h h' ->
  forall q s a, eff h q s a <-> eff h' q s a.
Proof.
  intros W R. pose proof (refines_wf _ _ _ W R) as W'.
  induction q as [q IH] using rank_ind. intros s a.
  destruct (R q) as [E|(Lq & o & s1 & a1 & G & Z0 & E & G')].
  - split; intros Ef; inversion Ef as [p1 o1 G1 Z1|p1 o1 es1 ms1 offs1 ss1 aa1 G1 Z1 L1 N1 F1 S1]; subst.
    + constructor; congruence.
    + econstructor; eauto; [congruence|].
      eapply Forall2_impl_in; [|exact F1]. cbn. intros e m He Em. apply IH; auto.
      destruct (W _ _ G1) as (_ & _ & Wm). eapply Wm; eauto.
    + constructor; congruence.
    + econstructor; eauto; [congruence|].
      eapply Forall2_impl_in; [|exact F1]. cbn. intros e m He Em. apply IH; auto.
      destruct (W' _ _ G1) as (_ & _ & Wm). eapply Wm; eauto.
  - destruct (eff_pow2 h W _ _ _ E) as [_ Pos]. split; intros Ef.
    + destruct (eff_det h W _ _ _ _ _ E Ef) as [-> ->].
      pose proof (eff_known h' q (set_layout o s a) G') as K; cbn in K. apply K; lia.
    + inversion Ef as [p1 o1 G1 Z1|p1 o1 es1 ms1 offs1 ss1 aa1 G1 Z1 L1 N1 F1 S1]; subst;
        rewrite G' in G1; injection G1 as <-; cbn in *; [exact E|lia].
Qed.

Lemma refines_trans r h1 h2 h3 : wf_theap rank h1 ->
  refines_below r h1 h2 -> refines_below r h2 h3 -> refines_below r h1 h3.
Proof.
  intros W R1 R2 q. destruct (R2 q) as [->|(L & o & s & a & G & Z0 & E & G')].
  - apply R1.
  - right. split; auto. exists o, s, a. destruct (R1 q) as [Eq|(L1 & o1 & s1 & a1 & G1 & Z1 & E1 & G1')].
    + rewrite Eq in G. repeat split; auto. eapply refines_eff; eauto.
    + rewrite G1' in G. injection G as <-. cbn in Z0. destruct (eff_pow2 _ W _ _ _ E1). lia.
Qed.

(** Writing an object does not affect types of smaller rank. *)
Lemma hset_same h p o : hset h p o p = Some o.
Proof. unfold hset. rewrite Nat.eqb_refl. reflexivity. Qed.
Lemma hset_other h p o q : q <> p -> hset h p o q = h q.
Proof. unfold hset. intros. destruct (Nat.eqb_spec q p); congruence. Qed.

Lemma eff_frame h h' p : wf_theap rank h -> wf_theap rank h' ->
  (forall q, (rank q < rank p)%nat -> h' q = h q) ->
  forall q s a, (rank q < rank p)%nat -> eff h q s a -> eff h' q s a.
Proof.
  intros W W' Same. induction q as [q IH] using rank_ind. intros s a L E.
  inversion E as [p1 o1 G1 Z1|p1 o1 es1 ms1 offs1 ss1 aa1 G1 Z1 L1 N1 F1 S1]; subst.
  - constructor; auto. rewrite Same; auto.
  - econstructor; eauto. { rewrite Same; auto. }
    eapply Forall2_impl_in; [|exact F1]. cbn. intros e m He Em.
    destruct (W _ _ G1) as (_ & _ & Wm). destruct (Wm _ _ L1 He). apply IH; auto. lia.
Qed.

(** ** The layout code *)

Definition fits_below (w : Z) (r : nat) (h : theap) : Prop :=
  forall p s a, (rank p < r)%nat -> eff h p s a -> s < 2 ^ w.

Definition mem_ok (m : Z * Z) : Prop := is_pow2 (snd m) /\ 0 < fst m.

Lemma members_at_mono e ms offs e' : members_at e ms offs e' -> Forall mem_ok ms -> e <= e'.
Proof.
  intros M. induction M as [|? ? ? ? ? ? ? LM M IHM]; intros F; [lia|].
  inversion F as [|? ? [Q1 Q2] Q3]; subst. cbn in Q1, Q2.
  destruct LM as (_ & ? & _). specialize (IHM Q3). lia.
Qed.

Lemma effs_mem_ok h es ms : wf_theap rank h ->
  Forall2 (fun e m => eff h e (fst m) (snd m)) es ms -> Forall mem_ok ms.
Proof. intros W F. induction F; constructor; auto. eapply eff_pow2; eauto. Qed.

(** Changes confined to objects of rank below [arg] that had no layout. *)
Definition elsewhere (arg : tptr) (h h' : theap) : Prop :=
  forall q, q <> arg -> h' q = h q \/
    ((rank q < rank arg)%nat /\ exists o s a, h q = Some o /\ o_size o = 0 /\ eff h q s a /\
                  h' q = Some (set_layout o s a)).

Definition rec_ok (w : Z) (r : nat) (rec : theap -> tptr -> res (status * theap)) : Prop :=
  forall h p s a o, wf_theap rank h -> fits_below w r h -> (rank p < r)%nat ->
    h p = Some o -> o_size o = 0 -> eff h p s a ->
    exists h', rec h p = Ok (FFI_OK, h') /\ refines_below (S (rank p)) h h' /\
               h' p = Some (set_layout o s a).

Definition acc_align (A : Z) (ms : list (Z * Z)) : Z :=
  match ms with [] => A | _ => Z.max A (max_align ms) end.

(** One successful element: memory after laying it out (if needed) and updating
    the struct under construction. *)
Lemma elem_step w rec arg e h o s a S A S' A' :
  wf_theap rank h -> rec_ok w (rank arg) rec -> fits_below w (rank arg) h ->
  (rank e < rank arg)%nat -> h arg = Some (set_layout o S A) -> eff h e s a ->
  0 <= S' -> (S' <> 0 -> is_pow2 A') ->
  exists oe h1,
    h e = Some oe /\
    (if o_size oe =? 0 then rec h e else Ok (FFI_OK, h)) = Ok (FFI_OK, h1) /\
    h1 e = Some (set_layout oe s a) /\
    h1 arg = Some (set_layout o S A) /\
    (let h2 := hset h1 arg (set_layout o S' A') in
     wf_theap rank h2 /\ fits_below w (rank arg) h2 /\
     (forall q sq aq, (rank q < rank arg)%nat -> (eff h q sq aq <-> eff h2 q sq aq)) /\
     elsewhere arg h h2).
Proof.
  intros W RO Fit Lt Harg E HS' HA'.
  assert (exists oe, h e = Some oe) as (oe & He).
  { inversion E; subst; eauto. }
  assert (exists h1, (if o_size oe =? 0 then rec h e else Ok (FFI_OK, h)) = Ok (FFI_OK, h1) /\
            refines_below (rank arg) h h1 /\ h1 e = Some (set_layout oe s a)) as (h1 & R1 & Ref & H1).
  { destruct (Z.eqb_spec (o_size oe) 0) as [Z0|Z0].
    - destruct (RO h e s a oe) as (h1 & A1 & A2 & A3); auto. exists h1. repeat split; auto.
      eapply refines_below_mono; [|exact A2]. lia.
    - exists h. repeat split; auto using refines_below_refl.
      inversion E as [p1 o1 G1 Z1|p1 o1 es1 ms1 offs1 ss1 aa1 G1 Z1 L1 N1 F1 S1]; subst;
        rewrite He in G1; injection G1 as <-; [|congruence].
      destruct oe; cbn. auto. }
  exists oe, h1. assert (Harg1 : h1 arg = Some (set_layout o S A)).
  { destruct (Ref arg) as [->|(L & _)]; [auto|lia]. }
  assert (W1 : wf_theap rank h1) by (eapply refines_wf; eauto).
  assert (W2 : wf_theap rank (hset h1 arg (set_layout o S' A'))).
  { change (set_layout o S' A') with (set_layout (set_layout o S A) S' A'). apply wf_set_layout; auto. }
  assert (EQ : forall q sq aq, (rank q < rank arg)%nat ->
             (eff h q sq aq <-> eff (hset h1 arg (set_layout o S' A')) q sq aq)).
  { intros q sq aq Lq. rewrite (refines_eff _ _ _ W Ref). split; intros G.
    - eapply (eff_frame h1) with (p := arg); eauto. intros q' L'. apply hset_other. intros ->; lia.
    - eapply (eff_frame (hset h1 arg (set_layout o S' A')) h1) with (p := arg); eauto.
      intros q' L'. symmetry. apply hset_other. intros ->; lia. }
  split; [auto|]. split; [auto|]. split; [auto|]. split; [auto|].
  cbn zeta. split; [auto|]. split; [|split; [exact EQ|]].
  - intros q sq aq Lq G. apply EQ in G; eauto.
  - intros q Hq. rewrite hset_other by auto. apply Ref.
Qed.

Lemma elsewhere_trans arg h h2 h3 :
  (forall q sq aq, (rank q < rank arg)%nat -> (eff h q sq aq <-> eff h2 q sq aq)) ->
  wf_theap rank h ->
  elsewhere arg h h2 -> elsewhere arg h2 h3 -> elsewhere arg h h3.
Proof.
  intros EQ W E1 E2 q Hq. destruct (E2 q Hq) as [->|(L & o & s & a & G & Z0 & E & G')].
  - apply E1; auto.
  - right. split; auto. exists o, s, a. destruct (E1 q Hq) as [Eq|(L1 & o1 & s1 & a1 & G1 & Z1 & F1 & G1')].
    + rewrite Eq in G. repeat split; auto. apply EQ; auto.
    + rewrite G1' in G. injection G as <-. cbn in Z0. destruct (eff_pow2 _ W _ _ _ F1). lia.
Qed.

Lemma init_loop_ok w rec arg : 16 <= w -> rec_ok w (rank arg) rec ->
  forall ptrs ms offs E h o S A,
  wf_theap rank h -> fits_below w (rank arg) h ->
  h arg = Some (set_layout o S A) -> 0 <= S -> 0 <= A -> (A <> 0 -> is_pow2 A) ->
  (forall e, In e ptrs -> (rank e < rank arg)%nat) ->
  Forall2 (fun e m => eff h e (fst m) (snd m)) ptrs ms ->
  members_at S ms offs E -> E < 2 ^ w ->
  exists h', init_loop w rec arg ptrs h = Ok (FFI_OK, h', offs) /\
    h' arg = Some (set_layout o E (acc_align A ms)) /\ elsewhere arg h h'.
Proof.
  intros Hw RO. induction ptrs as [|e ptrs IH]; intros ms offs E h o S A W Fit Harg HS HA HA2 Hrk F M HE.
  - inversion F; subst. inversion M; subst. cbn. exists h. repeat split; auto. intros q Hq; auto.
  - assert (MO : Forall mem_ok ms) by (eapply effs_mem_ok; eauto).
    inversion F as [|? m ? ms' Em F']; subst. destruct m as [s a]. cbn in Em.
    inversion M as [|? ? ? off ? offs' ? LM M']; subst.
    inversion MO as [|? ? [P1 P2] MO']; subst. cbn in P1, P2.
    pose proof (is_pow2_pos _ P1) as P3.
    pose proof (members_at_mono _ _ _ _ M' MO') as Mono.
    apply least_multiple_eq in LM; [|lia].
    pose proof (round_up_le S a ltac:(lia)) as Hoff.
    destruct (elem_step w rec arg e h o s a S A (off + s) (Z.max A a)) as
        (oe & h1 & He & R1 & H1 & Harg1 & W2 & Fit2 & EQ & EL); auto; try lia.
    { apply Hrk; cbn; auto. }
    { intros _. destruct (Z.eq_dec A 0) as [->|NA].
      - rewrite Z.max_r by lia. auto.
      - apply is_pow2_max; auto. }
    cbn zeta in *.
    destruct (IH ms' offs' E (hset h1 arg (set_layout o (off + s) (Z.max A a))) o (off + s) (Z.max A a))
      as (h' & R & Harg' & EL'); auto; try lia.
    { apply hset_same. }
    { intros _. destruct (Z.eq_dec A 0) as [->|NA].
      - rewrite Z.max_r by lia. auto.
      - apply is_pow2_max; auto. }
    { intros; apply Hrk; cbn; auto. }
    { eapply Forall2_impl_in; [|exact F']. cbn. intros e' m He' Em'. apply EQ; auto.
      apply Hrk; cbn; auto. }
    exists h'. split; [|split].
    + cbn [init_loop]. rewrite He. cbn [of_option bind]. rewrite R1. cbn [bind].
      rewrite H1, Harg1. cbn [of_option bind o_size o_align set_layout].
      assert (ffi_align_w w S a = off) as ->.
      { subst off. apply ffi_align_w_round; auto. lia. }
      assert (wrap w (off + s) = off + s) as ->.
      { unfold wrap. apply Z.mod_small. lia. }
      change (set_layout (set_layout o S A)) with (set_layout o).
      replace (if A >? a then A else a) with (Z.max A a) by (destruct (Z.gtb_spec A a); lia).
      rewrite R. cbn [bind]. reflexivity.
    + rewrite Harg'. do 2 f_equal. destruct ms' as [|m' ms'']; cbn [acc_align].
      * cbn. lia.
      * rewrite (max_align_cons (s, a)). cbn [snd]. lia.
    + eapply elsewhere_trans; eauto.
Qed.

Lemma init_agg_ok w : 16 <= w -> forall fuel h p s a o es,
  wf_theap rank h -> fits_below w (rank p) h -> (rank p < fuel)%nat ->
  h p = Some o -> o_elems o = Some es -> es <> [] -> s < 2 ^ w ->
  forall ms offs, Forall2 (fun e m => eff h e (fst m) (snd m)) es ms -> struct_layout ms offs s a ->
  exists h', init_agg w fuel h p = Ok (FFI_OK, h', offs) /\
    h' p = Some (set_layout o s a) /\ elsewhere p h h'.
Proof.
  intros Hw. induction fuel as [|fuel IH]; intros h p s a o es W Fit Lt G L NE Hs ms offs F SL; [lia|].
  cbn [init_agg]. rewrite G. cbn [of_option bind]. rewrite L.
  set (rec := fun h p => _).
  assert (RO : rec_ok w (rank p) rec).
  { intros h0 q sq aq oq W0 Fit0 Lq Gq Zq Eq.
    inversion Eq as [p1 o1 G1 Z1|p1 o1 es1 ms1 offs1 ss1 aa1 G1 Z1 L1 N1 F1 S1]; subst;
      rewrite Gq in G1; injection G1 as <-; [congruence|].
    destruct (IH h0 q sq aq oq es1) with (ms := ms1) (offs := offs1) as (h' & R & Hq & EL); auto; try lia.
    - intros p' s' a' Lp' E'. eapply Fit0; [|exact E']. lia.
    - eapply Fit0; eauto.
    - exists h'. unfold rec. rewrite R. cbn [bind]. split; [reflexivity|]. split; [|exact Hq].
      intros q'. destruct (Nat.eq_dec q' q) as [->|Nq].
      + right. split; [lia|]. exists oq, sq, aq. auto.
      + destruct (EL q' Nq) as [|(A & B)]; [auto|right; split; [lia|auto]]. }
  destruct SL as (E & M & Ha & LM).
  assert (W0 : wf_theap rank (hset h p (set_layout o 0 0))) by (apply wf_set_layout; auto; lia).
  assert (Fr : forall q sq aq, (rank q < rank p)%nat ->
             (eff h q sq aq <-> eff (hset h p (set_layout o 0 0)) q sq aq)).
  { intros q sq aq Lq. split; intros Gq.
    - eapply (eff_frame h) with (p := p); eauto. intros q' L'. apply hset_other. intros ->; lia.
    - eapply (eff_frame (hset h p (set_layout o 0 0)) h) with (p := p); eauto.
      intros q' L'. symmetry. apply hset_other. intros ->; lia. }
  assert (MO : Forall mem_ok ms) by exact (effs_mem_ok h es ms W F).
  assert (NM : ms <> []) by (intros ->; inversion F; subst; congruence).
  assert (Pa : is_pow2 a).
  { subst a. clear - MO. induction MO as [|m ms [Pm _] MO IHm].
    - exists 0. cbn. lia.
    - rewrite max_align_cons. apply is_pow2_max; auto. }
  pose proof (is_pow2_pos _ Pa) as Pa'.
  assert (Hrk : forall e, In e es -> (rank e < rank p)%nat).
  { intros e He. destruct (W _ _ G) as (_ & _ & Wm). eapply Wm; eauto. }
  pose proof LM as LM'. apply least_multiple_eq in LM'; [|lia].
  pose proof (round_up_le E a ltac:(lia)) as HEs.
  destruct (init_loop_ok w rec p Hw RO es ms offs E (hset h p (set_layout o 0 0)) o 0 0)
    as (h' & R & Hp & EL); auto; try lia.
  { intros q sq aq Lq Gq. apply Fr in Gq; eauto. }
  { apply hset_same. }
  { eapply Forall2_impl_in; [|exact F]. cbn. intros e m He Em. apply Fr; auto. }
  rewrite R. cbn [bind]. rewrite Hp. cbn [of_option bind set_layout o_size o_align].
  assert (acc_align 0 ms = a) as ->.
  { subst a. destruct ms; [congruence|]. cbn [acc_align]. pose proof (max_align_pos (p0 :: ms)). lia. }
  assert (members_at_E : 0 <= E).
  { eapply members_at_mono; eauto. }
  assert (ffi_align_w w E a = s) as ->.
  { rewrite LM'. apply ffi_align_w_round; auto. lia. }
  assert (0 < s) as Hs0.
  { assert (eff h p s a \/ True) as _ by auto.
    destruct ms as [|[s1 a1] ms1]; [congruence|].
    inversion MO as [|? ? [Q1 Q2] MO']; subst. cbn in Q1, Q2.
    inversion M as [|? ? ? off ? ? ? LM1 M1]; subst.
    pose proof (members_at_mono _ _ _ _ M1 MO'). destruct LM1 as (_ & ? & _). lia. }
  destruct (Z.eqb_spec s 0); [lia|].
  eexists. split; [reflexivity|]. split.
  - rewrite hset_same. reflexivity.
  - intros q Hq. rewrite hset_other by auto. destruct (EL q Hq) as [->|(A & oq & sq & aq & B1 & B2 & B3 & B4)].
    + left. apply hset_other; auto.
    + right. split; auto. exists oq, sq, aq. rewrite hset_other in B1 by auto. repeat split; auto. apply Fr; auto.
Qed.
End Rank.
