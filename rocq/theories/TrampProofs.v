(** The functions of the trampoline allocator one by one. *)
From Coq Require Import ZifyBool ZifyNat Permutation.
From Verif Require Import Base TrampModel TrampDll.
Local Arguments Z.mul : simpl never.
Local Arguments Z.add : simpl never.
Local Arguments Z.sub : simpl never.
Local Arguments Z.pow : simpl never.
Local Arguments Z.eqb : simpl never.
Local Arguments Z.div : simpl never.
Local Arguments val_eqb : simpl never.

Lemma ptab_inj x y : PTab x = PTab y -> x = y. Proof. congruence. Qed.
Lemma ptab_null x : PTab x <> Null. Proof. discriminate. Qed.
Lemma ptr_inj a x y : PTr a x = PTr a y -> x = y. Proof. congruence. Qed.
Lemma ptr_null a x : PTr a x <> Null. Proof. discriminate. Qed.

Lemma set_same s l v : s_val (set_val s l v) l = v.
Proof. cbn. destruct (loc_eq_dec l l); congruence. Qed.
Lemma set_other s l v l' : l' <> l -> s_val (set_val s l v) l' = s_val s l'.
Proof. intros H. cbn. destruct (loc_eq_dec l' l); congruence. Qed.

(** [s'] differs from [s] only in fields in [P]. *)
Definition agree (P : loc -> Prop) (s s' : st) : Prop :=
  s_tlive s' = s_tlive s /\ s_alive s' = s_alive s /\ s_perm s' = s_perm s /\ s_mem s' = s_mem s /\
  forall l, ~ P l -> s_val s' l = s_val s l.

Lemma agree_refl P s : agree P s s.
Proof. repeat split. Qed.
Lemma agree_trans P s1 s2 s3 : agree P s1 s2 -> agree P s2 s3 -> agree P s1 s3.
Proof.
  intros (A1 & A2 & A3 & A4 & A5) (B1 & B2 & B3 & B4 & B5). unfold agree. rewrite B1, B2, B3, B4.
  split; [exact A1|]. split; [exact A2|]. split; [exact A3|]. split; [exact A4|]. intros l H. rewrite B5, A5; auto.
Qed.
Lemma agree_weaken (P P' : loc -> Prop) s s' : (forall l, P l -> P' l) -> agree P s s' -> agree P' s s'.
Proof. intros H (A1 & A2 & A3 & A4 & A5). repeat split; auto. Qed.
Lemma agree_set (P : loc -> Prop) s l v : P l -> agree P s (set_val s l v).
Proof. intros H. repeat split. intros l' N. apply set_other. intros ->. auto. Qed.
Lemma agree_valid P s s' l : agree P s s' -> valid s l -> valid s' l.
Proof. intros (A1 & A2 & _) V. destruct l; cbn in *; rewrite ?A1, ?A2; exact V. Qed.

Section Rules.
Context (c : tcfg) (I : st -> Prop).
Notation wp := (wp c I).

Lemma wp_rd l (Q : val -> st -> Prop) s : I s -> valid s l -> Q (s_val s l) s -> wp (rd l) Q s.
Proof.
  intros Hi V H. cbn. split; [intros B; apply B; exact V|]. split; [exists (s_val s l), s; constructor|].
  intros v s' D. inversion D; subst. split; assumption.
Qed.
Lemma wp_wr l v (Q : val -> st -> Prop) s : valid s l -> I (set_val s l v) -> Q Null (set_val s l v) -> wp (wr l v) Q s.
Proof.
  intros V Hi H. cbn. split; [intros B; apply B; exact V|]. split; [eexists _, _; constructor|].
  intros v' s' D. inversion D; subst. split; assumption.
Qed.
Lemma wp_seq p q Q s : wp p (fun _ s' => wp q Q s') s -> wp (p >> q) Q s.
Proof. intros H. apply wp_bind. exact H. Qed.
Lemma wp_add l d n (Q : val -> st -> Prop) s : I s -> valid s l -> s_val s l = Num n -> I (set_val s l (Num (n + d))) ->
  Q Null (set_val s l (Num (n + d))) -> wp (add_to l d) Q s.
Proof. intros H1 H2 H3 H4 H5. apply wp_bind, wp_rd; auto. rewrite H3. cbn [num]. apply wp_wr; auto. Qed.
Lemma wp_conseq (Q Q' : val -> st -> Prop) p s : wp p Q s -> (forall v s', Q v s' -> Q' v s') -> wp p Q' s.
Proof. intros H1 H2. eapply wp_mono; [|exact H1]. intros v s' _. apply H2. Qed.
End Rules.

(** ** The list of tables with free trampolines *)
Definition link (l : loc) : Prop :=
  match l with G GFree | G GNfree | T _ TPrev | T _ TNext => True | _ => False end.

Definition links (s : st) (fl : list Z) : Prop :=
  s_val s (G GFree) = hdp PTab fl /\ s_val s (G GNfree) = Num (zlen fl) /\
  dll PTab (fun y => s_val s (T y TNext)) (fun y => s_val s (T y TPrev)) Null fl.

Section Lists.
Context (c : tcfg) (I : st -> Prop) (HI : forall s l v, link l -> I s -> I (set_val s l v)).
Notation wp := (wp c I).

Ltac look := repeat (rewrite set_same || rewrite set_other by congruence).

Lemma table_add_ok t fl s : I s -> links s fl -> NoDup (t :: fl) -> (forall y, In y (t :: fl) -> s_tlive s y = true) ->
  wp (tramp_table_add t) (fun _ s' => I s' /\ links s' (t :: fl) /\ agree link s s') s.
Proof.
  intros Hi (L1 & L2 & L3) N Lv. pose proof (Lv t (or_introl eq_refl)) as Lt. unfold tramp_table_add.
  apply wp_bind, wp_rd; [exact Hi|exact Logic.I|]. do 4 apply wp_seq.
  apply wp_wr; [exact Lt|apply HI; [exact Logic.I|exact Hi]|].
  apply wp_wr; [exact Lt|do 2 (apply HI; [exact Logic.I|]); exact Hi|].
  set (s1 := set_val (set_val s (T t TNext) (s_val s (G GFree))) (T t TPrev) Null).
  assert (I1 : I s1) by (unfold s1; do 2 (apply HI; [exact Logic.I|]); exact Hi).
  assert (A1 : agree link s s1) by (eapply agree_trans; apply agree_set; exact Logic.I).
  assert (F1 : s_val s1 (G GFree) = hdp PTab fl) by (unfold s1; look; exact L1).
  assert (K : forall s2, I s2 -> agree link s s2 -> s_val s2 (G GNfree) = Num (zlen fl) ->
    (forall y, s_val s2 (T y TNext) = s_val s1 (T y TNext)) ->
    (forall y, s_val s2 (T y TPrev) = if val_eqb (PTab y) (hdp PTab fl) then PTab t else s_val s1 (T y TPrev)) ->
    wp (wr (G GFree) (PTab t)) (fun _ s' => wp (add_to (G GNfree) 1) (fun _ s' => I s' /\ links s' (t :: fl) /\ agree link s s') s') s2).
  { intros s2 I2 A2 G2 N2 P2. apply wp_wr; [exact Logic.I|apply HI; [exact Logic.I|exact I2]|].
    apply (wp_add _ _ _ 1 (zlen fl)); [apply HI; [exact Logic.I|exact I2]|exact Logic.I|look; exact G2|do 2 (apply HI; [exact Logic.I|]); exact I2|].
    split; [do 2 (apply HI; [exact Logic.I|]); exact I2|]. split.
    - split; [look; reflexivity|]. split; [look; f_equal; unfold zlen; cbn [length]; lia|].
      apply (dll_push PTab ptab_inj (fun y => s_val s (T y TNext)) (fun y => s_val s (T y TPrev))); auto.
      + look. rewrite N2. unfold s1. look. exact L1.
      + look. rewrite P2. destruct (val_eqb_spec (PTab t) (hdp PTab fl)) as [E|].
        * destruct fl as [|h r]; cbn in E; [discriminate|]. apply ptab_inj in E. subst. inversion N; subst. destruct H1. left. reflexivity.
        * unfold s1. look. reflexivity.
      + intros y Hy. assert (y <> t) by (intros ->; inversion N; contradiction). look. rewrite N2. unfold s1. look. reflexivity.
      + intros y Hy. assert (y <> t) by (intros ->; inversion N; contradiction). look. rewrite P2.
        destruct (val_eqb (PTab y) (hdp PTab fl)); [reflexivity|]. unfold s1. look. reflexivity.
    - eapply agree_trans; [exact A2|]. eapply agree_trans; apply agree_set; exact Logic.I. }
  assert (G1 : s_val s1 (G GNfree) = Num (zlen fl)) by (unfold s1; look; exact L2).
  apply wp_bind. apply wp_rd; [exact I1|exact Logic.I|]. rewrite F1. destruct fl as [|h r]; cbn [hdp if_ptr].
  - cbn [TrampDll.wp]. apply K; auto.
  - cbn [deref_t]. assert (I2 : I (set_val s1 (T h TPrev) (PTab t))) by (apply HI; [exact Logic.I|exact I1]).
    apply wp_wr; [change (s_tlive s h = true); apply Lv; right; left; reflexivity|exact I2|].
    apply K; [exact I2| | | |].
    + eapply agree_trans; [exact A1|]. apply agree_set. exact Logic.I.
    + look. exact G1.
    + intros y. look. reflexivity.
    + intros y. cbn [hdp]. destruct (val_eqb_spec (PTab y) (PTab h)) as [E|E]; [apply ptab_inj in E; subst; look; reflexivity|].
      rewrite set_other by congruence. reflexivity.
Qed.

Lemma table_del_ok t a b s : I s -> links s (a ++ t :: b) -> NoDup (a ++ t :: b) ->
  (forall y, In y (a ++ t :: b) -> s_tlive s y = true) ->
  wp (tramp_table_del t) (fun _ s' => I s' /\ links s' (a ++ b) /\ agree link s s') s.
Proof.
  intros Hi (L1 & L2 & L3) N Lv. assert (Lt : s_tlive s t = true) by (apply Lv, in_or_app; right; left; reflexivity).
  destruct (dll_mid PTab _ _ t b a Null L3) as [Mn Mp]. cbn beta in Mn, Mp.
  assert (Nt : ~ In t (a ++ b)) by (apply NoDup_remove_2; exact N).
  set (pv := s_val s (T t TPrev)) in *. set (nx := s_val s (T t TNext)) in *.
  unfold tramp_table_del. do 3 apply wp_seq.
  apply (wp_add _ _ _ (-1) (zlen (a ++ t :: b))); [exact Hi|exact Logic.I|exact L2|apply HI; [exact Logic.I|exact Hi]|].
  set (s1 := set_val s (G GNfree) (Num (zlen (a ++ t :: b) + -1))).
  assert (I1 : I s1) by (apply HI; [exact Logic.I|exact Hi]).
  assert (A1 : agree link s s1) by (apply agree_set; exact Logic.I).
  assert (Pin : forall y, pv = PTab y -> In y a).
  { intros y E. rewrite Mp in E. destruct (rev a) as [|z r] eqn:R; [discriminate|]. apply ptab_inj in E. subst.
    apply in_rev. rewrite R. left. reflexivity. }
  assert (Nin : forall y, nx = PTab y -> In y b).
  { intros y E. rewrite Mn in E. destruct b as [|z r]; [discriminate|]. cbn in E. apply ptab_inj in E. subst. left. reflexivity. }
  assert (Lab : forall y, In y (a ++ b) -> s_tlive s y = true).
  { intros y Hy. apply Lv. apply in_app_or in Hy. apply in_or_app. destruct Hy; [left|right; right]; assumption. }
  (* after the first conditional *)
  apply wp_bind, wp_rd; [exact I1|exact Lt|]. replace (s_val s1 (T t TPrev)) with pv by (unfold s1; look; reflexivity).
  assert (K3 : forall s3, I s3 -> agree link s s3 -> s_val s3 (G GNfree) = Num (zlen (a ++ b)) -> s_val s3 (G GFree) = hdp PTab (a ++ t :: b) ->
    (forall y, y <> t -> s_val s3 (T y TNext) = if val_eqb (PTab y) pv then nx else s_val s (T y TNext)) -> s_val s3 (T t TNext) = nx ->
    (forall y, y <> t -> s_val s3 (T y TPrev) = if val_eqb (PTab y) nx then pv else s_val s (T y TPrev)) ->
    wp (rd (G GFree) >>= fun h => if val_eqb h (PTab t) then rd (T t TNext) >>= fun n => wr (G GFree) n else Ret Null)
      (fun _ s' => I s' /\ links s' (a ++ b) /\ agree link s s') s3).
  { intros s3 I3 A3 G3 F3 N3 N3' P3. apply wp_bind, wp_rd; [exact I3|exact Logic.I|]. rewrite F3.
    assert (D3 : dll PTab (fun y => s_val s3 (T y TNext)) (fun y => s_val s3 (T y TPrev)) Null (a ++ b)).
    { apply (dll_del PTab ptab_inj ptab_null _ _ _ _ t b a Null L3 N); [intros; discriminate| |]; cbn beta; fold pv nx;
        intros y Hy; [apply N3|apply P3]; intros ->; contradiction. }
    destruct (val_eqb_spec (hdp PTab (a ++ t :: b)) (PTab t)) as [E|E].
    - assert (a = []). { destruct a as [|z a']; [reflexivity|]. cbn in E. apply ptab_inj in E. subst. destruct Nt. left. reflexivity. }
      subst a. apply wp_bind, wp_rd; [exact I3|eapply agree_valid; [exact A3|exact Lt]|]. rewrite N3'.
      apply wp_wr; [exact Logic.I|apply HI; [exact Logic.I|exact I3]|]. split; [apply HI; [exact Logic.I|exact I3]|].
      split; [|eapply agree_trans; [exact A3|apply agree_set; exact Logic.I]].
      split; [look; exact Mn|]. split; [look; exact G3|]. eapply dll_ext; [|exact D3]. intros y _. cbn beta. look. split; reflexivity.
    - split; [exact I3|]. split; [|exact A3]. split; [|split; [exact G3|exact D3]]. rewrite F3.
      destruct a as [|z a']; [cbn in E; congruence|reflexivity]. }
  assert (K2 : forall s2, I s2 -> agree link s s2 -> s_val s2 (G GNfree) = Num (zlen (a ++ b)) -> s_val s2 (G GFree) = hdp PTab (a ++ t :: b) ->
    (forall y, y <> t -> s_val s2 (T y TNext) = if val_eqb (PTab y) pv then nx else s_val s (T y TNext)) -> s_val s2 (T t TNext) = nx ->
    (forall y, s_val s2 (T y TPrev) = s_val s (T y TPrev)) ->
    wp (rd (T t TNext) >>= fun n => if_ptr n (rd (T t TPrev) >>= fun p => deref_t n (fun n => wr (T n TPrev) p)))
      (fun _ s' => wp (rd (G GFree) >>= fun h => if val_eqb h (PTab t) then rd (T t TNext) >>= fun n => wr (G GFree) n else Ret Null)
      (fun _ s' => I s' /\ links s' (a ++ b) /\ agree link s s') s') s2).
  { intros s2 I2 A2 G2 F2 N2 N2' P2. apply wp_bind, wp_rd; [exact I2|eapply agree_valid; [exact A2|exact Lt]|]. rewrite N2'.
    destruct nx as [| |n| |] eqn:En; try (rewrite Mn in *; destruct b; discriminate).
    - cbn [if_ptr TrampDll.wp]. apply K3; [exact I2|exact A2|exact G2|exact F2|exact N2|exact N2'|].
      intros y Hy. destruct (val_eqb_spec (PTab y) Null); [discriminate|]. apply P2.
    - cbn [if_ptr deref_t]. apply wp_bind, wp_rd; [exact I2|eapply agree_valid; [exact A2|exact Lt]|]. rewrite P2. fold pv.
      pose proof (Nin n eq_refl) as Hn. assert (n <> t) by (intros ->; apply Nt, in_or_app; right; exact Hn).
      assert (I3 : I (set_val s2 (T n TPrev) pv)) by (apply HI; [exact Logic.I|exact I2]).
      apply wp_wr; [eapply agree_valid; [exact A2|]; apply Lab, in_or_app; right; exact Hn|exact I3|].
      apply K3; [exact I3| | | | | |].
      + eapply agree_trans; [exact A2|apply agree_set; exact Logic.I].
      + look. exact G2.
      + look. exact F2.
      + intros y Hy. look. apply N2. exact Hy.
      + look. exact N2'.
      + intros y Hy. destruct (val_eqb_spec (PTab y) (PTab n)) as [E|E]; [apply ptab_inj in E; subst; look; reflexivity|].
        rewrite set_other by congruence. apply P2. }
  assert (Z1 : zlen (a ++ t :: b) + -1 = zlen (a ++ b)) by (unfold zlen; rewrite !app_length; cbn [length]; lia).
  assert (G1 : s_val s1 (G GNfree) = Num (zlen (a ++ b))) by (unfold s1; look; rewrite Z1; reflexivity).
  assert (F1 : s_val s1 (G GFree) = hdp PTab (a ++ t :: b)) by (unfold s1; look; exact L1).
  destruct pv as [| |p| |] eqn:Ep; try (rewrite Mp in *; destruct (rev a); discriminate).
  - cbn [if_ptr TrampDll.wp]. apply K2; [exact I1|exact A1|exact G1|exact F1| |unfold s1; look; reflexivity|intros y; unfold s1; look; reflexivity].
    + intros y Hy. destruct (val_eqb_spec (PTab y) Null); [discriminate|]. unfold s1. look. reflexivity.
  - cbn [if_ptr deref_t]. apply wp_bind, wp_rd; [exact I1|exact Lt|]. 
    pose proof (Pin p eq_refl) as Hp. assert (p <> t) by (intros ->; apply Nt, in_or_app; left; exact Hp).
    replace (s_val s1 (T t TNext)) with nx by (unfold s1; look; reflexivity).
    assert (I2 : I (set_val s1 (T p TNext) nx)) by (apply HI; [exact Logic.I|exact I1]).
    apply wp_wr; [apply Lab, in_or_app; left; exact Hp|exact I2|].
    apply K2; [exact I2| | | | | |].
    + eapply agree_trans; [exact A1|apply agree_set; exact Logic.I].
    + look. exact G1.
    + look. exact F1.
    + intros y Hy. destruct (val_eqb_spec (PTab y) (PTab p)) as [E|E]; [apply ptab_inj in E; subst; look; reflexivity|].
      rewrite set_other by congruence. unfold s1. look. reflexivity.
    + look. unfold s1. look. reflexivity.
    + intros y. look. unfold s1. look. reflexivity.
Qed.
End Lists.

(** ** A table *)
Record atab : Type := AT { at_id : Z; at_arr : Z; at_base : Z; at_free : list Z }.
Definition with_free (t : atab) (l : list Z) : atab := AT (at_id t) (at_arr t) (at_base t) l.
Definition ntramp (c : tcfg) : Z := tc_map c / tc_size c.

Definition mapped (c : tcfg) (s : st) (b : Z) : Prop :=
  0 < b /\ b + 2 * tc_map c <= 2 ^ 64 /\
  (forall x, b <= x < b + tc_map c -> s_perm s x = RX /\ s_mem s x = tc_code c (x - b)) /\
  (forall x, b + tc_map c <= x < b + 2 * tc_map c -> s_perm s x = RW).

(** The free list of a table. *)
Definition flist (s : st) (m : Z) (t : atab) : Prop :=
  let '(AT id arr _ fr) := t in
  s_val s (T id TFree) = hdp (PTr arr) fr /\ s_val s (T id TNfree) = Num (zlen fr) /\
  dll (PTr arr) (fun i => s_val s (A arr i ANext)) (fun i => s_val s (A arr i APrev)) Null fr /\
  NoDup fr /\ forall i, In i fr -> 0 <= i < m.

(** A table with [m] trampolines set up. *)
Definition tabm (c : tcfg) (m : Z) (s : st) (t : atab) : Prop :=
  let '(AT id arr b fr) := t in
  s_tlive s id = true /\ s_alive s arr = Some (ntramp c) /\
  s_val s (T id TCode) = Addr b /\ s_val s (T id TParm) = Addr (b + tc_map c) /\ s_val s (T id TArray) = PTr arr 0 /\
  (forall i, 0 <= i < m -> s_val s (A arr i ATable) = PTab id /\ s_val s (A arr i ACode) = Addr (b + i * tc_size c) /\
     s_val s (A arr i AParm) = Addr (b + tc_map c + i * tc_size c)) /\
  mapped c s b /\ flist s m t.

(** The fields of the free list of a table. *)
Definition tlink (t : atab) (l : loc) : Prop :=
  match l with
  | A arr _ APrev | A arr _ ANext => arr = at_arr t
  | T id TFree | T id TNfree => id = at_id t
  | _ => False
  end.

Section Table.
Context (c : tcfg) (I : st -> Prop).
Notation wp := (wp c I).
Ltac look := repeat (rewrite set_same || rewrite set_other by congruence).

Lemma tab_agree m P s s' t : tabm c m s t -> agree P s s' -> (forall l, P l -> match l with T id TPrev | T id TNext => True | T id _ => id <> at_id t | A arr _ _ => arr <> at_arr t | _ => True end) -> tabm c m s' t.
Proof.
  destruct t as [id arr b fr]. intros (H1 & H2 & H3 & H4 & H5 & H6 & H7 & H8) (A1 & A2 & A3 & A4 & A5) HP. unfold tabm. cbn [at_id at_arr] in *.
  assert (ET : forall f, match f with TPrev | TNext => True | _ => s_val s' (T id f) = s_val s (T id f) end).
  { intros []; auto; apply A5; intros HPl; apply HP in HPl; auto. }
  assert (EA : forall i f, s_val s' (A arr i f) = s_val s (A arr i f)).
  { intros i f. apply A5. intros HPl. apply HP in HPl. auto. }
  rewrite A1, A2. rewrite (ET TCode), (ET TParm), (ET TArray). repeat (split; [assumption|]). split.
  { intros i Hi. rewrite !EA. apply H6. exact Hi. }
  split; [unfold mapped in *; rewrite A3, A4; exact H7|].
  destruct H8 as (F1 & F2 & F3 & F4 & F5). cbn. rewrite (ET TFree), (ET TNfree). repeat (split; [assumption|]).
  split; [|split; assumption]. eapply dll_ext; [|exact F3]. intros i _. cbn beta. rewrite !EA. split; reflexivity.
Qed.

(** Only links change. *)
Lemma tab_rest m s s' t : tabm c m s t -> agree (tlink t) s s' -> forall fr, flist s' m (with_free t fr) -> tabm c m s' (with_free t fr).
Proof.
  destruct t as [id arr b fr0]. intros (H1 & H2 & H3 & H4 & H5 & H6 & H7 & H8) (A1 & A2 & A3 & A4 & A5) fr F. cbn [with_free at_id at_arr at_base].
  unfold tabm, with_free. cbn [at_id at_arr at_base]. rewrite A1, A2. split; [exact H1|]. split; [exact H2|].
  split; [rewrite A5 by (cbn; auto); exact H3|]. split; [rewrite A5 by (cbn; auto); exact H4|]. split; [rewrite A5 by (cbn; auto); exact H5|]. split.
  { intros i Hi. rewrite (A5 (A arr i ATable)), (A5 (A arr i ACode)), (A5 (A arr i AParm)) by (cbn; auto). apply H6. exact Hi. }
  split; [unfold mapped in *; rewrite A3, A4; exact H7|exact F].
Qed.

Context (HI : forall t s l v, tlink t l -> I s -> I (set_val s l v)).

Definition push_prog (id arr i : Z) : prog :=
  (rd (T id TFree) >>= fun f => wr (A arr i ANext) f) >>
  wr (A arr i APrev) Null >>
  (rd (T id TFree) >>= fun f => if_ptr f (deref_a f (fun a' i' => wr (A a' i' APrev) (PTr arr i)))) >>
  wr (T id TFree) (PTr arr i) >>
  add_to (T id TNfree) 1.

Lemma push_ok m s t i : I s -> tabm c m s t -> 0 <= i < m -> m <= ntramp c -> ~ In i (at_free t) ->
  wp (push_prog (at_id t) (at_arr t) i)
    (fun _ s' => I s' /\ tabm c m s' (with_free t (i :: at_free t)) /\ agree (tlink t) s s') s.
Proof.
  intros Hi Tb Hm Hn Ni. pose proof Tb as Tb'. destruct t as [id arr b fr]. cbn [at_id at_arr at_base at_free with_free] in *.
  destruct Tb as (H1 & H2 & H3 & H4 & H5 & H6 & H7 & F1 & F2 & F3 & F4 & F5).
  set (t := AT id arr b fr) in *.
  assert (V : forall j f, 0 <= j < m -> valid s (A arr j f)) by (intros j f Hj; exists (ntramp c); split; [exact H2|lia]).
  assert (TL : tlink t (A arr i ANext) /\ tlink t (A arr i APrev) /\ tlink t (T id TFree) /\ tlink t (T id TNfree)) by (cbn; auto).
  destruct TL as (TL1 & TL2 & TL3 & TL4).
  unfold push_prog. do 4 apply wp_seq. apply wp_bind, wp_rd; [exact Hi|exact H1|].
  apply wp_wr; [apply V; lia|apply (HI t); assumption|]. apply wp_wr; [exact (V i APrev Hm)|do 2 (apply (HI t); [assumption|]); exact Hi|].
  set (s1 := set_val (set_val s (A arr i ANext) (s_val s (T id TFree))) (A arr i APrev) Null).
  assert (I1 : I s1) by (do 2 (apply (HI t); [assumption|]); exact Hi).
  assert (A1 : agree (tlink t) s s1) by (eapply agree_trans; apply agree_set; assumption).
  assert (E1 : s_val s1 (T id TFree) = hdp (PTr arr) fr) by (unfold s1; look; exact F1).
  apply wp_bind, wp_rd; [exact I1|exact H1|]. rewrite E1.
  assert (K : forall s2, I s2 -> agree (tlink t) s s2 -> s_val s2 (T id TNfree) = Num (zlen fr) ->
    (forall y, s_val s2 (A arr y ANext) = s_val s1 (A arr y ANext)) ->
    (forall y, s_val s2 (A arr y APrev) = if val_eqb (PTr arr y) (hdp (PTr arr) fr) then PTr arr i else s_val s1 (A arr y APrev)) ->
    wp (wr (T id TFree) (PTr arr i)) (fun _ s' => wp (add_to (T id TNfree) 1)
      (fun _ s' => I s' /\ tabm c m s' (AT id arr b (i :: fr)) /\ agree (tlink t) s s') s') s2).
  { intros s2 I2 A2 G2 N2 P2. apply wp_wr; [eapply agree_valid; [exact A2|exact H1]|apply (HI t); assumption|].
    apply (wp_add _ _ _ 1 (zlen fr)); [apply (HI t); assumption|exact (agree_valid _ _ _ (T id TNfree) A2 H1)|look; exact G2|do 2 (apply (HI t); [assumption|]); exact I2|].
    split; [do 2 (apply (HI t); [assumption|]); exact I2|].
    match goal with |- tabm _ _ ?s3 _ /\ _ => assert (A3 : agree (tlink t) s s3) by (eapply agree_trans; [exact A2|]; eapply agree_trans; apply agree_set; assumption) end.
    split; [|exact A3].
    apply (tab_rest m s _ t Tb' A3). cbn [with_free at_id at_arr at_base t flist].
    split; [look; reflexivity|]. split; [look; f_equal; unfold zlen; cbn [length]; lia|].
    assert (Nd : NoDup (i :: fr)) by (constructor; assumption).
    split; [|split; [exact Nd|intros j [<-|Hj]; [exact Hm|apply F5; exact Hj]]].
    apply (dll_push (PTr arr) (ptr_inj arr) (fun y => s_val s (A arr y ANext)) (fun y => s_val s (A arr y APrev))); auto.
    + look. rewrite N2. unfold s1. look. exact F1.
    + look. rewrite P2. destruct (val_eqb_spec (PTr arr i) (hdp (PTr arr) fr)) as [E|].
      * destruct fr as [|h r]; cbn in E; [discriminate|]. apply ptr_inj in E. subst. destruct Ni. left. reflexivity.
      * unfold s1. look. reflexivity.
    + intros y Hy. assert (y <> i) by congruence. look. rewrite N2. unfold s1. look. reflexivity.
    + intros y Hy. assert (y <> i) by congruence. look. rewrite P2.
      destruct (val_eqb (PTr arr y) (hdp (PTr arr) fr)); [reflexivity|]. unfold s1. look. reflexivity. }
  assert (G1 : s_val s1 (T id TNfree) = Num (zlen fr)) by (unfold s1; look; exact F2).
  destruct fr as [|h r]; cbn [hdp if_ptr].
  - cbn [TrampDll.wp]. apply K; [exact I1|exact A1|exact G1| |].
    + reflexivity.
    + intros y. destruct (val_eqb_spec (PTr arr y) (hdp (PTr arr) [])) as [E|]; [discriminate|reflexivity].
  - cbn [deref_a]. assert (TLh : tlink t (A arr h APrev)) by (cbn; reflexivity).
    assert (I2 : I (set_val s1 (A arr h APrev) (PTr arr i))) by (apply (HI t); assumption).
    apply wp_wr; [eapply agree_valid; [exact A1|]; apply V; apply F5; left; reflexivity|exact I2|].
    apply K; [exact I2| | | |].
    + eapply agree_trans; [exact A1|apply agree_set; exact TLh].
    + look. exact G1.
    + intros y. look. reflexivity.
    + intros y. cbn [hdp]. destruct (val_eqb_spec (PTr arr y) (PTr arr h)) as [E|E]; [apply ptr_inj in E; subst; look; reflexivity|].
      rewrite set_other by congruence. reflexivity.
Qed.

Definition pop_prog (id arr i : Z) : prog :=
  add_to (T id TNfree) (-1) >>
  (rd (A arr i APrev) >>= fun p => if_ptr p (rd (A arr i ANext) >>= fun n => deref_a p (fun a' i' => wr (A a' i' ANext) n))) >>
  (rd (A arr i ANext) >>= fun n => if_ptr n (rd (A arr i APrev) >>= fun p => deref_a n (fun a' i' => wr (A a' i' APrev) p))) >>
  (rd (T id TFree) >>= fun f => if val_eqb f (PTr arr i) then rd (A arr i ANext) >>= fun n => wr (T id TFree) n else Ret Null).

Lemma pop_ok m s t i fr : I s -> tabm c m s t -> m <= ntramp c -> at_free t = i :: fr ->
  wp (pop_prog (at_id t) (at_arr t) i)
    (fun _ s' => I s' /\ tabm c m s' (with_free t fr) /\ agree (tlink t) s s') s.
Proof.
  intros Hi Tb Hn Efr. pose proof Tb as Tb'. destruct t as [id arr b fr0]. cbn [at_id at_arr at_base at_free with_free] in *. subst fr0.
  destruct Tb as (H1 & H2 & H3 & H4 & H5 & H6 & H7 & F1 & F2 & F3 & F4 & F5).
  set (t := AT id arr b (i :: fr)) in *.
  assert (V : forall j f, In j (i :: fr) -> valid s (A arr j f)) by (intros j f Hj; apply F5 in Hj; exists (ntramp c); split; [exact H2|lia]).
  assert (TL : tlink t (A arr i ANext) /\ tlink t (A arr i APrev) /\ tlink t (T id TFree) /\ tlink t (T id TNfree)) by (cbn; auto).
  destruct TL as (TL1 & TL2 & TL3 & TL4). inversion F4 as [|? ? Ni F4']; subst.
  destruct F3 as (D1 & D2 & D3).
  unfold pop_prog. do 3 apply wp_seq.
  apply (wp_add _ _ _ (-1) (zlen (i :: fr))); [exact Hi|exact H1|exact F2|apply (HI t); assumption|].
  set (s1 := set_val s (T id TNfree) (Num (zlen (i :: fr) + -1))).
  assert (I1 : I s1) by (apply (HI t); assumption).
  assert (A1 : agree (tlink t) s s1) by (apply agree_set; assumption).
  apply wp_bind, wp_rd; [exact I1|exact (V i APrev (or_introl eq_refl))|].
  replace (s_val s1 (A arr i APrev)) with Null by (unfold s1; look; symmetry; exact D1). cbn [if_ptr TrampDll.wp].
  apply wp_bind, wp_rd; [exact I1|exact (V i APrev (or_introl eq_refl))|].
  replace (s_val s1 (A arr i ANext)) with (hdp (PTr arr) fr) by (unfold s1; look; symmetry; exact D2).
  assert (K : forall s2, I s2 -> agree (tlink t) s s2 -> s_val s2 (T id TNfree) = Num (zlen fr) -> s_val s2 (T id TFree) = PTr arr i ->
    (forall y, s_val s2 (A arr y ANext) = s_val s (A arr y ANext)) ->
    (forall y, s_val s2 (A arr y APrev) = if val_eqb (PTr arr y) (hdp (PTr arr) fr) then Null else s_val s (A arr y APrev)) ->
    wp (rd (T id TFree) >>= fun f => if val_eqb f (PTr arr i) then rd (A arr i ANext) >>= fun n => wr (T id TFree) n else Ret Null)
      (fun _ s' => I s' /\ tabm c m s' (AT id arr b fr) /\ agree (tlink t) s s') s2).
  { intros s2 I2 A2 G2 E2 N2 P2. apply wp_bind, wp_rd; [exact I2|eapply agree_valid; [exact A2|exact H1]|]. rewrite E2.
    destruct (val_eqb_spec (PTr arr i) (PTr arr i)); [|congruence].
    apply wp_bind, wp_rd; [exact I2|eapply agree_valid; [exact A2|]; exact (V i APrev (or_introl eq_refl))|]. rewrite N2, D2.
    apply wp_wr; [eapply agree_valid; [exact A2|exact H1]|apply (HI t); assumption|]. split; [apply (HI t); assumption|].
    match goal with |- tabm _ _ ?s3 _ /\ _ => assert (A3 : agree (tlink t) s s3) by (eapply agree_trans; [exact A2|]; apply agree_set; assumption) end.
    split; [|exact A3]. apply (tab_rest m s _ t Tb' A3). cbn [with_free at_id at_arr at_base t flist].
    split; [look; reflexivity|]. split; [look; exact G2|].
    split; [|split; [exact F4'|intros j Hj; apply F5; right; exact Hj]].
    assert (D : dll (PTr arr) (fun y => s_val s (A arr y ANext)) (fun y => s_val s (A arr y APrev)) Null (i :: fr)) by (split; [exact D1|split; [exact D2|exact D3]]).
    apply (dll_del (PTr arr) (ptr_inj arr) (ptr_null arr) _ _ _ _ i fr [] Null D F4); [intros; discriminate| |]; cbn beta; rewrite D1, D2; intros y Hy.
    + look. rewrite N2. destruct (val_eqb_spec (PTr arr y) Null); [discriminate|reflexivity].
    + look. rewrite P2. reflexivity. }
  assert (G1 : s_val s1 (T id TNfree) = Num (zlen fr)) by (unfold s1; look; f_equal; unfold zlen; cbn [length]; lia).
  assert (E1 : s_val s1 (T id TFree) = PTr arr i) by (unfold s1; look; exact F1).
  destruct fr as [|h r]; cbn [hdp if_ptr].
  - cbn [TrampDll.wp]. apply K; [exact I1|exact A1|exact G1|exact E1| |].
    + intros y. unfold s1. look. reflexivity.
    + intros y. destruct (val_eqb_spec (PTr arr y) (hdp (PTr arr) [])) as [E|]; [discriminate|unfold s1; look; reflexivity].
  - apply wp_bind, wp_rd; [exact I1|exact (V i APrev (or_introl eq_refl))|]. cbn [deref_a].
    replace (s_val s1 (A arr i APrev)) with Null by (unfold s1; look; symmetry; exact D1).
    assert (TLh : tlink t (A arr h APrev)) by (cbn; reflexivity).
    assert (I2 : I (set_val s1 (A arr h APrev) Null)) by (apply (HI t); assumption).
    apply wp_wr; [eapply agree_valid; [exact A1|]; exact (V h APrev (or_intror (or_introl eq_refl)))|exact I2|].
    apply K; [exact I2| | | | |].
    + eapply agree_trans; [exact A1|apply agree_set; exact TLh].
    + look. exact G1.
    + look. exact E1.
    + intros y. look. unfold s1. look. reflexivity.
    + intros y. cbn [hdp]. destruct (val_eqb_spec (PTr arr y) (PTr arr h)) as [E|E]; [apply ptr_inj in E; subst; look; reflexivity|].
      rewrite set_other by congruence. unfold s1. look. reflexivity.
Qed.
End Table.
