(** Consequences of the invariant: the properties of the trampoline allocator. *)
From Coq Require Import ZifyBool ZifyNat Permutation.
From Verif Require Import Base BaseFacts TrampModel TrampSpec TrampDll TrampProofs TrampInv TrampOps TrampAlloc TrampInit TrampSys.
From Verif Require Import TrampCodeModel TrampCodeSpec TrampCodeProofs.
Local Arguments Z.mul : simpl never.
Local Arguments Z.add : simpl never.
Local Arguments Z.sub : simpl never.
Local Arguments Z.pow : simpl never.
Local Arguments Z.eqb : simpl never.
Local Arguments Z.div : simpl never.
Local Arguments val_eqb : simpl never.

Section Main.
Context (c : tcfg) (Hc : 16 <= tc_size c <= tc_map c).
Notation N := (ntramp c).

Lemma kept_held (l : list tstate) e : In e (flat_map kept l) -> (forall t x, nth_error l t = Some x -> match x with Run cl own _ => ownok cl own | _ => True end) ->
  exists e', In e' (flat_map held l) /\ (e = e' \/ e = Entry (e_arr e') (e_i e') None).
Proof.
  intros H Ho. apply in_flat_map in H as (x & Hx & He). apply In_nth_error in Hx as (t & Hx). specialize (Ho t x Hx).
  assert (K : exists e', In e' (held x) /\ (e = e' \/ e = Entry (e_arr e') (e_i e') None)).
  { destruct x as [|cl own p]; [destruct He|]. destruct p as [v|o k]; [exists e; split; [destruct cl; exact He|left; reflexivity]|].
    destruct cl; try destruct He. cbn in Ho. destruct Ho as (q & ->). subst e. exists (Entry a i q). split; [left; reflexivity|right; reflexivity]. contradiction. }
  destruct K as (e' & K1 & K2). exists e'. split; [|exact K2]. apply in_flat_map. exists x. split; [eapply nth_error_In, Hx|exact K1].
Qed.

(** Live trampolines are in place, whoever holds the mutex. *)
Lemma live_stable bs pk y : sys_ok c bs pk y -> stableb c bs (live y) (y_st y).
Proof.
  intros [Ht Hl]. assert (Ho : forall t x, nth_error (y_thr y) t = Some x -> match x with Run cl own _ => ownok cl own | _ => True end).
  { intros t x Hx. specialize (Ht t x Hx). destruct x; [exact I|apply Ht]. }
  intros e He. unfold live in He. apply in_app_or in He. unfold lock_ok in Hl. destruct (y_owner y) as [t|].
  - destruct Hl as (cl & own & p & L & En & PL & Sp & St & Sf).
    assert (InL : forall e', In e' (y_pool y ++ flat_map held (others t (y_thr y))) -> eok c (y_st y) (bs (e_arr e')) e').
    { intros e' He'. apply St. apply in_or_app. right. eapply Permutation_in; [symmetry; exact PL|exact He']. }
    destruct He as [He|He]; [apply InL, in_or_app; left; exact He|].
    rewrite (split_thr _ _ _ En), flat_map_app in He. cbn [flat_map] in He.
    assert (He' : In e (kept (Run cl own p)) \/ In e (flat_map kept (others t (y_thr y)))).
    { unfold others. rewrite flat_map_app. apply in_app_or in He as [He|He]; [right; apply in_or_app; left; exact He|].
      apply in_app_or in He as [He|He]; [left; exact He|right; apply in_or_app; right; exact He]. }
    destruct He' as [He'|He'].
    + apply St. apply in_or_app. left. destruct p as [v|o k]; [destruct Sf|]. destruct cl; exact He'.
    + apply kept_held in He' as (e' & H1 & H2).
      * specialize (InL e' ltac:(apply in_or_app; right; exact H1)). destruct H2 as [->| ->]; [exact InL|]. destruct e'. eapply eok_none, InL.
      * intros u x Hx. assert (Hin : In x (y_thr y)).
        { apply nth_error_In in Hx. unfold others in Hx. rewrite (split_thr _ _ _ En). apply in_app_or in Hx. apply in_or_app. destruct Hx; [left|right; right]; assumption. }
        apply In_nth_error in Hin as (w & Hw). exact (Ho w x Hw).
  - destruct Hl as [St _]. destruct He as [He|He]; [apply St, in_or_app; left; exact He|].
    apply kept_held in He as (e' & H1 & H2); [|exact Ho]. specialize (St e' ltac:(apply in_or_app; right; exact H1)).
    destruct H2 as [->| ->]; [exact St|]. destruct e'. eapply eok_none, St.
Qed.

Lemma inuse_sep bs pk y : sys_ok c bs pk y -> sep c bs (inuse y).
Proof.
  intros [Ht Hl]. unfold lock_ok in Hl. destruct (y_owner y) as [t|]; [|eapply good_sep, Hl].
  destruct Hl as (cl & own & p & L & En & PL & Sp & St & Sf). eapply sep_perm; [|exact Sp].
  unfold inuse. rewrite (thr_perm _ _ _ En). replace (held (Run cl own p)) with own by (destruct p; [destruct Sf|reflexivity]).
  rewrite PL. rewrite !app_assoc. apply Permutation_app_tail, Permutation_app_comm.
Qed.

(** Live ones are among those in use, apart from their parameters. *)
Lemma kept_sub : forall l, (forall t x, nth_error l t = Some x -> match x with Run cl own _ => ownok cl own | _ => True end) ->
  exists r, Permutation (map key (flat_map held l)) (map key (flat_map kept l) ++ r).
Proof.
  induction l as [|x l IH]; intros Ho; [exists []; reflexivity|]. destruct IH as [r IH]; [intros t z Hz; exact (Ho (S t) z Hz)|].
  specialize (Ho O x eq_refl). cbn [flat_map]. rewrite !map_app.
  assert (K : exists r', Permutation (map key (held x)) (map key (kept x) ++ r')).
  { destruct x as [|cl own p]; [exists []; reflexivity|]. destruct p as [v|o k]; [exists []; rewrite app_nil_r; destruct cl; reflexivity|].
    destruct cl; cbn in *; subst; try (exists []; reflexivity).
    - destruct Ho as (q & ->). exists []. reflexivity.
    - exists (map key own). reflexivity. }
  destruct K as [r' K]. exists (r' ++ r). rewrite K, IH. rewrite <- !app_assoc. apply Permutation_app_head.
  rewrite !app_assoc. apply Permutation_app_tail, Permutation_app_comm.
Qed.

Lemma nodup_l {X} (l r : list X) : NoDup (l ++ r) -> NoDup l.
Proof.
  induction l as [|x l IH]; cbn; intros H; [constructor|]. inversion H as [|? ? HA HB]. constructor; [|apply IH, HB].
  intros X'. apply HA, in_or_app. left. exact X'.
Qed.

Lemma live_sep bs pk y : sys_ok c bs pk y -> NoDup (map key (live y)).
Proof.
  intros S. destruct (inuse_sep bs pk y S) as [Nd _]. destruct S as [Ht _].
  destruct (kept_sub (y_thr y)) as [r P]. { intros t x Hx. specialize (Ht t x Hx). destruct x; [exact I|apply Ht]. }
  unfold live, inuse in *. rewrite map_app in *. rewrite P in Nd. rewrite app_assoc in Nd. eapply nodup_l. exact Nd.
Qed.

Lemma live_apart bs pk y e e' : sys_ok c bs pk y -> In e (live y) -> In e' (live y) -> e_arr e <> e_arr e' ->
  disjoint (2 * tc_map c) (bs (e_arr e)) (bs (e_arr e')).
Proof.
  intros S. destruct (inuse_sep bs pk y S) as [_ Ap]. destruct S as [Ht _].
  assert (K : forall e, In e (live y) -> exists e1, In e1 (inuse y) /\ e_arr e1 = e_arr e).
  { intros x Hx. unfold live in Hx. apply in_app_or in Hx as [Hx|Hx]; [exists x; split; [apply in_or_app; left; exact Hx|reflexivity]|].
    apply kept_held in Hx as (x' & H1 & H2).
    - exists x'. split; [apply in_or_app; right; exact H1|]. destruct H2 as [->| ->]; reflexivity.
    - intros t z Hz. specialize (Ht t z Hz). destruct z; [exact I|apply Ht]. }
  intros He He' Ne. destruct (K e He) as (e1 & I1 & E1). destruct (K e' He') as (e2 & I2 & E2). rewrite <- E1, <- E2. apply Ap; auto. congruence.
Qed.

Lemma eok_placed s b e : eok c s b e -> placed c s (e_arr e) (e_i e) b.
Proof.
  intros (H1 & H2 & H3 & H4 & (M1 & M2 & M3 & M4) & _). pose proof (slot_in c _ Hc H2) as [S1 S2].
  split; [lia|]. split; [lia|]. repeat (split; [assumption|]). assumption.
Qed.

Theorem live_placed y : reach c y -> exists bs : Z -> Z,
  (forall e, In e (live y) -> placed c (y_st y) (e_arr e) (e_i e) (bs (e_arr e))) /\
  (forall e e', In e (live y) -> In e' (live y) -> e_arr e <> e_arr e' -> disjoint (2 * tc_map c) (bs (e_arr e)) (bs (e_arr e'))) /\
  NoDup (map handle (live y)).
Proof.
  intros H. apply (reach_ok c Hc) in H as (bs & pk & S). exists bs. split; [|split].
  - intros e He. apply eok_placed. eapply live_stable; eassumption.
  - intros e e'. eapply live_apart; eassumption.
  - eapply live_sep. exact S.
Qed.

Theorem live_mapped y e : reach c y -> In e (live y) -> exists b, placed c (y_st y) (e_arr e) (e_i e) b.
Proof. intros H He. destruct (live_placed y H) as (bs & Pl & _). eexists. apply Pl, He. Qed.

Theorem live_distinct y j k e e' : reach c y -> nth_error (live y) j = Some e -> nth_error (live y) k = Some e' -> j <> k ->
  exists p p' q q',
    s_val (y_st y) (A (e_arr e) (e_i e) ACode) = Addr p /\ s_val (y_st y) (A (e_arr e') (e_i e') ACode) = Addr p' /\
    s_val (y_st y) (A (e_arr e) (e_i e) AParm) = Addr q /\ s_val (y_st y) (A (e_arr e') (e_i e') AParm) = Addr q' /\
    disjoint (tc_size c) p p' /\ disjoint (tc_size c) q q' /\ disjoint (tc_size c) p q' /\ disjoint (tc_size c) q p'.
Proof.
  intros H Hj Hk Ne. destruct (live_placed y H) as (bs & Pl & Ap & Nd).
  pose proof (nth_error_In _ _ Hj) as He. pose proof (nth_error_In _ _ Hk) as He'.
  destruct (Pl e He) as (A1 & A2 & A3 & A4 & A5 & A6 & _). destruct (Pl e' He') as (B1 & B2 & B3 & B4 & B5 & B6 & _).
  assert (Kn : handle e <> handle e').
  { intros E. apply Ne. rewrite NoDup_nth_error in Nd. apply Nd; [rewrite map_length; apply nth_error_Some; congruence|].
    rewrite (map_nth_error handle _ _ Hj), (map_nth_error handle _ _ Hk), E. reflexivity. }
  do 4 eexists. split; [exact A5|]. split; [exact B5|]. split; [exact A6|]. split; [exact B6|].
  destruct (Z.eq_dec (e_arr e) (e_arr e')) as [E|E].
  - assert (Ni : e_i e <> e_i e') by (intros X; apply Kn; unfold handle; congruence). rewrite E in *. unfold disjoint.
    destruct (Z.lt_ge_cases (e_i e) (e_i e')).
    + assert (e_i e * tc_size c + tc_size c <= e_i e' * tc_size c) by nia. lia.
    + assert (e_i e' * tc_size c + tc_size c <= e_i e * tc_size c) by nia. lia.
  - specialize (Ap e e' He He' E). unfold disjoint in *. nia.
Qed.

Theorem get_result y t a i own v : reach c y -> nth_error (y_thr y) t = Some (Run (CGet a i) own (Ret v)) ->
  (exists p, In (Entry a i p) (y_pool y)) /\ v = s_val (y_st y) (A a i ACode).
Proof.
  intros H Hn. apply (reach_ok c Hc) in H as (bs & pk & S). pose proof S as [Ht _]. destruct (Ht _ _ Hn) as (_ & _ & (q & Hq) & Hv).
  split; [eauto|]. rewrite (Hv v eq_refl). destruct (live_stable _ _ _ S (Entry a i q)) as (_ & _ & X & _); [apply in_or_app; left; exact Hq|]. symmetry. exact X.
Qed.

(** ** Safety *)
Lemma owner_only bs pk y t cl own o k : sys_ok c bs pk y -> nth_error (y_thr y) t = Some (Run cl own (Do o k)) -> o <> Lock -> y_owner y = Some t.
Proof.
  intros [Ht _] Hn No. destruct (Ht _ _ Hn) as (_ & [T|[_ [T|(v & T)]]] & _); [exact T| |discriminate].
  destruct (code_lock c cl) as (k' & E). rewrite E in T. injection T as -> _. congruence.
Qed.

Theorem no_bad y : reach c y -> ~ ybad y.
Proof.
  intros H (t & cl & own & o & k & Hn & B). apply (reach_ok c Hc) in H as (bs & pk & S).
  assert (D : o = Lock \/ o <> Lock) by (destruct o; auto; right; discriminate). destruct D as [->|D].
  { destruct B as [[]|[X _]]. discriminate. }
  pose proof (owner_only _ _ _ _ _ _ _ _ S Hn D) as Ho. destruct S as [_ Hl]. unfold lock_ok in Hl. rewrite Ho in Hl.
  destruct Hl as (cl' & own' & p & L & En & _ & _ & _ & Sf). rewrite Hn in En. injection En as <- <- <-.
  destruct B as [B|[-> B]]; [|congruence]. destruct o; cbn [safe] in Sf; try (apply Sf; exact B); try contradiction.
Qed.

Theorem mutual_exclusion y t cl own o k : reach c y -> nth_error (y_thr y) t = Some (Run cl own (Do o k)) -> o <> Lock -> y_owner y = Some t.
Proof. intros H. apply (reach_ok c Hc) in H as (bs & pk & S). eapply owner_only; eassumption. Qed.

Theorem no_duplicates y : reach c y -> NoDup (map handle (inuse y)).
Proof. intros H. apply (reach_ok c Hc) in H as (bs & pk & S). apply (inuse_sep _ _ _ S). Qed.

Theorem finishes y t : reach c y -> y_owner y = Some t ->
  exists y' cl own v, alone c t y y' /\ y_owner y' = None /\ nth_error (y_thr y') t = Some (Run cl own (Ret v)).
Proof.
  intros H Ho. apply (reach_ok c Hc) in H as (bs & pk & S). destruct S as [_ Hl]. unfold lock_ok in Hl. rewrite Ho in Hl.
  destruct Hl as (cl & own & p & L & En & _ & _ & _ & Sf).
  revert y Ho En Sf. generalize (keep cl ++ L) as K. generalize (after c cl bs L pk) as Q.
  induction p as [v|o k IH]; intros Q K y Ho En Sf; [destruct Sf|].
  assert (Lk : (o = Lock \/ o = Unlock) \/ (o <> Lock /\ o <> Unlock)) by (destruct o; auto; right; split; discriminate).
  destruct Lk as [[-> | ->]|[L1 L2]]; [destruct Sf| |].
  - cbn [safe] in Sf. destruct (k Null) as [v|] eqn:Ek; [|contradiction].
    exists (Sys (y_st y) None (set_thr (y_thr y) t (Run cl own (k Null))) (y_pool y)), cl, own, v. split; [|split; [reflexivity|]].
    + eapply alone_step; [eapply y_unlock; eassumption| |apply alone_refl]. intros u Nu. cbn [y_thr]. rewrite (nth_set _ _ _ _ _ En).
      destruct (Nat.eqb_spec u t); [congruence|reflexivity].
    + cbn [y_thr]. rewrite (nth_set _ _ _ _ _ En), Nat.eqb_refl, Ek. reflexivity.
  - assert (X : exists v s', does c (y_st y) o v s' /\ safe c (stableb c bs K) (k v) Q s').
    { destruct o; cbn [safe] in Sf; try congruence; destruct Sf as (_ & (w9 & s9 & D) & Sf); exists w9, s9; (split; [exact D|apply Sf, D]). }
    destruct X as (v & s' & D & Sf').
    destruct (IH v Q K (Sys s' (y_owner y) (set_thr (y_thr y) t (Run cl own (k v))) (y_pool y))) as (y' & cl' & own' & v' & Al & R); auto.
    + cbn [y_thr]. rewrite (nth_set _ _ _ _ _ En), Nat.eqb_refl. reflexivity.
    + exists y', cl', own', v'. split; [|exact R]. eapply alone_step; [eapply y_do; eassumption| |exact Al].
      intros u Nu. cbn [y_thr]. rewrite (nth_set _ _ _ _ _ En). destruct (Nat.eqb_spec u t); [congruence|reflexivity].
Qed.

Theorem progress y t cl own p : reach c y -> nth_error (y_thr y) t = Some (Run cl own p) -> exists y', ystep c y y'.
Proof.
  intros H Hn. destruct (y_owner y) as [u|] eqn:Eo.
  - destruct (finishes y u H Eo) as (y' & _ & _ & _ & Al & Ow & _). inversion Al as [|? y1 ? S]; subst; [congruence|eauto].
  - destruct p as [v|o k]; [eexists; eapply y_ret, Hn|].
    assert (D : o = Lock \/ o <> Lock) by (destruct o; auto; right; discriminate). destruct D as [->|D].
    + eexists. eapply y_lock; eassumption.
    + pose proof (mutual_exclusion y t cl own o k H Hn D). congruence.
Qed.

(** ** Consistency between calls *)
Lemma dll_listed (mk : Z -> val) nx pv : forall l p h, h = hdp mk l -> dll mk nx pv p l -> listed mk nx pv p h l.
Proof.
  induction l as [|x l IH]; intros p h -> H; [constructor|]. cbn in H. destruct H as (H1 & H2 & H3). cbn [hdp]. constructor; [exact H1|].
  rewrite H2. apply IH; [reflexivity|exact H3].
Qed.

Definition view (t : atab) : tview := TV (at_id t) (at_arr t) (at_base t) (at_free t).

Lemma map_view {X} (f : tview -> X) (g : atab -> X) ts : (forall t, f (view t) = g t) -> map f (map view ts) = map g ts.
Proof. intros E. rewrite map_map. apply map_ext, E. Qed.

Theorem between_calls y : reach c y -> y_owner y = None -> consistent c (y_st y) (map handle (inuse y)).
Proof.
  intros H Ho. apply (reach_ok c Hc) in H as (bs & pk & S). destruct S as [_ Hl]. unfold lock_ok in Hl. rewrite Ho in Hl.
  destruct Hl as [St [[Gs (ts & fl & Iv & Cn & Pm & _)]|[Gs [E (N1 & N2 & N3)]]]].
  2: { left. split; [destruct Gs as [-> | ->]; discriminate|]. rewrite E. split; [reflexivity|]. split; [exact N1|]. split; assumption. }
  right. split; [exact Gs|]. pose proof Iv as [H1 H2 H3 (L1 & L2 & L3) H5 H6 H7 H8 H9 H10 H11 H12 H13 H14].
  rewrite Forall_forall in H7.
  assert (Tf : forall t, In t ts -> tabm c N (y_st y) t) by auto.
  exists N, (map view ts), fl. split; [reflexivity|].
  split; [rewrite (map_view tv_id at_id) by reflexivity; exact H8|]. split; [rewrite (map_view tv_arr at_arr) by reflexivity; exact H9|].
  split.
  { clear - H10. induction H10 as [|t ts Ht H IH]; cbn; constructor; [|exact IH]. rewrite Forall_forall in *. intros t' I'. apply in_map_iff in I' as (u & <- & Iu).
    exact (Ht u Iu). }
  split.
  { rewrite (map_view tv_id at_id) by reflexivity. intros id. split; [apply H11|]. intros Hid. apply in_map_iff in Hid as (t & <- & It).
    apply (tab_free c _ _ (Tf t It)). }
  split.
  { rewrite (map_view tv_arr at_arr) by reflexivity. intros arr. destruct (existsb (Z.eqb arr) (map at_arr ts)) eqn:E.
    - apply existsb_in in E. apply in_map_iff in E as (t & <- & It). apply (tab_free c _ _ (Tf t It)).
    - destruct (s_alive (y_st y) arr) eqn:E'; [|reflexivity]. assert (X : In arr (map at_arr ts)) by (apply H12; congruence).
      apply existsb_in in X. congruence. }
  split.
  { intros x. split.
    - intros Hx. apply H13 in Hx. apply Exists_exists in Hx as (t & It & Hx). exists (view t). split; [apply in_map, It|exact Hx].
    - intros (v & Iv' & Hx). apply in_map_iff in Iv' as (t & <- & It). cbn [view tv_base] in Hx.
      destruct (tab_free c _ _ (Tf t It)) as (_ & _ & _ & _ & _ & _ & (M1 & M2 & M3 & M4) & _).
      destruct (Z.lt_ge_cases x (at_base t + tc_map c)) as [Q|Q]; [destruct (M3 x ltac:(lia)) as [-> _]; discriminate|rewrite M4 by lia; discriminate]. }
  split; [apply dll_listed; [exact L1|exact L3]|]. split; [exact H5|]. split; [exact L2|].
  split.
  { intros id. rewrite H6. split.
    - intros (t & It & E & F). exists (view t). split; [apply in_map, It|]. split; assumption.
    - intros (v & Iv' & E & F). apply in_map_iff in Iv' as (t & <- & It). exists t. split; [exact It|]. split; assumption. }
  split.
  { intros v Iv'. apply in_map_iff in Iv' as (t & <- & It). specialize (Tf t It).
    destruct (tab_free c _ _ Tf) as (F1 & F2 & F3 & F4 & F5 & F6 & F7 & F8). pose proof F7 as (M1 & M2 & M3 & M4).
    destruct t as [id arr b fr]. cbn [view tv_id tv_arr tv_base tv_free at_id at_arr at_base at_free] in *.
    destruct Tf as (_ & _ & T3 & T4 & T5 & _ & _ & G1 & G2 & G3 & _ & _).
    split; [exact T3|]. split; [exact T4|]. split; [exact T5|]. split; [exact F4|]. split; [apply dll_listed; [exact G1|exact G3]|].
    split; [exact F1|]. intros i Hi. destruct (F8 i Hi) as (A1 & A2 & A3). split; [|exact A1]. pose proof (slot_in c i Hc Hi) as [S1 S2].
    split; [lia|]. split; [lia|]. repeat (split; [assumption|]). assumption. }
  change (map handle (inuse y)) with (map key (inuse y)).
  split; [eapply Permutation_NoDup; [symmetry; exact Pm|]; apply nodup_live; exact H9|]. split.
  - intros arr i. assert (E : In (arr, i) (map key (inuse y)) <-> In (arr, i) (live_of c ts)) by (split; apply Permutation_in; [|symmetry]; exact Pm).
    rewrite E, in_live. split.
    + intros (t & It & R). exists (view t). split; [apply in_map, It|exact R].
    + intros (v & Iv' & R). apply in_map_iff in Iv' as (t & <- & It). exists t. split; [exact It|exact R].
  - intros v i Iv'. apply in_map_iff in Iv' as (t & <- & It). cbn. intros Hi. apply (tab_free c _ _ (Tf t It)), Hi.
Qed.

(** ** Tables *)
Theorem table_bound y pk : runs c y pk -> y_owner y = None -> exists bases ids arrs : list Z,
  length ids = length bases /\ length arrs = length bases /\
  (forall x, s_perm (y_st y) x <> Unmapped <-> exists b, In b bases /\ b <= x < b + 2 * tc_map c) /\
  (forall id, s_tlive (y_st y) id = true <-> In id ids) /\ (forall arr, s_alive (y_st y) arr <> None <-> In arr arrs) /\
  (zlen bases <= 1 \/ (zlen bases - 1) * (tc_map c / tc_size c) < pk) /\
  (inuse y = [] -> zlen bases <= 1).
Proof.
  intros H Ho. apply (runs_ok c Hc) in H as (bs & S). destruct S as [_ Hl]. unfold lock_ok in Hl. rewrite Ho in Hl.
  destruct Hl as [St [[Gs (ts & fl & Iv & Cn & Pm & Bd)]|[Gs [E (N1 & N2 & N3)]]]].
  2: { exists [], [], []. split; [reflexivity|]. split; [reflexivity|]. split; [|split; [|split; [|split]]].
       - intros x. rewrite N3. split; [congruence|intros (b & [] & _)].
       - intros id. rewrite N1. split; [discriminate|intros []].
       - intros arr. rewrite N2. split; [congruence|intros []].
       - left. unfold zlen. cbn. lia.
       - intros _. unfold zlen. cbn. lia. }
  pose proof Iv as [H1 H2 H3 (L1 & L2 & L3) H5 H6 H7 H8 H9 H10 H11 H12 H13 H14]. rewrite Forall_forall in H7.
  exists (map at_base ts), (map at_id ts), (map at_arr ts). split; [rewrite !map_length; reflexivity|]. split; [rewrite !map_length; reflexivity|].
  assert (Zl : zlen (map at_base ts) = zlen ts) by (unfold zlen; rewrite map_length; reflexivity). rewrite Zl.
  split; [|split; [|split; [|split]]].
  - intros x. split.
    + intros Hx. apply H13 in Hx. apply Exists_exists in Hx as (t & It & Hx). exists (at_base t). split; [apply in_map, It|exact Hx].
    + intros (b & Ib & Hx). apply in_map_iff in Ib as (t & <- & It).
      destruct (tab_free c _ _ (H7 t It)) as (_ & _ & _ & _ & _ & _ & (M1 & M2 & M3 & M4) & _).
      destruct (Z.lt_ge_cases x (at_base t + tc_map c)) as [Q|Q]; [destruct (M3 x ltac:(lia)) as [-> _]; discriminate|rewrite M4 by lia; discriminate].
  - intros id. split; [apply H11|]. intros Hid. apply in_map_iff in Hid as (t & <- & It). apply (tab_free c _ _ (H7 t It)).
  - intros arr. split; [apply H12|]. intros Hid. apply in_map_iff in Hid as (t & <- & It). destruct (tab_free c _ _ (H7 t It)) as (_ & _ & _ & _ & _ & -> & _). discriminate.
  - exact Bd.
  - intros E. rewrite E in Pm. apply Permutation_nil in Pm.
    assert (W : forall t, In t ts -> zlen (at_free t) = N).
    { intros t It. destruct (tab_free c _ _ (H7 t It)) as (F1 & F2 & _). pose proof (used_len c t Hc F1 F2) as U.
      destruct (used c t) as [|u q] eqn:Eu; [unfold zlen in *; cbn [length] in U; lia|]. exfalso.
      assert (X : In (at_arr t, u) (live_of c ts)); [|rewrite Pm in X; exact X]. apply in_live. exists t. split; [exact It|]. split; [reflexivity|].
      apply in_used. rewrite Eu. left. reflexivity. }
    destruct ts as [|t1 [|t2 r]]; [unfold zlen; cbn; lia|unfold zlen; cbn; lia|]. exfalso.
    pose proof (H14 t1 t2 (or_introl eq_refl) (or_intror (or_introl eq_refl)) (W _ (or_introl eq_refl)) (W _ (or_intror (or_introl eq_refl)))) as ->.
    cbn in H8. inversion H8 as [|? ? X _]. apply X. left. reflexivity.
Qed.

(** ** Parameters *)
Lemma word_load m a v : 0 <= a -> a + 8 <= 2 ^ 64 -> 0 <= v < 2 ^ 64 -> word_at m a v -> load m a 8 = v.
Proof.
  intros Ha Hb Hv W. unfold load. assert (E : mbytes m a 8 = le_enc 8 v).
  { assert (K : forall n k x, x = v / 2 ^ (8 * k) -> 0 <= k -> k + Z.of_nat n <= 8 -> mbytes m (a + k) n = le_enc n x).
    { induction n as [|n IH]; intros k x -> Hk Hn; [reflexivity|]. cbn [mbytes le_enc]. f_equal.
      - unfold wrap64, wrap. rewrite (Z.mod_small (a + k)) by lia. rewrite W by (unfold inside; lia). replace (a + k - a) with k by lia. reflexivity.
      - replace (a + k + 1) with (a + (k + 1)) by lia. apply IH; [|lia|lia].
        replace (8 * (k + 1)) with (8 * k + 8) by lia. rewrite Z.pow_add_r by lia. rewrite <- Z.div_div by (apply Z.pow_nonzero || apply Z.pow_pos_nonneg; lia). reflexivity. }
    specialize (K 8%nat 0 v). replace (a + 0) with a in K by lia. apply K; [|lia|lia]. cbn. rewrite Z.div_1_r. reflexivity. }
  rewrite E. rewrite le_dec_enc. apply Z.mod_small. exact Hv.
Qed.

Theorem parameters y e data target : reach c y -> In e (live y) -> e_parm e = Some (data, target) ->
  0 <= data < 2 ^ 64 -> 0 <= target < 2 ^ 64 ->
  exists b, placed c (y_st y) (e_arr e) (e_i e) b /\ parm_at false (s_mem (y_st y)) (b + tc_map c + e_i e * tc_size c) data target.
Proof.
  intros H He Ep Hd Ht. apply (reach_ok c Hc) in H as (bs & pk & S). pose proof (live_stable _ _ _ S e He) as Eo.
  exists (bs (e_arr e)). pose proof (eok_placed _ _ _ Eo) as Pl. split; [exact Pl|]. destruct Eo as (_ & Hi & _ & _ & (M1 & M2 & _) & W).
  rewrite Ep in W. destruct W as [W1 W2]. pose proof (slot_in c _ Hc Hi) as [S1 S2].
  split; cbn [parm_words]; (apply word_load; [lia|lia|assumption|assumption]).
Qed.

(** ** Executing a trampoline on x86-64 *)
Lemma perm_stack s b m : placed c s (fst m) (snd m) b -> forall r, 16 <= m_reg r RSP < 2 ^ 64 ->
  (forall x, m_reg r RSP - 16 <= x < m_reg r RSP -> s_perm s x = Unmapped) -> stack_apart r b (2 * tc_map c).
Proof.
  intros (_ & _ & _ & _ & _ & _ & P1 & P2) r Hr Hu. split; [exact Hr|].
  destruct (Z.le_gt_cases (m_reg r RSP) b) as [?|H1]; [left; assumption|]. right.
  destruct (Z.le_gt_cases (b + 2 * tc_map c) (m_reg r RSP - 16)) as [?|H2]; [assumption|]. exfalso.
  set (x := Z.max b (m_reg r RSP - 16)). assert (X : s_perm s x = Unmapped) by (apply Hu; lia).
  destruct (Z.lt_ge_cases x (b + tc_map c)) as [Q|Q].
  - destruct (P1 x ltac:(lia)) as [Y _]. congruence.
  - rewrite (P2 x ltac:(lia)) in X. discriminate.
Qed.

Lemma mbytes_ext m m' n : forall a, 0 <= a -> a + Z.of_nat n <= 2 ^ 64 -> (forall x, a <= x < a + Z.of_nat n -> m x = m' x) -> mbytes m a n = mbytes m' a n.
Proof.
  induction n as [|n IH]; intros a H1 H2 H; [reflexivity|]. cbn [mbytes]. f_equal.
  - unfold wrap64, wrap. rewrite Z.mod_small by lia. apply H. lia.
  - apply IH; [lia|lia|]. intros x Hx. apply H. lia.
Qed.

Lemma mbytes_nth m : forall l a, 0 <= a -> a + zlen l <= 2 ^ 64 -> (forall k, 0 <= k < zlen l -> m (a + k) = nth (Z.to_nat k) l 0) -> mbytes m a (length l) = l.
Proof.
  induction l as [|v l IH]; intros a H1 H2 H; [reflexivity|]. unfold zlen in *. cbn [length mbytes] in *. f_equal.
  - unfold wrap64, wrap. rewrite Z.mod_small by lia. specialize (H 0 ltac:(lia)). rewrite Z.add_0_r in H. exact H.
  - apply IH; [lia|lia|]. intros k Hk. replace (a + 1 + k) with (a + (k + 1)) by lia. rewrite H by lia.
    replace (Z.to_nat (k + 1)) with (S (Z.to_nat k)) by lia. reflexivity.
Qed.

Context (endbr : bool) (Hs : tc_size c = tramp_size endbr) (Hm : tc_map c = tramp_map_size).
Context (Hcode : forall i k, 0 <= i < tc_map c / tc_size c -> 0 <= k < zlen (static_slot endbr false) ->
  tc_code c (i * tc_size c + k) = nth (Z.to_nat k) (static_slot endbr false) 0).

Lemma slot_fits : zlen (static_slot endbr false) <= tc_size c.
Proof. rewrite Hs. destruct endbr; vm_compute; congruence. Qed.

Lemma machine_at y e data target s :
  reach c y -> In e (live y) -> e_parm e = Some (data, target) -> 0 <= data < 2 ^ 64 -> 0 <= target < 2 ^ 64 ->
  s_val (y_st y) (A (e_arr e) (e_i e) ACode) = Addr (m_rip s) ->
  (forall x, s_perm (y_st y) x <> Unmapped -> m_mem s x = s_mem (y_st y) x) ->
  16 <= m_reg s RSP < 2 ^ 64 -> (forall x, m_reg s RSP - 16 <= x < m_reg s RSP -> s_perm (y_st y) x = Unmapped) ->
  exists b, (0 <= e_i e < tramp_map_size / tramp_size endbr) /\ 0 <= b /\ b + 2 * tramp_map_size <= 2 ^ 64 /\
    m_rip s = b + e_i e * tramp_size endbr /\ stack_apart s b (2 * tramp_map_size) /\
    code_at (m_mem s) (b + e_i e * tramp_size endbr) (static_slot endbr false) /\
    parm_at false (m_mem s) (b + tramp_map_size + e_i e * tramp_size endbr) data target.
Proof.
  intros H He Ep Hd Ht Hr Hme Hsp Hst. destruct (parameters y e data target H He Ep Hd Ht) as (b & Pl & Pa).
  pose proof (perm_stack _ b (e_arr e, e_i e) Pl s Hsp Hst) as Sa.
  destruct Pl as (P1 & P2 & P3 & P4 & P5 & P6 & P7 & P8).
  assert (P9 : 0 <= e_i e < tc_map c / tc_size c) by (split; [lia|]; apply Z.lt_le_trans with (e_i e + 1); [lia|]; apply Z.div_le_lower_bound; lia).
  exists b. rewrite <- Hs, <- Hm. split; [exact P9|]. split; [lia|]. split; [lia|]. split; [congruence|]. split; [exact Sa|]. pose proof slot_fits as Fi. split.
  - unfold code_at. apply mbytes_nth; [nia|nia|]. intros k Hk. assert (Q : b <= b + e_i e * tc_size c + k < b + tc_map c) by nia.
    destruct (P7 _ Q) as [Q1 Q2]. rewrite Hme by congruence. rewrite Q2. replace (b + e_i e * tc_size c + k - b) with (e_i e * tc_size c + k) by lia.
    apply Hcode; assumption.
  - destruct Pa as [A1 A2]. cbn [parm_words] in *. change (Z.of_nat 8) with 8 in *. split; [rewrite <- A1|rewrite <- A2]; unfold load; f_equal.
    + apply mbytes_ext; [nia|nia|]. intros x Hx. apply Hme. rewrite P8 by nia. discriminate.
    + apply mbytes_ext; [nia|nia|]. intros x Hx. apply Hme. rewrite P8 by nia. discriminate.
Qed.

Lemma executes y e data target s :
  reach c y -> In e (live y) -> e_parm e = Some (data, target) -> 0 <= data < 2 ^ 64 -> 0 <= target < 2 ^ 64 ->
  s_val (y_st y) (A (e_arr e) (e_i e) ACode) = Addr (m_rip s) ->
  (forall x, s_perm (y_st y) x <> Unmapped -> m_mem s x = s_mem (y_st y) x) ->
  16 <= m_reg s RSP < 2 ^ 64 -> (forall x, m_reg s RSP - 16 <= x < m_reg s RSP -> s_perm (y_st y) x = Unmapped) ->
  (forall x, byte_ok (m_mem s x)) ->
  exists n s', steps n s = Some s' /\ m_rip s' = target /\ load (m_mem s') (m_reg s' RSP + 8) 8 = data /\
    m_reg s' RSP = m_reg s RSP - 16 /\ load (m_mem s') (m_reg s' RSP) 8 = m_reg s R10 mod 2 ^ 64 /\
    keeps [R10; RSP] (m_reg s RSP - 16) 16 s s'.
Proof.
  intros H He Ep Hd Ht Hr Hme Hsp Hst Hb. destruct (machine_at y e data target s) as (b & A1 & A2 & A3 & A4 & A5 & A6 & A7); auto.
  destruct (static_ok endbr false b (e_i e) s A1 A2 A3 A4 A5 Hb A6) as (n & s' & S1 & (S2a & S2b) & S3 & S4 & S5).
  destruct A7 as [B1 B2]. exists n, s'. repeat (split; [first [assumption | congruence]|]). assumption.
Qed.

Lemma executes_to y e data target s endbr' short rel :
  reach c y -> In e (live y) -> e_parm e = Some (data, target) -> 0 <= data < 2 ^ 64 -> 0 <= target < 2 ^ 64 ->
  s_val (y_st y) (A (e_arr e) (e_i e) ACode) = Addr (m_rip s) ->
  (forall x, s_perm (y_st y) x <> Unmapped -> m_mem s x = s_mem (y_st y) x) ->
  16 <= m_reg s RSP < 2 ^ 64 -> (forall x, m_reg s RSP - 16 <= x < m_reg s RSP -> s_perm (y_st y) x = Unmapped) ->
  (forall x, byte_ok (m_mem s x)) ->
  target + zlen (alt_entry endbr' short rel) < 2 ^ 64 -> stack_apart s target (zlen (alt_entry endbr' short rel)) ->
  - 2 ^ (if short then 7 else 31) <= rel < 2 ^ (if short then 7 else 31) ->
  code_at (m_mem s) target (alt_entry endbr' short rel) ->
  arrives s (wrap64 (target + zlen (alt_entry endbr' short rel) + rel)) data.
Proof.
  intros H He Ep Hd Ht Hr Hme Hsp Hst Hb T1 T2 T3 T4. destruct (machine_at y e data target s) as (b & A1 & A2 & A3 & A4 & A5 & A6 & A7); auto.
  eapply (static_arrives endbr false endbr' short rel b (e_i e) s data target); eauto. lia.
Qed.
End Main.
