(** The system of threads calling the trampoline allocator: invariant and consequences. *)
From Coq Require Import ZifyBool ZifyNat Permutation.
From Verif Require Import Base TrampModel TrampSpec TrampDll TrampProofs TrampInv TrampOps TrampAlloc TrampInit.
Local Arguments Z.mul : simpl never.
Local Arguments Z.add : simpl never.
Local Arguments Z.sub : simpl never.
Local Arguments Z.pow : simpl never.
Local Arguments Z.eqb : simpl never.
Local Arguments Z.div : simpl never.
Local Arguments val_eqb : simpl never.

(** ** Lists of threads *)
Definition others (t : nat) (l : list tstate) : list tstate := firstn t l ++ skipn (S t) l.

Lemma split_thr : forall (l : list tstate) t x, nth_error l t = Some x -> l = firstn t l ++ x :: skipn (S t) l.
Proof.
  induction l as [|y l IH]; intros [|t] x H; try discriminate.
  - cbn in H. injection H as ->. reflexivity.
  - cbn in *. f_equal. apply IH, H.
Qed.

Lemma thr_perm l t x : nth_error l t = Some x -> Permutation (flat_map held l) (held x ++ flat_map held (others t l)).
Proof.
  intros H. rewrite (split_thr l t x H) at 1. rewrite flat_map_app. cbn [flat_map]. unfold others. rewrite flat_map_app.
  rewrite !app_assoc. apply Permutation_app_tail. apply Permutation_app_comm.
Qed.

Lemma nth_set : forall l t x u y, nth_error l t = Some y -> nth_error (set_thr l t x) u = if Nat.eqb u t then Some x else nth_error l u.
Proof.
  induction l as [|z l IH]; intros [|t] x u y H; try discriminate.
  - unfold set_thr. cbn [firstn app skipn]. destruct u; reflexivity.
  - change (set_thr (z :: l) (S t) x) with (z :: set_thr l t x). destruct u as [|u]; [reflexivity|]. cbn [nth_error Nat.eqb]. eapply IH, H.
Qed.

Lemma others_set : forall l t x y, nth_error l t = Some y -> others t (set_thr l t x) = others t l.
Proof.
  induction l as [|z l IH]; intros [|t] x y H; try discriminate.
  - reflexivity.
  - change (set_thr (z :: l) (S t) x) with (z :: set_thr l t x). unfold others in *. cbn [firstn skipn app]. f_equal. eapply IH, H.
Qed.

Lemma set_perm l u x x' (pool pool' : list entry) : nth_error l u = Some x -> Permutation (pool ++ held x) (pool' ++ held x') ->
  Permutation (pool ++ flat_map held l) (pool' ++ flat_map held (set_thr l u x')).
Proof.
  intros H P. rewrite (thr_perm l u x H).
  assert (H' : nth_error (set_thr l u x') u = Some x') by (rewrite (nth_set _ _ _ _ _ H), Nat.eqb_refl; reflexivity).
  rewrite (thr_perm _ u x' H'). rewrite (others_set _ _ _ _ H). rewrite !app_assoc. apply Permutation_app_tail, P.
Qed.

Lemma set_perm_others l u t x x' xt (pool pool' : list entry) : u <> t -> nth_error l u = Some x -> nth_error l t = Some xt ->
  Permutation (pool ++ held x) (pool' ++ held x') ->
  Permutation (pool ++ flat_map held (others t l)) (pool' ++ flat_map held (others t (set_thr l u x'))).
Proof.
  intros N H Ht P. pose proof (set_perm l u x x' pool pool' H P) as Q.
  assert (H' : nth_error (set_thr l u x') t = Some xt).
  { rewrite (nth_set _ _ _ _ _ H). destruct (Nat.eqb_spec t u); [congruence|exact Ht]. }
  rewrite (thr_perm l t xt Ht), (thr_perm _ t xt H') in Q. apply (Permutation_app_inv_l (held xt)).
  rewrite !app_assoc in *. rewrite (Permutation_app_comm (held xt) pool), (Permutation_app_comm (held xt) pool'). exact Q.
Qed.

Section Sys.
Context (c : tcfg) (Hc : cfg_ok c).
Notation N := (ntramp c).

(** ** Permutations of entries *)
Lemma stable_incl bs L L' s : incl L' L -> stableb c bs L s -> stableb c bs L' s.
Proof. intros H St e He. apply St, H, He. Qed.

Lemma good_perm bs L L' pk s : Permutation L L' -> good c bs L pk s -> good c bs L' pk s.
Proof.
  intros P [St Gd]. split; [eapply stable_incl; [|exact St]; intros e He; eapply Permutation_in; [symmetry; exact P|exact He]|].
  destruct Gd as [[H1 (ts & fl & H2 & H3 & H4 & H5)]|[H1 [-> H2]]].
  - left. split; [exact H1|]. exists ts, fl. split; [exact H2|]. split; [|split; [|exact H5]].
    + intros e He. apply H3. eapply Permutation_in; [symmetry; exact P|exact He].
    + rewrite <- H4. apply Permutation_map. symmetry. exact P.
  - right. split; [exact H1|]. split; [|exact H2]. apply Permutation_nil, P.
Qed.

(** Different trampolines are at different places. *)
Definition sep (bs : Z -> Z) (L : list entry) : Prop :=
  NoDup (map key L) /\
  forall e e', In e L -> In e' L -> e_arr e <> e_arr e' -> disjoint (2 * tc_map c) (bs (e_arr e)) (bs (e_arr e')).

Lemma fop_in {X} (R : X -> X -> Prop) (l : list X) x y : (forall x y, R x y -> R y x) -> ForallOrdPairs R l -> In x l -> In y l -> x = y \/ R x y.
Proof.
  intros S H. induction H as [|z l Hz H IH]; intros Hx Hy; [destruct Hx|]. rewrite Forall_forall in Hz.
  destruct Hx as [<-|Hx], Hy as [<-|Hy]; auto.
Qed.

Lemma good_sep bs L pk s : good c bs L pk s -> sep bs L.
Proof.
  intros [_ [[_ (ts & fl & Iv & Cn & Pm & _)]|[_ [-> _]]]]; [|split; [constructor|intros e e' []]]. split.
  - eapply Permutation_NoDup; [symmetry; exact Pm|]. apply nodup_live. exact (i_arrs _ _ _ _ Iv).
  - intros e e' He He' Ne. destruct (Cn e He) as (t & It & Ea & Eb & _). destruct (Cn e' He') as (t' & It' & Ea' & Eb' & _).
    rewrite <- Eb, <- Eb'. destruct (fop_in _ ts t t' (apart_sym c) (i_apart _ _ _ _ Iv) It It') as [->|X]; [congruence|exact X].
Qed.

Lemma sep_perm bs L L' : Permutation L L' -> sep bs L -> sep bs L'.
Proof.
  intros P [H1 H2]. split; [eapply Permutation_NoDup; [apply Permutation_map; exact P|exact H1]|].
  intros e e' He He'. apply H2; (eapply Permutation_in; [symmetry; exact P|]; assumption).
Qed.

(** ** The invariant *)
Definition keep (cl : call) : list entry := match cl with CSet a i _ _ => [Entry a i None] | _ => [] end.
Definition ownok (cl : call) (own : list entry) : Prop :=
  match cl with CSet a i _ _ | CFree a i => exists p, own = [Entry a i p] | _ => own = [] end.

Definition thr_ok (bs : Z -> Z) (y : sys) (t : nat) (x : tstate) : Prop :=
  match x with
  | Idle => y_owner y <> Some t
  | Run cl own p =>
    ownok cl own /\
    (y_owner y = Some t \/ y_owner y <> Some t /\ (p = code c cl \/ exists v, p = Ret v)) /\
    match cl with
    | CGet a i => (exists q, In (Entry a i q) (y_pool y)) /\ (forall v, p = Ret v -> v = Addr (bs a + i * tc_size c))
    | _ => True
    end
  end.

Definition lock_ok (bs : Z -> Z) (pk : Z) (y : sys) : Prop :=
  match y_owner y with
  | None => good c bs (inuse y) pk (y_st y)
  | Some t => exists cl own p L, nth_error (y_thr y) t = Some (Run cl own p) /\
      Permutation L (y_pool y ++ flat_map held (others t (y_thr y))) /\ sep bs (own ++ L) /\
      stableb c bs (keep cl ++ L) (y_st y) /\ safe c (stableb c bs (keep cl ++ L)) p (after c cl bs L pk) (y_st y)
  end.

Definition sys_ok (bs : Z -> Z) (pk : Z) (y : sys) : Prop :=
  (forall t x, nth_error (y_thr y) t = Some x -> thr_ok bs y t x) /\ lock_ok bs pk y.

Lemma code_lock cl : exists k, code c cl = Do Lock k.
Proof. destruct cl; eexists; reflexivity. Qed.

Lemma body_ok cl own bs L pk s k : ownok cl own -> code c cl = Do Lock k -> good c bs (own ++ L) pk s ->
  match cl with CGet a i => exists q, In (Entry a i q) L | _ => True end ->
  safe c (stableb c bs (keep cl ++ L)) (k Null) (after c cl bs L pk) s.
Proof.
  intros Ho Ek Gd Hg. destruct cl; cbn [code] in Ek; injection Ek as <-; cbn [ownok] in Ho; cbn [keep app].
  - subst own. apply (supported_ok c Hc), Gd.
  - subst own. apply (alloc_ok c Hc), Gd.
  - destruct Ho as (p & ->). apply (set_ok c Hc) with (p := p). exact Gd.
  - subst own. destruct Hg as (q & Hq). apply (get_ok c) with (p := q); [exact Hq|exact Gd].
  - destruct Ho as (p & ->). apply (free_call_ok c Hc) with (p := p). exact Gd.
Qed.

Lemma eok_none s b a i p : eok c s b (Entry a i p) -> eok c s b (Entry a i None).
Proof. intros (H1 & H2 & H3 & H4 & H5 & _). repeat (split; [assumption|]). exact I. Qed.

Lemma after_mono cl bs L pk pk' v s : pk <= pk' -> after c cl bs L pk v s -> after c cl bs L pk' v s.
Proof. intros H (bs' & H1 & H2 & H3). exists bs'. split; [exact H1|]. split; [eapply good_mono; [|exact H2]; lia|exact H3]. Qed.

Lemma safe_mono (I : st -> Prop) (Q Q' : val -> st -> Prop) : forall p s, (forall v s', Q v s' -> Q' v s') -> safe c I p Q s -> safe c I p Q' s.
Proof.
  induction p as [v|o k IH]; intros s HQ H; [exact H|].
  destruct o; cbn in *; try exact H; try (destruct (k Null); auto; fail); destruct H as (H1 & H2 & H3); split; auto; split; auto;
    intros v' s' D; destruct (H3 _ _ D) as [H4 H5]; split; auto.
Qed.

Lemma sys_mono bs pk pk' y : pk <= pk' -> sys_ok bs pk y -> sys_ok bs pk' y.
Proof.
  intros H [H1 H2]. split; [exact H1|]. unfold lock_ok in *. destruct (y_owner y) as [t|].
  - destruct H2 as (cl & own & p & L & E & P & S & St & Sf). exists cl, own, p, L. repeat (split; [assumption|]).
    eapply safe_mono; [|exact Sf]. intros v s'. apply after_mono, H.
  - eapply good_mono; eassumption.
Qed.

Lemma start_ok y : start y -> sys_ok (fun _ => 0) 0 y.
Proof.
  intros (H1 & H2 & H3 & H4 & H5 & H6 & H7). split.
  - intros t x Hx. rewrite Forall_forall in H6. rewrite <- (H6 x (nth_error_In _ _ Hx)). cbn. rewrite H5. discriminate.
  - unfold lock_ok. rewrite H5. assert (E : inuse y = []).
    { unfold inuse. rewrite H7. cbn. clear - H6. induction H6 as [|x l <- H IH]; [reflexivity|exact IH]. }
    rewrite E. split; [apply stable_nil|]. right. split; [left; exact H1|]. split; [reflexivity|]. split; [exact H2|]. split; assumption.
Qed.

(** A step of a thread that does not hold the mutex and leaves it and memory alone. *)
Lemma other_step bs pk y u x x' pool' : sys_ok bs pk y -> nth_error (y_thr y) u = Some x -> y_owner y <> Some u ->
  Permutation (y_pool y ++ held x) (pool' ++ held x') ->
  let y' := Sys (y_st y) (y_owner y) (set_thr (y_thr y) u x') pool' in
  thr_ok bs y' u x' ->
  (forall t a i own p q, t <> u -> nth_error (y_thr y) t = Some (Run (CGet a i) own p) -> In (Entry a i q) (y_pool y) -> exists q, In (Entry a i q) pool') ->
  sys_ok bs pk y'.
Proof.
  intros [Ht Hl] Hu No P y' Hx' Hg. split.
  - intros t z Hz. unfold y' in Hz. cbn [y_thr] in Hz. rewrite (nth_set _ _ _ _ _ Hu) in Hz. destruct (Nat.eqb_spec t u) as [->|Ne].
    + injection Hz as <-. exact Hx'.
    + specialize (Ht t z Hz). destruct z as [|cl own p]; [exact Ht|]. destruct Ht as (T1 & T2 & T3). split; [exact T1|]. split; [exact T2|].
      destruct cl; auto. destruct T3 as [(q & Hq) T3]. split; [|exact T3]. cbn [y_pool y']. eapply Hg; eauto.
  - unfold lock_ok in *. unfold y'. cbn [y_owner y_st y_thr y_pool]. destruct (y_owner y) as [t|].
    + destruct Hl as (cl & own & p & L & E & PL & S & St & Sf). exists cl, own, p, L.
      assert (Ne : u <> t) by congruence.
      split; [rewrite (nth_set _ _ _ _ _ Hu); destruct (Nat.eqb_spec t u); [congruence|exact E]|].
      split; [|split; [exact S|split; assumption]]. rewrite PL. eapply set_perm_others; eauto.
    + eapply good_perm; [|exact Hl]. unfold inuse. cbn [y_pool y_thr]. apply (set_perm (y_thr y) u x x' (y_pool y) pool' Hu P).
Qed.

Lemma held_code cl own : held (Run cl own (code c cl)) = own.
Proof. destruct (code_lock cl) as (k & ->). reflexivity. Qed.

Lemma step_ok bs pk y y' : sys_ok bs pk y -> ystep c y y' -> exists bs', sys_ok bs' (Z.max pk (zlen (inuse y'))) y'.
Proof.
  intros Hs Hst. pose proof Hs as [Ht Hl]. destruct Hst as [t cl own pool Hi Hm|t cl own k Hn Ho|t cl own k Hn Ho|t cl own o k v s' Hn D|t cl own v Hn].
  - (* call *)
    exists bs. eapply sys_mono; [apply Z.le_max_l|].
    pose proof (Ht t Idle Hi) as No. cbn in No. eapply other_step; [exact Hs|exact Hi|exact No| | |].
    + rewrite held_code. cbn [held]. rewrite app_nil_r. destruct cl; cbn [may_call] in Hm.
      * destruct Hm as [-> ->]. rewrite app_nil_r. reflexivity.
      * destruct Hm as [-> ->]. rewrite app_nil_r. reflexivity.
      * destruct Hm as (p & l & r & -> & -> & -> & _). rewrite <- app_assoc. apply Permutation_app_head. cbn [app]. apply Permutation_cons_append.
      * destruct Hm as (-> & -> & _). rewrite app_nil_r. reflexivity.
      * destruct Hm as (p & l & r & -> & -> & -> & _). rewrite <- app_assoc. apply Permutation_app_head. cbn [app]. apply Permutation_cons_append.
    + cbn [thr_ok y_owner y_pool]. split; [|split; [right; split; [exact No|left; reflexivity]|]].
      * destruct cl; cbn [may_call] in Hm; cbn [ownok]; try apply Hm; destruct Hm as (p & l & r & -> & _); exists p; reflexivity.
      * destruct cl; auto. destruct Hm as (_ & -> & Hm). split; [exact Hm|]. intros v. destruct (code_lock (CGet a i)) as (k & ->). discriminate.
    + intros u a i own' p q Nu Hu Hq. destruct cl; cbn [may_call] in Hm.
      * destruct Hm as [_ ->]. eauto.
      * destruct Hm as [_ ->]. eauto.
      * destruct Hm as (p' & l & r & _ & E & -> & F). rewrite E in Hq. exists q. apply in_app_or in Hq as [Hq|[Hq|Hq]]; [apply in_or_app; auto| |apply in_or_app; auto].
        exfalso. rewrite Forall_forall in F. apply (F _ (nth_error_In _ _ Hu)). injection Hq as -> -> _. cbn. auto.
      * destruct Hm as (_ & -> & _). eauto.
      * destruct Hm as (p' & l & r & _ & E & -> & F). rewrite E in Hq. exists q. apply in_app_or in Hq as [Hq|[Hq|Hq]]; [apply in_or_app; auto| |apply in_or_app; auto].
        exfalso. rewrite Forall_forall in F. apply (F _ (nth_error_In _ _ Hu)). injection Hq as -> -> _. cbn. auto.
  - (* lock *)
    exists bs. eapply sys_mono; [apply Z.le_max_l|]. pose proof (Ht t _ Hn) as (T1 & [T2|[_ [T2|(v & T2)]]] & T3); [congruence| |discriminate].
    unfold lock_ok in Hl. rewrite Ho in Hl.
    assert (Hh : held (Run cl own (Do Lock k)) = own) by reflexivity.
    set (L := y_pool y ++ flat_map held (others t (y_thr y))).
    assert (P : Permutation (inuse y) (own ++ L)).
    { unfold inuse, L. rewrite (thr_perm _ _ _ Hn). rewrite Hh. rewrite !app_assoc. apply Permutation_app_tail, Permutation_app_comm. }
    pose proof (good_perm _ _ _ _ _ P Hl) as Gd. symmetry in T2.
    assert (Sf : safe c (stableb c bs (keep cl ++ L)) (k Null) (after c cl bs L pk) (y_st y)).
    { eapply body_ok; [exact T1|exact T2|exact Gd|]. destruct cl; auto. destruct T3 as [(q & Hq) _]. exists q. unfold L. apply in_or_app. left. exact Hq. }
    split.
    + intros u z Hz. cbn [y_thr] in Hz. rewrite (nth_set _ _ _ _ _ Hn) in Hz. destruct (Nat.eqb_spec u t) as [->|Ne].
      * injection Hz as <-. split; [exact T1|]. split; [left; reflexivity|]. destruct cl; auto. destruct T3 as [T3 _]. split; [exact T3|].
        intros v Ev. rewrite Ev in Sf. destruct Sf.
      * specialize (Ht u z Hz). destruct z as [|cl' own' p']; [cbn; congruence|]. destruct Ht as (U1 & [U2|[_ U2]] & U3); [congruence|].
        split; [exact U1|]. split; [right; split; [cbn; congruence|exact U2]|exact U3].
    + unfold lock_ok. cbn [y_owner y_thr y_pool y_st]. exists cl, own, (k Null), L.
      split; [rewrite (nth_set _ _ _ _ _ Hn), Nat.eqb_refl; reflexivity|]. split; [rewrite (others_set _ _ _ _ Hn); reflexivity|].
      split; [eapply good_sep, Gd|]. split; [|exact Sf]. destruct Gd as [St _]. intros e He. apply in_app_or in He as [He|He]; [|apply St, in_or_app; right; exact He].
      destruct cl; try destruct He as []. cbn [ownok] in T1. destruct T1 as (p & ->). cbn in *. subst e. eapply eok_none. apply (St (Entry a i p)). left. reflexivity. contradiction.
  - (* unlock *)
    unfold lock_ok in Hl. rewrite Ho in Hl. destruct Hl as (cl' & own' & p' & L & En & PL & Sp & St & Sf). rewrite Hn in En. injection En as <- <- <-.
    cbn [TrampDll.safe] in Sf. destruct (k Null) as [v|] eqn:Ek; [|contradiction].
    destruct Sf as (bs' & B1 & Gd & B3).
    pose proof (Ht t _ Hn) as (T1 & _ & T3).
    assert (InL : forall e, In e (y_pool y) -> In e L).
    { intros e He. eapply Permutation_in; [symmetry; exact PL|]. apply in_or_app. left. exact He. }
    assert (P : Permutation (result cl v ++ L) (inuse (Sys (y_st y) None (set_thr (y_thr y) t (Run cl own (Ret v))) (y_pool y)))).
    { unfold inuse. cbn [y_pool y_thr]. assert (H' : nth_error (set_thr (y_thr y) t (Run cl own (Ret v))) t = Some (Run cl own (Ret v))) by (rewrite (nth_set _ _ _ _ _ Hn), Nat.eqb_refl; reflexivity).
      rewrite (thr_perm _ _ _ H'). cbn [held]. rewrite (others_set _ _ _ _ Hn). rewrite PL. rewrite !app_assoc. apply Permutation_app_tail, Permutation_app_comm. }
    exists bs'. split.
    + intros u z Hz. cbn [y_thr] in Hz. rewrite (nth_set _ _ _ _ _ Hn) in Hz. destruct (Nat.eqb_spec u t) as [->|Ne].
      * injection Hz as <-. split; [exact T1|]. split; [right; split; [cbn; discriminate|right; eauto]|]. destruct cl; auto. destruct T3 as [(q & Hq) _].
        split; [exists q; exact Hq|]. intros w Ew. injection Ew as <-. rewrite B3. specialize (B1 _ (InL _ Hq)). cbn [e_arr] in B1. rewrite B1. reflexivity.
      * specialize (Ht u z Hz). destruct z as [|cl' own' p']; [cbn; congruence|]. destruct Ht as (U1 & [U2|[_ U2]] & U3); [congruence|].
        split; [exact U1|]. split; [right; split; [cbn; congruence|exact U2]|]. destruct cl'; auto. destruct U3 as [(q & Hq) U3]. split; [exists q; exact Hq|].
        intros w Ew. specialize (B1 _ (InL _ Hq)). cbn [e_arr] in B1. rewrite B1. apply U3, Ew.
    + unfold lock_ok. cbn [y_owner y_st]. assert (Z0 : zlen (result cl v ++ L) = zlen (inuse (Sys (y_st y) None (set_thr (y_thr y) t (Run cl own (Ret v))) (y_pool y)))).
      { unfold zlen. rewrite (Permutation_length P). reflexivity. }
      rewrite <- Z0. eapply good_perm; [exact P|exact Gd].
  - (* do *)
    exists bs. eapply sys_mono; [apply Z.le_max_l|]. pose proof (Ht t _ Hn) as (T1 & T2 & T3).
    assert (Ho : y_owner y = Some t).
    { destruct T2 as [T2|[_ [T2|(w & T2)]]]; [exact T2| |discriminate]. destruct (code_lock cl) as (k' & E). rewrite E in T2. injection T2 as -> _. inversion D. }
    unfold lock_ok in Hl. rewrite Ho in Hl. destruct Hl as (cl' & own' & p' & L & En & PL & Sp & St & Sf). rewrite Hn in En. injection En as <- <- <-.
    assert (Sf' : stableb c bs (keep cl ++ L) s' /\ safe c (stableb c bs (keep cl ++ L)) (k v) (after c cl bs L pk) s').
    { destruct o; cbn [TrampDll.safe] in Sf; try (apply Sf, D); inversion D. }
    destruct Sf' as [St' Sf']. split.
    + intros u z Hz. cbn [y_thr] in Hz. rewrite (nth_set _ _ _ _ _ Hn) in Hz. destruct (Nat.eqb_spec u t) as [->|Ne].
      * injection Hz as <-. split; [exact T1|]. split; [left; exact Ho|]. destruct cl; auto. destruct T3 as [T3 _]. split; [exact T3|].
        intros w Ew. rewrite Ew in Sf'. destruct Sf'.
      * specialize (Ht u z Hz). exact Ht.
    + unfold lock_ok. cbn [y_owner y_thr y_pool y_st]. rewrite Ho. exists cl, own, (k v), L.
      split; [rewrite (nth_set _ _ _ _ _ Hn), Nat.eqb_refl; reflexivity|]. split; [rewrite (others_set _ _ _ _ Hn); exact PL|].
      split; [exact Sp|]. split; assumption.
  - (* return *)
    exists bs. eapply sys_mono; [apply Z.le_max_l|]. pose proof (Ht t _ Hn) as (T1 & T2 & T3).
    assert (No : y_owner y <> Some t).
    { intros Ho. unfold lock_ok in Hl. rewrite Ho in Hl. destruct Hl as (cl' & own' & p' & L & En & PL & Sp & St & Sf). rewrite Hn in En. injection En as <- <- <-. destruct Sf. }
    eapply other_step; [exact Hs|exact Hn|exact No| | |].
    + cbn [held]. rewrite app_nil_r. apply Permutation_app_comm.
    + exact No.
    + intros u a i own' p q Nu Hu Hq. exists q. apply in_or_app. right. exact Hq.
Qed.

Lemma runs_ok y pk : runs c y pk -> exists bs, sys_ok bs pk y.
Proof.
  intros H. induction H as [y S|y pk y' H [bs IH] S]; [eexists; apply start_ok, S|]. eapply step_ok; eassumption.
Qed.

Lemma reach_runs y : reach c y -> exists pk, runs c y pk.
Proof. intros H. induction H as [y S|y y' H [pk IH] S]; [eexists; constructor; exact S|]. eexists. eapply runs_step; eassumption. Qed.

Lemma reach_ok y : reach c y -> exists bs pk, sys_ok bs pk y.
Proof. intros H. apply reach_runs in H as (pk & H). apply runs_ok in H as (bs & H). eauto. Qed.
End Sys.
