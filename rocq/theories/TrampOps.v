(** The operations of the trampoline allocator preserve its invariant. *)
From Coq Require Import ZifyBool ZifyNat Permutation.
From Verif Require Import Base TrampModel TrampDll TrampProofs TrampInv.
Local Arguments Z.mul : simpl never.
Local Arguments Z.add : simpl never.
Local Arguments Z.sub : simpl never.
Local Arguments Z.pow : simpl never.
Local Arguments Z.eqb : simpl never.
Local Arguments Z.div : simpl never.
Local Arguments val_eqb : simpl never.

Section Steps.
Context (c : tcfg) (Hc : cfg_ok c).

Lemma rest_ids {X} (f : X -> Z) t rest t' : NoDup (map f (t :: rest)) -> In t' rest -> f t' <> f t.
Proof. intros N H E. cbn in N. inversion N; subst. apply H2. rewrite <- E. apply in_map, H. Qed.

Lemma inv_update s s' t rest fl fr fl' : inv c s (t :: rest) fl -> agree (fun l => link l \/ tlink t l) s s' ->
  tabm c (ntramp c) s' (with_free t fr) -> links s' fl' -> NoDup fl' ->
  (forall id, In id fl' <-> (id = at_id t /\ fr <> [] \/ id <> at_id t /\ In id fl)) ->
  (zlen fr = ntramp c -> forall t', In t' rest -> zlen (at_free t') <> ntramp c) ->
  inv c s' (with_free t fr :: rest) fl'.
Proof.
  intros [H1 H2 H3 H4 H5 H6 H7 H8 H9 H10 H11 H12 H13 H14] A T' Lk Nd Fl W.
  pose proof A as (A1 & A2 & A3 & A4 & A5).
  assert (E : map at_id (with_free t fr :: rest) = map at_id (t :: rest) /\ map at_arr (with_free t fr :: rest) = map at_arr (t :: rest)) by (split; reflexivity).
  destruct E as [E1 E2]. constructor.
  - rewrite A5 by (cbn; tauto). exact H1.
  - rewrite A5 by (cbn; tauto). exact H2.
  - rewrite A5 by (cbn; tauto). exact H3.
  - exact Lk.
  - exact Nd.
  - intros id. rewrite Fl. split.
    + intros [[-> Hf]|[Hid Hf]]; [exists (with_free t fr); split; [left; reflexivity|split; [reflexivity|exact Hf]]|].
      apply H6 in Hf as (t' & [<-|I'] & Ei & Ef); [congruence|]. exists t'. split; [right; exact I'|split; assumption].
    + intros (t' & [<-|I'] & Ei & Ef).
      * left. split; [symmetry; exact Ei|exact Ef].
      * right. pose proof (rest_ids at_id t rest t' H8 I'). split; [congruence|]. apply H6. exists t'. split; [right; exact I'|split; assumption].
  - inversion H7 as [|? ? Ht Hr]; subst. constructor; [exact T'|]. rewrite Forall_forall in *. intros t' I'.
    eapply tab_agree; [apply Hr; exact I'|exact A|]. intros l Hl.
    pose proof (rest_ids at_id t rest t' H8 I'). pose proof (rest_ids at_arr t rest t' H9 I').
    destruct l as [[]|? []|? ? []]; cbn in Hl |- *; auto; destruct Hl as [Hl|Hl]; try contradiction; congruence.
  - rewrite E1. exact H8.
  - rewrite E2. exact H9.
  - inversion H10 as [|? ? HA HB]; subst. constructor; [exact HA|exact HB].
  - intros id Hid. rewrite E1. apply H11. rewrite <- A1. exact Hid.
  - intros arr Ha. rewrite E2. apply H12. rewrite <- A2. exact Ha.
  - intros x Hx. rewrite A3 in Hx. apply H13 in Hx. inversion Hx; subst; [left; assumption|right; assumption].
  - intros t1 t2 [<-|I1] [<-|I2] Z1 Z2; [reflexivity| | |].
    + destruct (W Z1 t2 I2 Z2).
    + destruct (W Z2 t1 I1 Z1).
    + apply H14; auto; right; assumption.
Qed.

Lemma tab_gone s s' t t' : tabm c (ntramp c) s t' -> gone c t s s' -> at_id t' <> at_id t -> at_arr t' <> at_arr t -> apart_tabs c t t' ->
  tabm c (ntramp c) s' t'.
Proof.
  destruct t as [id arr b fr]. destruct t' as [id' arr' b' fr']. cbn [at_id at_arr].
  intros (H1 & H2 & H3 & H4 & H5 & H6 & (M1 & M2 & M3 & M4) & F1 & F2 & F3 & F4 & F5) (G1 & G2 & G3 & G4 & G5) N1 N2 Ap.
  cbn [at_id at_arr at_base] in *. unfold apart_tabs in Ap. cbn [at_base] in Ap. pose proof Hc as [C1 C2].
  assert (ET : forall f, match f with TPrev | TNext => True | _ => s_val s' (T id' f) = s_val s (T id' f) end).
  { intros []; auto; apply G5; cbn; auto. }
  assert (EA : forall i f, s_val s' (A arr' i f) = s_val s (A arr' i f)) by (intros i []; apply G5; cbn; auto).
  unfold tabm. rewrite G1, G2. destruct (Z.eqb_spec id' id); [congruence|]. destruct (Z.eqb_spec arr' arr); [congruence|].
  rewrite (ET TCode), (ET TParm), (ET TArray). repeat (split; [assumption|]).
  split; [intros i Hi; rewrite !EA; apply H6; exact Hi|]. split.
  - split; [exact M1|]. split; [exact M2|]. split; intros x Hx; rewrite G3; unfold inside;
      (destruct ((b <=? x) && (x <? b + 2 * tc_map c)) eqn:E; [lia|]); [rewrite G4; apply M3; exact Hx|apply M4; exact Hx].
  - unfold flist. rewrite (ET TFree), (ET TNfree). repeat (split; [assumption|]). split; [|split; assumption].
    eapply dll_ext; [|exact F3]. intros i _. cbn beta. rewrite !EA. split; reflexivity.
Qed.

Lemma inv_remove s s' t rest fl fl' : inv c s (t :: rest) fl -> gone c t s s' -> links s' fl' -> NoDup fl' ->
  (forall id, In id fl' <-> id <> at_id t /\ In id fl) -> inv c s' rest fl'.
Proof.
  intros [H1 H2 H3 H4 H5 H6 H7 H8 H9 H10 H11 H12 H13 H14] Gn Lk Nd Fl. pose proof Gn as (G1 & G2 & G3 & G4 & G5).
  constructor.
  - rewrite G5 by (cbn; tauto). exact H1.
  - rewrite G5 by (cbn; tauto). exact H2.
  - rewrite G5 by (cbn; tauto). exact H3.
  - exact Lk.
  - exact Nd.
  - intros id. rewrite Fl, H6. split.
    + intros (N & t' & [<-|I'] & Ei & Ef); [congruence|]. exists t'. split; [exact I'|split; assumption].
    + intros (t' & I' & Ei & Ef). split; [|exists t'; split; [right; exact I'|split; assumption]].
      pose proof (rest_ids at_id t rest t' H8 I'). congruence.
  - inversion H7 as [|? ? Ht Hr]; subst. rewrite Forall_forall in *. intros t' I'. eapply tab_gone; [apply Hr; exact I'|exact Gn| | |].
    + eapply rest_ids; eassumption.
    + eapply rest_ids; eassumption.
    + inversion H10 as [|? ? HA HB]; subst. rewrite Forall_forall in HA. auto.
  - cbn in H8. inversion H8; assumption.
  - cbn in H9. inversion H9; assumption.
  - inversion H10; assumption.
  - intros id Hid. rewrite G1 in Hid. destruct (Z.eqb_spec id (at_id t)); [discriminate|]. apply H11 in Hid as [E|I']; [congruence|exact I'].
  - intros arr Ha. rewrite G2 in Ha. destruct (Z.eqb_spec arr (at_arr t)); [congruence|]. apply H12 in Ha as [E|I']; [congruence|exact I'].
  - intros x Hx. rewrite G3 in Hx. unfold inside in Hx. destruct ((at_base t <=? x) && (x <? at_base t + 2 * tc_map c)) eqn:E; [congruence|].
    apply H13 in Hx. inversion Hx; subst; [unfold in_tab in *; lia|assumption].
  - intros t1 t2 I1 I2. apply H14; right; assumption.
Qed.

Definition cons (bs : Z -> Z) (L : list entry) (ts : list atab) : Prop :=
  forall e, In e L -> exists t, In t ts /\ at_arr t = e_arr e /\ at_base t = bs (e_arr e) /\ 0 <= e_i e < ntramp c /\ ~ In (e_i e) (at_free t).

Lemma cons_perm bs L ts ts' : Permutation ts ts' -> cons bs L ts -> cons bs L ts'.
Proof. intros P C e He. destruct (C e He) as (t & I & H). exists t. split; [eapply Permutation_in; eassumption|exact H]. Qed.

Lemma tab_of_live ts a i : In (a, i) (live_of c ts) -> exists t rest, Permutation ts (t :: rest) /\ at_arr t = a /\ 0 <= i < ntramp c /\ ~ In i (at_free t).
Proof.
  intros H. apply in_live in H as (t & I & H). apply in_split in I as (x & y & ->). exists t, (x ++ y). split; [|exact H].
  symmetry. apply Permutation_middle.
Qed.

Lemma nodup_all_used fr : NoDup fr -> (forall i, In i fr -> 0 <= i < ntramp c) -> zlen fr = ntramp c -> forall i, 0 <= i < ntramp c -> In i fr.
Proof.
  intros N B Z0 i Hi. pose proof (ntramp_pos c Hc). assert (In' : incl (zseq (ntramp c)) fr).
  { apply (NoDup_length_incl N).
    - pose proof (zseq_len (ntramp c) ltac:(lia)). unfold zlen in *. lia.
    - intros j Hj. apply in_zseq. auto. }
  apply In'. apply in_zseq. exact Hi.
Qed.

Lemma free_ok bs L s ts fl a i : stableb c bs L s -> inv c s ts fl -> cons bs L ts -> In (a, i) (live_of c ts) -> ~ In (a, i) (map key L) ->
  wp c (stableb c bs L) (tramp_add a i) (fun _ s' => stableb c bs L s' /\ s_val s' (G GStatus) = s_val s (G GStatus) /\
    exists ts' fl', inv c s' ts' fl' /\ cons bs L ts' /\ Permutation (live_of c ts) ((a, i) :: live_of c ts') /\ zlen ts' <= zlen ts /\
      (live_of c ts' = [] -> zlen ts' <= 1)) s.
Proof.
  intros Hi Iv Cn Li Ni. destruct (tab_of_live ts a i Li) as (t & rest & P & <- & Hb & Nf).
  assert (Lp : Permutation (live_of c ts) (live_of c (t :: rest))) by (apply live_perm, P).
  apply (inv_perm _ _ _ _ _ P) in Iv. apply (cons_perm _ _ _ _ P) in Cn.
  assert (Lts : zlen ts = zlen (t :: rest)) by (unfold zlen; rewrite (Permutation_length P); reflexivity).
  pose proof Iv as [H1 H2 H3 H4 H5 H6 H7 H8 H9 H10 H11 H12 H13 H14].
  inversion H7 as [|? ? Tt Tr]; subst. pose proof (ntramp_pos c Hc) as Np.
  assert (Lvf : forall y, In y fl -> s_tlive s y = true).
  { intros y Hy. apply H6 in Hy as (t' & I' & <- & _). rewrite Forall_forall in H7. specialize (H7 t' I'). destruct t'; apply H7. }
  assert (Fi : In (at_id t) fl <-> at_free t <> []).
  { rewrite H6. split.
    - intros (t' & [<-|I'] & E & F); [exact F|]. pose proof (rest_ids at_id t rest t' H8 I'). congruence.
    - intros F. exists t. split; [left; reflexivity|split; [reflexivity|exact F]]. }
  assert (Fr : NoDup (at_free t) /\ forall j, In j (at_free t) -> 0 <= j < ntramp c).
  { destruct t. destruct Tt as (_ & _ & _ & _ & _ & _ & _ & _ & _ & _ & X & Y). split; assumption. }
  destruct Fr as [Fr1 Fr2].
  assert (Nfl : NoDup (fl_after t fl)).
  { unfold fl_after. destruct (at_free t) eqn:E; [|exact H5]. constructor; [|exact H5]. intros X. apply Fi in X. congruence. }
  eapply wp_conseq.
  - apply (tramp_add_ok c Hc bs L (ntramp c) s t i fl); auto; try lia.
    intros Z1 _ e He. destruct (Cn e He) as (t' & I' & Ea & Eb & Eh & Eu). rewrite <- Eb, <- Ea. destruct I' as [<-|I'].
    + exfalso. assert (X : In (e_i e) (i :: at_free t)).
      { apply nodup_all_used; [constructor; assumption| |exact Z1|exact Eh]. intros j [<-|Hj]; auto. }
      destruct X as [->|X]; [|contradiction]. apply Ni. apply in_map_iff. exists e. split; [unfold key; congruence|exact He].
    + split; [eapply rest_ids; eassumption|]. inversion H10 as [|? ? HA HB]; subst. rewrite Forall_forall in HA. destruct (HA t' I'); [right|left]; assumption.
  - cbn beta. intros _ s' (I' & [(Nw & T' & Lk & Ag)|(Z1 & Z2 & (x & y & Exy & Lk) & Gn)]).
    + split; [exact I'|]. pose proof Ag as (_ & _ & _ & _ & A5). split; [apply A5; cbn; tauto|].
      assert (Iv' : inv c s' (with_free t (i :: at_free t) :: rest) (fl_after t fl)).
      { eapply inv_update; try eassumption.
        - intros id. unfold fl_after. destruct (at_free t) eqn:E.
          + cbn [In]. split; [intros [<-|Hid]; [left; split; [reflexivity|discriminate]|]|].
            * destruct (Z.eq_dec id (at_id t)) as [->|]; [left; split; [reflexivity|discriminate]|right; split; assumption].
            * intros [[-> _]|[_ Hid]]; [left; reflexivity|right; exact Hid].
          + split.
            * intros Hid. destruct (Z.eq_dec id (at_id t)) as [->|]; [left; split; [reflexivity|discriminate]|right; split; assumption].
            * intros [[-> _]|[_ Hid]]; [apply Fi; congruence|exact Hid].
        - intros Z1 t' It' Z'. apply Nw. split; [exact Z1|].
          assert (I2 : In (at_id t') fl).
          { apply H6. exists t'. split; [right; exact It'|]. split; [reflexivity|]. intros E. rewrite E in Z'. unfold zlen in Z'. cbn in Z'. lia. }
          pose proof (rest_ids at_id t rest t' H8 It') as Nid.
          assert (I1 : In (at_id t) (fl_after t fl)) by (unfold fl_after; destruct (at_free t) eqn:E; [left; reflexivity|apply Fi; congruence]).
          assert (I3 : In (at_id t') (fl_after t fl)) by (unfold fl_after; destruct (at_free t); [right|]; exact I2).
          destruct (fl_after t fl) as [|u [|w q]]; [destruct I1| |unfold zlen; cbn [length]; lia].
          destruct I1 as [->|[]]. destruct I3 as [E|[]]. congruence. }
      exists (with_free t (i :: at_free t) :: rest), (fl_after t fl). split; [exact Iv'|]. split; [|split; [|split]].
      * intros e He. destruct (Cn e He) as (t' & [<-|It'] & Ea & Eb & Eh & Eu).
        -- exists (with_free t (i :: at_free t)). split; [left; reflexivity|]. repeat (split; [assumption|]). cbn. intros [->|X]; [|contradiction].
           apply Ni. apply in_map_iff. exists e. split; [unfold key; congruence|exact He].
        -- exists t'. split; [right; exact It'|]. auto.
      * rewrite Lp. cbn [live_of flat_map]. fold (live_of c rest).
        rewrite (used_push c t i Hb Nf) at 1. cbn [map app]. reflexivity.
      * rewrite Lts. unfold zlen. cbn [length]. lia.
      * intros E0. assert (W0 : forall t', In t' (with_free t (i :: at_free t) :: rest) -> zlen (at_free t') = ntramp c).
        { intros t' It'. destruct Iv' as [_ _ _ _ _ _ J7 _ _ _ _ _ _ _]. rewrite Forall_forall in J7. specialize (J7 t' It').
          assert (U : used c t' = []).
          { destruct (used c t') as [|u q] eqn:U; [reflexivity|]. exfalso.
            assert (X : In (at_arr t', u) (live_of c (with_free t (i :: at_free t) :: rest))); [|rewrite E0 in X; exact X].
            apply in_live. exists t'. split; [exact It'|]. split; [reflexivity|]. apply in_used. rewrite U. left. reflexivity. }
          destruct t' as [id' ar' b' fr']. destruct J7 as (_ & _ & _ & _ & _ & _ & _ & _ & _ & _ & X & Y).
          pose proof (used_len c (AT id' ar' b' fr') Hc X Y) as Z0. rewrite U in Z0. unfold zlen in *. cbn in *. lia. }
        destruct rest as [|t2 r2]; [unfold zlen; cbn [length]; lia|]. exfalso.
        pose proof (i_whole _ _ _ _ Iv' (with_free t (i :: at_free t)) t2 (or_introl eq_refl) (or_intror (or_introl eq_refl))
          (W0 _ (or_introl eq_refl)) (W0 _ (or_intror (or_introl eq_refl)))) as Eq.
        pose proof (rest_ids at_id t (t2 :: r2) t2 H8 (or_introl eq_refl)) as N2. apply N2. rewrite <- Eq. reflexivity.
    + split; [exact I'|]. split; [apply Gn; cbn; tauto|].
      assert (Nxy : NoDup (x ++ at_id t :: y)) by (rewrite <- Exy; exact Nfl).
      assert (Iv' : inv c s' rest (x ++ y)).
      { eapply inv_remove; [exact Iv|exact Gn|exact Lk|eapply NoDup_remove_1; exact Nxy|].
        intros id. pose proof (NoDup_remove_2 _ _ _ Nxy) as Nt.
        assert (Q : In id (x ++ at_id t :: y) <-> id = at_id t \/ In id fl).
        { rewrite <- Exy. unfold fl_after. destruct (at_free t) eqn:E; cbn [In]; [intuition congruence|].
          split; [auto|]. intros [->|]; [|assumption]. apply Fi. congruence. }
        split.
        - intros Hid. assert (id <> at_id t) by (intros ->; contradiction). split; [assumption|].
          assert (X : In id (x ++ at_id t :: y)) by (apply in_app_or in Hid; apply in_or_app; destruct Hid; [left|right; right]; assumption).
          apply Q in X as [X|X]; [congruence|exact X].
        - intros [N Hid]. assert (X : In id (x ++ at_id t :: y)) by (apply Q; right; exact Hid).
          apply in_app_or in X. apply in_or_app. destruct X as [X|[X|X]]; [left; exact X|congruence|right; exact X]. }
      assert (Ut : used c t = [i]).
      { pose proof (used_push c t i Hb Nf) as U.
        assert (U' : used c (with_free t (i :: at_free t)) = []).
        { destruct (used c (with_free t (i :: at_free t))) as [|u q] eqn:E; [reflexivity|]. exfalso.
          assert (X : In u (used c (with_free t (i :: at_free t)))) by (rewrite E; left; reflexivity).
          apply in_used in X as [X1 X2]. apply X2. cbn [with_free at_free].
          apply nodup_all_used; [constructor; assumption| |exact Z1|exact X1]. intros j [<-|Hj]; auto. }
        rewrite U' in U. symmetry in U. apply Permutation_length_1_inv in U. exact U. }
      exists rest, (x ++ y). split; [exact Iv'|]. split; [|split; [|split]].
      * intros e He. destruct (Cn e He) as (t' & [<-|It'] & Ea & Eb & Eh & Eu); [|exists t'; auto].
        exfalso. assert (X : In (e_i e) (used c t)) by (apply in_used; split; assumption). rewrite Ut in X. destruct X as [X|[]].
        apply Ni. apply in_map_iff. exists e. split; [unfold key; congruence|exact He].
      * rewrite Lp. cbn [live_of flat_map]. rewrite Ut. cbn [map app]. reflexivity.
      * rewrite Lts. unfold zlen. cbn [length]. lia.
      * intros E0. destruct rest as [|t1 [|t2 r2]]; [unfold zlen; cbn; lia|unfold zlen; cbn; lia|]. exfalso.
        assert (W0 : forall t', In t' (t1 :: t2 :: r2) -> zlen (at_free t') = ntramp c).
        { intros t' It'. rewrite Forall_forall in Tr. specialize (Tr t' It').
          assert (U : used c t' = []).
          { destruct (used c t') as [|u q] eqn:U; [reflexivity|]. exfalso.
            assert (X : In (at_arr t', u) (live_of c (t1 :: t2 :: r2))); [|rewrite E0 in X; exact X].
            apply in_live. exists t'. split; [exact It'|]. split; [reflexivity|]. apply in_used. rewrite U. left. reflexivity. }
          destruct t' as [id' ar' b' fr']. destruct Tr as (_ & _ & _ & _ & _ & _ & _ & _ & _ & _ & X & Y).
          pose proof (used_len c (AT id' ar' b' fr') Hc X Y) as Z0. rewrite U in Z0. unfold zlen in *. cbn in *. lia. }
        pose proof (i_whole _ _ _ _ Iv' t1 t2 (or_introl eq_refl) (or_intror (or_introl eq_refl))
          (W0 _ (or_introl eq_refl)) (W0 _ (or_intror (or_introl eq_refl)))) as Eq.
        destruct Iv' as [_ _ _ _ _ _ _ J8 _ _ _ _ _ _]. cbn in J8. inversion J8 as [|? ? J J']; subst. apply J. left. reflexivity.
Qed.

(** ** Taking a trampoline *)
Lemma wp_ret I v (Q : val -> st -> Prop) s : Q v s -> wp c I (Ret v) Q s.
Proof. auto. Qed.

Lemma tabs_in s ts fl t : inv c s ts fl -> In t ts -> tabm c (ntramp c) s t.
Proof. intros Iv Hin. pose proof (i_tabs _ _ _ _ Iv) as H. rewrite Forall_forall in H. auto. Qed.

Lemma tab_free s t : tabm c (ntramp c) s t -> NoDup (at_free t) /\ (forall j, In j (at_free t) -> 0 <= j < ntramp c) /\
  s_val s (T (at_id t) TFree) = hdp (PTr (at_arr t)) (at_free t) /\ s_val s (T (at_id t) TNfree) = Num (zlen (at_free t)) /\
  s_tlive s (at_id t) = true /\ s_alive s (at_arr t) = Some (ntramp c) /\ mapped c s (at_base t) /\
  (forall i, 0 <= i < ntramp c -> s_val s (A (at_arr t) i ATable) = PTab (at_id t) /\ s_val s (A (at_arr t) i ACode) = Addr (at_base t + i * tc_size c) /\
     s_val s (A (at_arr t) i AParm) = Addr (at_base t + tc_map c + i * tc_size c)).
Proof.
  destruct t as [id arr b fr]. intros (H1 & H2 & H3 & H4 & H5 & H6 & H7 & F1 & F2 & F3 & F4 & F5). cbn [at_id at_arr at_base at_free].
  repeat (split; [assumption|]). assumption.
Qed.

Lemma del_ok bs L s ts fl id fl0 : stableb c bs L s -> inv c s ts fl -> cons bs L ts -> fl = id :: fl0 ->
  exists arr i b ts' fl', s_val s (G GFree) = PTab id /\ s_tlive s id = true /\ s_val s (T id TFree) = PTr arr i /\ ~ In (arr, i) (map key L) /\
  (forall e, In e L -> e_arr e = arr -> bs arr = b) /\
  wp c (stableb c bs L) (tramp_del arr i) (fun _ s' => stableb c bs L s' /\ s_val s' (G GStatus) = s_val s (G GStatus) /\
     inv c s' ts' fl' /\ cons bs L ts' /\ eok c s' b (Entry arr i None) /\
     (exists t, In t ts' /\ at_arr t = arr /\ at_base t = b /\ 0 <= i < ntramp c /\ ~ In i (at_free t)) /\
     Permutation (live_of c ts') ((arr, i) :: live_of c ts) /\ zlen ts' = zlen ts) s.
Proof.
  intros Hi Iv Cn ->. pose proof (i_fl _ _ _ _ Iv id) as Hf. destruct Hf as [Hf _]. destruct (Hf (or_introl eq_refl)) as (t & It & <- & Fr).
  apply in_split in It as (tl & tr & ->). assert (P : Permutation (tl ++ t :: tr) (t :: tl ++ tr)) by (symmetry; apply Permutation_middle).
  pose proof (live_perm c _ _ P) as Lp. apply (inv_perm _ _ _ _ _ P) in Iv. apply (cons_perm _ _ _ _ P) in Cn.
  assert (Lts : zlen (tl ++ t :: tr) = zlen (t :: tl ++ tr)) by (unfold zlen; rewrite (Permutation_length P); reflexivity).
  rewrite Lts. clear P Lts Hf. set (rest := tl ++ tr) in *. clearbody rest.
  pose proof Iv as [H1 H2 H3 H4 H5 H6 H7 H8 H9 H10 H11 H12 H13 H14].
  inversion H7 as [|? ? Tt Tr]; subst. pose proof (ntramp_pos c Hc) as Np.
  destruct (at_free t) as [|i fr] eqn:Ef; [congruence|]. clear Fr.
  destruct (tab_free s t Tt) as (N1 & B1 & F1 & F2 & Lv & Al & Mp & Ar). rewrite Ef in *.
  assert (Hib : 0 <= i < ntramp c) by (apply B1; left; reflexivity).
  set (t' := with_free t fr).
  assert (Nk : ~ In (at_arr t, i) (map key L)).
  { intros X. apply in_map_iff in X as (e & E & He). destruct (Cn e He) as (t2 & I2 & Ea & Eb & Eh & Eu). unfold key in E. injection E as E1 E2.
    destruct I2 as [<-|I2]; [apply Eu; rewrite E2, Ef; left; reflexivity|]. pose proof (rest_ids at_arr t rest t2 H9 I2). congruence. }
  exists (at_arr t), i, (at_base t), (t' :: rest), (match fr with [] => fl0 | _ => at_id t :: fl0 end).
  split; [apply H4|]. split; [exact Lv|]. split; [exact F1|]. split; [exact Nk|]. split.
  { intros e He Ea. destruct (Cn e He) as (t2 & I2 & Ea' & Eb & _). rewrite <- Ea. destruct I2 as [<-|I2]; [symmetry; exact Eb|].
    pose proof (rest_ids at_arr t rest t2 H9 I2). congruence. }
  assert (Va : valid s (A (at_arr t) i ATable)) by (exists (ntramp c); split; [exact Al|lia]).
  change (tramp_del (at_arr t) i) with (rd (A (at_arr t) i ATable) >>= fun v => deref_t v (fun id => pop_prog id (at_arr t) i >>
    (rd (T id TNfree) >>= fun n => num n (fun n => if n =? 0 then tramp_table_del id else Ret Null)))).
  apply wp_bind, wp_rd; [exact Hi|exact Va|]. destruct (Ar i Hib) as (Ar1 & _). rewrite Ar1. cbn [deref_t]. apply wp_seq.
  eapply wp_conseq; [apply (pop_ok c (stableb c bs L) (fun t s l v => stable_tlink c bs L t s l v Hc) (ntramp c) s t i fr Hi Tt ltac:(lia) Ef)|].
  cbn beta. intros _ s1 (I1 & T1 & A1). fold t' in T1. pose proof A1 as (D1 & D2 & D3 & D4 & D5).
  destruct (tab_free s1 t' T1) as (_ & _ & _ & F2' & _). cbn [with_free at_id at_free t'] in F2'. fold t' in T1.
  apply wp_bind, wp_rd; [exact I1|cbn; rewrite D1; exact Lv|]. change (at_id t') with (at_id t) in F2'. rewrite F2'. cbn [num].
  assert (Nid : forall id, In id (at_id t :: fl0) -> s_tlive s id = true).
  { intros id Hid. apply H6 in Hid as (t2 & I2 & <- & _). destruct (tab_free s t2) as (_ & _ & _ & _ & X & _); [|exact X].
    rewrite Forall_forall in H7. apply H7, I2. }
  assert (L1 : links s1 (at_id t :: fl0)) by (eapply links_agree; eassumption).
  assert (W : zlen fr = ntramp c -> forall t2, In t2 rest -> zlen (at_free t2) <> ntramp c).
  { intros Z0. exfalso. pose proof (bounded_len (ntramp c) (i :: fr) ltac:(lia) N1 B1). unfold zlen in *. cbn [length] in *. lia. }
  assert (Lv' : Permutation (live_of c (t' :: rest)) ((at_arr t, i) :: live_of c (tl ++ t :: tr))).
  { rewrite Lp. cbn [live_of flat_map]. fold (live_of c rest). change (at_arr t') with (at_arr t).
    assert (U : Permutation (used c t') (i :: used c t)).
    { inversion N1 as [|? ? Nq1 Nq2]; subst. pose proof (used_push c t' i Hib) as U. cbn [with_free at_free t'] in U. specialize (U Nq1).
      replace (with_free t' (i :: fr)) with t in U; [exact U|]. destruct t; cbn in *; subst; reflexivity. }
    rewrite U at 1. reflexivity. }
  assert (Cn' : cons bs L (t' :: rest)).
  { intros e He. destruct (Cn e He) as (t2 & I2 & Ea & Eb & Eh & Eu). destruct I2 as [<-|I2].
    - exists t'. split; [left; reflexivity|]. repeat (split; [assumption|]). cbn. intros X. apply Eu. rewrite Ef. right. exact X.
    - exists t2. split; [right; exact I2|]. auto. }
  assert (Fin : forall s2 fl', stableb c bs L s2 -> agree (fun l => link l \/ tlink t l) s s2 -> tabm c (ntramp c) s2 t' -> links s2 fl' -> NoDup fl' ->
    (forall x, In x fl' <-> x = at_id t /\ fr <> [] \/ x <> at_id t /\ In x (at_id t :: fl0)) ->
    stableb c bs L s2 /\ s_val s2 (G GStatus) = s_val s (G GStatus) /\
     inv c s2 (t' :: rest) fl' /\ cons bs L (t' :: rest) /\ eok c s2 (at_base t) (Entry (at_arr t) i None) /\
     (exists t0, In t0 (t' :: rest) /\ at_arr t0 = at_arr t /\ at_base t0 = at_base t /\ 0 <= i < ntramp c /\ ~ In i (at_free t0)) /\
     Permutation (live_of c (t' :: rest)) ((at_arr t, i) :: live_of c (tl ++ t :: tr)) /\ zlen (t' :: rest) = zlen (t :: rest)).
  { intros s2 fl' I2 A2 T2 L2 N2 F. split; [exact I2|]. split; [apply A2; cbn; tauto|].
    split; [eapply inv_update; eassumption|]. split; [exact Cn'|].
    destruct (tab_free s2 t' T2) as (_ & _ & _ & _ & _ & Al2 & Mp2 & Ar2). destruct (Ar2 i Hib) as (_ & R1 & R2).
    split; [split; [exact Al2|]; split; [exact Hib|]; split; [exact R1|]; split; [exact R2|]; split; [exact Mp2|exact Logic.I]|].
    split; [|split; [exact Lv'|reflexivity]].
    exists t'. split; [left; reflexivity|]. split; [reflexivity|]. split; [reflexivity|]. split; [exact Hib|]. inversion N1; assumption. }
  destruct fr as [|j fr].
  - change (zlen (@nil Z) =? 0) with true. cbn match.
    eapply wp_conseq; [apply (table_del_ok c (stableb c bs L) (fun s l v => stable_link c bs L s l v Hc) (at_id t) [] fl0 s1 I1 L1 H5)|].
    + intros y Hy. rewrite D1. apply Nid. exact Hy.
    + cbn beta. cbn [app]. intros _ s2 (I2 & L2 & A2). apply Fin; auto.
      * eapply agree_trans; [apply agree_or_r; exact A1|apply agree_or_l; exact A2].
      * eapply tab_agree; [exact T1|exact A2|]. intros l Hl. destruct l as [[]|? []|]; cbn in *; auto; contradiction.
      * inversion H5; assumption.
      * inversion H5 as [|? ? Q1 Q2]; subst. intros x. cbn [In]. split.
        -- intros Hx. right. split; [intros ->; contradiction|right; exact Hx].
        -- intros [[_ X]|[X [Y|Y]]]; [congruence|congruence|exact Y].
  - replace (zlen (j :: fr) =? 0) with false by (unfold zlen; cbn [length]; lia). apply wp_ret. apply Fin; auto.
    + apply agree_or_r. exact A1.
    + intros x. split.
      * intros Hx. destruct (Z.eq_dec x (at_id t)) as [->|]; [left; split; [reflexivity|discriminate]|right; split; assumption].
      * intros [[-> _]|[_ X]]; [left; reflexivity|exact X].
Qed.
End Steps.
