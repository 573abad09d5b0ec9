(** Every type below a successfully prepared signature is laid out. *)
From Coq Require Import ZifyBool ZifyNat.
From Verif Require Import Base BaseFacts Types TypeHeapModel LayoutSpec TypeHeapSpec
  TypeHeapProofs TypeHeapProofs2 TypeHeapProofs3 NaturalTypes PrepX86Model PrepX86Spec.

Local Arguments Z.mul : simpl never.
Lemma Some_inj' {A} (a b : A) : Some a = Some b -> a = b.
Proof. congruence. Qed.

Definition sized (h : theap) (p : tptr) : Prop := exists o, h p = Some o /\ o_size o <> 0.
(** A laid out object has laid out members. *)
Definition tight (h : theap) (q : tptr) : Prop :=
  forall o es e, h q = Some o -> o_size o <> 0 -> o_elems o = Some es -> In e es -> sized h e.
Definition same_shape (h h' : theap) : Prop :=
  forall q, match h q, h' q with
            | Some o, Some o' => o_code o' = o_code o /\ o_elems o' = o_elems o
            | None, None => True
            | _, _ => False
            end.

Lemma same_shape_refl h : same_shape h h.
Proof. intros q. destruct (h q); auto. Qed.
Lemma same_shape_trans a b c : same_shape a b -> same_shape b c -> same_shape a c.
Proof.
  intros H1 H2 q. specialize (H1 q). specialize (H2 q).
  destruct (a q), (b q), (c q); try tauto. destruct H1, H2. split; congruence.
Qed.
Lemma same_shape_hset h p o s a : h p = Some o -> same_shape h (hset h p (set_layout o s a)).
Proof.
  intros G q. unfold hset. destruct (Nat.eqb_spec q p) as [->|]; [rewrite G; cbn; auto|]. destruct (h q); auto.
Qed.
Lemma same_shape_inv h h' q o : same_shape h h' -> h' q = Some o -> exists o0, h q = Some o0 /\ o_code o = o_code o0 /\ o_elems o = o_elems o0.
Proof. intros S G. specialize (S q). rewrite G in S. destruct (h q) as [o0|]; [|contradiction]. exists o0. tauto. Qed.
Lemma same_shape_fwd h h' q o : same_shape h h' -> h q = Some o -> exists o0, h' q = Some o0 /\ o_code o0 = o_code o /\ o_elems o0 = o_elems o.
Proof. intros S G. specialize (S q). rewrite G in S. destruct (h' q) as [o0|]; [|contradiction]. exists o0. tauto. Qed.

Section Rank.
Context (rank : tptr -> nat) (S : tptr -> Prop).

(** [S] is closed under membership and ranks decrease. *)
Definition shaped (h : theap) : Prop :=
  forall p o es e, S p -> h p = Some o -> o_elems o = Some es -> In e es -> S e /\ (rank e < rank p)%nat.
Lemma shaped_same h h' : same_shape h h' -> shaped h -> shaped h'.
Proof.
  intros Sh H p o es e Sp G E I. destruct (same_shape_inv _ _ _ _ Sh G) as (o0 & G0 & _ & E0).
  eapply H; eauto. congruence.
Qed.

(** Only [p] and unsized objects of lower rank change. *)
Definition local (p : tptr) (h h' : theap) : Prop :=
  forall q, q <> p -> h' q = h q \/ ((rank q < rank p)%nat /\ ~ sized h q).

Lemma local_refl p h : local p h h.
Proof. intros q _. auto. Qed.

Lemma local_sized p h h' q : local p h h' -> q <> p -> sized h q -> h' q = h q.
Proof. intros L N Z. destruct (L q N) as [|(_ & H)]; [auto|contradiction]. Qed.

Lemma local_hset p h h' o : local p h h' -> local p h (hset h' p o).
Proof. intros L q N. rewrite hset_other by auto. apply L. exact N. Qed.

Lemma tight_other h h' q : (forall x, sized h x -> sized h' x) -> h' q = h q -> tight h q -> tight h' q.
Proof. intros M E T o es e G Z0 Es I. rewrite E in G. apply M. eapply T; eauto. Qed.

Definition tight_below (r : nat) (h : theap) : Prop := forall q, S q -> (rank q < r)%nat -> tight h q.

Lemma tight_below_hset arg h o : shaped h -> tight_below (rank arg) h -> tight_below (rank arg) (hset h arg o).
Proof.
  intros Sh T q Sq Lq. assert (q <> arg) by (intros ->; lia).
  intros o' es e G Z0 Es I. rewrite hset_other in G by auto. destruct (Sh _ _ _ _ Sq G Es I) as [_ Le].
  assert (e <> arg) by (intros ->; lia). destruct (T q Sq Lq o' es e G Z0 Es I) as (oe & Ge & Ze).
  exists oe. rewrite hset_other by auto. auto.
Qed.

Definition rec_tight (r : nat) (rec : theap -> tptr -> res (status * theap)) : Prop :=
  forall h p h', S p -> (rank p < r)%nat -> shaped h -> ~ sized h p -> tight_below (rank p) h ->
    rec h p = Ok (FFI_OK, h') ->
    same_shape h h' /\ local p h h' /\ sized h' p /\ tight h' p /\ tight_below (rank p) h'.

(** Everything below stays tight when one unsized object is laid out. *)
Lemma tight_after h h' e r : shaped h -> ~ sized h e -> local e h h' -> tight h' e -> tight_below (rank e) h' ->
  tight_below r h -> tight_below r h'.
Proof.
  intros Sh Ze L Te Tb T q Sq Lq. destruct (Nat.eq_dec q e) as [->|N]; [exact Te|].
  destruct (Nat.lt_ge_cases (rank q) (rank e)); [apply Tb; auto|].
  assert (E : h' q = h q) by (destruct (L q N) as [|[? _]]; [auto|lia]).
  apply (tight_other h h'); auto.
  intros x Zx. assert (x <> e) by (intros ->; contradiction). unfold sized. rewrite (local_sized _ _ _ _ L H0 Zx). exact Zx.
Qed.

Lemma not_sized h p o : h p = Some o -> o_size o = 0 -> ~ sized h p.
Proof. intros G Z0 (o' & G' & N). congruence. Qed.

Lemma init_loop_tight w rec arg : rec_tight (rank arg) rec -> S arg ->
  forall ptrs h h' offs, shaped h -> (forall e, In e ptrs -> S e /\ (rank e < rank arg)%nat) ->
    tight_below (rank arg) h -> init_loop w rec arg ptrs h = Ok (FFI_OK, h', offs) ->
    same_shape h h' /\ local arg h h' /\ tight_below (rank arg) h' /\ forall e, In e ptrs -> sized h' e.
Proof.
  intros RT Sa. induction ptrs as [|e ptrs IH]; intros h h' offs Sh Hin T H.
  - cbn [init_loop] in H. injection H as <- _. repeat split; auto using same_shape_refl, local_refl. contradiction.
  - cbn [init_loop] in H. apply bind_ok in H as (o & Go & H). apply bind_ok in H as ([st h1] & R & H).
    destruct (Hin e (or_introl eq_refl)) as [Se Le].
    destruct (h e) as [o'|] eqn:Ge; [|discriminate]. cbn [of_option] in Go. injection Go as <-.
    assert (St : st = FFI_OK) by (destruct st; auto; discriminate). subst st.
    (* after laying out e *)
    assert (X : same_shape h h1 /\ local arg h h1 /\ sized h1 e /\ tight_below (rank arg) h1).
    { destruct (Z.eqb_spec (o_size o') 0) as [Z0|Z0].
      - pose proof (not_sized _ _ _ Ge Z0) as Ns.
        destruct (RT h e h1 Se Le Sh Ns) as (A & B & C & D & E); auto.
        { intros q Sq Lq. apply T; auto. lia. }
        split; [auto|]. split; [|split; [auto|]].
        + intros q Nq. destruct (Nat.eq_dec q e) as [->|Ne]; [right; auto|].
          destruct (B q Ne) as [|[Lq Zq]]; [auto|]. right. split; [lia|auto].
        + eapply tight_after; eauto.
      - injection R as <-. repeat split; auto using same_shape_refl, local_refl. exists o'. auto. }
    destruct X as (A & B & C & D).
    apply bind_ok in H as (o1 & G1 & H). apply bind_ok in H as (a & Ga & H).
    destruct (h1 arg) as [a'|] eqn:Gh; [|discriminate]. cbn [of_option] in Ga. injection Ga as <-.
    apply bind_ok in H as ([[st3 h3] offs3] & L & H). injection H as -> <- _.
    apply IH in L as (A2 & B2 & C2 & D2).
    + assert (Sm : forall x, x <> arg -> sized h1 x -> sized h3 x).
      { intros x Nx Zx. unfold sized. rewrite (local_sized _ _ _ x B2); auto.
        - rewrite hset_other by auto. exact Zx.
        - unfold sized. rewrite hset_other by auto. exact Zx. }
      split; [|split; [|split]].
      * eapply same_shape_trans; [exact A|]. eapply same_shape_trans; [|exact A2]. apply same_shape_hset. exact Gh.
      * intros q Nq. destruct (B2 q Nq) as [E2|[Lq Zq]].
        -- rewrite E2. rewrite hset_other by auto. apply B. exact Nq.
        -- destruct (B q Nq) as [E1|X]; [|right; exact X]. right. split; [lia|].
           unfold sized in Zq. rewrite hset_other, E1 in Zq by auto. exact Zq.
      * exact C2.
      * intros x [->|Ix]; [|apply D2; exact Ix]. apply Sm; auto. intros ->. lia.
    + eapply shaped_same; [|exact Sh]. eapply same_shape_trans; [exact A|]. apply same_shape_hset. exact Gh.
    + intros x Ix. apply Hin. right. exact Ix.
    + apply tight_below_hset; auto. eapply shaped_same; eauto.
Qed.

Lemma init_agg_tight w : forall fuel r, rec_tight r (fun h p => let* r := init_agg w fuel h p in
                            let '(st, h', _) := r in Ok (st, h')).
Proof.
  induction fuel as [|fuel IH]; intros r h p h' Sp Lp Sh Ns T H; [discriminate|].
  cbn [init_agg] in H. apply bind_ok in H as ([[st h2] offs] & H & E). injection E as -> ->.
  apply bind_ok in H as (o & Go & H). destruct (h p) as [o'|] eqn:Gp; [|discriminate]. cbn [of_option] in Go. injection Go as <-.
  destruct (o_elems o') as [es|] eqn:Es; [|discriminate].
  apply bind_ok in H as ([[st1 h1] offs1] & L & H).
  destruct st1; try discriminate.
  assert (Sh0 : shaped (hset h p (set_layout o' 0 0))) by (eapply shaped_same; [apply same_shape_hset; exact Gp|exact Sh]).
  assert (Hin : forall e, In e es -> S e /\ (rank e < rank p)%nat) by (intros e I; eapply Sh; eauto).
  apply (init_loop_tight w _ p) in L as (A & B & C & D); auto.
  2:{ apply tight_below_hset; auto. }
  apply bind_ok in H as (a & Ga & H). destruct (h1 p) as [a'|] eqn:G1; [|discriminate]. cbn [of_option] in Ga. injection Ga as <-.
  injection H as Hst <- _. set (sz := ffi_align_w w (o_size a') (o_align a')) in *.
  assert (Zn : sz <> 0) by (intros Z0; rewrite Z0 in Hst; discriminate).
  assert (Sh1 : shaped h1) by (eapply shaped_same; eauto).
  assert (E1 : o_elems a' = Some es).
  { destruct (same_shape_inv _ _ _ _ A G1) as (o0 & G0 & _ & E0). rewrite hset_same in G0. injection G0 as <-. cbn in E0. congruence. }
  split; [|split; [|split; [|split]]].
  - eapply same_shape_trans; [apply same_shape_hset; exact Gp|]. eapply same_shape_trans; [exact A|]. apply same_shape_hset. exact G1.
  - apply local_hset. intros q Nq. destruct (B q Nq) as [E2|[Lq Zq]].
    + left. rewrite E2. apply hset_other. exact Nq.
    + right. split; [exact Lq|]. unfold sized in Zq. rewrite hset_other in Zq by auto. exact Zq.
  - exists (set_layout a' sz (o_align a')). split; [apply hset_same|exact Zn].
  - intros o2 es2 e G2 Z2 Es2 I2. rewrite hset_same in G2. injection G2 as <-. cbn in Es2. rewrite E1 in Es2. injection Es2 as <-.
    destruct (D e I2) as (oe & Ge & Ze). destruct (Hin e I2) as [_ Le]. assert (e <> p) by (intros ->; lia).
    exists oe. rewrite hset_other by auto. auto.
  - apply tight_below_hset; auto.
Qed.

Definition tight_all (h : theap) : Prop := forall q, S q -> tight h q.

Lemma init_if_needed_tight w fuel h p h' : S p -> shaped h -> tight_all h ->
  init_if_needed w fuel h p = Ok (FFI_OK, h') ->
  same_shape h h' /\ tight_all h' /\ sized h' p /\ (forall q, sized h q -> sized h' q).
Proof.
  intros Sp Sh T H. unfold init_if_needed in H. apply bind_ok in H as (o & Go & H).
  destruct (h p) as [o'|] eqn:Gp; [|discriminate]. cbn [of_option] in Go. injection Go as <-.
  destruct (Z.eqb_spec (o_size o') 0) as [Z0|Z0].
  - pose proof (not_sized _ _ _ Gp Z0) as Ns.
    apply bind_ok in H as ([[st h1] offs] & A & H). injection H as Hst <-.
    destruct st; try discriminate.
    destruct (init_agg_tight w fuel (Datatypes.S (rank p)) h p h1) as (B & C & D & E & F); auto.
    { intros q Sq _. apply T. exact Sq. }
    { rewrite A. reflexivity. }
    split; [exact B|]. split; [|split; [exact D|]].
    + intros q Sq. eapply (tight_after h h1 p (Datatypes.S (rank q))); eauto. intros x Sx _. apply T. exact Sx.
    + intros q Zq. destruct (Nat.eq_dec q p) as [->|N]; [contradiction|]. unfold sized. rewrite (local_sized _ _ _ _ C N Zq). exact Zq.
  - injection H as <-. split; [apply same_shape_refl|]. split; [exact T|]. split; [exists o'; auto|]. auto.
Qed.

Lemma prep_args_tight tg fuel : forall ptrs h bytes h' b', (forall p, In p ptrs -> S p) -> shaped h -> tight_all h ->
  prep_args tg fuel ptrs h bytes = Ok (FFI_OK, h', b') ->
  same_shape h h' /\ tight_all h' /\ (forall p, In p ptrs -> sized h' p) /\ (forall q, sized h q -> sized h' q).
Proof.
  induction ptrs as [|p ptrs IH]; intros h bytes h' b' Hin Sh T H.
  - injection H as <- _. repeat split; auto using same_shape_refl. contradiction.
  - cbn [prep_args] in H. apply bind_ok in H as ([st h1] & R & H). destruct st; try discriminate.
    apply init_if_needed_tight in R as (A & B & C & D); auto; [|apply Hin; left; reflexivity].
    apply bind_ok in H as (o & _ & H). destruct (_ && _); [discriminate|].
    apply IH in H as (A2 & B2 & C2 & D2); auto.
    + split; [eapply same_shape_trans; eauto|]. split; [auto|]. split; [|auto].
      intros q [->|I]; auto.
    + intros q I. apply Hin. right. exact I.
    + eapply shaped_same; eauto.
Qed.

Lemma prep_core_tight tg fuel abi rt ats h h' c : (forall p, In p (rt :: ats) -> S p) -> shaped h -> tight_all h ->
  prep_core tg fuel abi rt ats h = Ok (FFI_OK, h', Some c) ->
  same_shape h h' /\ tight_all h' /\ (forall p, In p (rt :: ats) -> sized h' p).
Proof.
  intros Hin Sh T H. unfold prep_core in H. destruct (negb _); [discriminate|].
  apply bind_ok in H as ([st h1] & R & H). destruct st; try discriminate.
  apply init_if_needed_tight in R as (A & B & C & D); auto; [|apply Hin; left; reflexivity].
  apply bind_ok in H as (o & _ & H). destruct (_ && _); [discriminate|].
  apply bind_ok in H as ([[st2 h2] b2] & R2 & H). destruct st2; try discriminate. injection H as <- _.
  apply prep_args_tight in R2 as (A2 & B2 & C2 & D2); auto.
  - split; [eapply same_shape_trans; eauto|]. split; [auto|]. intros q [->|I]; auto.
  - intros p I. apply Hin. right. exact I.
  - eapply shaped_same; eauto.
Qed.

(** ** Trees *)

Definition tree_ok (h : theap) (p : tptr) (t : ftype) : Prop :=
  natural t /\ exists o, h p = Some o /\ ty_size t = o_size o /\ ty_align t = o_align o.

Lemma view_elems (f : nat) h l ts : Forall2 (fun e t => view f h e = Ok t) l ts ->
  (fix all (l : list tptr) : res (list ftype) :=
           match l with
           | [] => Ok []
           | e :: r => let* t := view f h e in let* ts := all r in Ok (t :: ts)
           end) l = Ok ts.
Proof. intros F. induction F as [|e t l ts E F IH]; [reflexivity|]. rewrite E. cbn [bind]. rewrite IH. reflexivity. Qed.

Lemma recorded_refines h h' p m : refines h h' -> recorded h p m -> recorded h' p m.
Proof.
  intros R (o & G & Z0 & E). destruct (R p) as [Eq|(o1 & s & a & G1 & Z1 & _)]; [|congruence].
  exists o. rewrite Eq. auto.
Qed.

Lemma natural_views h h' : wf_theap rank h -> refines h h' -> shaped h' -> tight_all h' ->
  (forall p, S p -> c_object h p) ->
  forall fuel p, S p -> (rank p < fuel)%nat -> sized h' p -> exists t, view fuel h' p = Ok t /\ tree_ok h' p t.
Proof.
  intros W R Sh T Ob. induction fuel as [|fuel IH]; intros p Sp Lp Zp; [lia|].
  cbn [view]. destruct Zp as (o & G & Z0). rewrite G. cbn [of_option bind].
  destruct (Ob p Sp) as [(t & It & Gh)|[(t & q & It & Gq & Gh)|(oh & Gh & Cd & Hs)]].
  - assert (E : h' p = h p).
    { destruct (R p) as [|(o1 & s & a & G1 & Z1 & _ & G')]; [auto|]. exfalso. rewrite Gh in G1. injection G1 as <-.
      rewrite G in G'. cbn in Z1. repeat (destruct It as [<-|It]; [discriminate Z1|]). contradiction. }
    rewrite E, Gh in G. injection G as <-. cbn [o_elems scalar_object o_code o_size o_align bind].
    exists t. assert (Ee : ty_elems t = []) by (repeat (destruct It as [<-|It]; [reflexivity|]); contradiction).
    split; [destruct t as [c s a es]; cbn in Ee; subst es; reflexivity|].
    split; [apply natural_scalar; exact It|]. exists (scalar_object t). rewrite E. auto.
  - assert (Pt : 0 < ty_size t) by (repeat (destruct It as [<-|It]; [reflexivity|]); contradiction).
    assert (E : h' p = h p).
    { destruct (R p) as [|(o1 & s & a & G1 & Z1 & _ & G')]; [auto|]. exfalso. rewrite Gh in G1. apply Some_inj' in G1. subst o1. cbn [o_size] in Z1. lia. }
    assert (Eq : h' q = h q).
    { destruct (R q) as [|(o1 & s & a & G1 & Z1 & _ & G')]; [auto|]. exfalso. rewrite Gq in G1. injection G1 as <-. cbn [o_size scalar_object] in Z1. lia. }
    rewrite E, Gh in G. injection G as <-. cbn [o_elems o_code o_size o_align].
    destruct (Sh p _ _ q Sp (eq_trans E Gh) eq_refl (or_introl eq_refl)) as [Sq Lq].
    destruct fuel as [|fuel]; [lia|]. cbn [view]. rewrite Eq, Gq. cbn [of_option bind o_elems scalar_object o_code o_size o_align].
    assert (Ee : ty_elems t = []) by (repeat (destruct It as [<-|It]; [reflexivity|]); contradiction).
    eexists. split; [reflexivity|].
    replace (FT (ty_code t) (ty_size t) (ty_align t) []) with t by (destruct t as [c s a es]; cbn in Ee; subst es; reflexivity).
    split; [apply natural_complex; exact It|]. eexists. split; [rewrite E; exact Gh|]. auto.
  - destruct (refines_code _ _ _ _ R Gh) as (o' & G' & Cd' & El'). rewrite G in G'. injection G' as <-.
    assert (X : exists es ms offs, o_elems oh = Some es /\ es <> [] /\ Forall2 (recorded h') es ms /\ struct_layout ms offs (o_size o) (o_align o)).
    { destruct (R p) as [E|(o1 & s & a & G1 & Z1 & Ef & G')].
      - rewrite E, Gh in G. injection G as <-. destruct Hs as [Hs|(es & ms & offs & A & B & C & D)]; [congruence|].
        exists es, ms, offs. split; [auto|]. split; [auto|]. split; [|auto].
        eapply Forall2_impl_in; [|exact C]. intros e m _. apply recorded_refines. exact R.
      - rewrite Gh in G1. injection G1 as <-. rewrite G in G'. injection G' as ->. cbn [set_layout o_size o_align].
        inversion Ef as [p1 o1 G1 Z2|p1 o1 es ms offs s1 a1 G1 Z2 L1 N1 F1 S1]; subst; rewrite Gh in G1; injection G1 as <-; [congruence|].
        exists es, ms, offs. split; [auto|]. split; [auto|]. split; [|auto].
        eapply Forall2_impl_in; [|exact F1]. cbn beta. intros e [se ae] Ie Ee. cbn [fst snd] in Ee.
        apply (refines_eff' rank _ _ W R) in Ee.
        destruct (T p Sp _ es e G Z0 L1 Ie) as (oe & Ge & Ze). exists oe. split; [auto|]. split; [auto|].
        inversion Ee as [p2 o2 G2 Z3|p2 o2 es2 ms2 offs2 s2 a2 G2 Z3]; subst; rewrite Ge in G2; injection G2 as <-; [reflexivity|contradiction]. }
    destruct X as (es & ms & offs & Ee & Ne & F & Sl). rewrite El', Ee.
    assert (Y : exists ts, Forall2 (fun e t => view fuel h' e = Ok t) es ts /\ Forall natural ts /\ map lay ts = ms).
    { assert (Hin : forall e, In e es -> S e /\ (rank e < rank p)%nat).
      { intros e Ie. eapply Sh; eauto. congruence. }
      clear - F Hin IH Lp. induction F as [|e m es ms He F IHF]; [exists []; repeat split; constructor|].
      destruct (Hin e (or_introl eq_refl)) as [Se Le]. destruct He as (oe & Ge & Ze & ->).
      destruct (IH e Se ltac:(lia) (ex_intro _ oe (conj Ge Ze))) as (t & V & N & o2 & G2 & S2 & A2).
      destruct IHF as (ts & Fv & Fn & Fm). { intros x Ix. apply Hin. right. exact Ix. }
      exists (t :: ts). split; [constructor; auto|]. split; [constructor; auto|].
      cbn [map]. rewrite Fm. f_equal. unfold lay. rewrite Ge in G2. injection G2 as <-. congruence. }
    destruct Y as (ts & Fv & Fn & Fm). rewrite (view_elems _ _ _ _ Fv). cbn [bind].
    eexists. split; [reflexivity|]. split; [|exists o; auto]. rewrite Cd', Cd. apply natural_struct with (offs := offs); auto.
    + intros ->. inversion Fv. subst. contradiction.
    + rewrite Fm. exact Sl.
Qed.
End Rank.
