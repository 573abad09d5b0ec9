From Verif Require Import Base MachModel MachSpec.
From Coq Require Import Lia Permutation.
Local Open Scope Z_scope.

(** The fields of a table that matter for closures. *)
Record core : Type := Core { k_page : Z; k_count : Z; k_free : option eptr; k_links : nat -> option eptr }.
Definition core_of (x : tbl) : core := Core (tb_page x) (tb_count x) (tb_free x) (tb_links x).
Definition cores (st : mst) (t : nat) : option core := option_map core_of (m_tables st t).

(** States that differ in prev and next only. *)
Definition same (st st' : mst) : Prop :=
  (forall t, cores st' t = cores st t) /\ m_head st' = m_head st /\ m_pages st' = m_pages st /\ m_closures st' = m_closures st.

Lemma same_refl st : same st st. Proof. repeat split; auto. Qed.
Lemma same_trans a b c : same a b -> same b c -> same a c.
Proof.
  intros (A & B & C & D) (A' & B' & C' & D'). split; [intros; rewrite A'; apply A|].
  split; [congruence|]. split; congruence.
Qed.

Lemma cores_some st t c : cores st t = Some c -> exists x, m_tables st t = Some x /\ core_of x = c.
Proof. unfold cores. destruct (m_tables st t) as [x|]; [|discriminate]. intros H. injection H as <-. eauto. Qed.

Lemma get_ok st t c : cores st t = Some c -> exists x, get_tbl st t = Ok x /\ core_of x = c.
Proof. intros H. destruct (cores_some _ _ _ H) as (x & A & B). exists x. unfold get_tbl. rewrite A. auto. Qed.

Lemma set_prev_same t v st st' : set_prev t v st = Ok st' -> same st st'.
Proof.
  unfold set_prev, get_tbl. destruct (m_tables st t) as [x|] eqn:E; [|discriminate]. cbn [of_option bind]. intros H. injection H as <-.
  split; [|auto]. intros k. unfold cores. cbn. destruct (Nat.eqb_spec k t) as [->|]; [rewrite E|]; reflexivity.
Qed.
Lemma set_next_same t v st st' : set_next t v st = Ok st' -> same st st'.
Proof.
  unfold set_next, get_tbl. destruct (m_tables st t) as [x|] eqn:E; [|discriminate]. cbn [of_option bind]. intros H. injection H as <-.
  split; [|auto]. intros k. unfold cores. cbn. destruct (Nat.eqb_spec k t) as [->|]; [rewrite E|]; reflexivity.
Qed.
Lemma set_prev_ok t v st : cores st t <> None -> exists st', set_prev t v st = Ok st'.
Proof. unfold cores, set_prev, get_tbl. destruct (m_tables st t); cbn; [eauto|congruence]. Qed.
Lemma set_next_ok t v st : cores st t <> None -> exists st', set_next t v st = Ok st'.
Proof. unfold cores, set_next, get_tbl. destruct (m_tables st t); cbn; [eauto|congruence]. Qed.

(** The free list of a table. *)
Inductive lchain (t : nat) (links : nat -> option eptr) : option eptr -> list nat -> Prop :=
| lc_nil : lchain t links None []
| lc_cons i l : lchain t links (links i) l -> lchain t links (Some (t, i)) (i :: l).

Lemma lchain_upd t links i v p l : lchain t links p l -> ~ In i l ->
  lchain t (fun j => if Nat.eqb j i then v else links j) p l.
Proof.
  induction 1 as [|j l H IH]; intros N; constructor.
  assert (j <> i) by (intros ->; apply N; left; reflexivity). apply Nat.eqb_neq in H0. rewrite H0. apply IH.
  intros K; apply N; right; exact K.
Qed.

Section Inv.
Context (g : mcfg) (Hg : mcfg_ok g).

(** Slots of a table in use. *)
Definition used (clos : Z -> option (nat * eptr)) (t : nat) (ls : list mlive) : list nat :=
  flat_map (fun k => match clos (ml_ptr k) with Some (t', (_, i)) => if Nat.eqb t' t then [i] else [] | None => [] end) ls.

Definition live_in (C : nat -> option core) (clos : Z -> option (nat * eptr)) (k : mlive) : Prop :=
  exists t i c, clos (ml_ptr k) = Some (t, (t, i)) /\ C t = Some c /\ (i < mc_count g)%nat /\
    ml_code k = tramp_addr g (k_page c) i.

Definition table_ok (clos : Z -> option (nat * eptr)) (ls : list mlive) (t : nat) (c : core) : Prop :=
  exists fl, lchain t (k_links c) (k_free c) fl /\ k_count c = Z.of_nat (length fl) /\ NoDup (fl ++ used clos t ls) /\
    Forall (fun i => (i < mc_count g)%nat) fl /\ (length fl + length (used clos t ls) = mc_count g)%nat.

Definition inv (C : nat -> option core) (head : option nat) (pages : list Z) (clos : Z -> option (nat * eptr)) (ls : list mlive) : Prop :=
  Forall (live_in C clos) ls /\ (forall t c, C t = Some c -> table_ok clos ls t c) /\
  (forall h, head = Some h -> C h <> None) /\ NoDup (map ml_ptr ls) /\
  (forall t c, C t = Some c -> In (k_page c) pages) /\
  (forall t c t' c', C t = Some c -> C t' = Some c' -> t <> t' -> pages_apart g (k_page c) (k_page c')).

Definition invs (st : mst) (ls : list mlive) : Prop := inv (cores st) (m_head st) (m_pages st) (m_closures st) ls.

Lemma inv_ext C C' h p cl ls : (forall t, C' t = C t) -> inv C h p cl ls -> inv C' h p cl ls.
Proof.
  intros E (A & B & D & F & G & H). split; [|split; [|split; [|split; [|split]]]].
  - revert A. apply Forall_impl. intros k (t & i & c & K). exists t, i, c. rewrite E. exact K.
  - intros t c. rewrite E. apply B.
  - intros x. rewrite E. apply D.
  - exact F.
  - intros t c. rewrite E. apply G.
  - intros t c t' c'. rewrite !E. apply H.
Qed.

Lemma invs_same st st' ls : same st st' -> invs st ls -> invs st' ls.
Proof. intros (A & B & C & D) I. unfold invs. rewrite B, C, D. eapply inv_ext; [exact A|exact I]. Qed.

Lemma inv_head C h p cl ls t : inv C h p cl ls -> C t <> None -> inv C (Some t) p cl ls.
Proof. intros (A & B & D & F) N. split; [exact A|]. split; [exact B|]. split; [intros x E; injection E as <-; exact N|exact F]. Qed.

Lemma used_other cl ptr v t ls : ~ In ptr (map ml_ptr ls) ->
  used (fun q => if q =? ptr then v else cl q) t ls = used cl t ls.
Proof.
  induction ls as [|k ls IH]; intros N; [reflexivity|]. cbn [used flat_map]. cbn [map In] in N.
  assert (E : (ml_ptr k =? ptr) = false) by (apply Z.eqb_neq; intros E; apply N; left; exact E). rewrite E.
  f_equal. apply IH. intros K; apply N; right; exact K.
Qed.

Lemma used_app cl t a b : used cl t (a ++ b) = used cl t a ++ used cl t b.
Proof. unfold used. rewrite flat_map_app. reflexivity. Qed.

(** A new table. *)
Lemma new_chain t n : forall m i, (i + m = n)%nat -> (0 < m)%nat ->
  lchain t (fun i => if Nat.ltb (S i) n then Some (t, S i) else None) (Some (t, i)) (seq i m).
Proof.
  induction m as [|m IH]; intros i E P; [lia|]. cbn [seq]. constructor. destruct (Nat.ltb_spec (S i) n) as [L|L].
  - apply IH; lia.
  - assert (m = 0)%nat by lia. subst m. constructor.
Qed.

Lemma inv_new C h p cl ls t page : inv C h p cl ls -> C t = None -> Forall (pages_apart g page) p ->
  inv (fun k => if Nat.eqb k t then Some (Core page (Z.of_nat (mc_count g)) (Some (t, O))
                     (fun i => if Nat.ltb (S i) (mc_count g) then Some (t, S i) else None)) else C k)
      h (page :: p) cl ls.
Proof.
  intros (A & B & D & F & G & H) N P. destruct Hg as (Hc & _). rewrite Forall_forall in P.
  assert (U : used cl t ls = []).
  { rewrite Forall_forall in A. unfold used.
    clear -A N. revert A. induction ls as [|k ls IH]; intros A; [reflexivity|]. cbn [flat_map].
    destruct (A k (or_introl eq_refl)) as (t' & i & c & K & K2 & _). rewrite K.
    assert (E : Nat.eqb t' t = false) by (apply Nat.eqb_neq; intros ->; congruence). rewrite E. cbn [app]. apply IH.
    intros x Hx. apply A. right. exact Hx. }
  split; [|split; [|split; [|split; [|split]]]].
  - revert A. apply Forall_impl. intros k (t' & i & c & K1 & K2 & K3). exists t', i, c.
    assert (E : Nat.eqb t' t = false) by (apply Nat.eqb_neq; intros ->; congruence). rewrite E. auto.
  - intros t' c. destruct (Nat.eqb_spec t' t) as [->|Ne]; [|apply B]. intros K. injection K as <-.
    exists (seq 0 (mc_count g)). cbn [k_links k_free k_count]. split; [apply new_chain; lia|]. rewrite U, app_nil_r, seq_length.
    split; [reflexivity|]. split; [apply seq_NoDup|]. split; [|cbn; lia]. apply Forall_forall. intros x Hx. apply in_seq in Hx. lia.
  - intros x E. specialize (D x E). destruct (Nat.eqb x t); [discriminate|exact D].
  - exact F.
  - intros t' c. destruct (Nat.eqb_spec t' t) as [->|Ne]; intros K; [injection K as <-; left; reflexivity|right; eapply G; exact K].
  - intros t1 c1 t2 c2. destruct (Nat.eqb_spec t1 t) as [->|N1], (Nat.eqb_spec t2 t) as [->|N2]; intros K1 K2 Ne; try congruence.
    + injection K1 as <-. apply P. eapply G. exact K2.
    + injection K2 as <-. cbn [k_page]. assert (X := P _ (G _ _ K1)). unfold pages_apart in *. lia.
    + eapply H; eassumption.
Qed.

(** An entry is claimed. *)
Lemma inv_claim C h p cl ls c i ptr : inv C (Some h) p cl ls -> C h = Some c -> k_free c = Some (h, i) ->
  ~ In ptr (map ml_ptr ls) ->
  (i < mc_count g)%nat /\
  inv (fun k => if Nat.eqb k h then Some (Core (k_page c) (k_count c - 1) (k_links c i)
                     (fun j => if Nat.eqb j i then None else k_links c j)) else C k)
      (Some h) p (fun q => if q =? ptr then Some (h, (h, i)) else cl q) (MLive ptr (tramp_addr g (k_page c) i) :: ls).
Proof.
  intros (A & B & D & F & G & H) Hh Hf Hp. destruct (B _ _ Hh) as (fl & L1 & L2 & L3 & L4 & L5).
  rewrite Hf in L1. inversion L1 as [|j l L6 E1 E2]; subst. inversion L4 as [|? ? Hi L7]; subst.
  split; [exact Hi|]. cbn [app] in L3. inversion L3 as [|? ? Ni L8]; subst.
  assert (Ni2 : ~ In i l) by (intros K; apply Ni; apply in_or_app; left; exact K).
  split; [|split; [|split; [|split; [|split]]]].
  - constructor.
    + exists h, i. cbn [ml_ptr ml_code]. rewrite Z.eqb_refl, Nat.eqb_refl. eexists. split; [reflexivity|]. split; [reflexivity|].
      split; [exact Hi|reflexivity].
    + rewrite Forall_forall in *. intros k Hk. destruct (A k Hk) as (t & j & c' & K1 & K2 & K3 & K4).
      assert (E : (ml_ptr k =? ptr) = false) by (apply Z.eqb_neq; intros E; apply Hp; rewrite <- E; apply in_map; exact Hk).
      destruct (Nat.eq_dec t h) as [->|Ne].
      * exists h, j. rewrite E, Nat.eqb_refl. eexists. split; [exact K1|]. split; [reflexivity|]. split; [exact K3|].
        cbn [k_page]. congruence.
      * exists t, j, c'. apply Nat.eqb_neq in Ne. rewrite E, Ne. auto.
  - intros t c'. cbn [used flat_map ml_ptr]. unfold table_ok. cbn [used flat_map ml_ptr]. rewrite Z.eqb_refl.
    fold (used (fun q => if q =? ptr then Some (h, (h, i)) else cl q) t ls). rewrite used_other by exact Hp.
    destruct (Nat.eqb_spec t h) as [->|Ne]; intros K.
    + injection K as <-. rewrite Nat.eqb_refl. cbn [k_links k_free k_count app]. exists l.
      split; [apply lchain_upd; assumption|]. cbn [length] in *. split; [lia|]. split.
      * apply NoDup_Add with (a := i) (l := l ++ used cl h ls); [|split; assumption]. apply Add_app.
      * split; [exact L7|lia].
    + assert (E : Nat.eqb h t = false) by (apply Nat.eqb_neq; congruence). rewrite E. cbn [app]. exact (B t c' K).
  - intros x E. injection E as <-. rewrite Nat.eqb_refl. discriminate.
  - cbn [map ml_ptr]. constructor; assumption.
  - intros t c'. destruct (Nat.eqb_spec t h) as [->|Ne]; intros K; [injection K as <-; cbn; eapply G; exact Hh|eapply G; exact K].
  - intros t1 c1 t2 c2. destruct (Nat.eqb_spec t1 h) as [->|N1], (Nat.eqb_spec t2 h) as [->|N2]; intros K1 K2 Ne; try congruence.
    + injection K1 as <-. cbn. eapply H; eassumption.
    + injection K2 as <-. cbn. eapply H; eassumption.
    + eapply H; eassumption.
Qed.

(** An entry is given back. *)
Lemma inv_back C h p cl l k m t i c : inv C h p cl (l ++ k :: m) -> cl (ml_ptr k) = Some (t, (t, i)) -> C t = Some c ->
  inv (fun j => if Nat.eqb j t then Some (Core (k_page c) (k_count c + 1) (Some (t, i))
                     (fun j => if Nat.eqb j i then k_free c else k_links c j)) else C j)
      h p (fun q => if q =? ml_ptr k then None else cl q) (l ++ m).
Proof.
  intros (A & B & D & F & G & H) Hk Ht. destruct (B _ _ Ht) as (fl & L1 & L2 & L3 & L4 & L5).
  assert (Np : ~ In (ml_ptr k) (map ml_ptr (l ++ m))).
  { rewrite map_app in *. cbn [map] in F. apply NoDup_remove_2 in F. exact F. }
  assert (U : forall t', used cl t' (l ++ k :: m) = used cl t' l ++ (if Nat.eqb t t' then [i] else []) ++ used cl t' m).
  { intros t'. rewrite used_app. f_equal. cbn [used flat_map]. rewrite Hk. reflexivity. }
  rewrite U, Nat.eqb_refl in L3, L5. cbn [app] in L3, L5.
  assert (Pm : Permutation (fl ++ used cl t l ++ i :: used cl t m) (i :: fl ++ used cl t (l ++ m))).
  { rewrite used_app. rewrite !app_assoc. symmetry. apply Permutation_cons_app. rewrite <- !app_assoc. reflexivity. }
  assert (Nd : NoDup (i :: fl ++ used cl t (l ++ m))) by (eapply Permutation_NoDup; eassumption).
  assert (Ni : ~ In i fl) by (inversion Nd; subst; intros K; apply H2; apply in_or_app; left; exact K).
  assert (Ak := A). rewrite Forall_forall in Ak.
  split; [|split; [|split; [|split; [|split]]]].
  - rewrite Forall_forall. intros x Hx.
    assert (Hx' : In x (l ++ k :: m)) by (apply in_or_app; apply in_app_or in Hx; cbn; tauto).
    destruct (Ak x Hx') as (t' & j & c' & K1 & K2 & K3 & K4).
    assert (E : (ml_ptr x =? ml_ptr k) = false) by (apply Z.eqb_neq; intros E; apply Np; rewrite <- E; apply in_map; exact Hx).
    destruct (Nat.eq_dec t' t) as [->|Ne].
    + exists t, j. rewrite E, Nat.eqb_refl. eexists. split; [exact K1|]. split; [reflexivity|]. split; [exact K3|].
      cbn [k_page]. congruence.
    + exists t', j, c'. apply Nat.eqb_neq in Ne. rewrite E, Ne. auto.
  - intros t' c' K. unfold table_ok. rewrite used_other by exact Np. destruct (Nat.eqb_spec t' t) as [->|Ne].
    + injection K as <-. cbn [k_links k_free k_count]. exists (i :: fl). split.
      * constructor. rewrite Nat.eqb_refl. apply lchain_upd; assumption.
      * cbn [length app]. split; [lia|]. split; [exact Nd|]. split.
        { constructor; [|exact L4]. destruct (Ak k) as (t' & j & c' & K1 & K2 & K3 & K4); [apply in_or_app; right; left; reflexivity|].
          rewrite Hk in K1. assert (i = j) by congruence. subst j. exact K3. }
        rewrite used_app, app_length. rewrite app_length in L5. cbn [length] in L5. lia.
    + specialize (B t' c' K). unfold table_ok in B. rewrite U in B.
      assert (E : Nat.eqb t t' = false) by (apply Nat.eqb_neq; congruence). rewrite E in B. cbn [app] in B.
      rewrite used_app. exact B.
  - intros x E. specialize (D x E). destruct (Nat.eqb x t); [discriminate|exact D].
  - rewrite map_app in *. cbn [map] in F. apply NoDup_remove_1 in F. exact F.
  - intros t' c'. destruct (Nat.eqb_spec t' t) as [->|Ne]; intros K; [injection K as <-; cbn; eapply G; exact Ht|eapply G; exact K].
  - intros t1 c1 t2 c2. destruct (Nat.eqb_spec t1 t) as [->|N1], (Nat.eqb_spec t2 t) as [->|N2]; intros K1 K2 Ne; try congruence.
    + injection K1 as <-. cbn. eapply H; eassumption.
    + injection K2 as <-. cbn. eapply H; eassumption.
    + eapply H; eassumption.
Qed.

(** An empty table that is not the first one goes. *)
Lemma inv_drop C h p cl ls t c : inv C h p cl ls -> C t = Some c -> k_count c = Z.of_nat (mc_count g) -> h <> Some t ->
  inv (fun j => if Nat.eqb j t then None else C j) h (remove Z.eq_dec (k_page c) p) cl ls.
Proof.
  intros (A & B & D & F & G & H) Ht Hc Hh. destruct (B _ _ Ht) as (fl & L1 & L2 & L3 & L4 & L5).
  assert (U : used cl t ls = []) by (apply length_zero_iff_nil; lia).
  split; [|split; [|split; [|split; [|split]]]].
  - rewrite Forall_forall in *. intros k Hk. destruct (A k Hk) as (t' & i & c' & K1 & K2 & K3 & K4). exists t', i, c'.
    assert (Ne : t' <> t).
    { intros ->. assert (X : In i (used cl t ls)); [|rewrite U in X; exact X]. unfold used. apply in_flat_map. exists k. split; [exact Hk|].
      rewrite K1, Nat.eqb_refl. left; reflexivity. }
    apply Nat.eqb_neq in Ne. rewrite Ne. auto.
  - intros t' c'. destruct (Nat.eqb t' t); [discriminate|apply B].
  - intros x E. destruct (Nat.eqb_spec x t) as [->|Ne]; [congruence|exact (D x E)].
  - exact F.
  - intros t' c'. destruct (Nat.eqb_spec t' t) as [->|Ne]; [discriminate|]. intros K. apply in_in_remove; [|eapply G; exact K].
    specialize (H _ _ _ _ K Ht Ne). unfold pages_apart in H. destruct Hg as (P1 & P2 & P3). nia.
  - intros t1 c1 t2 c2. destruct (Nat.eqb_spec t1 t) as [->|N1]; [discriminate|]. destruct (Nat.eqb_spec t2 t) as [->|N2]; [discriminate|]. apply H.
Qed.
End Inv.

Section Steps.
Context (g : mcfg) (Hg : mcfg_ok g).

Lemma set_free_core t v c st x : cores st t = Some x -> exists st', set_free t v c st = Ok st' /\
  (forall k, cores st' k = if Nat.eqb k t then Some (Core (k_page x) c v (k_links x)) else cores st k) /\
  m_head st' = m_head st /\ m_pages st' = m_pages st /\ m_closures st' = m_closures st.
Proof.
  intros H. destruct (cores_some _ _ _ H) as (y & A & <-). unfold set_free, get_tbl. rewrite A. cbn [of_option bind].
  eexists. split; [reflexivity|]. split; [|auto]. intros k. unfold cores. cbn. destruct (Nat.eqb k t); reflexivity.
Qed.

Lemma set_link_core t i v st x : cores st t = Some x -> (i < mc_count g)%nat -> exists st', set_link g (t, i) v st = Ok st' /\
  (forall k, cores st' k = if Nat.eqb k t then Some (Core (k_page x) (k_count x) (k_free x) (fun j => if Nat.eqb j i then v else k_links x j)) else cores st k) /\
  m_head st' = m_head st /\ m_pages st' = m_pages st /\ m_closures st' = m_closures st.
Proof.
  intros H Hi. destruct (cores_some _ _ _ H) as (y & A & <-). unfold set_link, get_tbl. cbn [fst snd]. rewrite A. cbn [of_option bind].
  apply Nat.ltb_lt in Hi. rewrite Hi.
  eexists. split; [reflexivity|]. split; [|auto]. intros k. unfold cores. cbn. destruct (Nat.eqb k t); reflexivity.
Qed.

(** The end of ffi_closure_alloc. *)
Lemma claim_ok st ls t ptr x : invs g st ls -> m_head st = Some t -> get_tbl st t = Ok x -> tb_free x <> None ->
  ~ In ptr (map ml_ptr ls) ->
  exists code st', (
      let* h := of_option (m_head st) in
      let* x := get_tbl st h in
      let* e := of_option (tb_free x) in
      let* n := get_link g e st in
      let* st2 := set_free h n (tb_count x - 1) st in
      let* st3 := set_link g e None st2 in
      let* y := get_tbl st3 (fst e) in
      Ok (Some (ptr, tramp_addr g (tb_page y) (snd e)),
          MSt (m_tables st3) (m_head st3) (m_pages st3)
              (fun q => if q =? ptr then Some (t, e) else m_closures st3 q))) = Ok (Some (ptr, code), st') /\
    invs g st' (MLive ptr code :: ls).
Proof.
  intros I Hh Hx Hf Hp. unfold invs in I. rewrite Hh in I. rewrite Hh. cbn [of_option bind]. rewrite Hx. cbn [bind].
  assert (C : cores st t = Some (core_of x)).
  { unfold cores, get_tbl in *. destruct (m_tables st t); [|discriminate]. cbn in *. injection Hx as ->. reflexivity. }
  destruct (tb_free x) as [[t' i]|] eqn:Ef; [|congruence].
  assert (Et : t' = t).
  { destruct I as (_ & B & _). destruct (B _ _ C) as (fl & L & _). cbn in L. rewrite Ef in L. inversion L; congruence. }
  subst t'. cbn [of_option bind].
  destruct (inv_claim g _ _ _ _ _ _ i ptr I C Ef Hp) as (Hi & J).
  assert (El : get_link g (t, i) st = Ok (tb_links x i)).
  { unfold get_link. cbn [fst snd]. rewrite Hx. cbn [bind]. apply Nat.ltb_lt in Hi. rewrite Hi. reflexivity. }
  rewrite El. cbn [bind].
  destruct (set_free_core t (tb_links x i) (tb_count x - 1) st _ C) as (s2 & -> & A1 & A2 & A3 & A4). cbn [bind].
  assert (C2 : cores s2 t = Some (Core (tb_page x) (tb_count x - 1) (tb_links x i) (tb_links x))) by (rewrite A1, Nat.eqb_refl; reflexivity).
  destruct (set_link_core t i None s2 _ C2 Hi) as (s3 & -> & B1 & B2 & B3 & B4). cbn [bind].
  assert (C3 : cores s3 t <> None) by (rewrite B1, Nat.eqb_refl; discriminate).
  cbn [fst snd]. destruct (cores s3 t) as [z|] eqn:Ez; [|congruence]. destruct (get_ok _ _ _ Ez) as (y & -> & Ey). cbn [bind].
  eexists _, _. split; [reflexivity|].
  assert (Pg : tb_page y = tb_page x).
  { rewrite B1, Nat.eqb_refl in Ez. cbn in Ez. injection Ez as Ez. rewrite <- Ey in Ez. injection Ez as E _ _ _. congruence. }
  rewrite Pg. unfold invs. cbn [m_head m_pages m_closures]. rewrite B2, A2, B3, A3, B4, A4, Hh.
  eapply inv_ext; [|exact J]. intros k. change (cores _ k) with (cores s3 k). rewrite B1, A1.
  destruct (Nat.eqb_spec k t) as [->|]; reflexivity.
Qed.

Lemma mach_alloc_ok st ls c a : invs g st ls -> env_ok g c a st ls -> (calloc_ok a \/ exists r, mach_alloc g c a st = Ok r) ->
  exists o st', mach_alloc g c a st = Ok (o, st') /\
    match o with None => invs g st' ls | Some (ptr, code) => c = Some ptr /\ invs g st' (MLive ptr code :: ls) end.
Proof.
  intros I (E1 & E2 & E3) O. unfold mach_alloc in *. destruct c as [ptr|]; [|eexists _, _; split; [reflexivity|exact I]].
  assert (Hd : forall h, m_head st = Some h -> cores st h <> None) by (destruct I as (_ & _ & D & _); exact D).
  assert (Full : exists full, match m_head st with
                 | None => Ok true
                 | Some t => let* x := get_tbl st t in Ok (match tb_free x with None => true | Some _ => false end)
                 end = Ok full /\ (full = false -> exists t x, m_head st = Some t /\ get_tbl st t = Ok x /\ tb_free x <> None)).
  { destruct (m_head st) as [h|]; [|exists true; split; [reflexivity|discriminate]].
    destruct (cores st h) as [c|] eqn:Eh; [|destruct (Hd h eq_refl Eh)]. destruct (get_ok _ _ _ Eh) as (x & Gx & _). rewrite Gx. cbn [bind].
    destruct (tb_free x) eqn:Ef; [|exists true; split; [reflexivity|discriminate]]. exists false. split; [reflexivity|].
    intros _. exists h, x. split; [reflexivity|]. split; [exact Gx|congruence]. }
  destruct Full as (full & Ef & Hfull). rewrite Ef in O |- *. cbn [bind] in O |- *. destruct full.
  - unfold table_alloc in *. destruct (ta_page a) as [page|].
    2:{ cbn [bind]. eexists _, _. split; [reflexivity|]. exact I. }
    assert (O' : calloc_ok a).
    { destruct O as [O|(r & O)]; [exact O|]. unfold calloc_ok. destruct (ta_table a); [|discriminate].
      destruct (ta_pool a); [|discriminate]. split; [discriminate|reflexivity]. }
    clear O. destruct O' as (O1 & O2).
    destruct (ta_table a) as [t|]; [|congruence]. rewrite O2. cbn [negb bind].
    set (links := fun i => if Nat.ltb (S i) (mc_count g) then Some (t, S i) else None).
    set (s0 := set_tbl t _ st). set (s := MSt (m_tables s0) (m_head s0) (page :: m_pages s0) (m_closures s0)).
    assert (Is : invs g s ls).
    { unfold invs. change (m_head s) with (m_head st). change (m_pages s) with (page :: m_pages st). change (m_closures s) with (m_closures st).
      assert (N : cores st t = None) by (unfold cores; rewrite E3; reflexivity).
      pose proof (inv_new g Hg _ _ _ _ _ t page I N E2) as J. eapply inv_ext; [|exact J].
      intros k. unfold cores. cbn. destruct (Nat.eqb k t); reflexivity. }
    assert (Ct : cores s t = Some (Core page (Z.of_nat (mc_count g)) (Some (t, O)) links)) by (unfold cores; cbn; rewrite Nat.eqb_refl; reflexivity).
    destruct (set_next_ok t (m_head s) s) as (s1 & Es1); [congruence|]. rewrite Es1. cbn [bind]. apply set_next_same in Es1.
    assert (S2 : exists s2, match m_head s with None => Ok s1 | Some n => set_prev n (Some t) s1 end = Ok s2 /\ same s s2).
    { destruct (m_head s) as [n|] eqn:Eh; [|exists s1; split; [reflexivity|exact Es1]].
      destruct (set_prev_ok n (Some t) s1) as (s2 & Es2).
      { destruct Es1 as (Sc & _). rewrite Sc. destruct Is as (_ & _ & D & _). exact (D n Eh). }
      exists s2. split; [exact Es2|]. eapply same_trans; [exact Es1|]. eapply set_prev_same. exact Es2. }
    destruct S2 as (s2 & -> & S2). cbn [bind].
    assert (I2 : invs g (set_head (Some t) s2) ls).
    { pose proof (invs_same g _ _ _ S2 Is) as J. apply (inv_head g _ _ _ _ _ t J). destruct S2 as (Sc & _). rewrite Sc. congruence. }
    destruct (get_ok (set_head (Some t) s2) t (Core page (Z.of_nat (mc_count g)) (Some (t, O)) links)) as (x & Ex & Cx).
    { destruct S2 as (Sc & _). change (cores s2 t = Some (Core page (Z.of_nat (mc_count g)) (Some (t, O)) links)). rewrite Sc. exact Ct. }
    destruct (claim_ok (set_head (Some t) s2) ls t ptr x I2 eq_refl Ex) as (code & st' & R & J); [injection Cx as _ _ -> _; discriminate|exact E1|].
    eexists _, _. split; [exact R|]. split; [reflexivity|exact J].
  - destruct (Hfull eq_refl) as (t & x & Hh & Hx & Hf). rewrite Hh. cbn [bind].
    destruct (claim_ok st ls t ptr x I Hh Hx Hf E1) as (code & st' & R & J). rewrite Hh in R.
    eexists _, _. split; [rewrite Hh; exact R|]. split; [reflexivity|exact J].
Qed.

Lemma table_free_core t st st' x : cores st t = Some x -> table_free t st = Ok st' ->
  (forall k, cores st' k = if Nat.eqb k t then None else cores st k) /\
  m_head st' = m_head st /\ m_pages st' = remove Z.eq_dec (k_page x) (m_pages st) /\ m_closures st' = m_closures st.
Proof.
  intros H. destruct (get_ok _ _ _ H) as (y & Gy & <-). unfold table_free. rewrite Gy. cbn [bind].
  assert (S1 : forall s1, match tb_prev y with None => Ok st | Some p => set_next p (tb_next y) st end = Ok s1 -> same st s1).
  { intros s1. destruct (tb_prev y); [apply set_next_same|intros E; injection E as <-; apply same_refl]. }
  destruct (match tb_prev y with None => _ | Some _ => _ end) as [s1| |]; try discriminate. specialize (S1 s1 eq_refl). cbn [bind].
  destruct (get_tbl s1 t) as [x1| |]; try discriminate. cbn [bind].
  assert (S2 : forall s2, match tb_next x1 with None => Ok s1 | Some n => set_prev n (tb_prev x1) s1 end = Ok s2 -> same s1 s2).
  { intros s2. destruct (tb_next x1); [apply set_prev_same|intros E; injection E as <-; apply same_refl]. }
  destruct (match tb_next x1 with None => _ | Some _ => _ end) as [s2| |]; try discriminate. specialize (S2 s2 eq_refl). cbn [bind].
  pose proof (same_trans _ _ _ S1 S2) as S. clear S1 S2. destruct S as (S1 & S2 & S3 & S4).
  assert (H2 := S1 t). rewrite H in H2. destruct (get_ok _ _ _ H2) as (y2 & -> & E2). cbn [bind]. intros E. injection E as <-.
  cbn. split; [|split; [exact S2|split; [|exact S4]]].
  - intros k. unfold cores. cbn. destruct (Nat.eqb k t); [reflexivity|]. exact (S1 k).
  - rewrite S3. injection E2 as -> _ _ _. reflexivity.
Qed.

Lemma mach_free_inv st l k m : invs g st (l ++ k :: m) ->
  (forall st', mach_free g (ml_ptr k) st = Ok st' -> invs g st' (l ++ m)) /\
  exists t c, given_back st (ml_ptr k) = Some (t, c) /\
    (c < Z.of_nat (mc_count g) \/ m_head st = Some t -> exists st', mach_free g (ml_ptr k) st = Ok st').
Proof.
  intros I. assert (A := proj1 I). rewrite Forall_forall in A.
  destruct (A k) as (t & i & c & K1 & K2 & K3 & K4); [apply in_or_app; right; left; reflexivity|].
  pose proof (inv_back g _ _ _ _ _ _ _ _ _ _ I K1 K2) as J. unfold mach_free, given_back. rewrite K1. cbn [of_option bind].
  destruct (cores_some _ _ _ K2) as (x & Mx & <-). rewrite Mx. destruct (get_ok _ _ _ K2) as (x' & Gx & _).
  assert (x' = x) by (unfold get_tbl in Gx; rewrite Mx in Gx; cbn in Gx; congruence). subst x'. rewrite Gx. cbn [bind].
  destruct (set_link_core t i (tb_free x) st _ K2 K3) as (s1 & -> & A1 & A2 & A3 & A4). cbn [bind].
  assert (C1 : cores s1 t = Some (Core (tb_page x) (tb_count x) (tb_free x) (fun j => if Nat.eqb j i then tb_free x else tb_links x j)))
    by (rewrite A1, Nat.eqb_refl; reflexivity).
  destruct (set_free_core t (@Some eptr (t, i)) (tb_count x + 1) s1 _ C1) as (s2 & -> & B1 & B2 & B3 & B4). cbn [bind].
  assert (C2 : cores s2 t = Some (Core (tb_page x) (tb_count x + 1) (Some (t, i)) (fun j => if Nat.eqb j i then tb_free x else tb_links x j)))
    by (rewrite B1, Nat.eqb_refl; reflexivity).
  (* the state after the slot went back, with the closure gone *)
  assert (J2 : inv g (cores s2) (m_head s2) (m_pages s2) (fun q => if q =? ml_ptr k then None else m_closures s2 q) (l ++ m)).
  { rewrite B2, A2, B3, A3, B4, A4. eapply inv_ext; [|exact J]. intros j. rewrite B1, A1. destruct (Nat.eqb j t); reflexivity. }
  assert (Hd : forall h, m_head s2 = Some h -> cores s2 h <> None) by (destruct J2 as (_ & _ & D & _); exact D).
  rewrite <- A2, <- B2 in *.
  assert (Hh : (match m_head s2 with Some h => Nat.eqb h t | None => false end) = true <-> m_head s2 = Some t).
  { destruct (m_head s2) as [h|]; [|split; discriminate]. rewrite Nat.eqb_eq. split; congruence. }
  destruct (match m_head s2 with Some h => Nat.eqb h t | None => false end) eqn:Eh.
  - rewrite andb_false_r. cbn [negb bind]. split.
    + intros st' E. injection E as <-. exact J2.
    + eexists _, _. split; [reflexivity|]. intros _. eexists. reflexivity.
  - assert (Nh : m_head s2 <> Some t) by (intros E; apply Hh in E; discriminate). cbn [negb]. rewrite andb_true_r.
    destruct (Z.eqb_spec (tb_count x + 1) (Z.of_nat (mc_count g))) as [E|E].
    + split.
      * intros st'. destruct (table_free t s2) as [s3| |] eqn:F; try discriminate. cbn [bind]. intros R. injection R as <-.
        destruct (table_free_core _ _ _ _ C2 F) as (F1 & F2 & F3 & F4). unfold invs. cbn. rewrite F2, F3, F4.
        pose proof (inv_drop g Hg _ _ _ _ _ t _ J2 C2 E Nh) as D. eapply inv_ext; [|exact D]. exact F1.
      * eexists _, _. split; [reflexivity|]. intros [L|L]; [lia|congruence].
    + assert (Bump : exists s5, (let* s3 := set_prev t None s2 in
        let* s4 := set_next t (m_head s3) s3 in
        let* s5 := match m_head s4 with None => Ok s4 | Some h => set_prev h (Some t) s4 end in
        Ok (set_head (Some t) s5)) = Ok (set_head (Some t) s5) /\ same s2 s5).
      { destruct (set_prev_ok t None s2) as (s3 & E3); [congruence|]. rewrite E3. cbn [bind]. apply set_prev_same in E3.
        assert (E3' := E3). destruct E3' as (X1 & X2 & _).
        destruct (set_next_ok t (m_head s3) s3) as (s4 & E4); [rewrite X1; congruence|]. rewrite E4. cbn [bind]. apply set_next_same in E4.
        pose proof (same_trans _ _ _ E3 E4) as E5. assert (E5' := E5). destruct E5' as (Y1 & Y2 & _).
        destruct (m_head s4) as [h|] eqn:E6; [|exists s4; split; [reflexivity|exact E5]].
        destruct (set_prev_ok h (Some t) s4) as (s5 & E7); [rewrite Y1; apply Hd; congruence|]. rewrite E7. cbn [bind].
        exists s5. split; [reflexivity|]. eapply same_trans; [exact E5|]. eapply set_prev_same. exact E7. }
      destruct Bump as (s5 & -> & (Z1 & Z2 & Z3 & Z4)). cbn [bind]. split.
      * intros st' R. injection R as <-. unfold invs. cbn. rewrite Z3, Z4.
        apply (inv_head g _ (m_head s2)); [|change (cores s5 t <> None); rewrite Z1; congruence].
        eapply inv_ext; [|exact J2]. exact Z1.
      * eexists _, _. split; [reflexivity|]. intros _. eexists. reflexivity.
Qed.

Lemma mach_history_inv st ls : mach_history g st ls -> invs g st ls.
Proof.
  induction 1 as [|st ls c a ptr code st' H IH E R|st ls c a st' H IH E R|st l k m st' H IH R].
  - split; [constructor|]. split; [discriminate|]. split; [discriminate|]. split; [constructor|]. split; discriminate.
  - destruct (mach_alloc_ok st ls c a IH E (or_intror (ex_intro _ _ R))) as (o & s & A & B). rewrite A in R. injection R as -> ->.
    exact (proj2 B).
  - destruct (mach_alloc_ok st ls c a IH E (or_intror (ex_intro _ _ R))) as (o & s & A & B). rewrite A in R. injection R as -> ->. exact B.
  - exact (proj1 (mach_free_inv st l k m IH) st' R).
Qed.

Lemma C40_distinct st ls : mach_history g st ls -> NoDup (map ml_ptr ls) /\ NoDup (map ml_code ls) /\ Forall (in_table g st) ls.
Proof.
  intros H. apply mach_history_inv in H as (A & B & D & F & G & P). split; [exact F|]. split.
  - clear D. assert (Sub : forall a b, ls = a ++ b -> NoDup (map ml_code b)); [|apply (Sub [] ls eq_refl)].
    intros a b; revert a. induction b as [|k b IH]; intros a E; cbn [map]; constructor.
    2:{ apply (IH (a ++ [k])). rewrite <- app_assoc. exact E. }
    intros X. apply in_map_iff in X as (k' & X1 & X2). rewrite Forall_forall in A.
    assert (Hk : In k ls) by (rewrite E; apply in_or_app; right; left; reflexivity).
    assert (Hk' : In k' ls) by (rewrite E; apply in_or_app; right; right; exact X2).
    destruct (A k Hk) as (t & i & c & K1 & K2 & K3 & K4). destruct (A k' Hk') as (t' & i' & c' & Q1 & Q2 & Q3 & Q4).
    unfold tramp_addr in *. destruct Hg as (P1 & P2 & P3).
    destruct (Nat.eq_dec t t') as [<-|Ne].
    + rewrite K2 in Q2. injection Q2 as <-.
      assert (Ei : i = i') by nia. subst i'.
      (* the slot is used twice *)
      destruct (B t c K2) as (fl & _ & _ & N & _).
      assert (Nu : NoDup (used (m_closures st) t ls)) by (clear -N; induction fl as [|y fl IHf]; [exact N|inversion N; auto]).
      rewrite E, used_app in Nu. cbn [used flat_map] in Nu. rewrite K1, Nat.eqb_refl in Nu. cbn [app] in Nu.
      apply NoDup_remove_2 in Nu. apply Nu. apply in_or_app. right. apply in_flat_map. exists k'. split; [exact X2|].
      rewrite Q1, Nat.eqb_refl. left; reflexivity.
    + specialize (P _ _ _ _ K2 Q2 Ne). unfold pages_apart in P. nia.
  - rewrite Forall_forall in *. intros k Hk. destruct (A k Hk) as (t & i & c & K1 & K2 & K3 & K4). exists (k_page c), i.
    split; [eapply G; exact K2|]. split; [exact K3|exact K4].
Qed.

Lemma C40_alloc st ls c a : mach_history g st ls -> env_ok g c a st ls -> calloc_ok a ->
  exists o st', mach_alloc g c a st = Ok (o, st').
Proof.
  intros H E O. apply mach_history_inv in H. destruct (mach_alloc_ok st ls c a H E (or_introl O)) as (o & s & A & _). eauto.
Qed.

Lemma C40_free st l k m : mach_history g st (l ++ k :: m) -> exists t c, given_back st (ml_ptr k) = Some (t, c) /\
  (c < Z.of_nat (mc_count g) \/ m_head st = Some t -> exists st', mach_free g (ml_ptr k) st = Ok st').
Proof. intros H. apply mach_history_inv in H. exact (proj2 (mach_free_inv st l k m H)). Qed.
End Steps.
