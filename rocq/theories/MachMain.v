From Verif Require Import Base MachModel MachSpec MachProofs.
From Coq Require Import Lia.
Local Open Scope Z_scope.

(** * What a step leaves alone *)
Section Frame.
Context (g : mcfg).

Lemma set_free_frame t v c st st' : set_free t v c st = Ok st' ->
  (forall k, k <> t -> cores st' k = cores st k) /\ m_head st' = m_head st.
Proof.
  unfold set_free. destruct (get_tbl st t); try discriminate. cbn [bind]. intros H. injection H as <-. split; [|reflexivity].
  intros k N. unfold cores. cbn. apply Nat.eqb_neq in N. rewrite N. reflexivity.
Qed.
Lemma set_link_frame e v st st' : set_link g e v st = Ok st' ->
  (forall k, k <> fst e -> cores st' k = cores st k) /\ m_head st' = m_head st.
Proof.
  unfold set_link. destruct (get_tbl st (fst e)); try discriminate. cbn [bind]. destruct (Nat.ltb _ _); [|discriminate].
  intros H. injection H as <-. split; [|reflexivity].
  intros k N. unfold cores. cbn. apply Nat.eqb_neq in N. rewrite N. reflexivity.
Qed.

Lemma claim_frame st t ptr o st' : (
      let* h := of_option (m_head st) in
      let* x := get_tbl st h in
      let* e := of_option (tb_free x) in
      let* n := get_link g e st in
      let* st2 := set_free h n (tb_count x - 1) st in
      let* st3 := set_link g e None st2 in
      let* y := get_tbl st3 (fst e) in
      Ok (Some (ptr, tramp_addr g (tb_page y) (snd e)),
          MSt (m_tables st3) (m_head st3) (m_pages st3)
              (fun q => if q =? ptr then Some (t, e) else m_closures st3 q))) = Ok (o, st') ->
  (forall h x e, m_head st = Some h -> m_tables st h = Some x -> tb_free x = Some e -> fst e = h) ->
  m_head st' = m_head st /\ forall k, m_head st <> Some k -> cores st' k = cores st k.
Proof.
  intros H Own. destruct (m_head st) as [h|] eqn:Eh; cbn [of_option bind] in H; [|discriminate].
  unfold get_tbl at 1 in H. destruct (m_tables st h) as [x|] eqn:Ex; cbn [of_option bind] in H; [|discriminate].
  destruct (tb_free x) as [e|] eqn:Ef; cbn [of_option bind] in H; [|discriminate].
  specialize (Own h x e eq_refl Ex Ef).
  destruct (get_link g e st); cbn [bind] in H; try discriminate.
  destruct (set_free h _ _ st) as [s2| |] eqn:S2; cbn [bind] in H; try discriminate.
  destruct (set_link g e None s2) as [s3| |] eqn:S3; cbn [bind] in H; try discriminate.
  destruct (get_tbl s3 (fst e)); cbn [bind] in H; try discriminate.
  injection H as _ <-. apply set_free_frame in S2 as (A & B). apply set_link_frame in S3 as (C & D). cbn.
  split; [congruence|]. intros k N. change (cores s3 k = cores st k).
  assert (k <> h) by congruence. rewrite C by congruence. apply A. assumption.
Qed.

Lemma own_of_inv st ls h x e : invs g st ls -> m_tables st h = Some x -> tb_free x = Some e -> fst e = h.
Proof.
  intros (_ & B & _) Hx Hf. assert (C : cores st h = Some (core_of x)) by (unfold cores; rewrite Hx; reflexivity).
  destruct (B _ _ C) as (fl & L & _). cbn in L. rewrite Hf in L. inversion L. reflexivity.
Qed.

Context (Hg : mcfg_ok g).

Lemma alloc_frame st ls c a o st' : invs g st ls -> env_ok g c a st ls -> mach_alloc g c a st = Ok (o, st') ->
  (m_head st' = m_head st \/ exists t, m_head st' = Some t /\ m_tables st t = None) /\
  forall k, m_head st' <> Some k -> cores st' k = cores st k.
Proof.
  intros I (E1 & E2 & E3) H. unfold mach_alloc in H. destruct c as [ptr|]; [|injection H as _ <-; auto].
  destruct (match m_head st with None => _ | Some _ => _ end) as [full| |] eqn:Ef; cbn [bind] in H; try discriminate.
  destruct full.
  - unfold table_alloc in H. destruct (ta_page a) as [page|]; [|cbn [bind] in H; injection H as _ <-; auto].
    destruct (ta_table a) as [t|]; [|discriminate]. destruct (ta_pool a); [|discriminate]. cbn [negb bind] in H.
    set (links := fun i => if Nat.ltb (S i) (mc_count g) then Some (t, S i) else None) in *.
    match type of H with context [MSt ?a ?b ?c ?d] => set (s := MSt a b c d) in * end.
    assert (Fs : forall k, k <> t -> cores s k = cores st k).
    { intros k N. unfold cores. cbn. apply Nat.eqb_neq in N. rewrite N. reflexivity. }
    assert (Is : invs g s ls).
    { unfold invs. change (m_head s) with (m_head st). change (m_pages s) with (page :: m_pages st). change (m_closures s) with (m_closures st).
      assert (N : cores st t = None) by (unfold cores; rewrite E3; reflexivity).
      pose proof (inv_new g Hg _ _ _ _ _ t page I N E2) as J. eapply inv_ext; [|exact J].
      intros k. unfold cores. cbn. destruct (Nat.eqb k t); reflexivity. }
    destruct (set_next t (m_head s) s) as [s1| |] eqn:S1; cbn [bind] in H; try discriminate. apply set_next_same in S1.
    assert (S2 : forall s2, match m_head s with None => Ok s1 | Some n => set_prev n (Some t) s1 end = Ok s2 -> same s s2).
    { intros s2. destruct (m_head s); [intros K; eapply same_trans; [exact S1|eapply set_prev_same; exact K]|intros K; injection K as <-; exact S1]. }
    destruct (match m_head s with None => Ok s1 | Some _ => _ end) as [s2| |]; cbn [bind] in H; try discriminate.
    specialize (S2 s2 eq_refl).
    assert (J : invs g s2 ls) by (eapply invs_same; eassumption).
    assert (F := claim_frame (set_head (Some t) s2) t ptr o st' H).
    destruct F as (F1 & F2).
    { intros h x e _ Hx Hf. apply (own_of_inv s2 ls h x e J Hx Hf). }
    cbn [m_head set_head] in F1, F2. split; [right; exists t; split; [exact F1|exact E3]|].
    intros k N. rewrite F1 in N. rewrite F2 by exact N. change (cores (set_head (Some t) s2) k) with (cores s2 k).
    destruct S2 as (S2 & _). rewrite S2. apply Fs. congruence.
  - cbn [bind] in H. destruct (m_head st) as [t|] eqn:Eh.
    2:{ cbn [bind] in Ef. discriminate. }
    rewrite <- Eh in *.
    assert (F := claim_frame st t ptr o st' H).
    destruct F as (F1 & F2); [intros h x e _ Hx Hf; apply (own_of_inv st ls h x e I Hx Hf)|].
    split; [left; exact F1|]. rewrite F1. exact F2.
Qed.

Lemma free_frame st l k m st' t e : invs g st (l ++ k :: m) -> m_closures st (ml_ptr k) = Some (t, e) ->
  mach_free g (ml_ptr k) st = Ok st' ->
  (m_head st' = m_head st \/ m_head st' = Some t) /\ forall j, j <> t -> cores st' j = cores st j.
Proof.
  intros I Hk H. unfold mach_free in H. rewrite Hk in H. cbn [of_option bind] in H.
  assert (Et : fst e = t).
  { destruct I as (A & _). rewrite Forall_forall in A. destruct (A k) as (t' & i & c & K1 & _); [apply in_or_app; right; left; reflexivity|].
    rewrite Hk in K1. injection K1 as -> ->. reflexivity. }
  destruct (get_tbl st t) as [x| |]; cbn [bind] in H; try discriminate.
  destruct (set_link g e (tb_free x) st) as [s1| |] eqn:S1; cbn [bind] in H; try discriminate.
  destruct (set_free t (Some e) (tb_count x + 1) s1) as [s2| |] eqn:S2; cbn [bind] in H; try discriminate.
  apply set_link_frame in S1 as (A1 & A2). apply set_free_frame in S2 as (B1 & B2). rewrite Et in A1.
  assert (F2 : forall j, j <> t -> cores s2 j = cores st j) by (intros j N; rewrite B1, A1 by exact N; reflexivity).
  destruct ((tb_count x + 1 =? Z.of_nat (mc_count g)) && _).
  - destruct (table_free t s2) as [s3| |] eqn:F; cbn [bind] in H; try discriminate. injection H as <-.
    assert (C2 : exists c, cores s2 t = Some c).
    { unfold table_free in F. unfold cores, get_tbl in *. destruct (m_tables s2 t); [eexists; reflexivity|discriminate]. }
    destruct C2 as (c & C2). destruct (table_free_core _ _ _ _ C2 F) as (G1 & G2 & _). cbn. split; [left; congruence|].
    intros j N. change (cores s3 j = cores st j). rewrite G1. assert (E := N). apply Nat.eqb_neq in E. rewrite E. apply F2. exact N.
  - destruct (negb _).
    + destruct (set_prev t None s2) as [s3| |] eqn:S3; cbn [bind] in H; try discriminate. apply set_prev_same in S3.
      destruct (set_next t (m_head s3) s3) as [s4| |] eqn:S4; cbn [bind] in H; try discriminate. apply set_next_same in S4.
      assert (S5 : forall s5, match m_head s4 with None => Ok s4 | Some h => set_prev h (Some t) s4 end = Ok s5 -> same s4 s5).
      { intros s5. destruct (m_head s4); [apply set_prev_same|intros K; injection K as <-; apply same_refl]. }
      destruct (match m_head s4 with None => _ | Some _ => _ end) as [s5| |]; cbn [bind] in H; try discriminate.
      specialize (S5 s5 eq_refl). injection H as <-. cbn. split; [right; reflexivity|].
      intros j N. change (cores s5 j = cores st j).
      pose proof (same_trans _ _ _ (same_trans _ _ _ S3 S4) S5) as (Q & _). rewrite Q. apply F2. exact N.
    + cbn [bind] in H. injection H as <-. cbn. split; [left; congruence|]. exact F2.
Qed.

Lemma lost_core st t : lost g st t <-> exists c, cores st t = Some c /\ k_count c = Z.of_nat (mc_count g) /\ m_head st <> Some t.
Proof.
  split.
  - intros (x & A & B & C). exists (core_of x). unfold cores. rewrite A. auto.
  - intros (c & A & B & C). destruct (cores_some _ _ _ A) as (x & D & <-). exists x. auto.
Qed.

Lemma later_history st ls st' ls' : mach_history g st ls -> later g st ls st' ls' -> mach_history g st' ls'.
Proof. induction 2; [assumption| | |]; [eapply mh_alloc|eapply mh_fail|eapply mh_free]; eauto. Qed.

(** A lost table stays lost. *)
Lemma lost_stays st ls st' ls' t : mach_history g st ls -> lost g st t -> later g st ls st' ls' -> lost g st' t.
Proof.
  intros H L La. assert (Hi := fun s l => fun Q : later g st ls s l => mach_history_inv g Hg s l (later_history st ls s l H Q)). revert L.
  assert (Al : forall s l c a o s', invs g s l -> env_ok g c a s l -> mach_alloc g c a s = Ok (o, s') -> lost g s t -> lost g s' t).
  { intros s l c a o s' I E R Lt. apply lost_core in Lt as (x & A & B & C). apply lost_core.
    destruct (alloc_frame s l c a o s' I E R) as (F1 & F2).
    assert (N : m_head s' <> Some t).
    { destruct F1 as [->|(t' & -> & Nt)]; [exact C|]. intros X. injection X as ->. unfold cores in A. rewrite Nt in A. discriminate. }
    exists x. rewrite F2 by exact N. auto. }
  induction La as [st ls|st ls s l c a ptr code s' La IH E R|st ls s l c a s' La IH E R|st ls s l k m s' La IH R]; intros L.
  - exact L.
  - eapply Al; [exact (Hi _ _ La)|exact E|exact R|]. apply IH; assumption.
  - eapply Al; [exact (Hi _ _ La)|exact E|exact R|]. apply IH; assumption.
  - pose proof (IH H Hi L) as Lt. pose proof (Hi _ _ La) as I. apply lost_core in Lt as (x & A & B & C). apply lost_core.
    assert (I' := I). destruct I' as (Al' & Tb & _). rewrite Forall_forall in Al'.
    destruct (Al' k) as (t' & i & c & K1 & K2 & K3 & K4); [apply in_or_app; right; left; reflexivity|].
    assert (Ne : t <> t').
    { intros <-. destruct (Tb _ _ A) as (fl & _ & L2 & _ & _ & L5).
      assert (U : used (m_closures s) t (l ++ k :: m) = []) by (apply length_zero_iff_nil; lia).
      assert (X : In i (used (m_closures s) t (l ++ k :: m))); [|rewrite U in X; exact X].
      unfold used. apply in_flat_map. exists k. split; [apply in_or_app; right; left; reflexivity|]. rewrite K1, Nat.eqb_refl. left; reflexivity. }
    destruct (free_frame s l k m s' t' (t', i) I K1 R) as (F1 & F2). exists x. rewrite F2 by exact Ne. split; [exact A|]. split; [exact B|].
    destruct F1 as [-> | ->]; [exact C|congruence].
Qed.

(** Emptying a table that is not the first one gives it back. *)
Lemma C53_emptied st l k m st' t : mach_history g st (l ++ k :: m) -> given_back st (ml_ptr k) = Some (t, Z.of_nat (mc_count g)) ->
  m_head st <> Some t -> mach_free g (ml_ptr k) st = Ok st' -> m_tables st' t = None.
Proof.
  intros Hh. pose proof (mach_history_inv g Hg _ _ Hh) as I. assert (A := proj1 I). rewrite Forall_forall in A.
  destruct (A k) as (t' & i & c & K1 & K2 & K3 & K4); [apply in_or_app; right; left; reflexivity|].
  unfold given_back, mach_free, get_tbl at 1. rewrite K1. cbn [of_option bind].
  destruct (m_tables st t') as [x|] eqn:Ex; [|discriminate]. intros G N. injection G as -> G. cbn [of_option bind].
  destruct (set_link_core g t i (tb_free x) st _ K2 K3) as (s1 & -> & A1 & A2 & A3 & A4). cbn [bind].
  assert (C1 : exists z, cores s1 t = Some z) by (rewrite A1, Nat.eqb_refl; eexists; reflexivity). destruct C1 as (z & C1).
  destruct (set_free_core t (@Some eptr (t, i)) (tb_count x + 1) s1 _ C1) as (s2 & -> & B1 & B2 & B3 & B4). cbn [bind].
  rewrite G, Z.eqb_refl. rewrite B2, A2.
  assert (Eh : match m_head st with Some h => Nat.eqb h t | None => false end = false).
  { destruct (m_head st) as [h|]; [|reflexivity]. apply Nat.eqb_neq. congruence. }
  rewrite Eh. cbn [negb andb].
  destruct (table_free t s2) as [s3| |] eqn:F; cbn [bind]; try discriminate. intros R. injection R as <-. cbn.
  assert (C2 : exists z, cores s2 t = Some z) by (rewrite B1, Nat.eqb_refl; eexists; reflexivity). destruct C2 as (z2 & C2).
  destruct (table_free_core _ _ _ _ C2 F) as (F1 & _). specialize (F1 t). rewrite Nat.eqb_refl in F1. unfold cores in F1.
  destruct (m_tables s3 t); [discriminate|reflexivity].
Qed.
End Frame.

(** * Running histories *)
Inductive op : Type := OAlloc (p : Z) | OFree (p : Z).

Fixpoint take_live (p : Z) (ls : list mlive) : option (list mlive * mlive * list mlive) :=
  match ls with
  | [] => None
  | k :: r => if ml_ptr k =? p then Some ([], k, r)
              else match take_live p r with Some (a, x, b) => Some (k :: a, x, b) | None => None end
  end.

Lemma take_live_ok p ls a k b : take_live p ls = Some (a, k, b) -> ls = a ++ k :: b /\ ml_ptr k = p.
Proof.
  revert a k b. induction ls as [|x r IH]; intros a k b H; [discriminate|]. cbn in H. destruct (Z.eqb_spec (ml_ptr x) p).
  - injection H as <- <- <-. auto.
  - destruct (take_live p r) as [[[a' k'] b']|]; [|discriminate]. injection H as <- <- <-. destruct (IH _ _ _ eq_refl) as (-> & <-). auto.
Qed.

Definition env_okb (g : mcfg) (p : Z) (a : tans) (st : mst) (ls : list mlive) : bool :=
  forallb (fun k => negb (ml_ptr k =? p)) ls &&
  match ta_page a with Some q => forallb (fun r => (q + 2 * mc_page g <=? r) || (r + 2 * mc_page g <=? q)) (m_pages st) | None => true end &&
  match ta_table a with Some t => match m_tables st t with None => true | Some _ => false end | None => true end.

Lemma env_okb_ok g p a st ls : env_okb g p a st ls = true -> env_ok g (Some p) a st ls.
Proof.
  unfold env_okb. rewrite !andb_true_iff. intros ((A & B) & C). split; [|split].
  - intros X. apply in_map_iff in X as (k & X1 & X2). rewrite forallb_forall in A. specialize (A _ X2). apply negb_true_iff, Z.eqb_neq in A. congruence.
  - destruct (ta_page a); [|exact Logic.I]. apply Forall_forall. intros r Hr. rewrite forallb_forall in B. specialize (B _ Hr).
    unfold pages_apart. lia.
  - destruct (ta_table a) as [t|]; [|exact Logic.I]. destruct (m_tables st t); [discriminate|reflexivity].
Qed.

(** The environment of the examples: tables numbered by their order, pages far apart. *)
Definition ans (n : nat) : tans := TAns (Some (0x1000000 * (Z.of_nat n + 1))) (Some n) true.

Fixpoint run (g : mcfg) (n : nat) (l : list op) (st : mst) (ls : list mlive) : option (mst * list mlive * nat) :=
  match l with
  | [] => Some (st, ls, n)
  | OAlloc p :: r =>
    if env_okb g p (ans n) st ls then
      match mach_alloc g (Some p) (ans n) st with
      | Ok (Some (q, code), st') =>
        run g (match m_tables st' n with Some _ => S n | None => n end) r st' (MLive q code :: ls)
      | _ => None
      end
    else None
  | OFree p :: r =>
    match take_live p ls with
    | Some (a, k, b) => match mach_free g p st with Ok st' => run g n r st' (a ++ b) | _ => None end
    | None => None
    end
  end.

Lemma run_later g l : forall n st ls st' ls' n', run g n l st ls = Some (st', ls', n') -> forall st0 ls0, later g st0 ls0 st ls -> later g st0 ls0 st' ls'.
Proof.
  induction l as [|[p|p] r IH]; intros n st ls st' ls' n' H st0 ls0 La; cbn [run] in H.
  - injection H as <- <- _. exact La.
  - destruct (env_okb g p (ans n) st ls) eqn:E; [|discriminate]. apply env_okb_ok in E.
    destruct (mach_alloc g (Some p) (ans n) st) as [[[[q code]|] s]| |] eqn:R; try discriminate.
    eapply IH; [exact H|]. eapply la_alloc; eassumption.
  - destruct (take_live p ls) as [[[a k] b]|] eqn:T; [|discriminate]. apply take_live_ok in T as (-> & <-).
    destruct (mach_free g (ml_ptr k) st) as [s| |] eqn:R; try discriminate. eapply IH; [exact H|]. eapply la_free; eassumption.
Qed.

Lemma run_history g l st' ls' n' : run g 0 l mst0 [] = Some (st', ls', n') -> mach_history g st' ls'.
Proof.
  intros H. eapply later_history; [apply mh_start|]. eapply run_later; [exact H|]. apply la_same.
Qed.

Definition run_st (r : option (mst * list mlive * nat)) : mst := match r with Some (s, _, _) => s | None => mst0 end.
Definition run_ls (r : option (mst * list mlive * nat)) : list mlive := match r with Some (_, l, _) => l | None => [] end.
Definition run_n (r : option (mst * list mlive * nat)) : nat := match r with Some (_, _, n) => n | None => O end.
Definition run_ok (r : option (mst * list mlive * nat)) : bool := match r with Some _ => true | None => false end.
Lemma run_ok_history g l : run_ok (run g 0 l mst0 []) = true -> mach_history g (run_st (run g 0 l mst0 [])) (run_ls (run g 0 l mst0 [])).
Proof.
  intros H. apply (run_history g l _ _ (run_n (run g 0 l mst0 []))). destruct (run g 0 l mst0 []) as [[[s ls] n]|]; [reflexivity|discriminate].
Qed.

Definition zseq (a : Z) (n : nat) : list Z := map (fun i => a + Z.of_nat i) (seq 0 n).

(** Four 16-byte slots in a page.  The real pages have 1024 of them on arm64; the same histories
    with 1024 for 4 do the same there, but they are too long for the kernel without its VM. *)
Definition g4 : mcfg := MCfg 4 64 16.
Lemma g4_ok : mcfg_ok g4. Proof. split; [apply Nat.ltb_lt; vm_compute; reflexivity|]. split; [reflexivity|]. vm_compute. discriminate. Qed.

(** Two full tables and a third one; one slot of the second, then one of the first given back;
    then the rest of the second; then the third. *)
Definition uaf_ops : list op :=
  map OAlloc (zseq 1 9) ++ map OFree (zseq 5 3) ++ [OFree 1; OFree 8].
Definition uaf_st : mst := run_st (run g4 0 uaf_ops mst0 []).
Definition uaf_ls : list mlive := run_ls (run g4 0 uaf_ops mst0 []).
Lemma uaf_history : mach_history g4 uaf_st uaf_ls.
Proof. apply run_ok_history. vm_compute; reflexivity. Qed.
Definition badb (g : mcfg) (p : Z) (st : mst) (ls : list mlive) : bool :=
  existsb (fun k => ml_ptr k =? p) ls && match mach_free g p st with UB => true | _ => false end.
Definition lostb (g : mcfg) (st : mst) (t : nat) : bool :=
  match m_tables st t with Some x => tb_count x =? Z.of_nat (mc_count g) | None => false end &&
  match m_head st with Some k => negb (Nat.eqb k t) | None => true end.

Lemma uaf_bad : badb g4 9 uaf_st uaf_ls = true.
Proof. vm_compute; reflexivity. Qed.

Lemma bad_free g st ls p : badb g p st ls = true ->
  exists k, In k ls /\ mach_free g (ml_ptr k) st = UB.
Proof.
  unfold badb. rewrite andb_true_iff, existsb_exists. intros ((k & A & B) & C). apply Z.eqb_eq in B. exists k. split; [exact A|]. rewrite B.
  destruct (mach_free g p st); [discriminate|reflexivity|discriminate].
Qed.

Lemma C40_witness : exists g st ls k, mcfg_ok g /\ mach_history g st ls /\ In k ls /\ mach_free g (ml_ptr k) st = UB.
Proof.
  destruct (bad_free _ _ _ _ uaf_bad) as (k & A & B). exists g4, uaf_st, uaf_ls, k. split; [exact g4_ok|].
  split; [exact uaf_history|]. split; [exact A|exact B].
Qed.

(** calloc fails after the pages are mapped. *)
Lemma C40_calloc_witness : exists g c a, mcfg_ok g /\ env_ok g c a mst0 [] /\ mach_alloc g c a mst0 = UB.
Proof.
  exists g4, (Some 1), (TAns (Some 0x1000000) None true). split; [exact g4_ok|]. split; [|reflexivity].
  split; [intros []|]. split; [constructor|exact Logic.I].
Qed.

(** One full table and a second one with one slot in use, which is given back; then one slot
    of the first table. *)
Definition lost_ops : list op := map OAlloc (zseq 1 5) ++ [OFree 5; OFree 1].
Definition lost_st : mst := run_st (run g4 0 lost_ops mst0 []).
Definition lost_ls : list mlive := run_ls (run g4 0 lost_ops mst0 []).
Lemma lost_history : mach_history g4 lost_st lost_ls.
Proof. apply run_ok_history. vm_compute; reflexivity. Qed.
Lemma lost_is_b : lostb g4 lost_st 1 = true.
Proof. vm_compute; reflexivity. Qed.
Lemma lost_of_b g st t : lostb g st t = true -> lost g st t.
Proof.
  unfold lostb. rewrite andb_true_iff. intros (A & B). unfold lost. destruct (m_tables st t) as [x|]; [|discriminate]. exists x. split; [reflexivity|].
  split; [apply Z.eqb_eq; exact A|]. destruct (m_head st) as [k|]; [|discriminate]. apply negb_true_iff, Nat.eqb_neq in B. congruence.
Qed.
Lemma lost_is : lost g4 lost_st 1%nat.
Proof. exact (lost_of_b _ _ _ lost_is_b). Qed.
Lemma C53_witness : exists g st ls t, mcfg_ok g /\ mach_history g st ls /\ lost g st t.
Proof. exists g4, lost_st, lost_ls, 1%nat. split; [exact g4_ok|]. split; [exact lost_history|exact lost_is]. Qed.

(** Small cases for the examples: two slots a table. *)
Definition g2 : mcfg := MCfg 2 32 16.
Lemma g2_ok : mcfg_ok g2. Proof. split; [apply Nat.ltb_lt; reflexivity|]. split; [reflexivity|]. vm_compute. discriminate. Qed.
Definition ex_ops : list op := map OAlloc [1; 2; 3; 4; 5] ++ map OFree [4; 2].
Definition ex_st : mst := run_st (run g2 0 ex_ops mst0 []).
Definition ex_ls : list mlive := run_ls (run g2 0 ex_ops mst0 []).
Lemma ex_history : mach_history g2 ex_st ex_ls.
Proof. apply run_ok_history. vm_compute. reflexivity. Qed.
Definition lost2_st : mst := run_st (run g2 0 (map OAlloc [1; 2; 3] ++ map OFree [3; 1]) mst0 []).
Definition lost2_ls : list mlive := run_ls (run g2 0 (map OAlloc [1; 2; 3] ++ map OFree [3; 1]) mst0 []).
Lemma lost2_history : mach_history g2 lost2_st lost2_ls.
Proof. apply run_ok_history. vm_compute. reflexivity. Qed.
Lemma lost2_is : lost g2 lost2_st 1%nat.
Proof. apply lost_of_b. vm_compute. reflexivity. Qed.
Lemma run_ok_later g n l st ls : run_ok (run g n l st ls) = true -> later g st ls (run_st (run g n l st ls)) (run_ls (run g n l st ls)).
Proof.
  intros H. apply (run_later g l n st ls _ _ (run_n (run g n l st ls))); [|apply la_same].
  destruct (run g n l st ls) as [[[s x] k]|]; [reflexivity|discriminate].
Qed.
(** New closures after that: one from the first table, one from a new table. *)
Definition lost2_st' : mst := run_st (run g2 2 (map OAlloc [3; 4]) lost2_st lost2_ls).
Definition lost2_ls' : list mlive := run_ls (run g2 2 (map OAlloc [3; 4]) lost2_st lost2_ls).
Lemma lost2_later : later g2 lost2_st lost2_ls lost2_st' lost2_ls'.
Proof. apply run_ok_later. vm_compute. reflexivity. Qed.
