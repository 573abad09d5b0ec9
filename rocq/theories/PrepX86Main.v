(** The status of ffi_prep_cif on x86-64. *)
From Coq Require Import ZifyBool ZifyNat.
From Verif Require Import Base BaseFacts Types TypeHeapModel LayoutSpec TypeHeapSpec
  TypeHeapProofs TypeHeapProofs2 TypeHeapProofs3 TypeHeapProofs4 TypeHeapExamples PropsTypesLemmas NaturalTypes NaturalFacts
  Unix64Model Unix64Spec Unix64Classify Unix64Call Unix64Fill Unix64Link Unix64Main Win64Model Win64Link PrepX86Model PrepX86Spec PrepX86Proofs.

Lemma machdep_args_total ts : Forall natural ts -> forall g x b, exists r, machdep_args ts g x b = Ok r.
Proof.
  induction 1 as [|t ts N F IH]; intros g x b; cbn [machdep_args]; [eauto|].
  destruct (examine_ok t false N) as (e & Ee & _). rewrite Ee. cbn [bind].
  destruct e; auto. destruct (_ || _); auto.
Qed.

Lemma machdep_x86_total abi ts rt b f : (abi = 2 \/ abi = 3 \/ abi = 4) -> rt_ok rt -> Forall natural ts ->
  exists c, machdep_x86 (TCif abi ts rt b f) = Ok (FFI_OK, c).
Proof.
  intros A R N. destruct A as [->|A].
  - unfold machdep_x86, machdep64. cbn [c_abi c_rtype c_args].
    change ((2 =? FFI_WIN64) || (2 =? FFI_GNUW64)) with false. change (negb (2 =? FFI_UNIX64)) with false. cbn iota.
    destruct (prep_ret rt R) as (fl & E & _). rewrite E. cbn [bind].
    destruct (machdep_args_total ts N (first_gpr rt) 0 0) as ([by' sse] & M). rewrite M. cbn [bind]. eauto.
  - unfold machdep_x86, machdep_win. cbn [c_abi c_rtype c_args].
    assert (E : (abi =? FFI_WIN64) || (abi =? FFI_GNUW64) = true) by (destruct A as [-> | ->]; reflexivity).
    rewrite E. cbn [negb]. eauto.
Qed.

Lemma machdep_x86_bf abi ts rt b f b' f' c : machdep_x86 (TCif abi ts rt b f) = Ok (FFI_OK, c) ->
  machdep_x86 (TCif abi ts rt b' f') = Ok (FFI_OK, c).
Proof.
  unfold machdep_x86, machdep_win, machdep64. cbn [c_abi c_rtype c_args].
  destruct ((abi =? FFI_WIN64) || (abi =? FFI_GNUW64)); cbn [negb]; [auto|].
  destruct (negb (abi =? FFI_UNIX64)); [discriminate|].
  destruct (ret_flags rt) as [[[fl g]|]| |]; cbn [bind]; try discriminate. auto.
Qed.

Lemma views_ok fuel h l ts : Forall2 (fun p t => view fuel h p = Ok t) l ts -> views fuel h l = Ok ts.
Proof. induction 1 as [|p t l ts E F IH]; [reflexivity|]. cbn [views]. rewrite E. cbn [bind]. rewrite IH. reflexivity. Qed.

Lemma reaches_elem h p o es e a : reaches h a p -> h p = Some o -> o_elems o = Some es -> In e es -> reaches h a e.
Proof. intros R G E I. induction R; [eapply reaches_step; eauto using reaches_refl|eapply reaches_step; eauto]. Qed.

Section Prepared.
Context (rank : tptr -> nat).

Lemma c_object_tight h p : c_object h p -> tight h p.
Proof.
  intros [(t & It & G)|[(t & q & It & Gq & G)|(oh & G & Cd & Hs)]] o es e G' Z0 E I; rewrite G in G'; apply Some_inj' in G'; subst.
  - discriminate.
  - cbn in E. injection E as <-. destruct I as [<-|[]]. exists (scalar_object t). split; [auto|].
    cbn. repeat (destruct It as [<-|It]; [discriminate|]); contradiction.
  - destruct Hs as [Hs|(es' & ms & offs & E' & _ & F & _)]; [contradiction|]. rewrite E' in E. injection E as <-.
    clear - F I. induction F as [|x m es ms X F IH]; [contradiction|]. destruct I as [<-|I]; auto.
    destruct X as (o & G & Z0 & _). exists o. auto.
Qed.

Definition sig_trees (fuel : nat) (h : theap) (rt : tptr) (ats : list tptr) (tr : ftype) (ts : list ftype) : Prop :=
  view fuel h rt = Ok tr /\ (tr = ty_void \/ natural tr) /\
  Forall2 (fun p t => view fuel h p = Ok t) ats ts /\ Forall natural ts.

Lemma prepared_trees fuel abi rt ats h h' c : wf_theap rank h -> sizes_fit 64 h ->
  well_typed rank x86_64_target fuel h (abi, rt, ats) -> c_signature h rt ats ->
  prep_core x86_64_target fuel abi rt ats h = Ok (FFI_OK, h', Some c) -> refines h h' ->
  exists tr ts, sig_trees fuel h' rt ats tr ts.
Proof.
  intros W SF WT [Cr Ca] P R.
  assert (Void : forall o, h rt = Some o -> o = scalar_object ty_void -> view fuel h' rt = Ok ty_void).
  { intros o G ->. assert (E : h' rt = h rt).
    { destruct (R rt) as [|(o1 & s & a & G1 & Z1 & _)]; [auto|]. rewrite G in G1. injection G1 as <-. discriminate. }
    destruct fuel; [destruct (WT rt (or_introl eq_refl)) as (_ & L & _); lia|]. cbn [view]. rewrite E, G. reflexivity. }
  set (S1 := fun q => exists a, In a (rt :: ats) /\ reaches h a q).
  assert (Sh1 : shaped rank S1 h).
  { intros p o es e (a & Ia & Ra) G E I. split; [exists a; split; [auto|eapply reaches_elem; eauto]|].
    destruct (W p o G) as (_ & _ & H). apply (H es e E I). }
  assert (T1 : tight_all S1 h).
  { intros q (a & [<-|Ia] & Ra); [|apply c_object_tight; eauto].
    destruct Cr as [V|Cr]; [|apply c_object_tight; eauto].
    assert (q = rt) as ->. { inversion Ra as [|p o es e q' G E I]; subst; [auto|]. rewrite V in G. injection G as <-. discriminate. }
    intros o es e G _ E. rewrite V in G. injection G as <-. discriminate. }
  destruct (prep_core_tight rank S1 x86_64_target fuel abi rt ats h h' c) as (A & B & C); auto.
  { intros p I. exists p. split; [auto|apply reaches_refl]. }
  assert (X : forall S2 : tptr -> Prop, (forall q, S2 q -> S1 q) -> shaped rank S2 h -> (forall q, S2 q -> c_object h q) ->
     forall p, In p (rt :: ats) -> S2 p -> exists t, view fuel h' p = Ok t /\ natural t).
  { intros S2 H2 Sh2 Co p Ip Sp. destruct (natural_views rank S2 h h') with (fuel := fuel) (p := p) as (t & V & N & _); auto.
    - eapply shaped_same; eauto.
    - intros q Sq. apply B. auto.
    - destruct (WT p Ip) as (_ & L & _). exact L.
    - exists t. auto. }
  assert (Clo : forall l : list tptr, shaped rank (fun q => exists a, In a l /\ reaches h a q) h).
  { intros l p o es e (a & Ia & Ra) G E I. split; [exists a; split; [auto|eapply reaches_elem; eauto]|].
    destruct (W p o G) as (_ & _ & H). apply (H es e E I). }
  assert (At : exists ts, Forall2 (fun p t => view fuel h' p = Ok t) ats ts /\ Forall natural ts).
  { assert (Y : forall p, In p ats -> exists t, view fuel h' p = Ok t /\ natural t).
    { intros p Ip. apply (X (fun q => exists a, In a ats /\ reaches h a q)).
      - intros q (a & Ia & Ra). exists a. split; [right; auto|auto].
      - apply Clo.
      - intros q (a & Ia & Ra). eauto.
      - right. auto.
      - exists p. split; [auto|apply reaches_refl]. }
    clear - Y. induction ats as [|p l IH]; [exists []; auto|].
    destruct (Y p (or_introl eq_refl)) as (t & V & N). destruct IH as (ts & F & G). { intros q I. apply Y. right. exact I. }
    exists (t :: ts). auto. }
  destruct At as (ts & F & G).
  destruct Cr as [V|Cr].
  - exists ty_void, ts. repeat split; auto. eapply Void; eauto.
  - destruct (X (fun q => exists a, In a [rt] /\ reaches h a q)) with (p := rt) as (t & V & N).
    + intros q (a & [<-|[]] & Ra). exists rt. split; [left; auto|auto].
    + apply Clo.
    + intros q (a & [<-|[]] & Ra). auto.
    + left. auto.
    + exists rt. split; [left; auto|apply reaches_refl].
    + exists t, ts. repeat split; auto.
Qed.

Lemma x86_status fuel abi rt ats h : wf_theap rank h -> sizes_fit 64 h ->
  well_typed rank x86_64_target fuel h (abi, rt, ats) -> c_signature h rt ats ->
  exists st h' oc, prep_x86 fuel abi rt ats h = Ok (st, h', oc) /\
    (st = FFI_BAD_ABI <-> ~ (abi = FFI_UNIX64 \/ abi = FFI_WIN64 \/ abi = FFI_GNUW64)) /\
    (st = FFI_BAD_TYPEDEF <-> (abi = FFI_UNIX64 \/ abi = FFI_WIN64 \/ abi = FFI_GNUW64) /\
       exists p, In p (rt :: ats) /\ undescribed h p) /\
    (st = FFI_OK <-> (abi = FFI_UNIX64 \/ abi = FFI_WIN64 \/ abi = FFI_GNUW64) /\
       forall p, In p (rt :: ats) -> exists s a, eff_layout h p s a) /\
    (st = FFI_OK -> exists c tr ts c', oc = Some c /\ cif_abi c = abi /\ cif_rtype c = rt /\ cif_args c = ats /\
       sig_trees fuel h' rt ats tr ts /\
       machdep_x86 (TCif abi ts tr 0 0) = Ok (FFI_OK, c') /\ cif_bytes c = c_bytes c' /\ cif_flags c = c_flags c').
Proof.
  intros W SF WT CS.
  assert (AR : abi_in_range x86_64_target abi <-> abi = FFI_UNIX64 \/ abi = FFI_WIN64 \/ abi = FFI_GNUW64).
  { unfold abi_in_range, FFI_UNIX64, FFI_WIN64, FFI_GNUW64. cbn. lia. }
  pose proof (generic_status rank x86_64_target fuel (abi, rt, ats) h ltac:(cbn; lia) W SF WT) as (st & h1 & oc & P & B1 & B2 & B3).
  cbn [fst sig_types prep_request] in *. rewrite AR in B1, B2, B3.
  destruct (prep_request_status rank x86_64_target fuel (abi, rt, ats) h ltac:(cbn; lia) W SF WT)
    as [(NA & R)|[(Habi & U & h2 & R)|(Habi & All & h2 & c & R & L & Ca & Cr & _)]]; cbn [prep_request fst sig_types] in *;
    rewrite R in P; injection P as <- <- <-.
  - exists FFI_BAD_ABI, h, None. unfold prep_x86, prep_cif. rewrite R. cbn [bind].
    split; [reflexivity|]. split; [auto|]. split; [auto|]. split; [auto|discriminate].
  - exists FFI_BAD_TYPEDEF, h2, None. unfold prep_x86, prep_cif. rewrite R. cbn [bind].
    split; [reflexivity|]. split; [auto|]. split; [auto|]. split; [auto|discriminate].
  - injection Cr as Cr Cs. destruct (prepared_trees fuel abi rt ats h h2 c W SF WT CS R (only_refines rank _ _ W L)) as (tr & ts & V & N & Fv & Fn).
    assert (Ro : rt_ok tr). { destruct N as [->|N]; [right; reflexivity|left; exact N]. }
    destruct (machdep_x86_total abi ts tr 0 0) as (c' & M); auto. { apply AR. exact Habi. }
    assert (B0 : forall b f, machdep_x86 (TCif abi ts tr b f) = Ok (FFI_OK, c')).
    { intros b f. apply (machdep_x86_bf abi ts tr 0 0). exact M. }
    unfold prep_x86, prep_cif. rewrite R. cbn [bind]. unfold machdep_objects. rewrite Ca, Cr, Cs, V. cbn [bind].
    rewrite (views_ok _ _ _ _ Fv). cbn [bind]. rewrite B0. cbn [bind].
    eexists _, _, _. split; [reflexivity|]. split; [auto|]. split; [auto|]. split; [auto|].
    intros _. eexists _, tr, ts, c'. split; [reflexivity|]. cbn. repeat split; auto.
Qed.

End Prepared.

Lemma complex_rejected fuel rt ats h h1 c s a e es ts :
  prep_core x86_64_target fuel FFI_UNIX64 rt ats h = Ok (FFI_OK, h1, Some c) ->
  view fuel h1 rt = Ok (FT T_COMPLEX s a (e :: es)) -> views fuel h1 ats = Ok ts ->
  ty_code e = T_VOID \/ ty_code e = T_STRUCT \/ ty_code e = T_POINTER \/ ty_code e = T_COMPLEX ->
  exists c', prep_x86 fuel FFI_UNIX64 rt ats h = Ok (FFI_BAD_TYPEDEF, h1, Some c').
Proof.
  intros P V Vs H. assert (C : cif_abi c = FFI_UNIX64 /\ cif_rtype c = rt /\ cif_args c = ats).
  { unfold prep_core in P. destruct (negb _); [discriminate|]. apply bind_ok in P as ([st h2] & _ & P). destruct st; try discriminate.
    apply bind_ok in P as (o & _ & P). destruct (_ && _); [discriminate|]. apply bind_ok in P as ([[st2 h3] b2] & _ & P).
    destruct st2; try discriminate. injection P as _ <-. auto. }
  destruct C as (Ca & Cr & Cs). unfold prep_x86, prep_cif. rewrite P. cbn [bind]. unfold machdep_objects.
  rewrite Cr, Cs, V, Vs, Ca. cbn [bind]. unfold machdep_x86, machdep64. cbn [c_abi c_rtype c_args].
  change ((FFI_UNIX64 =? FFI_WIN64) || (FFI_UNIX64 =? FFI_GNUW64)) with false. change (negb (FFI_UNIX64 =? FFI_UNIX64)) with false. cbn iota.
  unfold ret_flags. cbn [ty_code ty_elems]. destruct H as [H|[H|[H|H]]]; rewrite H; cbn [bind]; eauto.
Qed.

(** ** Example: struct B { struct A; char; struct A; } f (struct A, double, float, int, float _Complex) *)
Definition px_heap : theap := fun p =>
  match p with
  | 6%nat => Some (TObj 8 4 T_COMPLEX (Some [4]%nat))
  | 7%nat => Some (TObj 1 1 T_VOID None)
  | 8%nat => Some (TObj 0 0 T_STRUCT (Some []))
  | _ => ex_heap p
  end.
Definition px_rank (p : tptr) : nat := match p with 6%nat => 1%nat | _ => ex_rank p end.

Lemma px_wf : wf_theap px_rank px_heap.
Proof.
  intros p o G.
  do 9 (destruct p as [|p]; [cbn in G; injection G as <-; cbn; (split; [lia|]); split;
    [intros; first [apply (p2 0); [lia|reflexivity] | apply (p2 2); [lia|reflexivity]
       | apply (p2 3); [lia|reflexivity] | lia]
    | intros es e E I; try discriminate; injection E as <-; cbn in I;
      repeat (destruct I as [<-|I]; [cbn; split; [discriminate|lia]|]); contradiction]|]).
  discriminate.
Qed.

Lemma px_object p : In p [0; 1; 2; 3; 4; 5; 6; 8]%nat -> c_object px_heap p.
Proof.
  intros I. repeat (destruct I as [<-|I]; [|]); try contradiction.
  1: left; exists ty_sint8; split; [cbn; auto 20|reflexivity].
  1: left; exists ty_double; split; [cbn; auto 20|reflexivity].
  1: right; right; eexists; split; [reflexivity|]; split; [reflexivity|left; reflexivity].
  1: right; right; eexists; split; [reflexivity|]; split; [reflexivity|left; reflexivity].
  1: left; exists ty_float; split; [cbn; auto 20|reflexivity].
  1: left; exists ty_sint32; split; [cbn; auto 20|reflexivity].
  1: right; left; exists ty_float, 4%nat; split; [cbn; auto 20|split; reflexivity].
  right; right; eexists; split; [reflexivity|]; split; [reflexivity|left; reflexivity].
Qed.

Lemma px_reaches a p : In a [0; 1; 2; 3; 4; 5; 6; 8]%nat -> reaches px_heap a p -> In p [0; 1; 2; 3; 4; 5; 6; 8]%nat.
Proof.
  intros I R. induction R as [|a o es e q G E Ie R IH]; [exact I|]. apply IH. clear IH R.
  repeat (destruct I as [<-|I]; [cbn in G; injection G as <-; cbn in E; try discriminate; injection E as <-; cbn in Ie |- *; tauto|]).
  contradiction.
Qed.

Lemma px_signature : c_signature px_heap 3%nat [2; 1; 4; 5; 6]%nat /\ c_signature px_heap 7%nat [2; 8]%nat.
Proof.
  split; (split; [first [left; reflexivity | right; intros p R]|intros a p I R]);
    apply px_object; (eapply px_reaches; [|exact R]); cbn in *; tauto.
Qed.

Lemma px_typed : well_typed px_rank x86_64_target 3 px_heap (2, 3%nat, [2; 1; 4; 5; 6]%nat) /\
  well_typed px_rank x86_64_target 3 px_heap (2, 7%nat, [2; 8]%nat).
Proof.
  split; intros p H; cbn in H;
  repeat (destruct H as [<-|H]; [split; [discriminate|]; split; [cbn; lia|left; reflexivity]|]);
  contradiction.
Qed.

Lemma px_eff2 : eff px_heap 2%nat 16 8.
Proof.
  refine (eff_struct px_heap 2%nat (TObj 0 0 T_STRUCT (Some [0; 1]%nat)) [0; 1]%nat
            [(1, 1); (8, 8)] [0; 8] 16 8 eq_refl eq_refl eq_refl _ _ ex_members2).
  - discriminate.
  - constructor; [|constructor; [|constructor]].
    + refine (eff_known px_heap 0%nat (TObj 1 1 T_SINT8 None) eq_refl _). discriminate.
    + refine (eff_known px_heap 1%nat (TObj 8 8 T_DOUBLE None) eq_refl _). discriminate.
Qed.
Lemma px_eff3 : eff px_heap 3%nat 40 8.
Proof.
  refine (eff_struct px_heap 3%nat (TObj 0 0 T_STRUCT (Some [2; 0; 2]%nat)) [2; 0; 2]%nat
            [(16, 8); (1, 1); (16, 8)] [0; 16; 24] 40 8 eq_refl eq_refl eq_refl _ _ ex_members3).
  - discriminate.
  - constructor; [exact px_eff2|]. constructor; [|constructor; [exact px_eff2|constructor]].
    refine (eff_known px_heap 0%nat (TObj 1 1 T_SINT8 None) eq_refl _). discriminate.
Qed.

Lemma px_fit : sizes_fit 64 px_heap.
Proof.
  intros p s a E. apply (eff_eff_layout px_rank px_heap px_wf) in E.
  assert (D : forall s' a', eff px_heap p s' a' -> s' < 2 ^ 64 -> s < 2 ^ 64).
  { intros s' a' E' H. destruct (eff_det px_rank px_heap px_wf _ _ _ _ _ E E') as [-> ->]. auto. }
  destruct (Nat.eq_dec p 2) as [->|N2]; [eapply D; [exact px_eff2|reflexivity]|].
  destruct (Nat.eq_dec p 3) as [->|N3]; [eapply D; [exact px_eff3|reflexivity]|].
  inversion E as [p1 o1 G1 Z2|p1 o1 es ms offs s1 a1 G1 Z2 L1 N1 F1 S1]; subst.
  - do 9 (destruct p as [|p]; [cbn in G1; injection G1 as <-; reflexivity|]). discriminate.
  - do 9 (destruct p as [|p]; [cbn in G1; injection G1 as <-; cbn in Z2, L1; first [congruence | discriminate]|]). discriminate.
Qed.

Lemma px_undescribed : undescribed px_heap 8%nat.
Proof. eapply undescribed_empty; reflexivity. Qed.

Lemma px_runs :
  (exists h' c, prep_x86 3 FFI_UNIX64 3%nat [2; 1; 4; 5; 6]%nat px_heap = Ok (FFI_OK, h', Some c)) /\
  (exists h', prep_x86 3 FFI_WIN64 7%nat [2; 8]%nat px_heap = Ok (FFI_BAD_TYPEDEF, h', None)) /\
  (exists h', prep_x86 3 1 7%nat [2; 8]%nat px_heap = Ok (FFI_BAD_ABI, h', None)).
Proof.
  split; [|split].
  - assert (H : match prep_x86 3 FFI_UNIX64 3%nat [2; 1; 4; 5; 6]%nat px_heap with Ok (FFI_OK, _, Some _) => True | _ => False end)
      by (vm_compute; exact I).
    destruct (prep_x86 _ _ _ _ _) as [[[[] h'] [c|]]| |]; try contradiction. eauto.
  - assert (H : match prep_x86 3 FFI_WIN64 7%nat [2; 8]%nat px_heap with Ok (FFI_BAD_TYPEDEF, _, None) => True | _ => False end)
      by (vm_compute; exact I).
    destruct (prep_x86 _ _ _ _ _) as [[[[] h'] [c|]]| |]; try contradiction. eauto.
  - eexists. reflexivity.
Qed.

(** A complex number of pointers. *)
Definition pc_heap : theap := fun p =>
  match p with
  | 0%nat => Some (TObj 8 8 T_POINTER None)
  | 1%nat => Some (TObj 16 8 T_COMPLEX (Some [0]%nat))
  | _ => None
  end.
Lemma pc_runs : exists c, prep_core x86_64_target 2 FFI_UNIX64 1%nat [0%nat] pc_heap = Ok (FFI_OK, pc_heap, Some c) /\
  view 2 pc_heap 1%nat = Ok (FT T_COMPLEX 16 8 [ty_pointer]) /\ views 2 pc_heap [0%nat] = Ok [ty_pointer].
Proof. eexists. split; [reflexivity|]. split; reflexivity. Qed.

Lemma x86_status_only rank fuel abi rt ats h : wf_theap rank h -> sizes_fit 64 h ->
  well_typed rank x86_64_target fuel h (abi, rt, ats) -> c_signature h rt ats ->
  exists st h' oc, prep_x86 fuel abi rt ats h = Ok (st, h', oc) /\
    (st = FFI_BAD_ABI <-> ~ (abi = FFI_UNIX64 \/ abi = FFI_WIN64 \/ abi = FFI_GNUW64)) /\
    (st = FFI_BAD_TYPEDEF <-> (abi = FFI_UNIX64 \/ abi = FFI_WIN64 \/ abi = FFI_GNUW64) /\
       exists p, In p (rt :: ats) /\ undescribed h p) /\
    (st = FFI_OK <-> (abi = FFI_UNIX64 \/ abi = FFI_WIN64 \/ abi = FFI_GNUW64) /\
       forall p, In p (rt :: ats) -> exists s a, eff_layout h p s a).
Proof.
  intros W SF WT CS. destruct (x86_status rank fuel abi rt ats h W SF WT CS) as (st & h' & oc & P & A & B & C & _).
  exists st, h', oc. auto.
Qed.

Lemma prepared_signature rank fuel abi rt ats h h' c : wf_theap rank h -> sizes_fit 64 h ->
  well_typed rank x86_64_target fuel h (abi, rt, ats) -> c_signature h rt ats ->
  prep_x86 fuel abi rt ats h = Ok (FFI_OK, h', Some c) ->
  exists tr ts c',
    view fuel h' rt = Ok tr /\ (tr = ty_void \/ natural tr) /\
    Forall2 (fun p t => view fuel h' p = Ok t) ats ts /\ Forall natural ts /\
    machdep_x86 (TCif abi ts tr 0 0) = Ok (FFI_OK, c') /\
    cif_bytes c = c_bytes c' /\ cif_flags c = c_flags c'.
Proof.
  intros W SF WT CS P'. destruct (x86_status rank fuel abi rt ats h W SF WT CS) as (st & h1 & oc & P & _ & _ & _ & D).
  rewrite P in P'. injection P' as -> -> ->. destruct (D eq_refl) as (c0 & tr & ts & c' & E & _ & _ & _ & (V & N & F & G) & M & Eb & Ef).
  injection E as <-. exists tr, ts, c'. repeat (split; [assumption|]). assumption.
Qed.

Lemma ex_C04 :
  wf_theap px_rank px_heap /\ sizes_fit 64 px_heap /\
  well_typed px_rank x86_64_target 3 px_heap (2, 3%nat, [2; 1; 4; 5; 6]%nat) /\
  c_signature px_heap 3%nat [2; 1; 4; 5; 6]%nat /\
  well_typed px_rank x86_64_target 3 px_heap (2, 7%nat, [2; 8]%nat) /\
  c_signature px_heap 7%nat [2; 8]%nat /\ undescribed px_heap 8%nat /\
  (exists h' c, prep_x86 3 FFI_UNIX64 3%nat [2; 1; 4; 5; 6]%nat px_heap = Ok (FFI_OK, h', Some c)) /\
  (exists h', prep_x86 3 FFI_WIN64 7%nat [2; 8]%nat px_heap = Ok (FFI_BAD_TYPEDEF, h', None)) /\
  (exists h', prep_x86 3 1 7%nat [2; 8]%nat px_heap = Ok (FFI_BAD_ABI, h', None)).
Proof.
  pose proof px_typed. pose proof px_signature. pose proof px_runs. pose proof px_wf. pose proof px_fit. pose proof px_undescribed. tauto.
Qed.
