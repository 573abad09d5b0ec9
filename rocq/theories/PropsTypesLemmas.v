(** Last steps towards the statements of PropsTypes.v. *)
From Coq Require Import ZifyBool ZifyNat.
From Verif Require Import Base BaseFacts Types TypeHeapModel LayoutSpec TypeHeapSpec
  TypeHeapProofs TypeHeapProofs2 TypeHeapProofs3 TypeHeapProofs4 TypeHeapExamples.

Lemma prep_records_c_layout :
  forall rank tg fuel r h h' c,
    16 <= tg_width tg -> wf_theap rank h -> sizes_fit (tg_width tg) h ->
    well_typed rank tg fuel h r ->
    prep_request tg fuel r h = Ok (FFI_OK, h', Some c) ->
    forall p, In p (sig_types r) ->
      exists o t s a, h p = Some o /\ describes h p t /\ c_layout t s a /\
        h' p = Some (TObj s a (o_code o) (o_elems o)).
Proof.
  intros rank tg fuel r h h' c Hw W SF WT R p Hp.
  destruct (prep_request_status rank tg fuel r h Hw W SF WT)
      as [(_ & R')|[(_ & _ & h1' & R')|(Habi & All & h1' & c' & R' & _ & _ & _ & Rec)]]; rewrite R in R'; try discriminate.
  injection R' as -> ->. destruct (All p Hp) as (s & a & E).
  destruct (Rec p s a Hp E) as (o & G & G'). destruct E as (t & D & L).
  exists o, t, s, a. auto.
Qed.

Lemma least_multiple_unique a v m m' : least_multiple a v m -> least_multiple a v m' -> m = m'.
Proof.
  intros (A & B & C) (A' & B' & C'). specialize (C _ A' B'). specialize (C' _ A B). lia.
Qed.

Lemma members_at_unique e ms offs e1 : members_at e ms offs e1 -> forall offs' e2, members_at e ms offs' e2 ->
  offs = offs' /\ e1 = e2.
Proof.
  induction 1 as [e|e s a off rest offs e' LM M IH]; intros offs' e2 M2;
    inversion M2 as [|e0 s0 a0 off0 rest0 offs0 e0' LM0 M0]; subst; auto.
  pose proof (least_multiple_unique _ _ _ _ LM LM0) as ->. apply IH in M0 as [-> ->]. auto.
Qed.

Lemma struct_layout_unique :
  forall ms offs s a offs' s' a',
    (forall m, In m ms -> 0 < snd m) ->
    struct_layout ms offs s a -> struct_layout ms offs' s' a' ->
    offs = offs' /\ s = s' /\ a = a'.
Proof.
  intros ms offs s a offs' s' a' _ (e & M & -> & L) (e' & M' & -> & L').
  destruct (members_at_unique _ _ _ _ M _ _ M') as [-> ->].
  pose proof (least_multiple_unique _ _ _ _ L L'). auto.
Qed.

Definition obs_prep (r : res (status * theap * option cif)) (P : theap -> Prop) : Prop :=
  match r with Ok (FFI_OK, h', Some _) => P h' | _ => False end.

Lemma obs_prep_ex r P : obs_prep r P -> exists h' c, r = Ok (FFI_OK, h', Some c) /\ P h'.
Proof. destruct r as [[[[] h'] [c|]]| |]; cbn; try contradiction. eauto. Qed.

Lemma ex_C01 :
  wf_theap ex_rank ex_heap /\ sizes_fit 64 ex_heap /\
  well_typed ex_rank x86_64_target 3 ex_heap (2, 3%nat, [2; 1; 4; 5]%nat) /\
  (exists h' c, prep_request x86_64_target 3 (2, 3%nat, [2; 1; 4; 5]%nat) ex_heap = Ok (FFI_OK, h', Some c) /\
     h' 3%nat = Some (TObj 40 8 T_STRUCT (Some [2; 0; 2]%nat)) /\
     h' 2%nat = Some (TObj 16 8 T_STRUCT (Some [0; 1]%nat))) /\
  members_of ex_heap 3%nat [(16, 8); (1, 1); (16, 8)] /\
  struct_layout [(16, 8); (1, 1); (16, 8)] [0; 16; 24] 40 8 /\
  (exists h', get_struct_offsets x86_64_target 3 2 3%nat ex_heap = Ok (FFI_OK, h', [0; 16; 24])).
Proof.
  split; [exact ex_wf|]. split; [exact ex_fit|]. split; [exact ex_typed|]. split.
  { apply obs_prep_ex with (P := fun h' => h' 3%nat = _ /\ h' 2%nat = _). vm_compute. split; reflexivity. }
  split; [|split; [exact ex_members3|]].
  2: { assert (O : match get_struct_offsets x86_64_target 3 2 3%nat ex_heap with
                   | Ok (FFI_OK, _, offs) => offs = [0; 16; 24] | _ => False end) by (vm_compute; reflexivity).
       destruct (get_struct_offsets _ _ _ _ _) as [[[[] h'] offs]| |]; try contradiction. subst. eauto. }
  exists (TObj 0 0 T_STRUCT (Some [2; 0; 2]%nat)), [2; 0; 2]%nat. repeat split; [discriminate|].
  pose proof (eff_eff_layout ex_rank ex_heap ex_wf) as Q.
  repeat constructor; apply Q; [exact ex_eff2|exact ex_eff0|exact ex_eff2].
Qed.

Lemma history_preserves :
  forall rank tg fuel rs h h',
    16 <= tg_width tg -> wf_theap rank h -> sizes_fit (tg_width tg) h ->
    (forall r, In r rs -> well_typed rank tg fuel h r) ->
    prep_history tg fuel rs h = Some h' ->
    only_laid_out h h' /\ forall q s a, eff_layout h q s a <-> eff_layout h' q s a.
Proof.
  intros rank tg fuel rs h h' Hw W SF WT H.
  pose proof (prep_history_only rank tg fuel rs Hw h h' W SF WT H) as O. split; auto.
  apply (only_layout rank); auto.
Qed.

Lemma history_independent :
  forall rank tg fuel rs r h h' h1 c,
    16 <= tg_width tg -> wf_theap rank h -> sizes_fit (tg_width tg) h ->
    (forall r, In r rs -> well_typed rank tg fuel h r) -> well_typed rank tg fuel h r ->
    prep_history tg fuel rs h = Some h' ->
    prep_request tg fuel r h = Ok (FFI_OK, h1, Some c) ->
    exists h2, prep_request tg fuel r h' = Ok (FFI_OK, h2, Some c).
Proof.
  intros rank tg fuel rs r h h' h1 c Hw W SF WT WTr H R.
  eapply (prep_request_same rank); eauto. eapply (prep_history_only rank); eauto.
Qed.

Lemma ex_C02 :
  exists h', prep_history x86_64_target 3 [(2, 2%nat, [0]%nat); (2, 3%nat, [2; 1; 4; 5]%nat)] ex_heap = Some h' /\
             h' 3%nat <> ex_heap 3%nat.
Proof.
  assert (O : match prep_history x86_64_target 3 [(2, 2%nat, [0]%nat); (2, 3%nat, [2; 1; 4; 5]%nat)] ex_heap with
              | Some h' => h' 3%nat <> ex_heap 3%nat | None => False end) by (vm_compute; discriminate).
  destruct (prep_history _ _ _ _) as [h'|]; [eauto|contradiction].
Qed.

Lemma rejection_sticky_refuted :
  exists r h h1 h2 c,
    prep_request x86_64_target 5 r h = Ok (FFI_BAD_TYPEDEF, h1, None) /\
    prep_request x86_64_target 5 r h1 = Ok (FFI_OK, h2, Some c).
Proof.
  exists (2, 0%nat, [2]%nat), bad_heap.
  assert (O : match prep_request x86_64_target 5 (2, 0%nat, [2]%nat) bad_heap with
              | Ok (FFI_BAD_TYPEDEF, h1, None) =>
                match prep_request x86_64_target 5 (2, 0%nat, [2]%nat) h1 with
                | Ok (FFI_OK, _, Some _) => True | _ => False end
              | _ => False end) by (vm_compute; exact I).
  destruct (prep_request _ _ _ bad_heap) as [[[[] h1] [c|]]| |]; try contradiction.
  destruct (prep_request _ _ _ h1) as [[[[] h2] [c|]]| |] eqn:E; try contradiction.
  exists h1, h2, c. auto.
Qed.

Lemma rejection_sticky_left :
  forall rank tg fuel abi rt ats n h l1 p l2,
    16 <= tg_width tg -> wf_theap rank h -> sizes_fit (tg_width tg) h -> abi_in_range tg abi ->
    well_typed rank tg fuel h (abi, rt, ats) ->
    rt :: ats = l1 ++ p :: l2 ->
    (forall q, In q l1 -> exists s a, eff_layout h q s a) -> left_undescribed h p ->
    prep_retry tg fuel (abi, rt, ats) n h = repeat (Some FFI_BAD_TYPEDEF) n.
Proof.
  intros rank tg fuel abi rt ats n h l1 p l2 Hw W SF Habi WT El D L.
  apply (prep_retry_left rank); auto.
  - apply (fits_of_sizes_fit rank); auto.
  - cbn [sig_types]. exists l1, p, l2. repeat split; auto.
    intros q Hq. destruct (D q Hq) as (s & a & E). exists s, a. apply (eff_eff_layout rank); auto.
Qed.

Lemma ex_C03 :
  left_undescribed bad_heap 3%nat /\
  prep_retry x86_64_target 5 (2, 0%nat, [0; 3]%nat) 3 bad_heap = repeat (Some FFI_BAD_TYPEDEF) 3.
Proof.
  split; [|vm_compute; reflexivity].
  refine (left_member bad_heap 3%nat _ 1%nat [0%nat] eq_refl eq_refl eq_refl _).
  exact (left_empty bad_heap 1%nat _ eq_refl eq_refl eq_refl).
Qed.

Lemma generic_status :
  forall rank tg fuel r h,
    16 <= tg_width tg -> wf_theap rank h -> sizes_fit (tg_width tg) h ->
    well_typed rank tg fuel h r ->
    exists st h' oc, prep_request tg fuel r h = Ok (st, h', oc) /\
      (st = FFI_BAD_ABI <-> ~ abi_in_range tg (fst (fst r))) /\
      (st = FFI_BAD_TYPEDEF <->
         abi_in_range tg (fst (fst r)) /\ exists p, In p (sig_types r) /\ undescribed h p) /\
      (st = FFI_OK <->
         abi_in_range tg (fst (fst r)) /\ forall p, In p (sig_types r) -> exists s a, eff_layout h p s a).
Proof.
  intros rank tg fuel r h Hw W SF WT.
  destruct (prep_request_status rank tg fuel r h Hw W SF WT)
      as [(NA & R)|[(Habi & U & h1 & R)|(Habi & All & h1 & c & R & _)]].
  - eexists _, _, _. split; [exact R|]. repeat split; intros; try discriminate; tauto.
  - eexists _, _, _. split; [exact R|]. split; [split; [discriminate|tauto]|]. split; [split; auto|].
    split; [discriminate|]. intros (_ & All). destruct U as (p & Hp & U). destruct (All p Hp) as (s & a & E).
    exfalso. eapply (layout_not_undescribed rank); eauto.
  - eexists _, _, _. split; [exact R|]. split; [split; [discriminate|tauto]|]. split; [|split; auto].
    split; [discriminate|]. intros (_ & U). destruct U as (p & Hp & U). destruct (All p Hp) as (s & a & E).
    exfalso. eapply (layout_not_undescribed rank); eauto.
Qed.

Lemma skipn_app_len {A} (l m : list A) : skipn (length l) (l ++ m) = m.
Proof. induction l; auto. Qed.

Lemma variadic_status :
  forall tg fuel machdep float_obj int_size abi rt fixed variadic h h1 c,
    prep_cif tg fuel machdep abi rt (fixed ++ variadic) h = Ok (FFI_OK, h1, c) ->
    (forall p, In p variadic -> h1 p <> None) ->
    (forall p o, In p variadic -> h1 p = Some o -> (p = float_obj <-> o_code o = T_FLOAT)) ->
    exists st, prep_cif_var tg fuel machdep float_obj int_size abi (length fixed) rt (fixed ++ variadic) h
                 = Ok (st, h1, c) /\
      (st = FFI_BAD_ARGTYPE <-> exists p, In p variadic /\ unpromoted h1 int_size p) /\
      (st = FFI_OK <-> forall p, In p variadic -> ~ unpromoted h1 int_size p).
Proof.
  intros tg fuel machdep fo sz abi rt fixed variadic h h1 c R N Fl.
  unfold prep_cif_var. rewrite R. cbn [bind]. rewrite skipn_app_len.
  destruct (var_check_spec (fun _ => O) fo sz h1 variadic N Fl) as (st & V & C). rewrite V. cbn [bind].
  exists st. split; [reflexivity|]. destruct C as [[-> U]|[-> U]].
  - split; [tauto|]. split; [discriminate|]. intros H. destruct U as (p & Hp & U). exfalso. eapply H; eauto.
  - split; [|tauto]. split; [discriminate|]. intros (p & Hp & U'). exfalso. eapply U; eauto.
Qed.

Lemma private_float_refuted :
  exists h float_obj rt p h1 c,
    unpromoted h 4 p /\
    prep_cif_var x86_64_target 2 (fun _ c => Ok (FFI_OK, c)) float_obj 4 2 0 rt [p] h = Ok (FFI_OK, h1, Some c).
Proof.
  exists (fun p => match p with 0%nat | 1%nat => Some (TObj 4 4 T_FLOAT None) | 2%nat => Some (TObj 4 4 T_SINT32 None) | _ => None end).
  exists 0%nat, 2%nat, 1%nat.
  match goal with |- exists h1 c, _ /\ ?r = _ =>
    assert (O : obs_prep r (fun _ => True)) by (vm_compute; exact I); apply obs_prep_ex in O as (h1 & c & E & _) end.
  exists h1, c. split; [|exact E]. eexists. split; [reflexivity|]. auto.
Qed.

Lemma ex_C05 :
  (exists h1 c, prep_cif_var x86_64_target 3 (fun _ c => Ok (FFI_OK, c)) 4%nat 4 2 1 1%nat [0; 5; 4]%nat ex_heap
     = Ok (FFI_BAD_ARGTYPE, h1, Some c)) /\
  (exists h1 c, prep_cif_var x86_64_target 3 (fun _ c => Ok (FFI_OK, c)) 4%nat 4 2 1 1%nat [0; 5; 1; 3]%nat ex_heap
     = Ok (FFI_OK, h1, Some c)).
Proof.
  split.
  - match goal with |- exists h1 c, ?r = _ =>
      assert (O : match r with Ok (FFI_BAD_ARGTYPE, _, Some _) => True | _ => False end) by (vm_compute; exact I) end.
    destruct (prep_cif_var _ _ _ _ _ _ _ _ _ _) as [[[[] h'] [c|]]| |]; try contradiction. eauto.
  - match goal with |- exists h1 c, ?r = _ =>
      assert (O : match r with Ok (FFI_OK, _, Some _) => True | _ => False end) by (vm_compute; exact I) end.
    destruct (prep_cif_var _ _ _ _ _ _ _ _ _ _) as [[[[] h'] [c|]]| |]; try contradiction. eauto.
Qed.

Lemma terminates :
  forall rank tg fuel abi rt ats h,
    acyclic rank h ->
    (forall p, In p (rt :: ats) -> h p <> None /\ (rank p < fuel)%nat) ->
    tg_complex tg = true ->
    exists st h' c, prep_core tg fuel abi rt ats h = Ok (st, h', c) /\
      forall q, h' q = h q \/
        exists o s a p, In p (rt :: ats) /\ reaches h p q /\ h q = Some o /\ o_size o = 0 /\
          h' q = Some (TObj s a (o_code o) (o_elems o)).
Proof.
  intros rank tg fuel abi rt ats h Ac H C.
  destruct (prep_core_total rank tg fuel abi rt ats h Ac H) as [(st & h' & c & R & T)|[_ C']]; [|congruence].
  exists st, h', c. split; auto. intros q. destruct (T q) as [|(o & s & a & p & A & B & D & E & F)]; auto.
  right. exists o, s, a, p. auto.
Qed.

Lemma ex_C06 :
  acyclic ex_rank ex_heap /\ (forall p, In p [3; 2]%nat -> ex_heap p <> None /\ (ex_rank p < 3)%nat).
Proof.
  split; [exact ex_acyclic|]. intros p [<-|[<-|[]]]; (split; [discriminate|cbn; lia]).
Qed.
