(** Raw closures, and the examples for closures. *)
From Coq Require Import ZifyBool ZifyNat.
From Verif Require Import Base BaseFacts Types Unix64Model TrampCodeModel TrampCodeSpec TrampCodeProofs
  ClosurePrepModel ClosurePrepSpec ClosurePrepProofs.
Local Arguments Z.mul : simpl never.
Local Arguments Z.add : simpl never.
Local Arguments Z.sub : simpl never.
Local Arguments Z.pow : simpl never.
Local Arguments Z.eqb : simpl never.
Local Arguments le_enc : simpl never.

Lemma raw_parts phys pm en tr cl abi flags cif fn ud loc pm' :
  prep_raw_closure_loc phys pm en tr cl abi flags cif fn ud loc = (FFI_OK, pm') ->
  exists pm1, prep_closure_loc phys pm en cl abi flags cif tr loc = (FFI_OK, pm1) /\
    pm' = vstore phys (vstore phys pm1 (ca_ptr cl + 56) (le_enc 8 fn)) (ca_ptr cl + 64) (le_enc 8 ud).
Proof.
  unfold prep_raw_closure_loc. destruct (prep_closure_loc phys pm en cl abi flags cif tr loc) as [st pm1].
  destruct st; try discriminate. intros E. exists pm1. split; [reflexivity|]. apply (f_equal snd) in E. symmetry. exact E.
Qed.

Lemma raw_dynamic phys pm en tr cl n abi flags cif fn ud pm' entry s :
  72 <= n -> dynamic_alloc phys cl n -> entry_ok en -> word_ok tr -> word_ok cif -> word_ok fn -> word_ok ud ->
  closure_dest en abi flags false = Some entry ->
  prep_raw_closure_loc phys pm en tr cl abi flags cif fn ud (ca_code cl) = (FFI_OK, pm') ->
  (forall x, m_mem s x = view_of phys pm' x) -> m_rip s = ca_code cl -> stack_apart s (ca_code cl) n ->
  invokes_raw s tr entry cif fn ud.
Proof.
  intros Hn (Dn & Ow & C0 & C1 & Al) Eo H0 H1 H2 H3 De Pr Ms Er [Hs Ds].
  assert (V : same_view phys (ca_ptr cl) (ca_code cl) n) by (split; auto).
  apply raw_parts in Pr as (pm1 & Pr & ->).
  unfold prep_closure_loc in Pr. rewrite Dn in Pr. cbv zeta in Pr. rewrite De in Pr.
  apply (f_equal snd) in Pr. cbn [snd] in Pr.
  destruct (dynamic_fields phys pm cl n entry cif tr (ca_code cl) (ca_code cl) ltac:(lia) V) as (F0 & F1 & F2 & F3).
  rewrite Pr in *. clear Pr.
  pose proof (dest_ok _ _ _ _ _ Eo De) as Wd.
  destruct (dynamic_arrives s entry) as (s' & A).
  - rewrite Er. lia.
  - exact Wd.
  - rewrite Er. eapply same_mem_code; [exact Ms|]. unfold code_at in *.
    change (length (dynamic_closure_code entry)) with 32%nat in *.
    replace (ca_code cl) with (ca_code cl + 0) in F0 |- * by lia. do 2 fld_other V. exact F0.
  - exists s', (m_rip s). split; [exact A|]. destruct A as (_ & _ & _ & _ & _ & K). rewrite Er.
    set (m := view_of phys (vstore phys (vstore phys pm1 (ca_ptr cl + 56) (le_enc 8 fn)) (ca_ptr cl + 64) (le_enc 8 ud))) in *.
    assert (L1 : load m (ca_code cl + 32) 8 = cif) by (apply load_word; auto; unfold m; do 2 fld_other V; exact F1).
    assert (L2 : load m (ca_code cl + 40) 8 = tr) by (apply load_word; auto; unfold m; do 2 fld_other V; exact F2).
    assert (L3 : load m (ca_code cl + 48) 8 = ca_code cl) by (apply load_word; [split; lia|unfold m; do 2 fld_other V; exact F3]).
    assert (L4 : load m (ca_code cl + 56) 8 = fn) by (apply load_word; auto; unfold m; fld_other V; fld_same V; reflexivity).
    assert (L5 : load m (ca_code cl + 64) 8 = ud) by (apply load_word; auto; unfold m; fld_same V; reflexivity).
    assert (Ld : forall o, 0 <= o -> o + 8 <= 72 -> load (m_mem s') (ca_code cl + o) 8 = load m (ca_code cl + o) 8).
    { intros o Ho Ho'. rewrite (keep_load _ _ _ _ _ _ K) by lia. apply (same_mem_load _ _ _ _ Ms). }
    unfold handler_called, closure_call. rewrite (Ld 40), L2 by lia. rewrite (Ld 32), L1 by lia. rewrite (Ld 48), L3 by lia.
    rewrite Z.eqb_refl, (Ld 56), (Ld 64), L4, L5 by lia. reflexivity.
Qed.

(** With a static trampoline, and the closure itself as code location. *)
Lemma raw_static phys pm en tr cl n endbr base i abi flags cif fn ud pm' entry alt e2 short rel s :
  72 <= n -> static_alloc phys pm cl n endbr base i -> (forall x, byte_ok (pm x)) ->
  entry_ok en -> word_ok tr -> word_ok cif -> word_ok fn -> word_ok ud ->
  closure_dest en abi flags true = Some alt -> alt_code phys pm cl n alt entry e2 short rel ->
  prep_raw_closure_loc phys pm en tr cl abi flags cif fn ud (ca_ptr cl) = (FFI_OK, pm') ->
  (forall x, m_mem s x = view_of phys pm' x) -> m_rip s = ca_code cl ->
  stack_apart s base (2 * tramp_map_size) -> stack_apart s (ca_ptr cl) n ->
  stack_apart s alt (zlen (alt_entry e2 short rel)) ->
  invokes_raw s tr entry cif fn ud.
Proof.
  intros Hn Sa Bm Eo H0 H1 H2 H3 De Ac Pr Ms Er S1 S2 S3.
  apply raw_parts in Pr as (pm1 & Pr & Epm').
  (* the state before the last two stores behaves the same up to arrival: use the memory after them *)
  pose proof Sa as (Pm & Cd & Hi & B0 & B1 & Ow & Op & Ap & Asl & Asl' & Cs). cbv zeta in *.
  pose proof Ac as (A0 & A1 & A2 & A3 & A4 & A5 & A6). cbv zeta in *.
  pose proof (mem_bytes _ _ _ _ _ _ _ _ _ _ _ _ _ _ Sa Bm Pr) as Bm1.
  assert (Bm' : forall x, byte_ok (pm' x)).
  { subst pm'. apply vstore_bytes; [|apply le_enc_ok]. apply vstore_bytes; [exact Bm1|apply le_enc_ok]. }
  unfold prep_closure_loc in Pr. rewrite Pm in Pr. cbv zeta in Pr. rewrite De in Pr.
  apply (f_equal snd) in Pr as Epm. cbn [snd] in Epm.
  destruct (static_memory phys pm cl n endbr base i alt cif tr (ca_ptr cl) ltac:(lia) Sa) as (F1 & F2 & F3 & F4 & F5 & F6).
  cbv zeta in *. rewrite Epm in *. clear Pr Epm.
  set (parm := base + tramp_map_size + i * tramp_size endbr) in *.
  set (slot := base + i * tramp_size endbr) in *.
  pose proof (dest_ok _ _ _ _ _ Eo De) as Wd. pose proof (slot_code_len endbr) as Ls.
  assert (Sl : 0 <= i * tramp_size endbr /\ i * tramp_size endbr + tramp_size endbr <= tramp_map_size).
  { destruct endbr; unfold tramp_size, tramp_map_size in *; [change (4096 / 40) with 102 in Hi|change (4096 / 32) with 128 in Hi]; lia. }
  pose proof (own_same_view _ _ _ Ow) as V.
  destruct Ow as (O1 & O2 & O3). destruct Op as (Q1 & Q2 & Q3).
  assert (Wp : word_ok (ca_ptr cl)) by (split; lia).
  assert (Far : forall b k, 0 <= b -> b + Z.of_nat k <= 2 ^ 64 -> apart phys b (Z.of_nat k) (ca_ptr cl) n ->
     mbytes (view_of phys pm') b k = mbytes (view_of phys pm1) b k).
  { intros b k X1 X2 X. subst pm'. rewrite !vs_other; auto; rewrite le8_zlen; intros i' j' Hi' Hj'.
    - replace (ca_ptr cl + 56 + j') with (ca_ptr cl + (56 + j')) by lia. apply X; lia.
    - replace (ca_ptr cl + 64 + j') with (ca_ptr cl + (64 + j')) by lia. apply X; lia. }
  assert (Pl : forall o, 0 <= o <= 8 -> apart phys (parm + o) (Z.of_nat 8) (ca_ptr cl) n).
  { intros o Ho i' j' Hi' Hj'. replace (parm + o + i') with (parm + (o + i')) by lia. apply Ap; lia. }
  destruct (static_arrives endbr false e2 short rel base i s (ca_ptr cl) alt) as (s' & A); auto.
  - rewrite Er. exact Cd.
  - intros x. rewrite Ms. apply Bm'.
  - eapply same_mem_code; [exact Ms|]. unfold code_at. fold slot.
    assert (X1 : apart phys slot (Z.of_nat (length (static_slot endbr false))) (ca_ptr cl) n)
      by (intros i' j' Hi' Hj'; apply Asl; unfold zlen in *; lia).
    assert (X2 : apart phys slot (Z.of_nat (length (static_slot endbr false))) parm 16)
      by (intros i' j' Hi' Hj'; apply Asl'; unfold zlen in *; lia).
    unfold zlen, tramp_map_size in *.
    rewrite Far, F6; [exact Cs|lia|lia|exact X1|exact X2|lia|lia|exact X1].
  - split; rewrite (same_mem_load _ _ _ _ Ms).
    + change (parm_words false) with 8%nat. fold parm. apply load_word; [exact Wp|]. rewrite Far; [exact F2|lia|lia|].
      pose proof (Pl 0 ltac:(lia)) as P. replace (parm + 0) with parm in P by lia. exact P.
    + change (Z.of_nat (parm_words false)) with 8. change (parm_words false) with 8%nat. fold parm. apply load_word; [exact Wd|].
      rewrite Far; [exact F1|lia|lia|]. apply Pl. lia.
  - eapply same_mem_code; [exact Ms|]. unfold code_at. unfold zlen in *.
    rewrite Far, F6; [exact A6|lia|lia|exact A4|exact (A5 _ Pm)|lia|lia|exact A4].
  - exists s', (ca_ptr cl). rewrite A3 in A. split; [exact A|]. destruct A as (_ & _ & _ & _ & _ & K).
    destruct S2 as [S2 S2'].
    assert (L1 : load (view_of phys pm') (ca_ptr cl + 32) 8 = cif) by (apply load_word; auto; subst pm'; do 2 fld_other V; exact F3).
    assert (L2 : load (view_of phys pm') (ca_ptr cl + 40) 8 = tr) by (apply load_word; auto; subst pm'; do 2 fld_other V; exact F4).
    assert (L3 : load (view_of phys pm') (ca_ptr cl + 48) 8 = ca_ptr cl) by (apply load_word; auto; subst pm'; do 2 fld_other V; exact F5).
    assert (L4 : load (view_of phys pm') (ca_ptr cl + 56) 8 = fn) by (apply load_word; auto; subst pm'; fld_other V; fld_same V; reflexivity).
    assert (L5 : load (view_of phys pm') (ca_ptr cl + 64) 8 = ud) by (apply load_word; auto; subst pm'; fld_same V; reflexivity).
    assert (Ld : forall o, 0 <= o -> o + 8 <= 72 -> load (m_mem s') (ca_ptr cl + o) 8 = load (view_of phys pm') (ca_ptr cl + o) 8).
    { intros o Ho Ho'. rewrite (keep_load _ _ _ _ _ _ K) by lia. apply (same_mem_load _ _ _ _ Ms). }
    unfold handler_called, closure_call. rewrite (Ld 40), L2 by lia. rewrite (Ld 32), L1 by lia. rewrite (Ld 48), L3 by lia.
    rewrite Z.eqb_refl, (Ld 56), (Ld 64), L4, L5 by lia. reflexivity.
Qed.

Lemma entry_dest en abi flags st d : entry_for en abi flags st d -> closure_dest en abi flags st = Some d.
Proof.
  assert (T : forall f, negb (Z.land f FLAG_XMM_ARGS =? 0) = Z.testbit f 11).
  { intros f. unfold FLAG_XMM_ARGS. destruct (Z.testbit f 11) eqn:E.
    - destruct (Z.eqb_spec (Z.land f (2 ^ 11)) 0) as [Z0|]; [|reflexivity].
      apply (f_equal (fun x => Z.testbit x 11)) in Z0. rewrite Z.land_spec, E, Z.bits_0 in Z0. discriminate.
    - destruct (Z.eqb_spec (Z.land f (2 ^ 11)) 0) as [|Z0]; [reflexivity|]. destruct Z0. apply Z.bits_inj. intros k.
      rewrite Z.land_spec, Z.bits_0. destruct (Z.eq_dec k 11) as [->|N]; [rewrite E; reflexivity|].
      destruct (Z.neg_nonneg_cases k) as [K|K]; [rewrite Z.testbit_neg_r; auto|].
      rewrite Z.pow2_bits_false by lia. apply andb_false_r. }
  intros H. unfold closure_dest. inversion H; subst; cbn [Z.eqb]; rewrite ?T;
    try match goal with H : _ = 3 \/ _ = 4 |- _ => destruct H; subst end;
    repeat match goal with H : Z.testbit _ _ = _ |- _ => rewrite H end; reflexivity.
Qed.

Lemma dynamic_closure phys pm en cl n abi flags cif fn ud entry :
  56 <= n -> dynamic_alloc phys cl n -> entry_ok en -> word_ok cif -> word_ok fn -> word_ok ud ->
  entry_for en abi flags false entry ->
  exists pm', prep_closure_loc phys pm en cl abi flags cif fn ud = (FFI_OK, pm') /\
    forall s, (forall x, m_mem s x = view_of phys pm' x) -> m_rip s = ca_code cl -> stack_apart s (ca_code cl) n ->
      invokes s entry cif fn ud.
Proof.
  intros Hn Da Eo H1 H2 H3 De. apply entry_dest in De.
  pose proof (fun pm' s => dynamic_invokes phys pm en cl n abi flags cif fn ud pm' entry s Hn Da Eo H1 H2 H3 De) as R.
  destruct Da as (Dn & _). unfold prep_closure_loc in *. rewrite Dn in *. cbv zeta in *. rewrite De in *.
  eexists. split; [reflexivity|]. intros s. apply R. reflexivity.
Qed.

Lemma static_closure phys pm en cl n endbr base i abi flags cif fn ud entry alt e2 short rel :
  56 <= n -> static_alloc phys pm cl n endbr base i -> (forall x, byte_ok (pm x)) ->
  entry_ok en -> word_ok cif -> word_ok fn -> word_ok ud ->
  entry_for en abi flags true alt -> alt_code phys pm cl n alt entry e2 short rel ->
  exists pm', prep_closure_loc phys pm en cl abi flags cif fn ud = (FFI_OK, pm') /\
    forall s, (forall x, m_mem s x = view_of phys pm' x) -> m_rip s = ca_code cl ->
      static_stack s cl n base alt (zlen (alt_entry e2 short rel)) -> invokes s entry cif fn ud.
Proof.
  intros Hn Da Bm Eo H1 H2 H3 De Ac. apply entry_dest in De.
  pose proof (fun pm' s => static_invokes phys pm en cl n endbr base i abi flags cif fn ud pm' entry alt e2 short rel s Hn Da Bm Eo H1 H2 H3 De Ac) as R.
  destruct Da as (Dn & _). unfold prep_closure_loc in *. rewrite Dn in *. cbv zeta in *. rewrite De in *.
  eexists. split; [reflexivity|]. intros s Ms Er (S1 & S2 & S3).
  destruct (R _ s eq_refl Ms Er S1 S2 S3) as (s' & A & C). exists s', (ca_ptr cl). split; assumption.
Qed.

Lemma bad_abi phys pm en cl abi flags cif fn ud :
  abi <> 2 -> abi <> 3 -> abi <> 4 -> prep_closure_loc phys pm en cl abi flags cif fn ud = (FFI_BAD_ABI, pm).
Proof.
  intros H1 H2 H3. unfold prep_closure_loc, closure_dest, FFI_WIN64, FFI_GNUW64, FFI_UNIX64.
  apply Z.eqb_neq in H1, H2, H3. rewrite H1, H2, H3. reflexivity.
Qed.

Lemma raw_dynamic_closure phys pm en tr cl n abi flags cif fn ud entry :
  72 <= n -> dynamic_alloc phys cl n -> entry_ok en -> word_ok tr -> word_ok cif -> word_ok fn -> word_ok ud ->
  entry_for en abi flags false entry ->
  exists pm', prep_raw_closure_loc phys pm en tr cl abi flags cif fn ud (ca_code cl) = (FFI_OK, pm') /\
    forall s, (forall x, m_mem s x = view_of phys pm' x) -> m_rip s = ca_code cl -> stack_apart s (ca_code cl) n ->
      invokes_raw s tr entry cif fn ud.
Proof.
  intros Hn Da Eo H0 H1 H2 H3 De. apply entry_dest in De.
  pose proof (fun pm' s => raw_dynamic phys pm en tr cl n abi flags cif fn ud pm' entry s Hn Da Eo H0 H1 H2 H3 De) as R.
  destruct Da as (Dn & _). unfold prep_raw_closure_loc, prep_closure_loc in *. rewrite Dn in *. cbv zeta in *. rewrite De in *.
  eexists. split; [reflexivity|]. intros s. apply R. reflexivity.
Qed.

Lemma raw_static_closure phys pm en tr cl n endbr base i abi flags cif fn ud entry alt e2 short rel :
  72 <= n -> static_alloc phys pm cl n endbr base i -> (forall x, byte_ok (pm x)) ->
  entry_ok en -> word_ok tr -> word_ok cif -> word_ok fn -> word_ok ud ->
  entry_for en abi flags true alt -> alt_code phys pm cl n alt entry e2 short rel ->
  exists pm', prep_raw_closure_loc phys pm en tr cl abi flags cif fn ud (ca_ptr cl) = (FFI_OK, pm') /\
    forall s, (forall x, m_mem s x = view_of phys pm' x) -> m_rip s = ca_code cl ->
      static_stack s cl n base alt (zlen (alt_entry e2 short rel)) -> invokes_raw s tr entry cif fn ud.
Proof.
  intros Hn Da Bm Eo H0 H1 H2 H3 De Ac. apply entry_dest in De.
  pose proof (fun pm' s => raw_static phys pm en tr cl n endbr base i abi flags cif fn ud pm' entry alt e2 short rel s Hn Da Bm Eo H0 H1 H2 H3 De Ac) as R.
  destruct Da as (Dn & _). unfold prep_raw_closure_loc, prep_closure_loc in *. rewrite Dn in *. cbv zeta in *. rewrite De in *.
  eexists. split; [reflexivity|]. intros s Ms Er (S1 & S2 & S3). exact (R _ s eq_refl Ms Er S1 S2 S3).
Qed.

(** *** Concrete memories *)
(** A code table at 65536, its parameter table after it, entry code at 1000. *)
Definition ex_mem (x : Z) : Z :=
  if (65536 <=? x) && (x <? 65536 + 4080) then nth (Z.to_nat ((x - 65536) mod 40)) (static_slot true false) 0
  else if (1000 <=? x) && (x <? 1100) then nth (Z.to_nat (x - 1000)) (alt_entry true false 500) 0
  else 0.
Definition ex_entries : entries := Entries 1518 2000 3000 1000 4000 5000.
Definition ex_static : calloc := CAlloc 200000 (65536 + 40 * 7) (Some (65536 + 4096 + 40 * 7)).
Definition ex_phys (x : Z) : Z := if (300000 <=? x) && (x <? 301000) then x - 100000 else x.
Definition ex_dynamic : calloc := CAlloc 200000 300000 None.
Definition ex_machine (m : Z -> Z) (rip : Z) : mach := Mach (fun r => if r =? RSP then 500000 else 100 + r) rip m.

Lemma ex_mem_bytes x : byte_ok (ex_mem x).
Proof.
  unfold ex_mem.
  assert (F : forall l k, Forall byte_ok l -> byte_ok (nth k l 0)).
  { intros l k Fl. destruct (nth_in_or_default k l 0) as [I|D]; [rewrite Forall_forall in Fl; auto|rewrite D; split; lia]. }
  assert (C : forall l, forallb (fun b => (0 <=? b) && (b <? 256)) l = true -> Forall byte_ok l).
  { intros l H. apply Forall_forall. intros b I. rewrite forallb_forall in H. apply H in I. unfold byte_ok. lia. }
  destruct (_ && _); [apply F, C; vm_compute; reflexivity|]. destruct (_ && _); [apply F, C; vm_compute; reflexivity|split; lia].
Qed.

Lemma ex_static_ok : static_alloc (fun x => x) ex_mem ex_static 72 true 65536 7.
Proof.
  unfold static_alloc, own_memory, apart. cbn [ca_parm ca_code ca_ptr ex_static].
  change (tramp_size true) with 40. change tramp_map_size with 4096. change (4096 / 40) with 102.
  split; [reflexivity|]. split; [reflexivity|]. split; [lia|]. split; [lia|]. split; [lia|].
  split; [split; [lia|]; split; [lia|]; intros; lia|]. split; [split; [lia|]; split; [lia|]; intros; lia|].
  split; [intros; lia|]. split; [intros; lia|]. split; [intros; lia|]. vm_compute. reflexivity.
Qed.

Lemma ex_alt_ok : alt_code (fun x => x) ex_mem ex_static 72 1000 1518 true false 500.
Proof.
  unfold alt_code, apart. change (zlen (alt_entry true false 500)) with 18. cbn [ca_parm ca_ptr ex_static].
  split; [lia|]. split; [lia|]. split; [lia|]. split; [reflexivity|]. split; [intros; lia|].
  split; [intros p [= <-] i j Hi Hj; lia|]. vm_compute. reflexivity.
Qed.

Lemma ex_entries_ok : entry_ok ex_entries.
Proof. unfold entry_ok, word_ok, ex_entries. cbn. lia. Qed.

Lemma ex_dynamic_ok : dynamic_alloc ex_phys ex_dynamic 72.
Proof.
  unfold dynamic_alloc, own_memory. cbn [ca_parm ca_code ca_ptr ex_dynamic].
  assert (P : forall i, 0 <= i < 72 -> ex_phys (200000 + i) = 200000 + i /\ ex_phys (300000 + i) = 200000 + i).
  { intros i Hi. unfold ex_phys.
    destruct (Z.leb_spec 300000 (200000 + i)); [lia|]. destruct (Z.leb_spec 300000 (300000 + i)); [|lia].
    destruct (Z.ltb_spec (300000 + i) 301000); [|lia]. cbn [andb]. lia. }
  split; [reflexivity|]. split; [split; [lia|]; split; [lia|]; intros i j Hi Hj; destruct (P i Hi), (P j Hj); lia|].
  split; [lia|]. split; [lia|]. intros i Hi. destruct (P i Hi). lia.
Qed.

Lemma ex_room m rip cl n base alt len :
  base + 2 * 4096 <= 400000 -> ca_ptr cl + n <= 400000 -> alt + len <= 400000 -> static_stack (ex_machine m rip) cl n base alt len.
Proof.
  intros H1 H2 H3. unfold static_stack, stack_apart.
  assert (R : m_reg (ex_machine m rip) RSP = 500000) by reflexivity. rewrite R. change tramp_map_size with 4096. lia.
Qed.

Definition ex_raw_state : mach :=
  ex_machine (view_of (fun x => x) (snd (prep_raw_closure_loc (fun x => x) ex_mem ex_entries 7777 ex_static 2 0 11111 22222 33333 (65536 + 40 * 7)))) (65536 + 40 * 7).

Lemma raw_static_counterexample :
  exists phys pm en tr cl n endbr base i abi flags cif fn ud entry alt e2 short rel,
    72 <= n /\ static_alloc phys pm cl n endbr base i /\ (forall x, byte_ok (pm x)) /\
    entry_ok en /\ word_ok tr /\ word_ok cif /\ word_ok fn /\ word_ok ud /\
    entry_for en abi flags true alt /\ alt_code phys pm cl n alt entry e2 short rel /\
    exists pm' s, prep_raw_closure_loc phys pm en tr cl abi flags cif fn ud (ca_code cl) = (FFI_OK, pm') /\
      (forall x, m_mem s x = view_of phys pm' x) /\ m_rip s = ca_code cl /\
      static_stack s cl n base alt (zlen (alt_entry e2 short rel)) /\
      exists k s', steps k s = Some s' /\ m_rip s' = entry /\ m_reg s' R10 = ca_ptr cl /\
        exists fn' ud', handler_called (m_mem s') tr (ca_ptr cl) = (cif, fn', ud') /\ fn' <> fn /\ ud' <> ud.
Proof.
  exists (fun x => x), ex_mem, ex_entries, 7777, ex_static, 72, true, 65536, 7, 2, 0, 11111, 22222, 33333, 1518, 1000, true, false, 500.
  split; [lia|]. split; [exact ex_static_ok|]. split; [exact ex_mem_bytes|]. split; [exact ex_entries_ok|].
  split; [split; lia|]. split; [split; lia|]. split; [split; lia|]. split; [split; lia|].
  split; [apply (entry_unix_alt ex_entries); reflexivity|]. split; [exact ex_alt_ok|].
  exists (snd (prep_raw_closure_loc (fun x => x) ex_mem ex_entries 7777 ex_static 2 0 11111 22222 33333 (65536 + 40 * 7))), ex_raw_state.
  split; [reflexivity|]. split; [reflexivity|]. split; [reflexivity|].
  split; [apply ex_room; change (zlen (alt_entry true false 500)) with 18; cbn [ca_ptr ex_static]; lia|].
  assert (X : option_map (fun s => (m_rip s, m_reg s R10, handler_called (m_mem s) 7777 200000)) (steps 11 ex_raw_state)
    = Some (1518, 200000, (11111, 586686800127328271, 4683743680800328524))).
  { vm_compute. reflexivity. }
  exists 11%nat. destruct (steps 11 ex_raw_state) as [s'|]; [|discriminate]. cbn [option_map] in X. apply (f_equal (fun o => match o with Some x => x | None => (0, 0, (0, 0, 0)) end)) in X.
  pose proof (f_equal (fun p => fst (fst p)) X) as X1. pose proof (f_equal (fun p => snd (fst p)) X) as X2.
  pose proof (f_equal snd X) as X3. cbn [fst snd] in X1, X2, X3.
  exists s'. split; [reflexivity|]. split; [exact X1|]. split; [exact X2|].
  eexists _, _. split; [exact X3|]. split; lia.
Qed.
