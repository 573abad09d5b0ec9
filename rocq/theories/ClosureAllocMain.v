From Verif Require Import Base SegModel SegSpec SegProofs SegMain ClosureAllocModel ClosureAllocSpec ClosureAllocProofs.
From Coq Require Import Lia ZifyBool.
Local Open Scope Z_scope.

Definition okc (r : res (option Z * option Z * cst)) : option (option Z * option Z) :=
  match r with Ok (o, c, _) => Some (o, c) | _ => None end.
Definition okcst (r : res (option Z * option Z * cst)) : cst := match r with Ok (_, _, s) => s | _ => cst0 end.
Lemma okc_ok r o c : okc r = Some (o, c) -> r = Ok (o, c, okcst r).
Proof. destruct r as [[[]]| |]; cbn; congruence. Qed.
Definition okf (r : res cst) : bool := match r with Ok _ => true | _ => false end.
Definition okfst (r : res cst) : cst := match r with Ok s => s | _ => cst0 end.
Lemma okf_ok r : okf r = true -> r = Ok (okfst r).
Proof. destruct r; cbn; congruence. Qed.

Definition noext (p n : Z) : mans := MAns [] (Some (p, n)).
Lemma ext_nil p n sg sg' : extend_all (ma_ext (noext p n)) sg = Ok sg' -> sg' = sg.
Proof. cbn. congruence. Qed.
Definition nofree : fans := FAns None None.
Lemma nofree_ok both bs sg : free_contract both nofree bs sg.
Proof. split; exact Logic.I. Qed.

(** The list of blocks is known. *)
Ltac blocks l := match goal with |- Forall _ ?x => replace x with l by (vm_compute; reflexivity) end;
  repeat (constructor; [unfold apart2; cbn [fst snd]; lia|]); constructor.
Ltac blocks_others := match goal with |- Forall _ ?x => replace x with (@nil (Z * Z)) by (vm_compute; reflexivity) end; constructor.

(** * Dual mapping, code in the closure *)
Definition gd : cacfg := CaCfg false true (fun h => h).
Definition m1 := MAns [Extend 0x20000 (KDual 0 0 0x100000 0x200000) 0] (Some (0x200010, 64)).
Definition d1 := okcst (closure_alloc gd true m1 None nofree cst0).
Definition d2 := okcst (closure_alloc gd true (noext 0x200060 64) None nofree d1).
Definition d3 := okfst (closure_free gd nofree 0x200010 d2).

Lemma d1_history both : ca_history gd both d1 [Live 0x200010 64 0x100010].
Proof.
  apply (ch_alloc gd both cst0 [] true m1 None nofree 0x200010 0x100010 d1); [apply ch_start| |exact Logic.I| | |reflexivity].
  - split.
    + split; [cbn; lia|]. split; [|intros; exact Logic.I]. split; [ranges|]. split; [ranges|cbn; lia].
    + intros sg H. split; [lia|]. split; [|constructor]. exists (Seg 0x200000 0x20000 (-0x100000)).
      split; [|cbn; lia]. assert (E : segs (match extend_all (ma_ext m1) (c_sg cst0) with Ok s => s | _ => sgs0 end) = [Seg 0x200000 0x20000 (-0x100000)])
        by (vm_compute; reflexivity). rewrite H in E. rewrite E. left; reflexivity.
  - intros; apply nofree_ok.
  - apply okc_ok. vm_compute. reflexivity.
Qed.

Lemma d1_segs : segs (c_sg d1) = [Seg 0x200000 0x20000 (-0x100000)].
Proof. vm_compute. reflexivity. Qed.

Lemma d2_history both : ca_history gd both d2 [Live 0x200060 64 0x100060; Live 0x200010 64 0x100010].
Proof.
  apply (ch_alloc gd both d1 _ true (noext 0x200060 64) None nofree 0x200060 0x100060 d2 (d1_history both)); [|exact Logic.I| | |reflexivity].
  - split; [exact Logic.I|]. intros sg H. apply ext_nil in H. subst sg. split; [lia|]. split.
    + exists (Seg 0x200000 0x20000 (-0x100000)). rewrite d1_segs. split; [left; reflexivity|cbn; lia].
    + blocks [(0x200010, 64)].
  - intros; apply nofree_ok.
  - apply okc_ok. vm_compute. reflexivity.
Qed.

Lemma d3_history both : ca_history gd both d3 [Live 0x200060 64 0x100060].
Proof.
  apply (ch_free gd both d2 [Live 0x200060 64 0x100060] (Live 0x200010 64 0x100010) [] nofree d3 (d2_history both)); [apply nofree_ok|].
  apply okf_ok. vm_compute. reflexivity.
Qed.

(** * Static trampolines *)
Definition gs : cacfg := CaCfg true true (fun h => 0x700000 + 64 * h).
Definition t1 := okcst (closure_alloc gs true m1 (Some 5) nofree cst0).
Definition t2 := okcst (closure_alloc gs true (noext 0x200060 64) (Some 6) nofree t1).
Definition t3 := okcst (closure_alloc gs true (noext 0x2000b0 64) None nofree t2).

Lemma t1_history both : ca_history gs both t1 [Live 0x200010 64 (0x700000 + 64 * 5)].
Proof.
  apply (ch_alloc gs both cst0 [] true m1 (Some 5) nofree 0x200010 (0x700000 + 64 * 5) t1); [apply ch_start| |intros []| | |reflexivity].
  - split.
    + split; [cbn; lia|]. split; [|intros; exact Logic.I]. split; [ranges|]. split; [ranges|cbn; lia].
    + intros sg H. split; [lia|]. split; [|constructor]. exists (Seg 0x200000 0x20000 (-0x100000)).
      split; [|cbn; lia]. assert (E : segs (match extend_all (ma_ext m1) (c_sg cst0) with Ok s => s | _ => sgs0 end) = [Seg 0x200000 0x20000 (-0x100000)])
        by (vm_compute; reflexivity). rewrite H in E. rewrite E. left; reflexivity.
  - intros; apply nofree_ok.
  - apply okc_ok. vm_compute. reflexivity.
Qed.

Lemma t1_segs : segs (c_sg t1) = [Seg 0x200000 0x20000 (-0x100000)].
Proof. vm_compute. reflexivity. Qed.

Lemma t2_history both : ca_history gs both t2 [Live 0x200060 64 (0x700000 + 64 * 6); Live 0x200010 64 (0x700000 + 64 * 5)].
Proof.
  apply (ch_alloc gs both t1 _ true (noext 0x200060 64) (Some 6) nofree 0x200060 (0x700000 + 64 * 6) t2 (t1_history both)); [| | | |reflexivity].
  - split; [exact Logic.I|]. intros sg H. apply ext_nil in H. subst sg. split; [lia|]. split.
    + exists (Seg 0x200000 0x20000 (-0x100000)). rewrite t1_segs. split; [left; reflexivity|cbn; lia].
    + blocks [(0x200010, 64)].
  - cbn [tramp_contract]. replace (map (ca_addr gs) (c_tramps t1)) with [0x700000 + 64 * 5] by (vm_compute; reflexivity).
    intros [H|[]]. vm_compute in H. discriminate.
  - intros; apply nofree_ok.
  - apply okc_ok. vm_compute. reflexivity.
Qed.

(** The trampoline layer fails: the memory goes back. *)
Lemma t3_history both : ca_history gs both t3 [Live 0x200060 64 (0x700000 + 64 * 6); Live 0x200010 64 (0x700000 + 64 * 5)].
Proof.
  apply (ch_fail gs both t2 _ true (noext 0x2000b0 64) None nofree (Some 0x1000b0) t3 (t2_history both)); [|exact Logic.I| |].
  - split; [exact Logic.I|]. intros sg H. apply ext_nil in H. subst sg. split; [lia|]. split.
    + exists (Seg 0x200000 0x20000 (-0x100000)). split; [vm_compute; left; reflexivity|cbn; lia].
    + blocks [(0x200060, 64); (0x200010, 64)].
  - intros; apply nofree_ok.
  - apply okc_ok. vm_compute. reflexivity.
Qed.

(** * A munmap that fails halfway *)
Definition half : fans := FAns (Some (0x200100, 0x1fe00, 0x100, 0x10000, false, true, false)) None.
Definition e2 := okfst (closure_free gd half 0x200010 d1).
Definition m3 := MAns [Extend 0x10000 (KDual 1 0 0x110000 0x300000) 0x200100] (Some (0x300010, 64)).
Definition e3 := okcst (closure_alloc gd true m3 None nofree e2).
Definition e4 := okcst (closure_alloc gd true (noext 0x210010 64) None nofree e3).

Lemma e2_history : ca_history gd false e2 [].
Proof.
  apply (ch_free gd false d1 [] (Live 0x200010 64 0x100010) [] half e2 (d1_history false)).
  - split; [|exact Logic.I]. cbn [fa_trim half]. split; [|split; [lia|split; [discriminate|blocks_others]]].
    exists (Seg 0x200000 0x20000 (-0x100000)). rewrite d1_segs. split; [left; reflexivity|cbn; lia].
  - apply okf_ok. vm_compute. reflexivity.
Qed.

Lemma trim_vm top topsize pad unit sp st st' : pad < topsize -> segment_holding st top = Some sp ->
  let extra := ((topsize - pad + (unit - 1)) / unit - 1) * unit in
  let start := sg_base sp + (sg_size sp - extra) in
  extra <= sg_size sp -> extra <> 0 -> sg_exo sp <> 0 -> segment_holding st start = Some sp ->
  sys_trim top topsize pad unit false true false st = Ok st' ->
  vm st' = unmap_range (vm st) (start + sg_exo sp) extra.
Proof.
  intros Hp Hh extra start He Hz Hx Hs. unfold sys_trim. rewrite (proj2 (Z.ltb_lt _ _) Hp). cbn [negb]. fold extra. rewrite Hh.
  rewrite (proj2 (Z.leb_le _ _) He). cbn [negb andb]. unfold dlmunmap. fold start. rewrite Hs.
  assert (E : (add_exo start sp =? start) = false) by (apply Z.eqb_neq; unfold add_exo; lia). rewrite E. cbn [negb andb].
  intros H. injection H as <-. reflexivity.
Qed.

Lemma alloc_sg g m t f st p c st' : ca_sup g = false -> closure_alloc g true m t f st = Ok (Some p, c, st') ->
  extend_all (ma_ext m) (c_sg st) = Ok (c_sg st').
Proof.
  intros S. unfold closure_alloc, dlmalloc. cbn [negb]. destruct (extend_all _ _); try discriminate. cbn [bind].
  destruct (ma_blk m) as [[q n]|]; cbn [bind c_sg]; [|discriminate]. destruct (segment_holding a q); [|discriminate].
  rewrite S. cbn [negb]. intros H. injection H as _ _ <-. reflexivity.
Qed.

Lemma half_sg p st st' : closure_free gd half p st = Ok st' ->
  sys_trim 0x200100 0x1fe00 0x100 0x10000 false true false (c_sg st) = Ok (c_sg st').
Proof.
  unfold closure_free, dlfree. cbn [ca_sup gd bind]. destruct (remove_block _ _); [|discriminate]. cbn [half fa_trim fa_release].
  destruct (sys_trim _ _ _ _ _ _ _ _); try discriminate. cbn [bind]. intros H. injection H as <-. reflexivity.
Qed.

Lemma ok_inj {A} (x y : A) : Ok x = Ok y -> x = y.
Proof. congruence. Qed.

Lemma vm_d1 : vm (c_sg d1) = vm_after 0x20000 (KDual 0 0 0x100000 0x200000) (vm sgs0).
Proof.
  assert (E : closure_alloc gd true m1 None nofree cst0 = Ok (Some 0x200010, Some 0x100010, d1)) by (apply okc_ok; vm_compute; reflexivity).
  apply alloc_sg in E; [|reflexivity]. cbn [m1 ma_ext extend_all x_len x_ans x_top] in E.
  destruct (sys_alloc _ _ _ _) as [[b s]| |] eqn:A; try discriminate. cbn [bind] in E. apply sys_alloc_vm in A.
  apply ok_inj in E. rewrite <- E. exact A.
Qed.

Lemma vm_e2 : vm (c_sg e2) = unmap_range (vm (c_sg d1)) 0x110000 0x10000.
Proof.
  assert (E : closure_free gd half 0x200010 d1 = Ok e2) by (apply okf_ok; vm_compute; reflexivity).
  apply half_sg in E.
  rewrite (trim_vm 0x200100 0x1fe00 0x100 0x10000 (Seg 0x200000 0x20000 (-0x100000)) (c_sg d1) (c_sg e2)).
  - cbn [sg_base sg_size sg_exo]. generalize (vm (c_sg d1)). intros v. reflexivity.
  - lia.
  - vm_compute. reflexivity.
  - vm_compute. discriminate.
  - vm_compute. discriminate.
  - vm_compute. discriminate.
  - vm_compute. reflexivity.
  - exact E.
Qed.

Lemma e3_history : ca_history gd false e3 [Live 0x300010 64 0x110010].
Proof.
  apply (ch_alloc gd false e2 [] true m3 None nofree 0x300010 0x110010 e3 e2_history); [|exact Logic.I| | |reflexivity].
  - split.
    + split; [cbn; lia|]. split; [|intros; exact Logic.I].
      change (lawful (c_sg e2) 0x10000 (KDual 1 0 0x110000 0x300000)).
      split; [|split; [|lia]]; unfold free_range; rewrite vm_e2, vm_d1; ranges.
    + intros sg H. split; [lia|]. split; [|blocks (@nil (Z * Z))]. exists (Seg 0x300000 0x10000 (-0x1f0000)).
      split; [|cbn; lia]. assert (E : nth_error (segs (match extend_all (ma_ext m3) (c_sg e2) with Ok s => s | _ => sgs0 end)) 0 = Some (Seg 0x300000 0x10000 (-0x1f0000)))
        by (vm_compute; reflexivity). rewrite H in E. apply nth_error_In in E. exact E.
  - intros; apply nofree_ok.
  - apply okc_ok. vm_compute. reflexivity.
Qed.

Lemma e4_history : ca_history gd false e4 [Live 0x210010 64 0x110010; Live 0x300010 64 0x110010].
Proof.
  apply (ch_alloc gd false e3 _ true (noext 0x210010 64) None nofree 0x210010 0x110010 e4 e3_history); [|exact Logic.I| | |reflexivity].
  - split; [exact Logic.I|]. intros sg H. apply ext_nil in H. subst sg. split; [lia|]. split.
    + exists (Seg 0x200000 0x20000 (-0x100000)). split; [vm_compute; auto|cbn; lia].
    + blocks [(0x300010, 64)].
  - intros; apply nofree_ok.
  - apply okc_ok. vm_compute. reflexivity.
Qed.

Lemma C36_witness : exists g st l k, ca_history g false st [l; k] /\ ca_sup g = false /\
  live_apart l k /\ lv_code l = lv_code k.
Proof.
  exists gd, e4, (Live 0x210010 64 0x110010), (Live 0x300010 64 0x110010). split; [apply e4_history|].
  split; [reflexivity|]. split; [left; cbn; lia|reflexivity].
Qed.

(** * Freeing by the address of a static trampoline *)
Lemma C52_witness : exists g st l, ca_history g true st [l] /\ ca_free_code g = true /\
  (exists st', closure_free g nofree (lv_ptr l) st = Ok st') /\ closure_free g nofree (lv_code l) st = UB.
Proof.
  exists gs, t1, (Live 0x200010 64 (0x700000 + 64 * 5)). split; [apply t1_history|]. split; [reflexivity|].
  split; [eexists; apply okf_ok; vm_compute; reflexivity|]. vm_compute. reflexivity.
Qed.
