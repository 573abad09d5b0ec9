From Verif Require Import Base SegModel SegSpec SegProofs.
From Coq Require Import Lia ZifyBool.
Local Open Scope Z_scope.

Lemma C37_convert st sp a : seg_history true st -> in_segment st sp a ->
  same_byte st a (add_exo a sp) /\ segment_holding st a = Some sp /\
  segment_holding_code st (add_exo a sp) = Some sp /\ sub_exo (add_exo a sp) sp = a.
Proof.
  intros H (A & B). apply history_inv in H. split; [|split; [|split]].
  - destruct H as (_ & M & _). rewrite Forall_forall in M. exact (M _ A a B).
  - exact (holding_unique st sp a H A B).
  - exact (holding_code_unique st sp a H A B).
  - unfold sub_exo, add_exo. lia.
Qed.

Lemma C37_code_unique st sp sq a b : seg_history true st -> in_segment st sp a -> in_segment st sq b ->
  add_exo a sp = add_exo b sq -> a = b /\ sp = sq.
Proof.
  intros H (A & B) (C & D) E. apply history_inv in H.
  pose proof (holding_code_unique st sp a H A B) as U. pose proof (holding_code_unique st sq b H C D) as V.
  unfold add_exo in E. rewrite E in U. rewrite U in V. injection V as ->. split; [lia|reflexivity].
Qed.

Lemma C37_defined st len k top : seg_history true st -> 8 <= len -> lawful st len k ->
  exists b st', sys_alloc len k top st = Ok (b, st').
Proof.
  intros H Hl L. apply history_inv in H. destruct (sys_alloc_ok st len k top Hl L H) as (b & st' & A & _). eauto.
Qed.

Lemma C37_trim_defined st top topsize pad unit linked ok1 ok2 : seg_history true st ->
  top_inside st top topsize pad -> 0 < unit -> (ok1 = true -> ok2 = true) ->
  exists st', sys_trim top topsize pad unit linked ok1 ok2 st = Ok st'.
Proof.
  intros H T U O. apply history_inv in H. destruct (sys_trim_ok st top topsize pad unit linked ok1 ok2 H T U O) as (st' & A & _).
  eauto.
Qed.

Definition okst {A} (r : res (A * sgs)) : sgs := match r with Ok (_, s) => s | _ => sgs0 end.
Definition okst1 (r : res sgs) : sgs := match r with Ok s => s | _ => sgs0 end.

Definition okb (r : res (bool * sgs)) : bool := match r with Ok (b, _) => b | _ => false end.
Lemma okst_ok r : okb r = true -> r = Ok (true, okst r).
Proof. destruct r as [[[] s]| |]; cbn; congruence. Qed.
Definition okb1 (r : res sgs) : bool := match r with Ok _ => true | _ => false end.
Lemma okst1_ok r : okb1 r = true -> r = Ok (okst1 r).
Proof. destruct r; cbn; congruence. Qed.
Ltac done_ok := first [apply okst_ok | apply okst1_ok]; vm_compute; reflexivity.

(** What the steps do to the address space. *)
Lemma write_vm st a v st' : write_word st a v = Ok st' -> vm st' = vm st.
Proof. unfold write_word. destruct (vm st a); [|discriminate]. intros H. injection H as <-. reflexivity. Qed.
Lemma flags_vm st b n sp st' : set_segment_flags st b n = Ok (sp, st') -> vm st' = vm st.
Proof.
  unfold set_segment_flags. destruct (read_word st _) as [x| |]; try discriminate. cbn [bind].
  destruct (read_word st _); try discriminate. cbn [bind]. destruct (negb _); [discriminate|].
  destruct (write_word _ _ _) eqn:W; try discriminate. cbn [bind]. intros H. injection H as _ <-. eapply write_vm. exact W.
Qed.
Lemma sys_add_vm p len top st st' : sys_add p len top st = Ok st' -> vm st' = vm st.
Proof.
  unfold sys_add. destruct (segs st) as [|s0 r0].
  - destruct (set_segment_flags st p len) as [[sp s]| |] eqn:F; try discriminate. cbn [bind]. intros H. injection H as <-.
    apply flags_vm in F. exact F.
  - destruct (read_word st _); try discriminate. cbn [bind].
    destruct (match find _ (s0 :: r0) with Some _ => _ | None => _ end); [intros H; injection H as <-; reflexivity|].
    destruct (match find _ (s0 :: r0) with Some _ => _ | None => _ end); [intros H; injection H as <-; reflexivity|].
    destruct (set_segment_flags st p len) as [[sp s]| |] eqn:F; try discriminate. cbn [bind]. intros H. injection H as <-.
    apply flags_vm in F. exact F.
Qed.
Definition vm_after (len : Z) (k : kmap) (f : Z -> option bk) : Z -> option bk :=
  match k with
  | KFail => f
  | KAnon p => map_range f p len (fun i => BAnon (p + i))
  | KDual n off code data => map_range (map_range f code len (fun i => BFile n (off + i))) data len (fun i => BFile n (off + i))
  end.
Lemma sys_alloc_vm len k top st b st' : sys_alloc len k top st = Ok (b, st') -> vm st' = vm_after len k (vm st).
Proof.
  unfold sys_alloc. destruct (dlmmap len k st) as [[o s]| |] eqn:D; try discriminate. cbn [bind].
  assert (E : vm s = vm_after len k (vm st)).
  { destruct k; cbn [dlmmap] in D; try (injection D as _ <-; reflexivity).
    destruct (write_word _ _ _) eqn:W; try discriminate. cbn [bind] in D. injection D as _ <-. apply write_vm in W. exact W. }
  destruct o.
  - destruct (sys_add _ _ _ s) eqn:A; try discriminate. cbn [bind]. intros H. injection H as _ <-. apply sys_add_vm in A. congruence.
  - intros H. injection H as _ <-. exact E.
Qed.
Lemma okst_vm len k top st : okb (sys_alloc len k top st) = true ->
  vm (okst (sys_alloc len k top st)) = vm_after len k (vm st).
Proof. intros H. apply okst_ok in H. apply sys_alloc_vm in H. exact H. Qed.

(** A range of addresses where nothing is mapped, by the bounds. *)
Ltac ranges := intros ?x ?Hx; cbn [vm sgs0 vm_after]; unfold map_range, unmap_range;
  repeat match goal with |- context [if ?b then _ else _] => destruct b eqn:? end; try reflexivity; exfalso; lia.

(** A dual mapping of two granules, appended to, prepended to, and a second one elsewhere. *)
Definition w1 := okst (sys_alloc 0x20000 (KDual 0 0 0x100000 0x200000) 0 sgs0).
Definition w2 := okst (sys_alloc 0x10000 (KDual 0 0x20000 0x120000 0x220000) 0x200100 w1).
Definition w3 := okst (sys_alloc 0x10000 (KDual 0 0x30000 0xf0000 0x1f0000) 0x200100 w2).
Definition w4 := okst (sys_alloc 0x10000 (KAnon 0x300000) 0x200100 w3).
Definition w5 := okst1 (sys_trim 0x300100 0xfe00 0x100 0x1000 false true true w4).

Lemma vm_w1 : vm w1 = vm_after 0x20000 (KDual 0 0 0x100000 0x200000) (vm sgs0).
Proof. apply okst_vm. vm_compute. reflexivity. Qed.
Lemma vm_w2 : vm w2 = vm_after 0x10000 (KDual 0 0x20000 0x120000 0x220000) (vm w1).
Proof. apply okst_vm. vm_compute. reflexivity. Qed.
Lemma vm_w3 : vm w3 = vm_after 0x10000 (KDual 0 0x30000 0xf0000 0x1f0000) (vm w2).
Proof. apply okst_vm. vm_compute. reflexivity. Qed.

Lemma w1_history both : seg_history both w1.
Proof.
  eapply (sh_alloc both sgs0 0x20000 (KDual 0 0 0x100000 0x200000) 0 true); [apply sh_start|lia| |done_ok].
  split; [ranges|]. split; [ranges|lia].
Qed.
Lemma w2_history both : seg_history both w2.
Proof.
  apply (sh_alloc both w1 0x10000 (KDual 0 0x20000 0x120000 0x220000) 0x200100 true w2 (w1_history both)); [lia| |done_ok].
  split; [|split; [|lia]]; unfold free_range; rewrite vm_w1; ranges.
Qed.
Lemma w3_history both : seg_history both w3.
Proof.
  apply (sh_alloc both w2 0x10000 (KDual 0 0x30000 0xf0000 0x1f0000) 0x200100 true w3 (w2_history both)); [lia| |done_ok].
  split; [|split; [|lia]]; unfold free_range; rewrite vm_w2, vm_w1; ranges.
Qed.
Lemma w4_history both : seg_history both w4.
Proof.
  apply (sh_alloc both w3 0x10000 (KAnon 0x300000) 0x200100 true w4 (w3_history both)); [lia| |done_ok].
  cbn [lawful]; unfold free_range; rewrite vm_w3, vm_w2, vm_w1; ranges.
Qed.
Lemma w5_history both : seg_history both w5.
Proof.
  eapply (sh_trim both w4 0x300100 0xfe00 0x100 0x1000 false true true); [apply w4_history| |lia|auto|done_ok].
  exists (Seg 0x300000 0x10000 0). split; [vm_compute; auto|]. cbn. lia.
Qed.
Lemma w5_segs : segs w5 = [Seg 0x300000 0x1000 0; Seg 0x1f0000 0x40000 (-0x100000)].
Proof. vm_compute. reflexivity. Qed.

(** The munmap of the executable half succeeds, the other fails. *)
Definition h1 := okst1 (sys_trim 0x200100 0x1fe00 0x100 0x10000 false true false w1).
Lemma h1_history : seg_history false h1.
Proof.
  eapply (sh_trim false w1 0x200100 0x1fe00 0x100 0x10000 false true false); [apply w1_history| |lia|discriminate|done_ok].
  exists (Seg 0x200000 0x20000 (-0x100000)). split; [vm_compute; auto|]. cbn. lia.
Qed.

Lemma C37_witness : exists st sp a, seg_history false st /\ in_segment st sp a /\ vm st a <> None /\ vm st (add_exo a sp) = None.
Proof.
  exists h1, (Seg 0x200000 0x20000 (-0x100000)), 0x210000. split; [apply h1_history|].
  split; [split; [vm_compute; auto|cbn; lia]|]. split; [vm_compute; discriminate|vm_compute; reflexivity].
Qed.
