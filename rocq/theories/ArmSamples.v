(** Sample states for the statements about 32-bit ARM, and counterexamples. *)
From Coq Require Import ZifyBool ZifyNat.
From Verif Require Import TypeHeapExamples Base BaseFacts Types LayoutSpec NaturalTypes NaturalFacts ByteMem ArmModel ArmSpec ArmHfa ArmFp ArmPlan ArmCall ArmPrep ArmCallMem ArmClosure ArmAsmModel ArmAsmFacts ArmAsm ArmJoin ArmMain ArmCloMain ArmTramp ArmWhole ArmTrip.
Local Open Scope Z_scope.
Local Arguments Z.mul : simpl never.
Local Arguments Z.add : simpl never.
Local Arguments Z.sub : simpl never.
Local Arguments Z.pow : simpl never.
Local Arguments Z.of_nat : simpl never.

(** ** Checks by computation *)

Definition same (a b : list Z) : bool := if list_eq_dec Z.eq_dec a b then true else false.
Lemma same_iff a b : same a b = true <-> a = b.
Proof. unfold same. destruct (list_eq_dec Z.eq_dec a b); split; congruence. Qed.
Definition at_b (core : list Z) (fp : Z -> Z) (sp : Z) (mem : Z -> Z) (t : ftype) (l : loc) (d : list Z) : bool :=
  let here (m : Z -> Z) (x : Z) :=
    same (rd m x (Z.to_nat (ty_size t))) d &&
    (negb (small_int (ty_code t)) || same (rd m x 4) (le_enc 4 (word_value (ty_code t) d))) in
  match l with
  | Core i => here (area core sp mem) (4 * i)
  | Stk off => here mem (sp + off)
  | Fp i => same (rd fp (4 * i) (Z.to_nat (ty_size t))) d
  end.
Lemma at_iff core fp sp mem t l d : at_b core fp sp mem t l d = true <-> at_loc core fp sp mem t l d.
Proof.
  assert (H : forall m x, same (rd m x (Z.to_nat (ty_size t))) d && (negb (small_int (ty_code t)) || same (rd m x 4) (le_enc 4 (word_value (ty_code t) d))) = true <->
    (rd m x (Z.to_nat (ty_size t)) = d /\ (small_int (ty_code t) = true -> rd m x 4 = le_enc 4 (word_value (ty_code t) d)))).
  { intros m x. rewrite andb_true_iff, orb_true_iff, !same_iff. destruct (small_int (ty_code t)); cbn [negb]; intuition congruence. }
  unfold at_b, at_loc. destruct l; [apply H|apply same_iff|apply H].
Qed.
Fixpoint held_b (core : list Z) (fp : Z -> Z) (sp : Z) (mem : Z -> Z) (ts : list ftype) (ls : list loc) (objs : list (list Z)) : bool :=
  match ts, ls, objs with
  | [], [], [] => true
  | t :: ts', l :: ls', d :: objs' => at_b core fp sp mem t l d && held_b core fp sp mem ts' ls' objs'
  | _, _, _ => false
  end.
Lemma held_iff core fp sp mem ts : forall ls objs, held_b core fp sp mem ts ls objs = true <-> held core fp sp mem ts ls objs.
Proof.
  induction ts as [|t ts IH]; intros [|l ls] [|o objs]; cbn [held_b held]; try (split; [discriminate|contradiction]); [tauto|].
  rewrite andb_true_iff, at_iff, IH. reflexivity.
Qed.
Fixpoint seen_b (mem : Z -> Z) (ts : list ftype) (ps : list Z) (objs : list (list Z)) : bool :=
  match ts, ps, objs with
  | [], [], [] => true
  | t :: ts', p :: ps', d :: objs' => same (rd mem p (Z.to_nat (ty_size t))) d && seen_b mem ts' ps' objs'
  | _, _, _ => false
  end.
Lemma seen_iff mem ts : forall ps objs, seen_b mem ts ps objs = true <-> seen mem ts ps objs.
Proof.
  induction ts as [|t ts IH]; intros [|p ps] [|o objs]; cbn [seen_b seen]; try (split; [discriminate|contradiction]); [tauto|].
  rewrite andb_true_iff, same_iff, IH. reflexivity.
Qed.
Lemma not_true b : b = false -> b <> true.
Proof. congruence. Qed.

Definition get {A} (d : A) (r : res A) : A := match r with Ok x => x | _ => d end.
Definition is_ok {A} (r : res A) : bool := match r with Ok _ => true | _ => false end.
Lemma get_ok {A} (d : A) r : is_ok r = true -> r = Ok (get d r).
Proof. destruct r; cbn; congruence. Qed.
Definition final (e : bool -> Z) (org : Z) (n : nat) (s : st) : st := match steps e text org n s with Some s' => s' | None => s end.
Definition runs (e : bool -> Z) (org : Z) (n : nat) (s : st) : bool := match steps e text org n s with Some _ => true | None => false end.
Lemma final_reach e org n s pc : runs e org n s = true -> spc (final e org n s) = pc ->
  reach e text org s (St (sx (final e org n s)) (sf (final e org n s)) (sle (final e org n s)) pc (sm (final e org n s))).
Proof.
  unfold runs, final. intros R E. exists n. destruct (steps e text org n s) as [[x f l p m]|]; [|discriminate R]. cbn [spc] in E. subst pc. reflexivity.
Qed.

(** Memory holding some pieces, registers with some values, zero elsewhere. *)
Fixpoint put (l : list (Z * list Z)) : Z -> Z := match l with [] => fun _ => 0 | (a, d) :: r => wr (put r) a d end.
Fixpoint rg (l : list (Z * Z)) : Z -> Z := match l with [] => fun _ => 0 | (r, v) :: t => upd (rg t) r v end.
Definition byte_b (b : Z) : bool := (0 <=? b) && (b <? 256).
Lemma bytes_b d : forallb byte_b d = true -> bytes_ok d.
Proof. rewrite forallb_forall. intros H. apply Forall_forall. intros x I. specialize (H x I). unfold byte_b in H. unfold byte_ok. lia. Qed.
Lemma put_ok l : forallb (fun q => forallb byte_b (snd q)) l = true -> bmem (put l).
Proof.
  induction l as [|[a d] l IH]; cbn [forallb put snd]; intros H; [intros x; unfold byte_ok; lia|]. apply andb_prop in H as [H1 H2].
  intros x. apply wr_bytes; [apply IH, H2|apply bytes_b, H1].
Qed.
Lemma zero_ok : bmem (fun _ => 0).
Proof. intros x. unfold byte_ok. lia. Qed.
Definition objs_b (ts : list ftype) (objs : list (list Z)) : bool :=
  (length ts =? length objs)%nat && forallb (fun q => (zlen (snd q) =? ty_size (fst q)) && forallb byte_b (snd q)) (combine ts objs).
Lemma objs_ok ts : forall objs, objs_b ts objs = true -> objects_ok ts objs.
Proof.
  unfold objects_ok. induction ts as [|t ts IH]; intros [|o objs]; unfold objs_b; cbn [length Nat.eqb combine forallb fst snd]; intros H; try discriminate H; [constructor|].
  apply andb_prop in H as [H1 H2]. apply andb_prop in H2 as [H2 H3]. apply andb_prop in H2 as [H4 H5]. constructor.
  - split; [lia|apply bytes_b, H5].
  - apply IH. unfold objs_b. rewrite H1, H3. reflexivity.
Qed.
(** Objects with different bytes. *)
Fixpoint bytes_from (k : Z) (n : nat) : list Z := match n with O => [] | S n' => k mod 251 + 1 :: bytes_from (k + 1) n' end.
Fixpoint objs_of (k : Z) (ts : list ftype) : list (list Z) :=
  match ts with [] => [] | t :: r => bytes_from k (Z.to_nat (ty_size t)) :: objs_of (k + 17) r end.

(** ** Types *)

Definition ty_pair : ftype := FT T_STRUCT 8 4 [ty_float; ty_float].
Definition ty_mix : ftype := FT T_STRUCT 16 8 [ty_sint8; ty_double].
Definition ty_cdouble : ftype := FT T_COMPLEX 16 8 [ty_double].
Definition ty_cchar : ftype := FT T_COMPLEX 2 1 [ty_sint8].
Ltac num := apply ct_number; cbn; tauto.
Lemma pair_ok : ctype ty_pair.
Proof.
  apply ct_struct with (offs := [0; 4]); [discriminate|repeat (constructor; [num|]); constructor|].
  exists 8. split; [|split; [reflexivity|apply (lm 4 8 8 2); lia]].
  constructor; [apply (lm 4 0 0 0); lia|]. constructor; [apply (lm 4 4 4 1); lia|]. constructor.
Qed.
Lemma mix_ok : ctype ty_mix.
Proof.
  apply ct_struct with (offs := [0; 8]); [discriminate|repeat (constructor; [num|]); constructor|].
  exists 16. split; [|split; [reflexivity|apply (lm 8 16 16 2); lia]].
  constructor; [apply (lm 1 0 0 0); lia|]. constructor; [apply (lm 8 1 8 1); lia|]. constructor.
Qed.
Lemma cdouble_ok : ctype ty_cdouble.
Proof. apply (ct_complex ty_double). cbn. tauto. Qed.
Lemma cchar_ok : ctype ty_cchar.
Proof. apply (ct_complex ty_sint8). cbn. tauto. Qed.
Ltac ct := repeat first [apply Forall_nil | apply Forall_cons | apply pair_ok | apply mix_ok | apply cdouble_ok | apply cchar_ok | apply ct_pointer | num].

Definition s_ts : list ftype := [ty_float; ty_double; ty_float; ty_sint8; ty_pair; ty_uint64; ty_mix; ty_ptr].
Definition s_objs : list (list Z) := objs_of 200 s_ts.
Lemma s_ok : Forall ctype s_ts.
Proof. unfold s_ts. ct. Qed.
Lemma s_pair : rtype_ok ty_pair.
Proof. right. apply pair_ok. Qed.

(** Some cif. *)
Definition no_cif : acif := ACif SYSV [] ty_void 0 0 (VSt 0 0 []).
Definition cif_of (var : bool) (a : abi) (rt : ftype) (ts : list ftype) : acif := get no_cif (prep var a rt ts).
Definition s_cif : acif := cif_of false VFP ty_pair s_ts.
Definition s_soft : acif := cif_of false SYSV ty_mix s_ts.

(** ** Placement *)

Lemma s_places :
  places true ty_pair s_ts = [Fp 0; Fp 2; Fp 1; Core 0; Fp 4; Core 2; Stk 0; Stk 16] /\
  places false ty_mix s_ts = [Core 1; Core 2; Stk 0; Stk 4; Stk 8; Stk 16; Stk 24; Stk 40] /\
  places false ty_pair s_ts = [Core 1; Core 2; Stk 0; Stk 4; Stk 8; Stk 16; Stk 24; Stk 40] /\
  places false ty_void [ty_sint32; ty_mix; ty_ptr] = [Core 0; Core 2; Stk 8].
Proof. vm_compute. auto. Qed.

(** ** Sample states *)

Definition s_e (v : bool) : Z := if v then 9437184 else 10485760.
Definition s_org : Z := 8388608.
Definition s_base : Z := 1048576.
Definition s_fn : Z := 2097152.
Lemma s_text : text_ok s_org.
Proof. split; vm_compute; congruence. Qed.
(** The registers when ffi_call_int calls the assembly code. *)
Definition s_regs (c : acif) (fn : Z) : Z -> Z :=
  rg [(0, if use_vfp c then s_base else stack_at c s_base); (1, frame_at c s_base); (2, fn); (3, v_used (k_vfp c)); (4, 44); (11, 1150000); (13, s_base); (14, 3000000)].
Lemma s_call_args c fn : call_args c s_base fn (s_regs c fn).
Proof. unfold call_args, s_regs. cbn [rg]. regs. auto. Qed.

Definition call_b (c : acif) (rv : option Z) : bool :=
  (s_base + alloc_size c rv <? 2 ^ 32) && match rv with Some p => (0 <=? p) && (p <? 2 ^ 32) | None => true end.
Lemma call_b_ok c rv clo m : call_b c rv = true -> 0 <= clo < 2 ^ 32 -> bmem m -> call_ok c rv clo s_base m.
Proof.
  intros H C B. apply andb_prop in H as [H1 H2]. split; [exists 131072; reflexivity|]. split; [vm_compute; congruence|]. split; [lia|].
  split; [|auto]. intros p ->. apply andb_prop in H2. lia.
Qed.

(** The state when the function is entered. *)
Definition s_mem (c : acif) (rv : option Z) (objs : list (list Z)) : Z -> Z := get (fun _ => 0) (call c rv objs 0 s_base (fun _ => 0)).
Definition s_start (c : acif) (rv : option Z) (objs : list (list Z)) : st := St (s_regs c s_fn) (fun _ => 0) false (s_org + call_label c) (s_mem c rv objs).
Definition s_in (c : acif) (rv : option Z) (objs : list (list Z)) (n : nat) : st := final s_e s_org n (s_start c rv objs).

(** An argument that is not where the standard wants it. *)
Definition misplaced (var : bool) (a : abi) : Prop :=
  exists rt ts c rv objs closure base m m' e org X V le fn X1 V1 le1 M1,
    Forall ctype ts /\ rtype_ok rt /\ total ts < 2 ^ 31 /\ objects_ok ts objs /\ prep var a rt ts = Ok c /\ call_ok c rv closure base m /\
    call c rv objs closure base m = Ok m' /\ text_ok org /\ call_args c base fn X /\
    reach e text org (St X V le (org + call_label c) m') (St X1 V1 le1 fn M1) /\
    ~ held (words_of X1 [0; 1; 2; 3]) V1 (X1 13) M1 ts (places (hard_for var a) rt ts) objs.
Lemma misplaced_by var a rt ts c rv objs n : Forall ctype ts -> rtype_ok rt -> (total ts <? 2 ^ 31) = true -> objs_b ts objs = true -> prep var a rt ts = Ok c ->
  call_b c rv = true -> is_ok (call c rv objs 0 s_base (fun _ => 0)) = true -> runs s_e s_org n (s_start c rv objs) = true ->
  spc (s_in c rv objs n) = s_fn ->
  held_b (words_of (sx (s_in c rv objs n)) [0; 1; 2; 3]) (sf (s_in c rv objs n)) (sx (s_in c rv objs n) 13) (sm (s_in c rv objs n)) ts (places (hard_for var a) rt ts) objs = false ->
  misplaced var a.
Proof.
  intros TS RT TT OB PR CB OK RU PC HB.
  exists rt, ts, c, rv, objs, 0, s_base, (fun _ => 0), (s_mem c rv objs), s_e, s_org, (s_regs c s_fn), (fun _ => 0), false, s_fn.
  exists (sx (s_in c rv objs n)), (sf (s_in c rv objs n)), (sle (s_in c rv objs n)), (sm (s_in c rv objs n)).
  split; [exact TS|]. split; [exact RT|]. split; [lia|]. split; [apply objs_ok, OB|]. split; [exact PR|]. split; [apply call_b_ok; auto; [lia|apply zero_ok]|].
  split; [apply get_ok, OK|]. split; [apply s_text|]. split; [apply s_call_args|]. split.
  - apply final_reach; auto.
  - rewrite <- held_iff. apply not_true, HB.
Qed.

(** The size of the block does not provide for the hidden pointer. *)
Definition b_ts : list ftype := [ty_sint64; ty_sint32].
Lemma b_ok : Forall ctype b_ts.
Proof. unfold b_ts. ct. Qed.
Lemma block_too_small : exists rt ts c, Forall ctype ts /\ rtype_ok rt /\ total ts < 2 ^ 31 /\ prep false SYSV rt ts = Ok c /\
  exists t l, In (t, l) (combine ts (places false rt ts)) /\ k_bytes c < arg_end t l.
Proof.
  exists ty_cdouble, b_ts, (cif_of false SYSV ty_cdouble b_ts). split; [apply b_ok|]. split; [right; apply cdouble_ok|]. split; [vm_compute; reflexivity|].
  split; [vm_compute; reflexivity|]. exists ty_sint32, (Stk 0). split; [vm_compute; auto|vm_compute; reflexivity].
Qed.
Theorem base_misplaced : misplaced false SYSV.
Proof.
  apply (misplaced_by false SYSV ty_cdouble b_ts (cif_of false SYSV ty_cdouble b_ts) (Some 4096) (objs_of 1 b_ts) 7 b_ok (or_intror cdouble_ok)); vm_compute; reflexivity.
Qed.
(** Core registers are used after the stack. *)
Definition n_ts : list ftype := [ty_double; ty_double; ty_double; ty_double; ty_double; ty_double; ty_double; ty_double; ty_double; ty_sint32; ty_sint32; ty_sint32; ty_sint64; ty_sint32].
Definition n_objs : list (list Z) := objs_of 1 n_ts.
Lemma n_ok : Forall ctype n_ts.
Proof. unfold n_ts. ct. Qed.
Definition n_cif : acif := cif_of false VFP ty_void n_ts.
Theorem vfp_misplaced : misplaced false VFP.
Proof.
  apply (misplaced_by false VFP ty_void n_ts n_cif None n_objs 11 n_ok (or_introl eq_refl)); vm_compute; reflexivity.
Qed.

(** ** Closures *)

Definition s_clo : Z := 4096.
Definition s_sp : Z := 524288.
Definition s_fields : list Z := le_enc 4 20000 ++ le_enc 4 30000 ++ le_enc 4 40000.
Definition obj (objs : list (list Z)) (n : nat) : list Z := nth n objs [].
Definition wordof (objs : list (list Z)) (n : nat) : Z := le_dec (obj objs n).
(** The standard's state for [n_ts]. *)
Definition n_regs : Z -> Z := rg [(0, wordof n_objs 9); (1, wordof n_objs 10); (2, wordof n_objs 11); (3, 0); (12, s_clo); (13, s_sp); (14, 3000000)].
Definition n_vregs : Z -> Z := put [(0, concat (firstn 8 n_objs))].
Definition n_mem : Z -> Z := put [(s_clo + 12, s_fields); (s_sp, obj n_objs 8); (s_sp + 8, obj n_objs 12); (s_sp + 16, obj n_objs 13)].
Definition n_in : st := final s_e s_org 10 (St n_regs n_vregs false (s_org + closure_entry n_cif false) n_mem).
Definition n_got : (Z -> Z) * Z * list Z := get (fun _ => 0, 0, []) (inner n_cif (sx n_in 3) (sm n_in)).
Lemma s_stack c : (s_sp + k_bytes c <? 2 ^ 32) = true -> stack_ok c s_sp.
Proof. intros H. split; [exists 65536; reflexivity|]. split; [vm_compute; congruence|lia]. Qed.
Lemma s_clear n : 0 <= n <= 4096 -> clear s_sp s_clo n.
Proof. intros N. split; [exists 1024; reflexivity|]. unfold s_sp, s_clo. lia. Qed.
Lemma closure_sees_wrong : exists rt ts c objs e org clo X V le M X1 V1 le1 M1 m2 rvalue ps,
  Forall ctype ts /\ rtype_ok rt /\ total ts < 2 ^ 31 /\ prep false VFP rt ts = Ok c /\ text_ok org /\ stack_ok c (X 13) /\ clear (X 13) clo 24 /\ bmem M /\ bytes_reg V /\ word (X 0) /\
  X 12 = clo /\ rd M (clo + 12) 12 = le_enc 4 20000 ++ le_enc 4 30000 ++ le_enc 4 40000 /\
  held (words_of X [0; 1; 2; 3]) V (X 13) M ts (places true rt ts) objs /\
  reach e text org (St X V le (org + closure_entry c false) M) (St X1 V1 le1 (e (use_vfp c)) M1) /\
  inner c (X1 3) M1 = Ok (m2, rvalue, ps) /\ ~ seen m2 ts ps objs.
Proof.
  exists ty_void, n_ts, n_cif, n_objs, s_e, s_org, s_clo, n_regs, n_vregs, false, n_mem, (sx n_in), (sf n_in), (sle n_in), (sm n_in), (fst (fst n_got)), (snd (fst n_got)), (snd n_got).
  split; [apply n_ok|]. split; [left; reflexivity|]. split; [vm_compute; reflexivity|]. split; [vm_compute; reflexivity|]. split; [apply s_text|].
  split; [apply s_stack; vm_compute; reflexivity|]. split; [apply s_clear; lia|]. split; [apply put_ok; vm_compute; reflexivity|]. split; [apply put_ok; vm_compute; reflexivity|].
  split; [vm_compute; split; congruence|]. split; [reflexivity|]. split; [vm_compute; reflexivity|].
  split; [apply held_iff; vm_compute; reflexivity|]. split.
  - apply final_reach; vm_compute; reflexivity.
  - split.
    + assert (G : is_ok (inner n_cif (sx n_in 3) (sm n_in)) = true) by (vm_compute; reflexivity).
      apply (get_ok (fun _ => 0, 0, [])) in G. rewrite G. fold n_got. destruct n_got as [[? ?] ?]. reflexivity.
    + rewrite <- seen_iff. apply not_true. vm_compute. reflexivity.
Qed.

(** ** Calls and returns *)

(** A call under the base standard: [X] at the call of ffi_call_SYSV, [X1] when the function is entered, [X2]
    and [M2] when it returns, [X3] and [M3] when ffi_call_SYSV returns. *)
Definition whole_call (rt : ftype) (ts : list ftype) (c : acif) (rv : option Z) (base : Z) (X X1 X2 M2 X3 M3 : Z -> Z) : Prop :=
  exists objs m m' e org V le fn V1 le1 M1 V2 le2 V3 le3,
    Forall ctype ts /\ ctype rt /\ total ts < 2 ^ 31 /\ objects_ok ts objs /\ prep false SYSV rt ts = Ok c /\
    call_ok c rv 0 base m /\ result_ok c rv base /\ call c rv objs 0 base m = Ok m' /\ text_ok org /\ call_args c base fn X /\
    reach e text org (St X V le (org + call_label c) m') (St X1 V1 le1 fn M1) /\
    bmem M2 /\ (forall r, 4 <= r < 12 -> X2 r = X1 r) /\ X2 13 = X1 13 /\
    (forall x, frame_at c base <= x < frame_at c base + 20 -> M2 x = M1 x) /\
    reach e text org (St X2 V2 le2 (X1 14) M2) (St X3 V3 le3 (X 14) M3).

Lemma s_in_bytes c rv ts objs n : objects_ok ts objs -> is_ok (call c rv objs 0 s_base (fun _ => 0)) = true ->
  runs s_e s_org n (s_start c rv objs) = true -> bmem (sm (s_in c rv objs n)).
Proof.
  intros OB OK RU. apply (get_ok (fun _ => 0)) in OK.
  pose proof (final_reach s_e s_org n (s_start c rv objs) _ RU eq_refl) as R. apply reach_bytes in R; [apply R| |].
  - cbn [s_start sm]. exact (call_bytes _ _ _ _ _ _ _ zero_ok (objects_bytes _ _ OB) OK).
  - exact zero_ok.
Qed.

Definition s_ret (c : acif) (rv : option Z) (objs : list (list Z)) (v : Z) : st :=
  let s := s_in c rv objs 7 in St (upd (sx s) 0 v) (sf s) (sle s) (sx s 14) (sm s).
Lemma whole_by rt ts c rv objs n v : Forall ctype ts -> ctype rt -> (total ts <? 2 ^ 31) = true -> objs_b ts objs = true -> prep false SYSV rt ts = Ok c ->
  call_b c rv = true -> result_ok c rv s_base -> is_ok (call c rv objs 0 s_base (fun _ => 0)) = true -> runs s_e s_org 7 (s_start c rv objs) = true ->
  spc (s_in c rv objs 7) = s_fn ->
  runs s_e s_org n (s_ret c rv objs v) = true -> spc (final s_e s_org n (s_ret c rv objs v)) = 3000000 ->
  whole_call rt ts c rv s_base (s_regs c s_fn) (sx (s_in c rv objs 7)) (sx (s_ret c rv objs v)) (sm (s_ret c rv objs v))
    (sx (final s_e s_org n (s_ret c rv objs v))) (sm (final s_e s_org n (s_ret c rv objs v))).
Proof.
  intros TS RT TT OB PR CB RO OK RU PC RU2 PC2. apply objs_ok in OB.
  exists objs, (fun _ => 0), (s_mem c rv objs), s_e, s_org, (fun _ => 0), false, s_fn, (sf (s_in c rv objs 7)), (sle (s_in c rv objs 7)), (sm (s_in c rv objs 7)).
  exists (sf (s_in c rv objs 7)), (sle (s_in c rv objs 7)), (sf (final s_e s_org n (s_ret c rv objs v))), (sle (final s_e s_org n (s_ret c rv objs v))).
  split; [exact TS|]. split; [exact RT|]. split; [lia|]. split; [exact OB|]. split; [exact PR|]. split; [apply call_b_ok; auto; [lia|apply zero_ok]|].
  split; [exact RO|]. split; [apply get_ok, OK|]. split; [apply s_text|]. split; [apply s_call_args|]. split; [apply final_reach; auto|].
  split; [apply (s_in_bytes c rv ts objs 7); auto|]. split; [intros r L; unfold s_ret; cbn [sx]; rewrite upd_other by lia; reflexivity|].
  split; [unfold s_ret; cbn [sx]; rewrite upd_other by lia; reflexivity|]. split; [reflexivity|].
  pose proof (final_reach s_e s_org n (s_ret c rv objs v) 3000000 RU2 PC2) as R. unfold s_ret at 1 in R. cbv zeta in R. unfold s_ret at 1. cbn [sx]. unfold s_ret at 1. cbn [sm].
  unfold s_regs at 1. cbn [rg]. regs. exact R.
Qed.

Lemma s_result c p : (p + 32 <=? s_base) = true -> (4 | p) -> result_ok c (Some p) s_base.
Proof. intros L D q E. injection E as <-. split; [exact D|]. unfold s_base in *. lia. Qed.

(** A complex number of two bytes. *)
Definition c_cif : acif := cif_of false SYSV ty_cchar [].
Lemma complex_char_spills : exists rt ts c p base X X1 X2 M2 X3 M3 x, whole_call rt ts c (Some p) base X X1 X2 M2 X3 M3 /\ in_memory false rt = false /\
  ~ (p <= x < p + result_room rt) /\ (x < base \/ base + alloc_size c (Some p) <= x) /\ copy_back c (Some p) base M3 x <> M2 x.
Proof.
  eexists ty_cchar, [], c_cif, 4096, s_base, _, _, _, _, _, _, 4098. split.
  - apply (whole_by ty_cchar [] c_cif (Some 4096) [] 6 1144201745); [constructor|apply cchar_ok|vm_compute; reflexivity|vm_compute; reflexivity|vm_compute; reflexivity|vm_compute; reflexivity| |vm_compute; reflexivity..].
    apply s_result; [reflexivity|exists 1024; reflexivity].
  - split; [reflexivity|]. split; [unfold result_room; cbn; lia|]. split; [left; unfold s_base; lia|]. vm_compute. congruence.
Qed.
(** The stack pointer. *)
Lemma sp_not_kept : exists rt ts c rv base X X1 X2 M2 X3 M3, whole_call rt ts c rv base X X1 X2 M2 X3 M3 /\ X 13 = base /\ X3 13 <> X 13.
Proof.
  eexists ty_sint32, [], (cif_of false SYSV ty_sint32 []), (Some 4096), s_base, _, _, _, _, _, _. split.
  - apply (whole_by ty_sint32 [] (cif_of false SYSV ty_sint32 []) (Some 4096) [] 6 5); [constructor|num|vm_compute; reflexivity|vm_compute; reflexivity|vm_compute; reflexivity|vm_compute; reflexivity| |vm_compute; reflexivity..].
    apply s_result; [reflexivity|exists 1024; reflexivity].
  - split; [reflexivity|]. vm_compute. congruence.
Qed.
(** The memory for a result that is not wanted. *)
Lemma null_result_unaligned : exists rt ts c base X X1 X2 M2 X3 M3, whole_call rt ts c None base X X1 X2 M2 X3 M3 /\ in_memory false rt = true /\ X1 0 mod ty_align rt <> 0.
Proof.
  eexists ty_mix, [], (cif_of false SYSV ty_mix []), s_base, _, _, _, _, _, _. split.
  - apply (whole_by ty_mix [] (cif_of false SYSV ty_mix []) None [] 5 5); [constructor|apply mix_ok|vm_compute; reflexivity|vm_compute; reflexivity|vm_compute; reflexivity|vm_compute; reflexivity| |vm_compute; reflexivity..].
    intros p E. discriminate E.
  - split; [reflexivity|]. vm_compute. congruence.
Qed.

(** ** Hypotheses met *)

Lemma s_total : total s_ts < 2 ^ 31.
Proof. vm_compute. reflexivity. Qed.
Lemma s_objects : objects_ok s_ts s_objs.
Proof. apply objs_ok. vm_compute. reflexivity. Qed.
Lemma s_types : ctype ty_pair /\ hfa ty_pair T_FLOAT 2 /\ vfp_type ty_pair = Ok 514 /\ ctype ty_mix /\ vfp_type ty_mix = Ok 0 /\ ctype ty_cdouble /\ hfa ty_cdouble T_DOUBLE 2.
Proof. split; [apply pair_ok|]. split; [repeat split; auto; lia|]. split; [reflexivity|]. split; [apply mix_ok|]. split; [reflexivity|]. split; [apply cdouble_ok|]. repeat split; auto; lia. Qed.
Lemma s_alloc : Forall ctype s_ts /\ rtype_ok ty_pair /\ total s_ts < 2 ^ 31 /\ prep false VFP ty_pair s_ts = Ok s_cif /\ v_args (k_vfp s_cif) = [0; 2; 1; 4] /\
  places true ty_pair s_ts = [Fp 0; Fp 2; Fp 1; Core 0; Fp 4; Core 2; Stk 0; Stk 16].
Proof. split; [apply s_ok|]. split; [apply s_pair|]. split; [apply s_total|]. split; [vm_compute; reflexivity|]. split; vm_compute; reflexivity. Qed.
Lemma s_block : Forall ctype s_ts /\ rtype_ok ty_pair /\ rtype_ok ty_mix /\ total s_ts < 2 ^ 31 /\ tidy_call (hard_for false VFP) ty_pair s_ts /\ bad_result (hard_for false VFP) ty_pair = false /\
  tidy_call (hard_for false SYSV) ty_mix s_ts /\ bad_result (hard_for false SYSV) ty_mix = false /\
  prep false VFP ty_pair s_ts = Ok s_cif /\ prep false SYSV ty_mix s_ts = Ok s_soft /\
  places false ty_mix s_ts = [Core 1; Core 2; Stk 0; Stk 4; Stk 8; Stk 16; Stk 24; Stk 40] /\ k_bytes s_soft = 64.
Proof.
  split; [apply s_ok|]. split; [apply s_pair|]. split; [right; apply mix_ok|]. split; [apply s_total|]. split; [intros _; vm_compute; reflexivity|]. split; [reflexivity|].
  split; [intros H; discriminate H|]. split; [reflexivity|]. repeat split; vm_compute; reflexivity.
Qed.
Lemma s_calls : objects_ok s_ts s_objs /\ call_ok s_soft (Some 4096) 77 s_base (fun _ => 0) /\ call_ok s_cif None 77 s_base (fun _ => 0) /\ text_ok s_org /\
  call_args s_soft s_base s_fn (s_regs s_soft s_fn) /\ call_args s_cif s_base s_fn (s_regs s_cif s_fn) /\ use_vfp s_cif = true.
Proof.
  split; [apply s_objects|]. split; [apply call_b_ok; [vm_compute; reflexivity|lia|apply zero_ok]|]. split; [apply call_b_ok; [vm_compute; reflexivity|lia|apply zero_ok]|].
  split; [apply s_text|]. split; [apply s_call_args|]. split; [apply s_call_args|vm_compute; reflexivity].
Qed.

(** The standard's state for [s_ts] with floating point registers. *)
Definition v_regs : Z -> Z :=
  rg [(0, word_value T_SINT8 (obj s_objs 3)); (2, le_dec (firstn 4 (obj s_objs 5))); (3, le_dec (skipn 4 (obj s_objs 5))); (12, s_clo); (13, s_sp); (14, 3000000)].
Definition v_vregs : Z -> Z := put [(0, obj s_objs 0); (8, obj s_objs 1); (4, obj s_objs 2); (16, obj s_objs 4)].
Definition v_mem : Z -> Z := put [(s_clo + 12, s_fields); (s_sp, obj s_objs 6); (s_sp + 16, obj s_objs 7)].
Lemma s_closure : stack_ok s_cif (v_regs 13) /\ clear (v_regs 13) s_clo 24 /\ bmem v_mem /\ bytes_reg v_vregs /\ word (v_regs 0) /\ word (v_regs 14) /\
  v_regs 12 = s_clo /\ rd v_mem (s_clo + 12) 12 = le_enc 4 20000 ++ le_enc 4 30000 ++ le_enc 4 40000 /\
  held (words_of v_regs [0; 1; 2; 3]) v_vregs (v_regs 13) v_mem s_ts (places true ty_pair s_ts) s_objs.
Proof.
  split; [apply s_stack; vm_compute; reflexivity|]. split; [apply s_clear; lia|]. split; [apply put_ok; vm_compute; reflexivity|]. split; [apply put_ok; vm_compute; reflexivity|].
  split; [vm_compute; split; congruence|]. split; [vm_compute; split; congruence|]. split; [reflexivity|]. split; [vm_compute; reflexivity|]. apply held_iff. vm_compute. reflexivity.
Qed.

(** Closures in memory. *)
Definition d_mem : Z -> Z := prep_dynamic s_cif s_org s_clo 20000 30000 40000 (fun _ => 0).
Definition t_mem : Z -> Z := prep_static s_cif s_org s_clo (65536 + 4096) 20000 30000 40000 (fun _ => 0).
Definition g_mem : Z -> Z := prep_go s_cif s_org s_clo 20000 30000 (fun _ => 0).
Lemma prep_bytes : bmem d_mem /\ bmem t_mem /\ bmem g_mem.
Proof.
  assert (W : forall m a d, bmem m -> bytes_ok d -> bmem (wr m a d)) by (intros m a d B D x; apply wr_bytes; auto).
  unfold d_mem, t_mem, g_mem, prep_dynamic, prep_static, prep_go.
  repeat split; repeat (apply W); try apply zero_ok; repeat (apply Forall_app; split); apply enc_bytes.
Qed.
Lemma s_apart c rv p n : (p mod 4 =? 0) = true -> (0 <=? p) = true -> (p + n <=? s_base - 120) = true -> apart c rv s_base p n.
Proof. intros A B C. split; [apply Z.mod_divide; lia|]. unfold s_base in *. lia. Qed.
Lemma s_trips : 120 <= s_base /\ result_ok s_cif (Some 8192) s_base /\ word 20000 /\ word 30000 /\ word 40000 /\
  call_ok s_cif (Some 8192) 0 s_base d_mem /\ call_ok s_cif (Some 8192) 0 s_base t_mem /\ call_ok s_cif (Some 8192) s_clo s_base g_mem /\
  apart s_cif (Some 8192) s_base s_clo 24 /\ apart s_cif (Some 8192) s_base (65536 + 4096) 8 /\
  call_args s_cif s_base s_clo (s_regs s_cif s_clo) /\ call_args s_cif s_base 65536 (s_regs s_cif 65536) /\ word (s_regs s_cif s_clo 11) /\ word (s_regs s_cif s_clo 14).
Proof.
  destruct prep_bytes as (D1 & D2 & D3).
  split; [vm_compute; congruence|]. split; [apply s_result; [reflexivity|exists 2048; reflexivity]|]. split; [unfold word; lia|]. split; [unfold word; lia|]. split; [unfold word; lia|].
  split; [apply call_b_ok; [vm_compute; reflexivity|lia|exact D1]|]. split; [apply call_b_ok; [vm_compute; reflexivity|lia|exact D2]|].
  split; [apply call_b_ok; [vm_compute; reflexivity|unfold s_clo; lia|exact D3]|].
  split; [apply s_apart; reflexivity|]. split; [apply s_apart; reflexivity|]. split; [apply s_call_args|]. split; [apply s_call_args|]. split; (vm_compute; split; congruence).
Qed.
Lemma s_result_hyps : result_ok s_cif (Some 8192) s_base /\ call_ok s_cif (Some 8192) 0 s_base d_mem /\ word (s_regs s_cif s_clo 11) /\ word (s_regs s_cif s_clo 14) /\
  in_memory true ty_pair = false /\ ty_code ty_pair <> T_COMPLEX.
Proof.
  destruct s_trips as (_ & H1 & _ & _ & _ & H2 & _ & _ & _ & _ & _ & _ & H3 & H4). split; [exact H1|]. split; [exact H2|]. split; [exact H3|]. split; [exact H4|]. split; [reflexivity|discriminate].
Qed.
Lemma s_ways : bmem d_mem /\ bmem t_mem /\ bmem g_mem /\ bytes_reg v_vregs /\ stack_ok s_cif (v_regs 13) /\ v_regs 12 = s_clo /\
  clear (v_regs 13) s_clo 24 /\ clear (v_regs 13) s_clo 12 /\ clear (v_regs 13) (65536 + 4096) 8 /\ le_dec (rd g_mem s_clo 4) = s_org + 192.
Proof.
  destruct prep_bytes as (D1 & D2 & D3). split; [exact D1|]. split; [exact D2|]. split; [exact D3|]. split; [apply put_ok; vm_compute; reflexivity|].
  split; [apply s_stack; vm_compute; reflexivity|]. split; [reflexivity|]. split; [apply s_clear; lia|]. split; [apply s_clear; lia|]. split.
  - split; [exists 17408; reflexivity|]. vm_compute. intuition congruence.
  - vm_compute. reflexivity.
Qed.
