(** The or1k backend as a whole: a call from ffi_call to the return, trampolines, round trips. *)
From Coq Require Import ZifyBool ZifyNat.
From Verif Require Import Base BaseFacts Types ByteMem S390Model S390Facts Or1kModel Or1kSpec Or1kFacts Or1kCall Or1kAsmModel Or1kAsmRun Or1kClo.
Local Open Scope Z_scope.
Local Arguments Z.mul : simpl never.
Local Arguments Z.add : simpl never.
Local Arguments Z.sub : simpl never.
Local Arguments Z.pow : simpl never.
Local Arguments Z.div : simpl never.
Local Arguments Z.modulo : simpl never.
Local Arguments Z.of_nat : simpl never.
Local Arguments be_enc : simpl never.
Local Arguments be_dec : simpl never.
Local Arguments rd : simpl never.

(** ** Copies of structs *)

(** No copy of a struct meets the [n] bytes at [p]. *)
Fixpoint clear_of (p n : Z) (ts : list ftype) (cps : list Z) : Prop :=
  match ts, cps with
  | t :: ts', q :: cps' => (aggregate t = true -> p + n <= q \/ q + ty_size t <= p) /\ clear_of p n ts' cps'
  | _, _ => True
  end.
(** The memory from alloca: between [lo] and [hi], for each struct another one. *)
Fixpoint copies_ok (lo hi : Z) (ts : list ftype) (cps : list Z) : Prop :=
  match ts, cps with
  | [], [] => True
  | t :: ts', q :: cps' => (aggregate t = true -> lo <= q /\ q + ty_size t <= hi /\ clear_of q (ty_size t) ts' cps') /\ copies_ok lo hi ts' cps'
  | _, _ => False
  end.

Lemma copy_frame ts : forall args cps m x, Forall otype ts -> length args = length ts -> length cps = length ts -> clear_of x 1 ts cps -> fst (copy_structs ts args cps m) x = m x.
Proof.
  induction ts as [|t ts IH]; intros [|a args] [|q cps] m x OT L1 L2 C; try discriminate; [reflexivity|]. inversion OT as [|? ? O OT']; subst.
  cbn [copy_structs clear_of] in *. destruct C as (C1 & C2).
  specialize (IH args cps (if is_struct t then wr m q (rd m a (Z.to_nat (ty_size t))) else m) x OT' ltac:(cbn in L1; lia) ltac:(cbn in L2; lia) C2).
  destruct (copy_structs ts args cps _) as [m2 l]. cbn [fst] in *. rewrite IH. rewrite is_struct_eq. destruct (aggregate t) eqn:Ag; [|reflexivity].
  apply wr_out. rewrite rd_zlen. specialize (C1 eq_refl). unfold otype, aggregate in *. destruct (ty_code t); try discriminate Ag. lia.
Qed.
Lemma clear_byte p n ts : forall cps x, clear_of p n ts cps -> p <= x < p + n -> clear_of x 1 ts cps.
Proof.
  induction ts as [|t ts IH]; intros [|q cps] x C H; cbn [clear_of] in *; auto. destruct C as (C1 & C2). split; [|eapply IH; eauto]. intros Ag. specialize (C1 Ag). lia.
Qed.
Lemma clear_outside lo hi ts : forall cps x, copies_ok lo hi ts cps -> ~ (lo <= x < hi) -> clear_of x 1 ts cps.
Proof.
  induction ts as [|t ts IH]; intros [|q cps] x C H; cbn [clear_of copies_ok] in *; auto. destruct C as (C1 & C2). split; [|eapply IH; eauto]. intros Ag. specialize (C1 Ag). lia.
Qed.
Lemma copies_length lo hi ts : forall cps, copies_ok lo hi ts cps -> length cps = length ts.
Proof. induction ts as [|t ts IH]; intros [|q cps] C; cbn [copies_ok] in *; try contradiction; [reflexivity|]. cbn [length]. f_equal. apply IH, C. Qed.
Lemma objects_facts M lo hi ts : forall args vs, objects M lo hi ts args vs -> Forall otype ts /\ Forall2 is_value ts vs /\ length args = length ts.
Proof.
  induction ts as [|t ts IH]; intros [|a args] [|v vs] H; cbn [objects] in H; try contradiction; [auto|].
  destruct H as (O & V & _ & _ & _ & H). destruct (IH _ _ H) as (I1 & I2 & I3). split; [|split]; [constructor; auto|constructor; auto|cbn [length]; lia].
Qed.
Lemma is_value_size t v : otype t -> is_value t v -> length v = Z.to_nat (ty_size t) /\ 0 < ty_size t.
Proof. intros O (L & _). unfold zlen in L. unfold otype in O. destruct (ty_code t); try contradiction; lia. Qed.

(** The objects avalue points to after copying. *)
Lemma copied bot sp top ts : forall args vs cps m, bot <= sp -> sp <= top -> top <= 2 ^ 32 -> 0 <= bot ->
  objects m bot top ts args vs -> copies_ok sp top ts cps ->
  let (m1, av) := copy_structs ts args cps m in
  objects m1 bot sp ts av vs /\ (forall x, ~ (sp <= x < top) -> m1 x = m x) /\ (bytes_in m -> bytes_in m1).
Proof.
  induction ts as [|t ts IH]; intros [|a args] [|v vs] [|q cps] m Hb Hs Ht H0 OB C; cbn [objects copies_ok] in *; try contradiction.
  { cbn [copy_structs objects]. auto. }
  destruct OB as (O & V & R & A & D & OB). destruct C as (C1 & C2). cbn [copy_structs]. rewrite is_struct_eq. rewrite bytes_at_rd in R.
  destruct (is_value_size t v O V) as (Lv & Ps).
  pose proof (copies_length _ _ _ _ C2) as CL. destruct (objects_facts _ _ _ _ _ _ OB) as (OT & _ & AL).
  destruct (aggregate t) eqn:Ag.
  - specialize (C1 eq_refl). destruct C1 as (C1 & C3 & C4).
    set (m1 := wr m q (rd m a (Z.to_nat (ty_size t)))).
    assert (Z1 : zlen (rd m a (Z.to_nat (ty_size t))) = ty_size t) by (rewrite rd_zlen; lia).
    specialize (IH args vs cps m1 Hb Hs Ht H0).
    pose proof (copy_frame ts args cps m1) as FR.
    destruct (copy_structs ts args cps m1) as [m2 l]. cbn [fst] in FR.
    destruct IH as (I1 & I2 & I3); [eapply objects_ext; [|exact OB]; intros x Hx; unfold m1; apply wr_out; lia|exact C2|].
    split; [|split].
    + cbn [objects]. split; [exact O|]. split; [exact V|]. split; [|split; [lia|split; [right; lia|exact I1]]].
      rewrite bytes_at_rd. rewrite (rd_ext m1). { unfold m1. rewrite R. apply rd_wr_same. lia. }
      intros x Hx. apply FR; auto. eapply clear_byte; [exact C4|lia].
    + intros x Hx. rewrite I2 by exact Hx. unfold m1. apply wr_out. lia.
    + intros B. apply I3. unfold m1. apply wr_bytes; [exact B|apply rd_ok, B].
  - specialize (IH args vs cps m Hb Hs Ht H0 OB C2). pose proof (copy_frame ts args cps m) as FR.
    destruct (copy_structs ts args cps m) as [m2 l]. cbn [fst] in FR. destruct IH as (I1 & I2 & I3).
    split; [|split; [exact I2|exact I3]]. cbn [objects]. split; [exact O|]. split; [exact V|]. split; [|split; [exact A|split; [lia|exact I1]]].
    rewrite bytes_at_rd. rewrite <- R. apply rd_ext. intros x Hx. apply I2. lia.
Qed.

(** ** A call *)

(** A call: memory from [bot] to [sp] is free stack, copies are between [sp] and [top]; the
    objects of the caller are elsewhere. *)
Definition setup (rt : ftype) (ts : list ftype) (fixed rv : Z) (args : list Z) (vs : list (list Z)) (cps : list Z) (m : Z -> Z) (bot sp top : Z) : Prop :=
  rtype_ok rt /\ 0 <= fixed <= zlen ts /\ 0 <= rv < 2 ^ 32 /\ objects m bot top ts args vs /\ copies_ok sp top ts cps /\ bytes_in m /\
  0 <= bot /\ bot + 24 + call_size (machdep_var rt fixed ts) <= sp /\ sp <= top /\ sp < 2 ^ 32 /\ top <= 2 ^ 32.
(** Registers at the entry of ffi_call_SYSV; [prep] and [fn] are the addresses of ffi_prep_args
    and of the function. *)
Definition entry (size flags prep fn rv sp : Z) (X : Z -> Z) : Prop :=
  words_in X /\ X 1 = sp /\ X 3 = size /\ X 5 = prep /\ X 6 = rv /\ X 7 = fn /\ X 8 = flags /\ prep + 4 < 2 ^ 32 /\ fn + 4 < 2 ^ 32 /\ X 9 + 4 < 2 ^ 32.
(** A place for the text of ffi_call_SYSV. *)
Definition text_at (org : Z) : Prop := 0 <= org /\ org + 256 <= 2 ^ 32.
(** ffi_prep_args as compiled code: the memory of the model except below its stack pointer, the
    result in %r11, registers preserved as the ABI wants. *)
Definition prep_done (c : ocif) (rv : Z) (av : list Z) (bot : Z) (X1 M1 X2 M2 : Z -> Z) : Prop :=
  let (m, p) := prep_args c rv av (X1 3) M1 in
  (forall x, ~ (bot <= x < X1 3) -> M2 x = m x) /\ X2 11 = p /\ (forall r, saved r -> X2 r = X1 r) /\ bytes_in M2.

Lemma size_nonneg rt fixed ts : Forall otype ts -> 0 <= call_size (machdep_var rt fixed ts).
Proof.
  intros OT. unfold call_size. cbn [machdep_var machdep oc_args oc_rt oc_fixed].
  assert (H : 0 <= fold_right (fun t z => arg_room t + z) 0 ts).
  { clear OT. induction ts as [|t ts IH]; cbn [fold_right]; [lia|]. assert (0 <= arg_room t) by (unfold arg_room; destruct (is_struct t); [lia|]; destruct (_ <=? _); lia). lia. }
  destruct (_ =? _), (is_struct rt); lia.
Qed.

Lemma extent_fits rt fixed ts : Forall otype ts -> 0 <= fixed ->
  extent (hidden rt) 0 fixed ts <= call_size (machdep_var rt fixed ts) + 4 /\
  (gap (hidden rt) fixed ts = false \/ fixed <> zlen ts -> extent (hidden rt) 0 fixed ts <= call_size (machdep_var rt fixed ts)).
Proof.
  intros OT F. assert (H : 0 <= hidden rt <= 6) by (unfold hidden; destruct (aggregate rt); lia).
  pose proof (extent_size ts (hidden rt) 0 fixed OT H ltac:(lia) ltac:(lia)) as E1. pose proof (extent_room ts (hidden rt) 0 fixed OT H ltac:(lia) ltac:(lia)) as E2.
  cbv zeta in *. unfold call_size. cbn [machdep_var machdep oc_args oc_rt oc_fixed]. rewrite is_struct_eq.
  assert (H4 : (if aggregate rt then 4 else 0) = 4 * hidden rt) by (unfold hidden; destruct (aggregate rt); lia). rewrite H4.
  rewrite Z.eqb_sym in E1, E2. destruct (zlen ts =? fixed) eqn:E; (split; [lia|]; intros G; specialize (E2 G); lia).
Qed.

Lemma laid_ext M M' stack e ts : forall ls args vs, (forall x, stack <= x -> M' x = M x) -> laid M stack e ls ts args vs -> laid M' stack e ls ts args vs.
Proof.
  induction ts as [|t ts IH]; intros [|l ls] [|a args] [|v vs] E L; cbn [laid] in *; try contradiction; auto.
  destruct L as (P1 & P2 & P3). split; [|split; [exact P2|apply IH; auto]].
  rewrite <- P1. apply rd_ext. intros x Hx. apply E. destruct l; cbn [spot] in Hx; lia.
Qed.

(** Everything up to the return from the function. *)
Lemma call_works rt ts fixed rv args vs cps m bot sp top m1 av size flags prep fn X org f :
  setup rt ts fixed rv args vs cps m bot sp top -> text_at org ->
  call_prepare (machdep_var rt fixed ts) args cps m = (m1, av, size, flags) -> entry size flags prep fn rv sp X ->
  exists X1 M1,
    reach org (St X org (org + 4) f m1) (St X1 prep (prep + 4) f M1) /\ X1 4 = X 4 /\
    forall X2 M2 f2, prep_done (machdep_var rt fixed ts) rv av bot X1 M1 X2 M2 ->
    exists X3,
      reach org (St X2 (X1 9) (X1 9 + 4) f2 M2) (St X3 fn (fn + 4) f2 M2) /\
      passed rt fixed ts vs X3 M2 /\ (hidden rt = 1 -> X3 3 = rv) /\ sp - 24 - size <= X3 1 /\
      (forall x, ~ (bot <= x < sp) -> M2 x = m1 x) /\ X3 14 = sp /\ X3 16 = fn /\ X3 18 = rv /\ X3 20 = flags /\ X3 9 = org + 96 /\
      (forall r, saved r -> r <> 1 -> r <> 14 -> r <> 16 -> r <> 18 -> r <> 20 -> X3 r = X r) /\ bytes_in M2 /\
      (forall x, ~ (bot <= x < sp - 24 - size + extent (hidden rt) 0 fixed ts) -> M2 x = M1 x) /\ saves X M1 sp /\
      objects M2 bot sp ts av vs /\ refs_outside X3 M2 bot sp (places (hidden rt) 0 fixed ts) ts.
Proof.
  intros (RT & F & RV & OB & CO & B & B0 & Hsz & Hst & Hs32 & Ht) (Ho & Ho2) CP (W & X1e & X3e & X5e & X6e & X7e & X8e & Hp & Hf & H9).
  destruct (objects_facts _ _ _ _ _ _ OB) as (OT & FV & AL).
  pose proof (size_nonneg rt fixed ts OT) as SN. destruct (extent_fits rt fixed ts OT ltac:(lia)) as (EF & _).
  unfold call_prepare in CP.
  pose proof (copied bot sp top ts args vs cps m ltac:(lia) Hst Ht B0 OB CO) as CQ.
  cbn [machdep_var machdep oc_args oc_flags] in CP.
  change (oc_args (machdep_var rt fixed ts)) with ts in *.
  destruct (copy_structs ts args cps m) as [ma avv] eqn:CSE. injection CP as <- <- <- <-.
  change (call_size {| oc_args := ts; oc_rt := rt; oc_fixed := fixed; oc_flags := ret_code rt |}) with (call_size (machdep_var rt fixed ts)) in *.
  set (size := call_size (machdep_var rt fixed ts)) in *. set (fl := ret_code rt) in *.
  destruct CQ as (Q1 & Q2 & Q3).
  pose proof (W 5) as W5. pose proof (W 7) as W7.
  destruct (run_enter org X f ma sp size Ho Ho2 X1e X3e SN ltac:(lia) ltac:(lia) ltac:(lia) ltac:(lia))
    as (X1 & M1 & R1 & E1 & E3 & E4 & E9 & E14 & E16 & E18 & E20 & EO & SV & MO & MB).
  exists X1, M1. rewrite X5e in R1. split; [exact R1|]. split; [exact E4|]. intros X2 M2 f2 PD.
  set (stack := sp - 24 - size) in *.
  assert (OB1 : objects M1 bot sp ts avv vs) by (eapply objects_ext; [|exact Q1]; intros x Hx; apply MO; lia).
  assert (OB2 : objects M1 stack sp ts avv vs) by (eapply objects_sub; [| |exact OB1]; unfold stack; lia).
  destruct (prep_args_inv rt ts fixed fl rv avv vs stack M1 sp ltac:(lia) RV OB2) as (m' & PA & PO & PL & PH & PB); [unfold stack; lia|].
  unfold prep_done in PD. rewrite E3 in PD. change (machdep_var rt fixed ts) with (OCif ts rt fixed fl) in PD. rewrite PA in PD.
  destruct PD as (D1 & D11 & DS & DB).
  set (e := extent (hidden rt) 0 fixed ts) in *.
  assert (S1 : X2 1 = stack) by (rewrite DS by (left; reflexivity); exact E1).
  assert (SS : forall r, 14 <= r <= 30 -> r mod 2 = 0 -> X2 r = X1 r) by (intros r H1 H2; apply DS; right; right; auto).
  assert (S16 : X2 16 = fn) by (rewrite SS by (reflexivity || lia); congruence).
  destruct (run_call org X2 f2 M2 Ho Ho2) as (X3 & R3 & XR & X31 & X39 & X3s); try (rewrite ?S1, ?S16; unfold stack; lia).
  exists X3. rewrite E9, S16 in *.
  replace (org + 60 + 4) with (org + 64) by lia. split; [exact R3|].
  assert (EP : 0 <= e) by (unfold e; pose proof (extent_le ts (hidden rt) 0 fixed) as K; unfold hidden in *; destruct (aggregate rt); lia).
  assert (MM : forall x, ~ (bot <= x < stack + e) -> M2 x = M1 x) by (intros x Hx; rewrite D1 by (unfold stack in *; lia); apply PO; unfold stack in *; lia).
  assert (MS : forall x, ~ (bot <= x < sp) -> M2 x = ma x) by (intros x Hx; rewrite MM by (unfold stack; lia); apply MO; unfold stack; lia).
  assert (OB3 : objects M2 bot sp ts avv vs) by (eapply objects_ext; [|exact Q1]; exact MS).
  assert (LD : laid M2 stack e (places (hidden rt) 0 fixed ts) ts avv vs).
  { eapply laid_ext; [|exact PL]. intros x Hx. apply D1. lia. }
  destruct (laid_passed X3 M2 stack e ts _ avv vs bot sp DB LD OB3) as (PS & PR).
  { intros r Hr. rewrite XR by exact Hr. rewrite S1. reflexivity. }
  { intros He. rewrite X31, D11. replace (24 <? e) with true by lia. reflexivity. }
  split; [exact PS|].
  split. { intros Hh. rewrite XR by lia. rewrite S1. replace (stack + 4 * (3 - 3)) with stack by lia.
    rewrite (rd_ext m'). { rewrite PH by exact Hh. rewrite be_dec_enc. apply Z.mod_small. change (2 ^ (8 * Z.of_nat 4)) with (2 ^ 32). exact RV. }
    intros x Hx. apply D1. change (Z.of_nat 4) with 4 in Hx. lia. }
  split. { rewrite X31, D11. destruct (24 <? e); lia. }
  split; [exact MS|].
  rewrite !X3s by lia. split; [rewrite SS by (reflexivity || lia); exact E14|]. split; [exact S16|]. split; [rewrite SS by (reflexivity || lia); congruence|]. split; [rewrite SS by (reflexivity || lia); congruence|].
  split; [lia|]. split.
  { intros r Sr N1 N14 N16 N18 N20. rewrite X3s by (unfold saved in Sr; lia). rewrite DS by exact Sr. apply EO; try assumption; unfold saved in Sr; intros K; subst r; destruct Sr as [K|[K|(K1 & K2)]]; try lia; discriminate K2. }
  split; [exact DB|]. split; [exact MM|]. split; [exact SV|]. split; [exact OB3|exact PR].
Qed.

(** ffi_call: whatever ffi_prep_args does as compiled code, the function is entered with registers
    and memory as [Q] says; [X] are the registers at the entry of ffi_call_SYSV. *)
Definition call_with (c : ocif) (rv : Z) (args cps : list Z) (m : Z -> Z) (bot sp prep fn org : Z) (Q : (Z -> Z) -> (Z -> Z) -> (Z -> Z) -> Prop) : Prop :=
  let '(m1, av, size, flags) := call_prepare c args cps m in
  forall X f, entry size flags prep fn rv sp X ->
  exists X1 M1,
    reach org (St X org (org + 4) f m1) (St X1 prep (prep + 4) f M1) /\ X1 4 = X 4 /\
    forall X2 M2 f2, prep_done c rv av bot X1 M1 X2 M2 ->
    exists X3, reach org (St X2 (X1 9) (X1 9 + 4) f2 M2) (St X3 fn (fn + 4) f2 M2) /\ Q X X3 M2.
(** A function keeps the registers it has to keep, and the memory above its arguments where
    ffi_call_SYSV saved registers. *)
Definition fn_done (sp : Z) (X3 M2 X4 M4 : Z -> Z) : Prop :=
  (forall r, saved r -> X4 r = X3 r) /\ (forall x, sp - 24 <= x < sp -> M4 x = M2 x).
(** Bytes written to the result pointer. *)
Definition result_size (rt : ftype) : Z := if aggregate rt then 0 else if ty_size rt =? 8 then 8 else 4.
Definition result_place (rt : ftype) (rv sp : Z) : Prop :=
  aggregate rt = false -> rv + result_size rt <= 2 ^ 32 /\ (rv + result_size rt <= sp - 24 \/ sp <= rv).

(** One call with its registers and memory, from the entry of ffi_call_SYSV to its return: the
    function is entered with [X3], [M3] and returns with [X4], [M4]. *)
Definition whole_run (c : ocif) (rv : Z) (args cps : list Z) (m : Z -> Z) (bot sp prep fn org : Z) (X X3 M3 X4 M4 X5 M5 : Z -> Z) : Prop :=
  let '(m1, av, size, flags) := call_prepare c args cps m in
  entry size flags prep fn rv sp X /\
  exists X1 M1 X2 M2 f1 f2 f3 f4 f5 f6,
    reach org (St X org (org + 4) f1 m1) (St X1 prep (prep + 4) f2 M1) /\ prep_done c rv av bot X1 M1 X2 M2 /\
    reach org (St X2 (X1 9) (X1 9 + 4) f3 M2) (St X3 fn (fn + 4) f4 M3) /\ fn_done sp X3 M3 X4 M4 /\
    reach org (St X4 (X3 9) (X3 9 + 4) f5 M4) (St X5 (X 9) (X 9 + 4) f6 M5).

Lemma call_args_ok rt ts fixed rv args vs cps m bot sp top prep fn org :
  setup rt ts fixed rv args vs cps m bot sp top -> text_at org ->
  call_with (machdep_var rt fixed ts) rv args cps m bot sp prep fn org
    (fun X X3 M2 => passed rt fixed ts vs X3 M2 /\ (hidden rt = 1 -> X3 3 = rv) /\
       sp - 24 - call_size (machdep_var rt fixed ts) <= X3 1 /\ (forall x, ~ (bot <= x < top) -> M2 x = m x)).
Proof.
  intros S T. unfold call_with. destruct (call_prepare _ _ _ _) as [[[m1 av] size] flags] eqn:CP. intros X f E.
  destruct (call_works rt ts fixed rv args vs cps m bot sp top m1 av size flags prep fn X org f S T CP E) as (X1 & M1 & R1 & E4 & K).
  exists X1, M1. split; [exact R1|]. split; [exact E4|]. intros X2 M2 f2 PD. destruct (K X2 M2 f2 PD) as (X3 & R3 & P & H & L & MS & _).
  exists X3. split; [exact R3|]. split; [exact P|]. split; [exact H|].
  unfold call_prepare in CP. destruct S as (RT & F & RV & OB & CO & B & B0 & Hsz & Hst & Hs32 & Ht).
  destruct (objects_facts _ _ _ _ _ _ OB) as (OT & _). pose proof (size_nonneg rt fixed ts OT) as SN.
  pose proof (copied bot sp top ts args vs cps m ltac:(lia) Hst Ht B0 OB CO) as CQ.
  change (oc_args (machdep_var rt fixed ts)) with ts in CP. destruct (copy_structs ts args cps m) as [ma avv]. injection CP as <- <- <- <-.
  split; [exact L|]. intros x Hx. rewrite MS by lia. destruct CQ as (_ & Q2 & _). apply Q2. lia.
Qed.

Lemma ret_code_size rt : rtype_ok rt -> ret_code rt = (if aggregate rt then 13 else if ty_size rt =? 8 then 11 else 0).
Proof.
  intros [(E & Z)|O]; unfold ret_code, aggregate; [rewrite E, Z; reflexivity|]. unfold otype in O. destruct (ty_code rt); try contradiction; rewrite ?O; reflexivity.
Qed.

Lemma call_return_ok rt ts fixed rv args vs cps m bot sp top prep fn org :
  setup rt ts fixed rv args vs cps m bot sp top -> text_at org -> result_place rt rv sp ->
  gap (hidden rt) fixed ts = false \/ fixed <> zlen ts ->
  call_with (machdep_var rt fixed ts) rv args cps m bot sp prep fn org
    (fun X X3 M2 => forall X4 M4 f4, fn_done sp X3 M2 X4 M4 ->
       exists X5 f5 M5, reach org (St X4 (X3 9) (X3 9 + 4) f4 M4) (St X5 (X 9) (X 9 + 4) f5 M5) /\
         (forall r, saved r -> X5 r = X r) /\
         (forall x, ~ (rv <= x < rv + result_size rt) -> M5 x = M4 x) /\
         (ty_code rt <> T_VOID -> forall v, is_value rt v -> returned rt v X4 -> bytes_at M5 rv (zlen (stored rt v)) = stored rt v)).
Proof.
  intros S T RP NG. unfold call_with. destruct (call_prepare _ _ _ _) as [[[m1 av] size] flags] eqn:CP. intros X f E.
  destruct (call_works rt ts fixed rv args vs cps m bot sp top m1 av size flags prep fn X org f S T CP E) as (X1 & M1 & R1 & E4 & K).
  exists X1, M1. split; [exact R1|]. split; [exact E4|]. intros X2 M2 f2 PD.
  destruct (K X2 M2 f2 PD) as (X3 & R3 & _ & _ & _ & _ & K14 & K16 & K18 & K20 & K9 & KS & _ & MM & SV & _).
  exists X3. split; [exact R3|]. intros X4 M4 f4 (FS & FM).
  destruct S as (RT & F & RV & OB & CO & B & B0 & Hsz & Hst & Hs32 & Ht).
  destruct (objects_facts _ _ _ _ _ _ OB) as (OT & _). pose proof (size_nonneg rt fixed ts OT) as SN.
  destruct (extent_fits rt fixed ts OT ltac:(lia)) as (_ & EF). specialize (EF NG).
  assert (SZ : size = call_size (machdep_var rt fixed ts) /\ flags = ret_code rt).
  { unfold call_prepare in CP. destruct (copy_structs _ _ _ _). injection CP as _ _ <- <-. split; reflexivity. }
  destruct SZ as (SZ & FL). rewrite (ret_code_size rt RT) in FL.
  destruct T as (Ho & Ho2). destruct E as (W & X1e & X3e & X5e & X6e & X7e & X8e & Hp & Hf & H9).
  assert (SV4 : saves X M4 sp).
  { destruct SV as (V1 & V2 & V3 & V4 & V5 & V6). unfold saves. repeat split; [rewrite <- V1|rewrite <- V2|rewrite <- V3|rewrite <- V4|rewrite <- V5|rewrite <- V6];
      apply rd_ext; change (Z.of_nat 4) with 4; intros x Hx; rewrite FM by lia; apply MM; lia. }
  assert (SS : forall r, 14 <= r <= 30 -> r mod 2 = 0 -> X4 r = X3 r) by (intros r H1 H2; apply FS; right; right; auto).
  assert (Q14 : X4 14 = sp) by (rewrite SS by (reflexivity || lia); exact K14).
  assert (Q18 : X4 18 = rv) by (rewrite SS by (reflexivity || lia); exact K18).
  assert (Q20 : X4 20 = flags) by (rewrite SS by (reflexivity || lia); exact K20).
  unfold result_place, result_size in *.
  destruct (run_leave org X4 f4 M4 X sp Ho Ho2 Q14 ltac:(lia) W SV4) as (X5 & f5 & R5 & L1 & L14 & L16 & L18 & L20 & LO).
  { rewrite Q18, Q20, FL. intros N. destruct (aggregate rt); [congruence|]. specialize (RP eq_refl). destruct (ty_size rt =? 8); cbn; lia. }
  { exact H9. }
  exists X5, f5, (store_result (X4 20) (X4 18) X4 M4). rewrite K9. replace (org + 96 + 4) with (org + 100) by lia. split; [exact R5|].
  split.
  { intros r Sr. destruct (Z.eq_dec r 1) as [->|N1]; [congruence|]. destruct (Z.eq_dec r 14) as [->|N14]; [exact L14|]. destruct (Z.eq_dec r 16) as [->|N16]; [exact L16|].
    destruct (Z.eq_dec r 18) as [->|N18]; [exact L18|]. destruct (Z.eq_dec r 20) as [->|N20]; [exact L20|].
    rewrite LO; try assumption. { rewrite FS by exact Sr. apply KS; assumption. }
    intros K0; subst r. unfold saved in Sr. destruct Sr as [K0|[K0|(K1 & K2)]]; try lia; discriminate K2. }
  rewrite Q18, Q20, FL. unfold store_result. split.
  { intros x Hx. destruct (aggregate rt); [reflexivity|]. destruct (ty_size rt =? 8); cbn [Z.eqb Pos.eqb]; rewrite ?wr_out; try (ze; lia); reflexivity. }
  intros NV v V RE. destruct RT as [(E & _)|O]; [congruence|].
  destruct (aggregate rt) eqn:Ag.
  { unfold stored. unfold aggregate in Ag. destruct (ty_code rt); try discriminate Ag. reflexivity. }
  assert (NS : ty_code rt <> T_STRUCT) by (unfold aggregate in Ag; destruct (ty_code rt); congruence).
  assert (EQ : forall (A : Type) (a b : A), match ty_code rt with T_VOID | T_STRUCT => a | _ => b end = b) by (intros; destruct (ty_code rt); congruence).
  unfold returned, stored in *. rewrite EQ in RE |- *. destruct (ty_size rt =? 8) eqn:E8; cbn [Z.eqb Pos.eqb].
  - destruct V as (L & _). rewrite bytes_at_rd, L. replace (Z.to_nat (ty_size rt)) with 8%nat by lia. rewrite rd_8, <- RE, !word_enc. f_equal; [rs|].
    rewrite rd_wr_other by (ze; lia). rs.
  - rewrite !word_enc, bytes_at_rd, be_enc_zlen. change (Z.to_nat (Z.of_nat 4)) with 4%nat.
    rewrite <- (be_enc_mod 4 (extended rt v)). change (2 ^ (8 * Z.of_nat 4)) with (2 ^ 32). rewrite <- RE. change (2 ^ 32) with (2 ^ (8 * Z.of_nat 4)). rewrite be_enc_mod. rs.
Qed.

(** Space for the arguments. *)
Lemma room_ok rt ts fixed rv args vs stack m hi :
  0 <= fixed -> 0 <= rv < 2 ^ 32 -> let c := machdep_var rt fixed ts in
  objects m stack hi ts args vs -> stack + call_size c <= hi -> gap (hidden rt) fixed ts = false \/ fixed <> zlen ts ->
  forall x, ~ (stack <= x < stack + call_size c) -> fst (prep_args c rv args stack m) x = m x.
Proof.
  intros F RV c OB HI NG x Hx. destruct (objects_facts _ _ _ _ _ _ OB) as (OT & _).
  destruct (extent_fits rt fixed ts OT F) as (_ & EF). specialize (EF NG).
  destruct (prep_args_inv rt ts fixed (ret_code rt) rv args vs stack m hi F RV OB) as (m' & PA & PO & _); [unfold c in *; lia|].
  unfold c, machdep_var. cbn [machdep oc_args oc_rt oc_flags]. rewrite PA. cbn [fst]. apply PO. unfold c in *. lia.
Qed.

(** ** The array avalue *)
Lemma avalue_ok rt ts fixed args cps m : existsb aggregate ts = false -> length args = length ts -> length cps = length ts ->
  let '(m1, av, _, _) := call_prepare (machdep_var rt fixed ts) args cps m in av = args /\ m1 = m.
Proof.
  intros E L1 L2. unfold call_prepare. change (oc_args (machdep_var rt fixed ts)) with ts.
  assert (K : copy_structs ts args cps m = (m, args)).
  { revert args cps L1 L2 E. induction ts as [|t ts IH]; intros [|a args] [|q cps] L1 L2 E; try discriminate; [reflexivity|].
    cbn [copy_structs existsb] in *. rewrite is_struct_eq. apply orb_false_elim in E as [E1 E2]. rewrite E1. rewrite IH; auto. }
  rewrite K. auto.
Qed.

(** ** Trampolines *)

Lemma put_halves_rd l : forall p m, rd (put_halves p l m) p (2 * length l) = concat (map (be_enc 2) l) /\ (forall x, ~ (p <= x < p + 2 * zlen l) -> put_halves p l m x = m x).
Proof.
  induction l as [|h l IH]; intros p m; [split; reflexivity|]. cbn [put_halves map concat length]. unfold zlen. cbn [length].
  destruct (IH (p + 2) (wr m p (be_enc 2 h))) as (I1 & I2). unfold zlen in I2. split.
  - replace (2 * S (length l))%nat with (2 + 2 * length l)%nat by lia. rewrite rd_app. f_equal; [|exact I1].
    rewrite (rd_ext (wr m p (be_enc 2 h))). { apply rd_wr_same. rewrite be_enc_length. reflexivity. }
    intros x Hx. apply I2. change (Z.of_nat 2) with 2 in Hx. lia.
  - intros x Hx. rewrite I2 by lia. apply wr_out. rewrite be_enc_zlen. lia.
Qed.

Lemma half_split w : 0 <= w < 2 ^ 32 -> Z.lor (Z.shiftl (Z.shiftr w 16) 16) (Z.land w 65535) = w.
Proof.
  intros H. apply Z.bits_inj'. intros n Hn. rewrite Z.lor_spec, Z.land_spec. change 65535 with (Z.ones 16).
  destruct (Z_lt_dec n 16) as [L|L].
  - rewrite Z.shiftl_spec_low by lia. rewrite Z.ones_spec_low by lia. rewrite andb_true_r. reflexivity.
  - rewrite Z.shiftl_spec by lia. rewrite Z.shiftr_spec by lia. rewrite Z.ones_spec_high by lia. rewrite andb_false_r, orb_false_r. f_equal. lia.
Qed.

Lemma be_dec_halves a b : 0 <= a < 65536 -> 0 <= b < 65536 -> be_dec (be_enc 2 a ++ be_enc 2 b) = a * 65536 + b.
Proof.
  intros Ha Hb. unfold be_dec, be_enc. rewrite rev_app_distr, !rev_involutive, le_dec_app, !le_dec_enc, le_enc_zlen.
  change (2 ^ (8 * Z.of_nat 2)) with 65536. rewrite !Z.mod_small by lia. lia.
Qed.

Lemma mstep i k X p n f M s1 :
  decode M p = Some i -> exec 0 i (St X p n f M) = Some s1 -> msteps (S k) (St X p n f M) = msteps k s1.
Proof. intros D E. cbn [msteps spc sm]. rewrite D, E. reflexivity. Qed.

Lemma decode_halves M p a b : 0 <= a < 65536 -> 0 <= b < 65536 -> rd M p 4 = be_enc 2 a ++ be_enc 2 b ->
  decode M p = let op := a / 2 ^ 10 in let d := a / 2 ^ 5 mod 32 in let r := a mod 32 in
    if (op =? 6) && (r =? 0) then Some (Movhi d b) else if op =? 42 then Some (Ori d r b) else if op =? 17 then Some (Jr (b / 2 ^ 11)) else None.
Proof.
  intros Ha Hb R. unfold decode. rewrite R, be_dec_halves by assumption. cbv zeta.
  assert (D1 : (a * 65536 + b) / 2 ^ 16 = a) by (symmetry; apply (Z.div_unique _ _ _ b); lia).
  assert (M1 : (a * 65536 + b) mod 2 ^ 16 = b) by (symmetry; apply (Z.mod_unique _ _ a); lia).
  replace ((a * 65536 + b) / 2 ^ 26) with (a / 2 ^ 10) by (change (2 ^ 26) with (2 ^ 16 * 2 ^ 10); rewrite <- Z.div_div, D1 by lia; reflexivity).
  replace ((a * 65536 + b) / 2 ^ 21) with (a / 2 ^ 5) by (change (2 ^ 21) with (2 ^ 16 * 2 ^ 5); rewrite <- Z.div_div, D1 by lia; reflexivity).
  rewrite D1, M1. reflexivity.
Qed.

Lemma rd_moved n : forall M m p q, (forall k, 0 <= k < Z.of_nat n -> M (p + k) = m (q + k)) -> rd M p n = rd m q n.
Proof.
  induction n as [|n IH]; intros M m p q C; [reflexivity|]. change (S n) with (1 + n)%nat. rewrite !rd_app. f_equal.
  - specialize (C 0 ltac:(lia)). rewrite !Z.add_0_r in C. unfold rd. cbn [seq map]. rewrite ?Z.add_0_r, C. reflexivity.
  - apply IH. intros k Hk. specialize (C (1 + k) ltac:(lia)). rewrite !Z.add_assoc in C. exact C.
Qed.

Lemma trampoline_ok clo cif func data loc ent m m' M X f :
  prep_closure true clo cif func data loc ent m = Some m' -> 0 <= loc -> loc + 32 <= 2 ^ 32 -> 0 <= ent -> ent + 4 < 2 ^ 32 -> words_in X ->
  (forall k, 0 <= k < 24 -> M (loc + k) = m' (clo + k)) ->
  (exists X1, msteps 6 (St X loc (loc + 4) f M) = Some (St X1 ent (ent + 4) f M) /\ X1 13 = loc /\ X1 17 = X 1 /\
    (forall r, r <> 13 -> r <> 15 -> r <> 17 -> X1 r = X r)) /\
  be_dec (rd m' (clo + 24) 4) = cif mod 2 ^ 32 /\ be_dec (rd m' (clo + 28) 4) = func mod 2 ^ 32 /\ be_dec (rd m' (clo + 32) 4) = data mod 2 ^ 32 /\
  (forall x, ~ (clo <= x < clo + 36) -> m' x = m x).
Proof.
  intros P L0 L1 E0 E1 W CM. unfold prep_closure in P. injection P as <-.
  set (m3 := wr (wr (wr m (clo + 24) (be_enc 4 cif)) (clo + 32) (be_enc 4 data)) (clo + 28) (be_enc 4 func)) in *.
  destruct (put_halves_rd (tramp_words loc ent) clo m3) as (T1 & T2).
  set (mt := put_halves clo (tramp_words loc ent) m3) in *.
  change (2 * zlen (tramp_words loc ent)) with 24 in T2. change (2 * length (tramp_words loc ent))%nat with 24%nat in T1.
  split.
  - assert (C : rd M loc 24 = concat (map (be_enc 2) (tramp_words loc ent))).
    { rewrite <- T1. apply rd_moved. exact CM. }
    set (lh := Z.shiftr loc 16). set (ll := Z.land loc 65535). set (eh := Z.shiftr ent 16). set (el := Z.land ent 65535).
    assert (Blh : 0 <= lh < 65536) by (unfold lh; rewrite Z.shiftr_div_pow2 by lia; split; [apply Z.div_pos; lia|apply Z.div_lt_upper_bound; lia]).
    assert (Beh : 0 <= eh < 65536) by (unfold eh; rewrite Z.shiftr_div_pow2 by lia; split; [apply Z.div_pos; lia|apply Z.div_lt_upper_bound; lia]).
    assert (Bll : 0 <= ll < 65536) by (unfold ll; change 65535 with (Z.ones 16); rewrite Z.land_ones by lia; apply Z.mod_pos_bound; lia).
    assert (Bel : 0 <= el < 65536) by (unfold el; change 65535 with (Z.ones 16); rewrite Z.land_ones by lia; apply Z.mod_pos_bound; lia).
    unfold tramp_words in C. fold lh ll eh el in C. cbn [map concat] in C.
    assert (A : forall (a b : list Z) n, length a = n -> firstn n (a ++ b) = a /\ skipn n (a ++ b) = b).
    { intros a b n <-. split; [rewrite firstn_app, firstn_all, Nat.sub_diag; cbn; apply app_nil_r|rewrite skipn_app, skipn_all, Nat.sub_diag; reflexivity]. }
    assert (SP : forall a b r p n, rd M p (4 + n) = be_enc 2 a ++ be_enc 2 b ++ r -> rd M p 4 = be_enc 2 a ++ be_enc 2 b /\ rd M (p + 4) n = r).
    { intros a b r p n H. rewrite rd_app in H. change (Z.of_nat 4) with 4 in H. rewrite app_assoc in H.
      destruct (A (be_enc 2 a ++ be_enc 2 b) r 4%nat) as (A1 & A2); [rewrite app_length, !be_enc_length; reflexivity|].
      destruct (A (rd M p 4) (rd M (p + 4) n) 4%nat (rd_length _ _ _)) as (A3 & A4). rewrite H in A3, A4. split; congruence. }
    destruct (SP _ _ _ _ 20%nat C) as (D0 & C0). destruct (SP _ _ _ _ 16%nat C0) as (D1 & C1'). destruct (SP _ _ _ _ 12%nat C1') as (D2 & C2).
    destruct (SP _ _ _ _ 8%nat C2) as (D3 & C3). destruct (SP _ _ _ _ 4%nat C3) as (D4 & C4). destruct (SP _ _ _ _ 0%nat C4) as (D5 & _).
    pose proof (half_split loc ltac:(lia)) as HL. fold lh ll in HL. pose proof (half_split ent ltac:(lia)) as HE. fold eh el in HE.
    set (X1 := upd (upd (upd (upd (upd X 13 (Z.shiftl lh 16)) 13 loc) 15 (Z.shiftl eh 16)) 15 ent) 17 (X 1)).
    exists X1. split.
    { rewrite (mstep (Movhi 13 lh) 5 X loc (loc + 4) f M (St (upd X 13 (Z.shiftl lh 16)) (loc + 4) (loc + 4 + 4) f M)).
      2: { rewrite (fun Ha => decode_halves M _ _ _ Ha Blh D0) by (vm_compute; split; congruence). reflexivity. }
      2: { exec1 idtac. }
      erewrite mstep. 2: { rewrite (fun Ha => decode_halves M _ _ _ Ha Bll D1) by (vm_compute; split; congruence). reflexivity. } 2: { unfold exec; cbn [sx spc snpc sfl sm]; regs. rewrite HL. nowrap. reflexivity. }
      erewrite mstep. 2: { rewrite (fun Ha => decode_halves M _ _ _ Ha Beh D2) by (vm_compute; split; congruence). reflexivity. } 2: { unfold exec; cbn [sx spc snpc sfl sm]; regs. nowrap. reflexivity. }
      erewrite mstep. 2: { rewrite (fun Ha => decode_halves M _ _ _ Ha Bel D3) by (vm_compute; split; congruence). reflexivity. } 2: { unfold exec; cbn [sx spc snpc sfl sm]; regs. rewrite HE. nowrap. reflexivity. }
      erewrite mstep. 2: { rewrite (fun Ha Hb => decode_halves M _ _ _ Ha Hb D4) by (vm_compute; split; congruence). reflexivity. } 2: { unfold exec; cbn [sx spc snpc sfl sm]; regs. change (Z.shiftl 15 11 / 2 ^ 11) with 15. regs. reflexivity. }
      erewrite mstep. 2: { rewrite (fun Ha Hb => decode_halves M _ _ _ Ha Hb D5) by (vm_compute; split; congruence). reflexivity. } 2: { unfold exec; cbn [sx spc snpc sfl sm]; regs. rewrite Z.lor_0_r. nowrap. reflexivity. }
      cbn [msteps]. reflexivity. }
    unfold X1. regs. split; [reflexivity|]. split; [reflexivity|]. intros r N1 N2 N3. rewrite !upd_other by lia. reflexivity.
  - assert (K : forall a, 24 <= a -> a + 4 <= 36 -> rd mt (clo + a) 4 = rd m3 (clo + a) 4).
    { intros a Ha Hb. apply rd_ext. change (Z.of_nat 4) with 4. intros x Hx. apply T2. lia. }
    rewrite !K by lia. unfold m3. split; [do 2 ro; rewrite rd_wr_same by (rewrite be_enc_length; reflexivity); apply be_dec_enc|].
    split; [rewrite rd_wr_same by (rewrite be_enc_length; reflexivity); apply be_dec_enc|].
    split; [ro; rewrite rd_wr_same by (rewrite be_enc_length; reflexivity); apply be_dec_enc|].
    intros x Hx. rewrite T2 by lia. unfold m3. rewrite !wr_out by (ze; lia). reflexivity.
Qed.

(** ** A closure called with ffi_call *)

Lemma refs_sub X M lo hi lo' hi' ls : forall ts, lo <= lo' -> hi' <= hi -> refs_outside X M lo hi ls ts -> refs_outside X M lo' hi' ls ts.
Proof.
  induction ls as [|l ls IH]; intros [|t ts] H1 H2 R; cbn [refs_outside] in *; auto. destruct R as (R1 & R2). split; [|apply IH; auto]. intros Ag. specialize (R1 Ag). cbv zeta in *. lia.
Qed.
Lemma round_trip_ok rt ts fixed rv args vs cps m bot sp top prep loc org clo cif func data ent m0 m' :
  setup rt ts fixed rv args vs cps m bot sp top -> text_at org ->
  prep_closure true clo cif func data loc ent m0 = Some m' -> loc + 32 <= 2 ^ 32 -> 0 <= ent -> ent + 4 < 2 ^ 32 ->
  0 <= loc -> (loc + 24 <= bot \/ top <= loc) -> (forall k, 0 <= k < 24 -> m (loc + k) = m' (clo + k)) ->
  call_with (machdep_var rt fixed ts) rv args cps m bot sp prep loc org
    (fun X X3 M2 => words_in X3 -> forall f ra buf, bot <= ra -> ra + 24 <= X3 1 -> X3 1 <= sp ->
       exists X5, msteps 6 (St X3 loc (loc + 4) f M2) = Some (St X5 ent (ent + 4) f M2) /\ X5 13 = loc /\
         exists m1 avs, closure_args (machdep_var rt fixed ts) (arg_regs X5) (X5 17) ra buf M2 = (m1, if hidden rt =? 1 then rv else buf, avs) /\
           values_at m1 ts avs vs).
Proof.
  intros S T P L1 E0 E1 L0 LD CM. unfold call_with. destruct (call_prepare _ _ _ _) as [[[m1 av] size] flags] eqn:CP. intros X f E.
  destruct (call_works rt ts fixed rv args vs cps m bot sp top m1 av size flags prep loc X org f S T CP E) as (X1 & M1 & R1 & E4 & K).
  exists X1, M1. split; [exact R1|]. split; [exact E4|]. intros X2 M2 f2 PD.
  destruct (K X2 M2 f2 PD) as (X3 & R3 & PS & HP & SL & MS & _ & _ & _ & _ & _ & _ & BM & _ & _ & _ & PR).
  exists X3. split; [exact R3|]. intros W f3 ra buf Hra Hr1 Hsp.
  destruct S as (RT & F & RV & OB & CO & B & B0 & Hsz & Hst & Hs32 & Ht).
  destruct (objects_facts _ _ _ _ _ _ OB) as (OT & FV & AL). pose proof (size_nonneg rt fixed ts OT) as SN.
  pose proof (copied bot sp top ts args vs cps m ltac:(lia) Hst Ht B0 OB CO) as CQ.
  unfold call_prepare in CP. change (oc_args (machdep_var rt fixed ts)) with ts in CP. destruct (copy_structs ts args cps m) as [ma avv]. injection CP as <- <- <- <-.
  destruct CQ as (_ & Q2 & _).
  destruct (trampoline_ok clo cif func data loc ent m0 m' M2 X3 f3 P L0 L1 E0 E1 W) as ((X5 & R5 & T13 & T17 & TO) & _).
  { intros k Hk. rewrite MS, Q2 by lia. apply CM, Hk. }
  exists X5. split; [exact R5|]. split; [exact T13|].
  destruct (closure_args_ok rt ts fixed (ret_code rt) vs X3 M2 ra buf OT ltac:(lia) FV BM Hr1 PS) as (mm & avs & CA & VA & _).
  { eapply refs_sub; [| |exact PR]; lia. }
  exists mm, avs. split; [|exact VA]. change (machdep_var rt fixed ts) with (OCif ts rt fixed (ret_code rt)). rewrite T17.
  replace (arg_regs X5) with (arg_regs X3) by (unfold arg_regs; cbn [map]; rewrite !TO by lia; reflexivity). rewrite CA.
  destruct (hidden rt =? 1) eqn:Hh; [rewrite HP by lia; reflexivity|reflexivity].
Qed.

(** The cif of a function that is not variadic. *)
Lemma call_args_plain rt ts rv args vs cps m bot sp top prep fn org :
  setup rt ts (zlen ts) rv args vs cps m bot sp top -> text_at org ->
  call_with (machdep rt ts) rv args cps m bot sp prep fn org
    (fun X X3 M2 => passed rt (zlen ts) ts vs X3 M2 /\ (hidden rt = 1 -> X3 3 = rv)).
Proof.
  intros S T. pose proof (call_args_ok rt ts (zlen ts) rv args vs cps m bot sp top prep fn org S T) as H. unfold call_with in *.
  change (machdep rt ts) with (machdep_var rt (zlen ts) ts).
  destruct (call_prepare _ _ _ _) as [[[m1 av] size] flags]. intros X f E. destruct (H X f E) as (X1 & M1 & R1 & E4 & K). exists X1, M1. split; [exact R1|]. split; [exact E4|].
  intros X2 M2 f2 PD. destruct (K X2 M2 f2 PD) as (X3 & R3 & P & Q & _). exists X3. auto.
Qed.

Lemma call_weaken c rv args cps m bot sp prep fn org (P Q : (Z -> Z) -> (Z -> Z) -> (Z -> Z) -> Prop) :
  (forall X X3 M2, P X X3 M2 -> Q X X3 M2) -> call_with c rv args cps m bot sp prep fn org P -> call_with c rv args cps m bot sp prep fn org Q.
Proof.
  intros I H. unfold call_with in *. destruct (call_prepare _ _ _ _) as [[[m1 av] size] flags]. intros X f E. destruct (H X f E) as (X1 & M1 & R1 & E4 & K). exists X1, M1.
  split; [exact R1|]. split; [exact E4|]. intros X2 M2 f2 PD. destruct (K X2 M2 f2 PD) as (X3 & R3 & P3). exists X3. auto.
Qed.

(** What the function has to preserve is intact. *)
Lemma call_saved rt ts fixed rv args vs cps m bot sp top prep fn org :
  setup rt ts fixed rv args vs cps m bot sp top -> text_at org -> result_place rt rv sp ->
  gap (hidden rt) fixed ts = false \/ fixed <> zlen ts ->
  call_with (machdep_var rt fixed ts) rv args cps m bot sp prep fn org
    (fun X X3 M2 => forall X4 M4 f4, fn_done sp X3 M2 X4 M4 ->
       exists X5 f5 M5, reach org (St X4 (X3 9) (X3 9 + 4) f4 M4) (St X5 (X 9) (X 9 + 4) f5 M5) /\
         (forall r, saved r -> X5 r = X r)).
Proof.
  intros S T R G. eapply call_weaken; [|exact (call_return_ok _ _ _ _ _ _ _ _ _ _ _ prep fn org S T R G)].
  intros X X3 M2 H X4 M4 f4 D. destruct (H X4 M4 f4 D) as (X5 & f5 & M5 & R5 & K & _). eauto.
Qed.
(** Results that are not void. *)
Lemma call_stores rt ts fixed rv args vs cps m bot sp top prep fn org :
  setup rt ts fixed rv args vs cps m bot sp top -> text_at org -> result_place rt rv sp ->
  gap (hidden rt) fixed ts = false \/ fixed <> zlen ts -> ty_code rt <> T_VOID ->
  call_with (machdep_var rt fixed ts) rv args cps m bot sp prep fn org
    (fun X X3 M2 => forall X4 M4 f4 v, fn_done sp X3 M2 X4 M4 -> is_value rt v -> returned rt v X4 ->
       exists X5 f5 M5, reach org (St X4 (X3 9) (X3 9 + 4) f4 M4) (St X5 (X 9) (X 9 + 4) f5 M5) /\
         bytes_at M5 rv (zlen (stored rt v)) = stored rt v /\
         (forall x, ~ (rv <= x < rv + zlen (stored rt v)) -> M5 x = M4 x)).
Proof.
  intros S T R G NV. eapply call_weaken; [|exact (call_return_ok _ _ _ _ _ _ _ _ _ _ _ prep fn org S T R G)].
  intros X X3 M2 H X4 M4 f4 v D V RE. destruct (H X4 M4 f4 D) as (X5 & f5 & M5 & R5 & _ & F & K). exists X5, f5, M5. split; [exact R5|]. split; [apply K; assumption|].
  intros x Hx. apply F. intros Q. apply Hx. replace (zlen (stored rt v)) with (result_size rt); [exact Q|].
  unfold result_size, stored, aggregate. destruct V as (L & _). destruct (ty_code rt) eqn:E; try congruence; try reflexivity; destruct (ty_size rt =? 8) eqn:E8; rewrite ?word_enc, ?be_enc_zlen; lia.
Qed.
