(** Closures on 32-bit ARM as a whole, and calls that arrive in closures. *)
From Coq Require Import ZifyBool ZifyNat.
From Verif Require Import Base BaseFacts Types LayoutSpec NaturalTypes NaturalFacts ByteMem ArmModel ArmSpec ArmHfa ArmFp ArmPlan ArmCall ArmPrep ArmCallMem ArmClosure ArmAsmModel ArmAsmFacts ArmAsm ArmJoin ArmMain ArmCloMain ArmTramp ArmWhole.
Local Open Scope Z_scope.
Local Arguments Z.mul : simpl never.
Local Arguments Z.add : simpl never.
Local Arguments Z.sub : simpl never.
Local Arguments Z.pow : simpl never.
Local Arguments Z.of_nat : simpl never.

(** The stack when a closure is called. *)
Definition stack_ok (c : acif) (S : Z) : Prop := (8 | S) /\ 120 <= S /\ S + k_bytes c < 2 ^ 32.
(** An object of [n] bytes at [p] outside of the frame of a closure called with stack pointer
    [S]. *)
Definition clear (S p n : Z) : Prop := (4 | p) /\ 0 <= p /\ p + n <= 2 ^ 32 - 1 /\ (p + n <= S - 120 \/ S <= p).
Definition word (x : Z) : Prop := 0 <= x < 2 ^ 32.
Definition bytes_reg (V : Z -> Z) : Prop := forall k, byte_ok (V k).

(** Memory and floating point registers hold bytes. *)
Lemma some_inj {A} (x y : A) : Some x = Some y -> y = x.
Proof. congruence. Qed.
Lemma exec_bytes e i s s' : exec e i s = Some s' -> bmem (sm s) -> bytes_reg (sf s) -> bmem (sm s') /\ bytes_reg (sf s').
Proof.
  intros E B V. destruct i; cbn [exec] in E; repeat match type of E with context [if ?b then _ else _] => destruct b end; try discriminate E; apply some_inj in E; subst s'; cbn [sm sf].
  all: try (split; [exact B|exact V]).
  all: try (split; [|exact V]; intros x; apply wr_bytes; [exact B|]; first [apply enc_bytes | apply words_bytes | apply bytes_rd; exact V]).
  all: split; [exact B|]; unfold vload; intros x; apply wr_bytes; [exact V|apply bytes_rd; exact B].
Qed.
Lemma reach_bytes e t o s s' : reach e t o s s' -> bmem (sm s) -> bytes_reg (sf s) -> bmem (sm s') /\ bytes_reg (sf s').
Proof.
  intros [n H]. revert s H. induction n as [|n IH]; intros s H B V; cbn [steps] in H; [injection H as <-; auto|].
  destruct (step e t o s) as [s1|] eqn:ST; [|discriminate H]. unfold step in ST. destruct (_ && _); [|discriminate ST].
  destruct (nth_error t _) as [i|]; [|discriminate ST]. destruct (exec_bytes _ _ _ _ ST B V) as [B1 V1]. apply (IH s1); auto.
Qed.

Section Closures.
Variables (var : bool) (a : abi) (rt : ftype) (ts : list ftype) (c : acif).
Hypothesis TS : Forall ctype ts.
Hypothesis RT : rtype_ok rt.
Hypothesis TT : total ts < 2 ^ 31.
Hypothesis PR : prep var a rt ts = Ok c.
Let hard := hard_for var a.
Variables (e : bool -> Z) (org : Z) (clo cif func user : Z).
Hypothesis OK : text_ok org.
Hypothesis WC : word cif.
Hypothesis WF : word func.
Hypothesis WU : word user.

Theorem closure_sees X V le M objs : tidy_call hard rt ts -> stack_ok c (X 13) -> clear (X 13) clo 24 -> bmem M -> bytes_reg V -> word (X 0) ->
  X 12 = clo -> rd M (clo + 12) 12 = le_enc 4 cif ++ le_enc 4 func ++ le_enc 4 user ->
  held (words_of X [0; 1; 2; 3]) V (X 13) M ts (places hard rt ts) objs ->
  exists X1 M1, reach e text org (St X V le (org + closure_entry c false) M) (St X1 V le (e (use_vfp c)) M1) /\
    X1 0 = cif /\ X1 1 = func /\ X1 2 = user /\
    exists m2 rvalue ps, inner c (X1 3) M1 = Ok (m2, rvalue, ps) /\ seen m2 ts ps objs /\ (in_memory hard rt = true -> rvalue = X 0).
Proof.
  intros T (S1 & S2 & S3) (C1 & C2 & C3 & C4) BM BV W0 XC W H. pose proof (prepared_of _ _ _ _ _ TS RT TT PR) as P. fold hard in P. destruct OK as [O0 O1].
  destruct (closure_way c hard rt ts P (X 13) S1 S2 S3 e org O0 O1 clo cif func user C1 C2 WC WF WU X V le M BM BV C3 C4 eq_refl XC W) as (X1 & M1 & R & (I0 & I1 & I2) & A & VF).
  exists X1, M1. split; [exact R|]. split; [exact I0|]. split; [exact I1|]. split; [exact I2|]. rewrite (ai_frame _ _ _ _ _ _ A).
  rewrite <- plan_places in H by auto.
  destruct (inner_seen c hard rt ts P TS (X 13) S1 S2 S3 _ X V M X1 M1 objs A VF (fun _ => W0) H) as (m2 & rvalue & ps & E & SE & HM & _).
  exists m2, rvalue, ps. auto.
Qed.

(** From the call of the closure to its return. *)
Theorem closure_back X V le M : stack_ok c (X 13) -> clear (X 13) clo 24 -> bmem M -> bytes_reg V -> word (X 14) ->
  X 12 = clo -> rd M (clo + 12) 12 = le_enc 4 cif ++ le_enc 4 func ++ le_enc 4 user ->
  exists X1 M1, reach e text org (St X V le (org + closure_entry c false) M) (St X1 V le (e (use_vfp c)) M1) /\
    (forall x, x < X 13 - 120 \/ X 13 <= x -> M1 x = M x) /\ (8 | X1 13) /\
    exists m2 rvalue ps, inner c (X1 3) M1 = Ok (m2, rvalue, ps) /\
      (in_memory hard rt = false -> X1 13 + 8 <= rvalue /\ rvalue + 32 <= X 13) /\
      forall X2 V2 le2 M2, bmem M2 -> X2 0 = inner_code c -> X2 13 = X1 13 -> (forall r, 4 <= r < 12 -> X2 r = X1 r) ->
        (forall x, X1 13 <= x < X1 13 + 8 -> M2 x = m2 x) ->
        exists X3 V3, reach e text org (St X2 V2 le2 (X1 14) M2) (St X3 V3 le2 (X 14) M2) /\
          X3 13 = X 13 /\ (forall r, 4 <= r < 12 -> X3 r = X r) /\ (forall k, 64 <= k -> V3 k = V2 k) /\
          (ctype rt -> in_memory hard rt = false -> result_bytes hard rt (words_of X3 [0; 1]) V3 = rd M2 rvalue (Z.to_nat (ty_size rt))).
Proof.
  intros (S1 & S2 & S3) (C1 & C2 & C3 & C4) BM BV WL XC W. pose proof (prepared_of _ _ _ _ _ TS RT TT PR) as P. fold hard in P. destruct OK as [O0 O1].
  destruct (closure_way c hard rt ts P (X 13) S1 S2 S3 e org O0 O1 clo cif func user C1 C2 WC WF WU X V le M BM BV C3 C4 eq_refl XC W) as (X1 & M1 & R & IA & A & VF).
  exists X1, M1. split; [exact R|]. split; [exact (ai_outside _ _ _ _ _ _ A)|]. rewrite (ai_frame _ _ _ _ _ _ A).
  pose proof (ai_sp _ _ _ _ _ _ A) as SP. split; [rewrite SP; destruct S1 as [q Q]; exists (q - 15); lia|].
  destruct (inner_ok c hard rt ts P TS (X 13) S1 S2 S3 M1 (ai_bytes _ _ _ _ _ _ A)) as (m2 & rvalue & E & _ & NM & OU & _).
  exists m2, rvalue, (map (pos (X 13 - 16) (X 13 - 112)) (plan hard ts (first_core hard rt) [] 0)). split; [exact E|]. split; [intros I; rewrite (NM I); lia|].
  intros X2 V2 le2 M2 BM2 Y0 Y13 YS YM.
  destruct (closure_return c hard rt ts P (X 13) S1 S2 S3 e org X2 V2 le2 M2 (X 14) O0 O1 BM2) as (X3 & V3 & R3 & Q13 & QS & QV & RES); auto; try lia.
  { rewrite <- (ai_words _ _ _ _ _ _ A). apply rd_ext. intros x L. rewrite YM by lia. rewrite OU by lia. reflexivity. }
  exists X3, V3. rewrite (ai_lr _ _ _ _ _ _ A). split; [exact R3|]. split; [exact Q13|]. split; [|split; [exact QV|]].
  - intros r L. rewrite QS, YS, (ai_saved _ _ _ _ _ _ A) by lia. reflexivity.
  - intros C I. rewrite (NM I). apply RES; auto.
Qed.
End Closures.

(** ** Calls of closures *)

Section Trips.
Variables (var : bool) (a : abi) (rt : ftype) (ts : list ftype) (c : acif).
Hypothesis TS : Forall ctype ts.
Hypothesis RT : rtype_ok rt.
Hypothesis TT : total ts < 2 ^ 31.
Hypothesis PR : prep var a rt ts = Ok c.
Let hard := hard_for var a.
Hypothesis FB : bad_result hard rt = false \/ Forall (fun t => ty_align t <> 8) ts.
Variables (rv : option Z) (objs : list (list Z)) (closure base : Z) (m : Z -> Z).
Hypothesis OB : objects_ok ts objs.
Hypothesis CO : call_ok c rv closure base m.
Hypothesis B120 : 120 <= base.
Hypothesis RO : result_ok c rv base.
Variables (clo cif func user : Z).
Hypothesis WC : word cif.
Hypothesis WF : word func.
Hypothesis WU : word user.
Variables (e : bool -> Z) (org : Z).
Hypothesis OK : text_ok org.

(** Memory that neither the call nor the closure uses for its frame. *)
Definition apart (p n : Z) : Prop := (4 | p) /\ 0 <= p /\ p + n <= 2 ^ 32 - 1 /\ (p + n <= base - 120 \/ base + alloc_size c rv <= p).

(** The handler gets the arguments, and its result arrives.  [X]: at the call of ffi_call_SYSV or
    ffi_call_VFP; [X1], [M1]: at the call of the inner function. *)
Definition trip_ok (usr : Z) (X : Z -> Z) (X1 M1 : Z -> Z) : Prop :=
  X1 0 = cif /\ X1 1 = func /\ X1 2 = usr /\
  exists m2 rvalue ps, inner c (X1 3) M1 = Ok (m2, rvalue, ps) /\ seen m2 ts ps objs /\
    (in_memory hard rt = true -> hidden_ok c rt rv base rvalue) /\
    (forall x, x < base - 120 \/ base + alloc_size c rv <= x -> m2 x = m x) /\
    forall X2 V2 le2 M2, bmem M2 -> X2 0 = inner_code c -> X2 13 = X1 13 -> (forall r, 4 <= r < 12 -> X2 r = X1 r) ->
      (forall x, X1 13 <= x < X1 13 + 8 \/ frame_at c base <= x < frame_at c base + 20 -> M2 x = m2 x) ->
      exists X3 V3 X4 M4, reach e text org (St X2 V2 le2 (X1 14) M2) (St X3 V3 le2 (org + 44) M2) /\
        reach e text org (St X3 V3 le2 (org + 44) M2) (St X4 V3 le2 (X 14) M4) /\
        (forall r, 4 <= r < 12 -> X4 r = X r) /\
        (forall p, rv = Some p -> ctype rt -> in_memory hard rt = false ->
           rd (copy_back c rv base M4) p (Z.to_nat (ty_size rt)) = rd M2 rvalue (Z.to_nat (ty_size rt))).

(** The state when the closure is called. *)
Definition arrived (X V : Z -> Z) (Xa Va Ma : Z -> Z) : Prop := entered c hard rt ts rv objs closure base (org + 44) X V m Xa Va Ma.

Lemma trip usr X V Xa Va Ma X1 M1 : arrived X V Xa Va Ma -> bytes_reg Va -> word (X 11) -> word (X 14) ->
  inner_args cif func usr X1 -> at_inner (Xa 13) (org + (if use_vfp c then 256 else 180)) Xa Ma X1 M1 -> (use_vfp c = true -> rd M1 (Xa 13 - 112) 64 = rd Va 0 64) ->
  trip_ok usr X X1 M1.
Proof.
  intros EN BV W11 W14 (I0 & I1 & I2) A VF. split; [exact I0|]. split; [exact I1|]. split; [exact I2|].
  pose proof (prepared_of _ _ _ _ _ TS RT TT PR) as P. fold hard in P. destruct OK as [O0 O1]. destruct CO as (B1 & B2 & B3 & B4 & B5 & B6).
  destruct EN as [E1 E2 E3 E4 E5 E6 E7 E8 E9 E10 E11].
  destruct (geometry c hard rt ts P RT rv base B3 B4) as (G1 & G2 & G3 & G4 & G5).
  destruct (stk_8 c base B1) as [q Q].
  assert (AL : base + alloc_size c rv = frame_at c base + 20 + call_rsize c rv) by (unfold alloc_size, frame_size, frame_at, stack_at; lia).
  assert (SB : base <= stack_at c base) by (rewrite G1; destruct (use_vfp c); lia).
  assert (S1 : (8 | Xa 13)) by (rewrite E2; exists (q + 2); lia).
  assert (S2 : 120 <= Xa 13) by lia. assert (S3 : Xa 13 + k_bytes c < 2 ^ 32) by lia.
  rewrite (ai_frame _ _ _ _ _ _ A).
  assert (XW : in_memory hard rt = true -> 0 <= Xa 0 < 2 ^ 32).
  { intros I. rewrite (E3 I). apply (new_bound c hard rt ts P RT rv base); auto. }
  destruct (inner_seen c hard rt ts P TS (Xa 13) S1 S2 S3 _ Xa Va Ma X1 M1 objs A VF XW E1) as (m2 & rvalue & ps & E & SE & HM & NM & OU & BM2).
  exists m2, rvalue, ps. split; [exact E|]. split; [exact SE|]. split; [|split].
  - intros I. rewrite (HM I), (E3 I). eapply (hidden_is var a rt ts c); eauto.
  - intros x L. rewrite OU by lia. rewrite (ai_outside _ _ _ _ _ _ A) by lia. apply E10. lia.
  - intros X2 V2 le2 M2 BB Y0 Y13 YS YM. pose proof (ai_sp _ _ _ _ _ _ A) as SP.
    destruct (closure_return c hard rt ts P (Xa 13) S1 S2 S3 e org X2 V2 le2 M2 (org + 44) O0 O1 BB) as (X3 & V3 & R3 & Q13 & QS & QV & RES); auto; try lia.
    { rewrite <- E5, <- (ai_words _ _ _ _ _ _ A). apply rd_ext. intros x L. rewrite YM by lia. rewrite OU by lia. reflexivity. }
    { assert (TL : 4 * zlen text = 356) by reflexivity. lia. }
    assert (YS3 : forall r, 4 <= r < 12 -> X3 r = Xa r) by (intros r L; rewrite QS, YS, (ai_saved _ _ _ _ _ _ A) by lia; reflexivity).
    destruct (call_return c hard rt ts P RT rv base B1 B2 B3 B4 (pr_fits _ _ _ _ P FB) e org X3 V3 le2 M2 (X 11) (X 14) O0 O1 BB) as (X4 & M4 & R4 & Q11 & _ & QS4 & RES4 & _); auto.
    { rewrite YS3 by lia. exact E6. }
    { rewrite <- E9. apply rd_ext. intros x L. rewrite YM by lia. rewrite OU by lia. apply (ai_outside _ _ _ _ _ _ A). lia. }
    exists X3, V3, X4, M4. rewrite (ai_lr _ _ _ _ _ _ A). split; [exact R3|]. split; [exact R4|]. split.
    + intros r L. destruct (Z.eq_dec r 11) as [-> |N]; [exact Q11|]. rewrite QS4, YS3, E7 by lia. reflexivity.
    + intros p EP C I. rewrite (RES4 p EP C I), (RES C I), (NM I). reflexivity.
Qed.

Lemma apart_clear X V Xa Va Ma p n : arrived X V Xa Va Ma -> apart p n -> clear (Xa 13) p n.
Proof.
  intros EN (A1 & A2 & A3 & A4). pose proof (prepared_of _ _ _ _ _ TS RT TT PR) as P. fold hard in P. destruct CO as (B1 & B2 & B3 & B4 & B5 & B6).
  destruct (geometry c hard rt ts P RT rv base B3 B4) as (G1 & G2 & G3 & G4 & G5). destruct EN as [E1 E2 E3 E4 E5 E6 E7 E8 E9 E10 E11].
  assert (SB : base <= stack_at c base) by (rewrite G1; destruct (use_vfp c); lia).
  assert (AL : base + alloc_size c rv = frame_at c base + 20 + call_rsize c rv) by (unfold alloc_size, frame_size, frame_at, stack_at; lia).
  repeat split; auto; lia.
Qed.
Lemma arrived_stack X V Xa Va Ma : arrived X V Xa Va Ma -> stack_ok c (Xa 13).
Proof.
  intros EN. pose proof (prepared_of _ _ _ _ _ TS RT TT PR) as P. fold hard in P. destruct CO as (B1 & B2 & B3 & B4 & B5 & B6).
  destruct (geometry c hard rt ts P RT rv base B3 B4) as (G1 & G2 & G3 & G4 & G5). destruct EN as [E1 E2 E3 E4 E5 E6 E7 E8 E9 E10 E11].
  destruct (stk_8 c base B1) as [q Q]. assert (SB : base <= stack_at c base) by (rewrite G1; destruct (use_vfp c); lia).
  split; [rewrite E2; exists (q + 2); lia|]. lia.
Qed.
Lemma arrived_apart X V Xa Va Ma p n : arrived X V Xa Va Ma -> apart p n -> forall x, p <= x < p + n -> Ma x = m x.
Proof.
  intros EN (A1 & A2 & A3 & A4) x L. pose proof (prepared_of _ _ _ _ _ TS RT TT PR) as P. fold hard in P. destruct CO as (B1 & B2 & B3 & B4 & B5 & B6).
  destruct (geometry c hard rt ts P RT rv base B3 B4) as (G1 & G2 & G3 & G4 & G5). destruct EN as [E1 E2 E3 E4 E5 E6 E7 E8 E9 E10 E11].
  assert (SB : base <= stack_at c base) by (rewrite G1; destruct (use_vfp c); lia).
  assert (AL : base + alloc_size c rv = frame_at c base + 20 + call_rsize c rv) by (unfold alloc_size, frame_size, frame_at, stack_at; lia).
  apply E10. lia.
Qed.


Theorem trip_dynamic : closure = 0 -> apart clo 24 -> (forall m0, (forall x, clo + 8 <= x < clo + 24 -> m x = prep_dynamic c org clo cif func user m0 x) ->
  exists m', call c rv objs closure base m = Ok m' /\
  forall X V le, call_args c base clo X -> bytes_reg V -> word (X 11) -> word (X 14) ->
  exists s1 s2 X1 V1 le1 M1, reach e text org (St X V le (org + call_label c) m') s1 /\ reach e dynamic_text clo s1 s2 /\
    reach e text org s2 (St X1 V1 le1 (e (use_vfp c)) M1) /\ spc s1 = clo /\ trip_ok user X X1 M1).
Proof.
  intros C0 AP m0 HM. pose proof (prepared_of _ _ _ _ _ TS RT TT PR) as P. fold hard in P.
  destruct (call_plan var a rt ts c TS RT TT PR FB rv objs closure base m OB CO) as (m' & E & H). exists m'. split; [exact E|].
  intros X V le CA BV W11 W14. destruct (H e org X V le clo OK CA) as (Xa & Va & la & Ma & R & EN).
  assert (BB : bmem Ma /\ bytes_reg Va).
  { apply (reach_bytes _ _ _ _ _ R); auto. destruct CO as (_ & _ & _ & _ & _ & B6). exact (call_bytes _ _ _ _ _ _ _ B6 (objects_bytes _ _ OB) E). }
  destruct BB as [BMa BVa]. destruct (arrived_stack _ _ _ _ _ EN) as (S1 & S2 & S3). destruct (apart_clear _ _ _ _ _ _ _ EN AP) as (A1 & A2 & A3 & A4). destruct OK as [O0 O1].
  destruct (dynamic_way c hard rt ts P (Xa 13) S1 S2 S3 e org O0 O1 clo cif func user A1 A2 WC WF WU Xa Va la Ma m0 BMa BVa A3 A4 eq_refl) as (Xb & X1 & M1 & R1 & R2 & IA & AI & VF).
  { intros x L. rewrite (arrived_apart _ _ _ _ _ _ _ EN AP) by lia. apply HM. lia. }
  exists (St Xa Va la clo Ma), (St Xb Va la (org + closure_entry c false) Ma), X1, Va, la, M1.
  split; [exact R|]. split; [exact R1|]. split; [exact R2|]. split; [reflexivity|]. eapply trip; eauto.
Qed.

Theorem trip_static tr : closure = 0 -> apart clo 24 -> apart (tr + 4096) 8 -> (4 | tr) -> 0 <= tr -> clo + 24 <= tr + 4096 \/ tr + 4104 <= clo + 12 ->
  (forall m0, (forall x, clo + 12 <= x < clo + 24 \/ tr + 4096 <= x < tr + 4104 -> m x = prep_static c org clo (tr + 4096) cif func user m0 x) ->
  exists m', call c rv objs closure base m = Ok m' /\
  forall X V le, call_args c base tr X -> bytes_reg V -> word (X 11) -> word (X 14) ->
  exists s1 s2 X1 V1 le1 M1, reach e text org (St X V le (org + call_label c) m') s1 /\ reach e static_text tr s1 s2 /\
    reach e text org s2 (St X1 V1 le1 (e (use_vfp c)) M1) /\ spc s1 = tr /\ trip_ok user X X1 M1).
Proof.
  intros C0 AP AT T4 T0 CT m0 HM. pose proof (prepared_of _ _ _ _ _ TS RT TT PR) as P. fold hard in P.
  destruct (call_plan var a rt ts c TS RT TT PR FB rv objs closure base m OB CO) as (m' & E & H). exists m'. split; [exact E|].
  intros X V le CA BV W11 W14. destruct (H e org X V le tr OK CA) as (Xa & Va & la & Ma & R & EN).
  assert (BB : bmem Ma /\ bytes_reg Va).
  { apply (reach_bytes _ _ _ _ _ R); auto. destruct CO as (_ & _ & _ & _ & _ & B6). exact (call_bytes _ _ _ _ _ _ _ B6 (objects_bytes _ _ OB) E). }
  destruct BB as [BMa BVa]. destruct (arrived_stack _ _ _ _ _ EN) as (S1 & S2 & S3). destruct (apart_clear _ _ _ _ _ _ _ EN AP) as (A1 & A2 & A3 & A4).
  destruct (apart_clear _ _ _ _ _ _ _ EN AT) as (D1 & D2 & D3 & D4). destruct OK as [O0 O1].
  destruct (static_way c hard rt ts P (Xa 13) S1 S2 S3 e org O0 O1 clo cif func user A1 A2 WC WF WU Xa Va la Ma m0 tr BMa BVa A3 A4 T4 T0 ltac:(lia) ltac:(lia) CT eq_refl) as (Xb & Mb & X1 & M1 & R1 & R2 & IA & AI & VF).
  { intros x [L|L].
    - rewrite (arrived_apart _ _ _ _ _ _ _ EN AP) by lia. apply HM. lia.
    - rewrite (arrived_apart _ _ _ _ _ _ _ EN AT) by lia. apply HM. lia. }
  exists (St Xa Va la tr Ma), (St Xb Va la (org + closure_entry c true) Mb), X1, Va, la, M1.
  split; [exact R|]. split; [exact R1|]. split; [exact R2|]. split; [reflexivity|]. eapply trip; eauto.
Qed.

(** ffi_call_go with a go closure. *)
Theorem trip_go : closure = clo -> apart clo 12 -> (forall m0, (forall x, clo <= x < clo + 12 -> m x = prep_go c org clo cif func m0 x) ->
  exists m', call c rv objs closure base m = Ok m' /\
  forall X V le, call_args c base (le_dec (rd m clo 4)) X -> bytes_reg V -> word (X 11) -> word (X 14) ->
  exists s1 X1 V1 le1 M1, reach e text org (St X V le (org + call_label c) m') s1 /\
    reach e text org s1 (St X1 V1 le1 (e (use_vfp c)) M1) /\ trip_ok clo X X1 M1).
Proof.
  intros C0 AP m0 HM. pose proof (prepared_of _ _ _ _ _ TS RT TT PR) as P. fold hard in P.
  destruct (call_plan var a rt ts c TS RT TT PR FB rv objs closure base m OB CO) as (m' & E & H). exists m'. split; [exact E|].
  intros X V le CA BV W11 W14. destruct (H e org X V le _ OK CA) as (Xa & Va & la & Ma & R & EN).
  assert (BB : bmem Ma /\ bytes_reg Va).
  { apply (reach_bytes _ _ _ _ _ R); auto. destruct CO as (_ & _ & _ & _ & _ & B6). exact (call_bytes _ _ _ _ _ _ _ B6 (objects_bytes _ _ OB) E). }
  destruct BB as [BMa BVa]. destruct (arrived_stack _ _ _ _ _ EN) as (S1 & S2 & S3). destruct (apart_clear _ _ _ _ _ _ _ EN AP) as (A1 & A2 & A3 & A4). destruct OK as [O0 O1].
  assert (XC : Xa 12 = clo) by (rewrite <- C0; exact (en_chain _ _ _ _ _ _ _ _ _ _ _ _ _ _ _ EN)).
  assert (SM : forall x, clo <= x < clo + 12 -> Ma x = m x) by (apply (arrived_apart _ _ _ _ _ _ _ EN AP)).
  destruct (go_way c hard rt ts P (Xa 13) S1 S2 S3 e org O0 O1 clo cif func A1 A2 WC WF Xa Va la Ma m0 BMa BVa A3 A4 eq_refl XC) as (X1 & M1 & R2 & IA & AI & VF).
  { intros x L. rewrite SM by lia. apply HM. lia. }
  rewrite (rd_ext m Ma 4 clo) in R2 by (intros x L; apply SM; lia).
  exists (St Xa Va la (le_dec (rd m clo 4)) Ma), X1, Va, la, M1.
  split; [exact R|]. split; [exact R2|]. eapply trip; eauto.
Qed.
End Trips.

(** ** Ways into closures *)

(** The inner function gets cif, function and user data, and a frame with the core argument
    registers right below the stack arguments and the floating point registers at its start. *)
Definition came (c : acif) (cif func usr : Z) (X V M X1 M1 : Z -> Z) : Prop :=
  X1 0 = cif /\ X1 1 = func /\ X1 2 = usr /\
  X1 3 + 112 = X 13 /\ rd M1 (X1 3 + 96) 16 = words_of X [0; 1; 2; 3] /\ (use_vfp c = true -> rd M1 (X1 3) 64 = rd V 0 64) /\
  (8 | X1 13) /\ X1 13 <= X1 3 /\ (forall r, 4 <= r < 12 -> X1 r = X r) /\
  (forall x, x < X 13 - 120 \/ X 13 <= x -> M1 x = M x).
Lemma came_by c cif func usr S ret X V M X1 M1 : (8 | S) -> X 13 = S -> inner_args cif func usr X1 -> at_inner S ret X M X1 M1 ->
  (use_vfp c = true -> rd M1 (S - 112) 64 = rd V 0 64) -> came c cif func usr X V M X1 M1.
Proof.
  intros D XS (I0 & I1 & I2) A VF. unfold came. rewrite (ai_frame _ _ _ _ _ _ A), (ai_sp _ _ _ _ _ _ A), XS.
  replace (S - 112 + 96) with (S - 16) by lia. rewrite (ai_core _ _ _ _ _ _ A).
  repeat (split; [first [assumption | lia | reflexivity]|]). split; [destruct D as [q Q]; exists (q - 15); lia|]. split; [lia|].
  split; [exact (ai_saved _ _ _ _ _ _ A)|exact (ai_outside _ _ _ _ _ _ A)].
Qed.

Section Enter.
Variables (var : bool) (a : abi) (rt : ftype) (ts : list ftype) (c : acif).
Hypothesis TS : Forall ctype ts.
Hypothesis RT : rtype_ok rt.
Hypothesis TT : total ts < 2 ^ 31.
Hypothesis PR : prep var a rt ts = Ok c.
Variables (e : bool -> Z) (org clo cif func user : Z) (X V : Z -> Z) (le : bool) (M m0 : Z -> Z).
Hypothesis OK : text_ok org.
Hypothesis WC : word cif.
Hypothesis WF : word func.
Hypothesis BM : bmem M.
Hypothesis BV : bytes_reg V.
Hypothesis ST : stack_ok c (X 13).

Theorem enter_dynamic : word user -> clear (X 13) clo 24 -> (forall x, clo + 8 <= x < clo + 24 -> M x = prep_dynamic c org clo cif func user m0 x) ->
  exists s1 X1 M1, reach e dynamic_text clo (St X V le clo M) s1 /\ reach e text org s1 (St X1 V le (e (use_vfp c)) M1) /\ came c cif func user X V M X1 M1.
Proof.
  intros WU (C1 & C2 & C3 & C4) HM. pose proof (prepared_of _ _ _ _ _ TS RT TT PR) as P. destruct ST as (S1 & S2 & S3). destruct OK as [O0 O1].
  destruct (dynamic_way c _ rt ts P (X 13) S1 S2 S3 e org O0 O1 clo cif func user C1 C2 WC WF WU X V le M m0 BM BV C3 C4 eq_refl HM) as (Xb & X1 & M1 & R1 & R2 & IA & AI & VF).
  eexists _, X1, M1. split; [exact R1|]. split; [exact R2|]. eapply came_by; eauto.
Qed.
Theorem enter_static tr : word user -> clear (X 13) clo 24 -> clear (X 13) (tr + 4096) 8 -> (4 | tr) -> 0 <= tr -> clo + 24 <= tr + 4096 \/ tr + 4104 <= clo + 12 ->
  (forall x, clo + 12 <= x < clo + 24 \/ tr + 4096 <= x < tr + 4104 -> M x = prep_static c org clo (tr + 4096) cif func user m0 x) ->
  exists s1 X1 M1, reach e static_text tr (St X V le tr M) s1 /\ reach e text org s1 (St X1 V le (e (use_vfp c)) M1) /\ came c cif func user X V M X1 M1.
Proof.
  intros WU (C1 & C2 & C3 & C4) (D1 & D2 & D3 & D4) T4 T0 CT HM. pose proof (prepared_of _ _ _ _ _ TS RT TT PR) as P. destruct ST as (S1 & S2 & S3). destruct OK as [O0 O1].
  destruct (static_way c _ rt ts P (X 13) S1 S2 S3 e org O0 O1 clo cif func user C1 C2 WC WF WU X V le M m0 tr BM BV C3 C4 T4 T0 ltac:(lia) ltac:(lia) CT eq_refl HM) as (Xb & Mb & X1 & M1 & R1 & R2 & IA & AI & VF).
  eexists _, X1, M1. split; [exact R1|]. split; [exact R2|]. eapply came_by; eauto.
Qed.
Theorem enter_go : clear (X 13) clo 12 -> X 12 = clo -> (forall x, clo <= x < clo + 12 -> M x = prep_go c org clo cif func m0 x) ->
  exists X1 M1, reach e text org (St X V le (le_dec (rd M clo 4)) M) (St X1 V le (e (use_vfp c)) M1) /\ came c cif func clo X V M X1 M1.
Proof.
  intros (C1 & C2 & C3 & C4) XC HM. pose proof (prepared_of _ _ _ _ _ TS RT TT PR) as P. destruct ST as (S1 & S2 & S3). destruct OK as [O0 O1].
  destruct (go_way c _ rt ts P (X 13) S1 S2 S3 e org O0 O1 clo cif func C1 C2 WC WF X V le M m0 BM BV C3 C4 eq_refl XC HM) as (X1 & M1 & R2 & IA & AI & VF).
  exists X1, M1. split; [exact R2|]. eapply came_by; eauto.
Qed.
End Enter.
