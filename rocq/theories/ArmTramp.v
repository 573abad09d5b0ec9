(** The ways into a closure on 32-bit ARM: dynamic trampoline, static trampoline, go closure. *)
From Coq Require Import ZifyBool ZifyNat.
From Verif Require Import Base BaseFacts Types LayoutSpec NaturalTypes NaturalFacts ByteMem ArmModel ArmSpec ArmHfa ArmFp ArmPlan ArmCall ArmPrep ArmCallMem ArmClosure ArmAsmModel ArmAsmFacts ArmAsm ArmJoin ArmMain ArmCloMain.
Local Open Scope Z_scope.
Local Arguments Z.mul : simpl never.
Local Arguments Z.add : simpl never.
Local Arguments Z.sub : simpl never.
Local Arguments Z.pow : simpl never.
Local Arguments Z.of_nat : simpl never.

(** Three words one behind the other. *)
Lemma three (M : Z -> Z) a x y z : rd M a 12 = le_enc 4 x ++ le_enc 4 y ++ le_enc 4 z ->
  rd M a 4 = le_enc 4 x /\ rd M (a + 4) 4 = le_enc 4 y /\ rd M (a + 8) 4 = le_enc 4 z.
Proof.
  intros W. change 12%nat with (4 + (4 + 4))%nat in W. rewrite !rd_app in W. change (Z.of_nat 4) with 4 in W.
  apply app_split in W; [|rewrite rd_length, le_enc_length; reflexivity]. destruct W as [W0 W].
  apply app_split in W; [|rewrite rd_length, le_enc_length; reflexivity]. destruct W as [W1 W2].
  replace (a + 8) with (a + 4 + 4) by lia. auto.
Qed.
Lemma two (M : Z -> Z) a x y : rd M a 8 = le_enc 4 x ++ le_enc 4 y -> rd M a 4 = le_enc 4 x /\ rd M (a + 4) 4 = le_enc 4 y.
Proof.
  intros W. change 8%nat with (4 + 4)%nat in W. rewrite !rd_app in W. change (Z.of_nat 4) with 4 in W.
  apply app_split in W; [|rewrite rd_length, le_enc_length; reflexivity]. exact W.
Qed.
Lemma three_len x y z : zlen (le_enc 4 x ++ le_enc 4 y ++ le_enc 4 z) = 12.
Proof. rewrite !zlen_app, !zlen_enc. reflexivity. Qed.
Lemma two_len x y : zlen (le_enc 4 x ++ le_enc 4 y) = 8.
Proof. rewrite !zlen_app, !zlen_enc. reflexivity. Qed.

Section Ways.
Variables (c : acif) (hard : bool) (rt : ftype) (ts : list ftype).
Hypothesis P : prepared c hard rt ts.
Variables (S : Z).
Hypothesis SA : (8 | S).
Hypothesis S0 : 120 <= S.
Hypothesis SH : S + k_bytes c < 2 ^ 32.
Variables (e : bool -> Z) (org : Z).
Hypothesis O0 : 0 <= org.
Hypothesis O1 : org + 4 * zlen text <= 2 ^ 32.
Variables (clo cif func user : Z).
Hypothesis CA : (4 | clo).
Hypothesis C0 : 0 <= clo.
Hypothesis CIF : 0 <= cif < 2 ^ 32.
Hypothesis FUN : 0 <= func < 2 ^ 32.
Hypothesis USR : 0 <= user < 2 ^ 32.

(** The registers when the inner function is entered. *)
Definition inner_args (usr : Z) (X1 : Z -> Z) : Prop := X1 0 = cif /\ X1 1 = func /\ X1 2 = usr.

Lemma at_inner_from ret X M Xa Ma X1 M1 : at_inner S ret Xa Ma X1 M1 -> Xa 14 = X 14 -> (forall r, 4 <= r < 12 -> Xa r = X r) ->
  words_of Xa [0; 1; 2; 3] = words_of X [0; 1; 2; 3] -> (forall x, x < S - 120 \/ S <= x -> Ma x = M x) -> at_inner S ret X M X1 M1.
Proof.
  intros A L R W H. destruct A as [A1 A2 A3 A4 A5 A6 A7 A8]. constructor; auto.
  - intros r Q. rewrite A4, R by auto. reflexivity.
  - rewrite A5, L. reflexivity.
  - rewrite A6. exact W.
  - intros x Q. rewrite A7, H by auto. reflexivity.
Qed.

Theorem closure_way X V le M : bmem M -> (forall k, byte_ok (V k)) -> clo + 24 <= 2 ^ 32 - 1 -> clo + 24 <= S - 120 \/ S <= clo ->
  X 13 = S -> X 12 = clo -> rd M (clo + 12) 12 = le_enc 4 cif ++ le_enc 4 func ++ le_enc 4 user ->
  exists X1 M1, reach e text org (St X V le (org + closure_entry c false) M) (St X1 V le (e (use_vfp c)) M1) /\
    inner_args user X1 /\ at_inner S (org + (if use_vfp c then 256 else 180)) X M X1 M1 /\
    (use_vfp c = true -> rd M1 (S - 112) 64 = rd V 0 64).
Proof.
  intros BM BV C1 DIS XS XC W. pose proof (pr_min _ _ _ _ P) as BMIN. destruct SA as [s8 S8]. destruct CA as [qc QC].
  destruct (closure_in e org O0 O1 (use_vfp c) X V le M S (2 * s8) clo qc XS XC ltac:(lia) ltac:(lia) ltac:(lia) C0 C1) as (Xa & Ma & R1 & EM & Z0 & Z1 & Z2 & Z13 & Z14 & ZS).
  destruct (mid_inner c hard rt ts P S SA S0 SH e org X Xa V le M Ma O0 O1 BM BV Z13 Z14 ZS EM) as (X1 & M1 & R2 & Y0 & Y1 & Y2 & A & VF).
  exists X1, M1. split; [|split; [|split; [exact A|exact VF]]].
  - eapply reach_trans; [|exact R2]. unfold closure_entry. exact R1.
  - apply three in W. destruct W as (W0 & W1 & W2). replace (clo + 12 + 4) with (clo + 16) in W1 by lia. replace (clo + 12 + 8) with (clo + 20) in W2 by lia.
    pose proof (words_len X) as WL. unfold inner_args. rewrite Y0, Y1, Y2, Z0, Z1, Z2, EM, !rd_wr_other by lia. rewrite W0, W1, W2, !dec_enc4 by lia. auto.
Qed.

(** A closure with a dynamic trampoline. *)
Theorem dynamic_way X V le M m : bmem M -> (forall k, byte_ok (V k)) -> clo + 24 <= 2 ^ 32 - 1 -> clo + 24 <= S - 120 \/ S <= clo ->
  X 13 = S -> (forall x, clo + 8 <= x < clo + 24 -> M x = prep_dynamic c org clo cif func user m x) ->
  exists Xa X1 M1, reach e dynamic_text clo (St X V le clo M) (St Xa V le (org + closure_entry c false) M) /\
    reach e text org (St Xa V le (org + closure_entry c false) M) (St X1 V le (e (use_vfp c)) M1) /\
    inner_args user X1 /\ at_inner S (org + (if use_vfp c then 256 else 180)) X M X1 M1 /\
    (use_vfp c = true -> rd M1 (S - 112) 64 = rd V 0 64).
Proof.
  intros BM BV C1 DIS XS HM.
  assert (T1 : 4 * zlen text = 356) by reflexivity.
  assert (EB : 0 <= org + closure_entry c false < 2 ^ 32) by (unfold closure_entry; destruct (use_vfp c); lia).
  assert (W1 : rd M (clo + 8) 4 = le_enc 4 (org + closure_entry c false)).
  { rewrite (rd_ext (prep_dynamic c org clo cif func user m) M) by (intros x L; apply HM; lia). unfold prep_dynamic.
    rewrite rd_wr_other by (rewrite three_len; lia). apply rd_wr_same. rewrite le_enc_length. reflexivity. }
  assert (W2 : rd M (clo + 12) 12 = le_enc 4 cif ++ le_enc 4 func ++ le_enc 4 user).
  { rewrite (rd_ext (prep_dynamic c org clo cif func user m) M) by (intros x L; apply HM; lia). unfold prep_dynamic.
    apply rd_wr_same. rewrite !app_length, !le_enc_length. reflexivity. }
  destruct CA as [qc QC]. assert (QC' : clo = 4 * qc) by lia.
  set (Xa := upd X 12 clo).
  destruct (closure_way Xa V le M BM BV C1 DIS) as (X1 & M1 & R & IA & A & VF); [unfold Xa; regs; exact XS|unfold Xa; regs; reflexivity|exact W2|].
  exists Xa, X1, M1. split; [|split; [exact R|split; [exact IA|split; [|exact VF]]]].
  - replace (St X V le clo M) with (St X V le (clo + 0) M) by (rewrite Z.add_0_r; reflexivity).
    step1 clo. step1 clo. replace (clo + 4 + 4) with (clo + 8) by lia. rewrite W1, dec_enc4 by exact EB.
    replace (clo + 0 + 0) with clo by lia. apply reach_refl.
  - apply (at_inner_from _ X M Xa M); auto. unfold Xa. intros r Q. rewrite upd_other by lia. reflexivity.
Qed.

(** A closure with a static trampoline at [tr]. *)
Theorem static_way X V le M m tr : bmem M -> (forall k, byte_ok (V k)) -> clo + 24 <= 2 ^ 32 - 1 -> clo + 24 <= S - 120 \/ S <= clo ->
  (4 | tr) -> 0 <= tr -> tr + 4104 <= 2 ^ 32 - 1 -> tr + 4104 <= S - 120 \/ S <= tr + 4096 ->
  clo + 24 <= tr + 4096 \/ tr + 4104 <= clo + 12 ->
  X 13 = S -> (forall x, clo + 12 <= x < clo + 24 \/ tr + 4096 <= x < tr + 4104 -> M x = prep_static c org clo (tr + 4096) cif func user m x) ->
  exists Xa Ma X1 M1, reach e static_text tr (St X V le tr M) (St Xa V le (org + closure_entry c true) Ma) /\
    reach e text org (St Xa V le (org + closure_entry c true) Ma) (St X1 V le (e (use_vfp c)) M1) /\
    inner_args user X1 /\ at_inner S (org + (if use_vfp c then 256 else 180)) X M X1 M1 /\
    (use_vfp c = true -> rd M1 (S - 112) 64 = rd V 0 64).
Proof.
  intros BM BV C1 DIS TA T0 T1 TD CT XS HM. pose proof (pr_min _ _ _ _ P) as BMIN. assert (TL : 4 * zlen text = 356) by reflexivity.
  assert (EB : 0 <= org + closure_entry c true < 2 ^ 32) by (unfold closure_entry; destruct (use_vfp c); lia).
  assert (W1 : rd M (tr + 4096) 8 = le_enc 4 clo ++ le_enc 4 (org + closure_entry c true)).
  { rewrite (rd_ext (prep_static c org clo (tr + 4096) cif func user m) M) by (intros x L; apply HM; lia). unfold prep_static.
    rewrite rd_wr_other by (rewrite three_len; lia). apply rd_wr_same. rewrite app_length, !le_enc_length. reflexivity. }
  assert (W2 : rd M (clo + 12) 12 = le_enc 4 cif ++ le_enc 4 func ++ le_enc 4 user).
  { rewrite (rd_ext (prep_static c org clo (tr + 4096) cif func user m) M) by (intros x L; apply HM; lia). unfold prep_static.
    apply rd_wr_same. rewrite !app_length, !le_enc_length. reflexivity. }
  apply two in W1. destruct W1 as [W1 W1']. replace (tr + 4096 + 4) with (tr + 4100) in W1' by lia.
  destruct SA as [s8 S8]. destruct TA as [qt QT]. assert (QS : S = 4 * (2 * s8)) by lia. assert (QT' : tr = 4 * qt) by lia.
  set (Ma := wr (wr M (S - 8) (le_enc 4 (X 12))) (S - 4) (le_enc 4 clo)).
  assert (OUT : forall x, x < S - 120 \/ S <= x -> Ma x = M x).
  { intros x L. unfold Ma. rewrite !wr_out by (rewrite zlen_enc; lia). reflexivity. }
  assert (BMa : bmem Ma).
  { unfold Ma. intros x. apply wr_bytes; [|apply enc_bytes]. intros y. apply wr_bytes; [exact BM|apply enc_bytes]. }
  assert (R1 : exists Xa, reach e static_text tr (St X V le tr M) (St Xa V le (org + closure_entry c true) Ma) /\ Xa 13 = S - 8 /\ forall r, r <> 12 -> r <> 13 -> Xa r = X r).
  { eexists. split; [|split].
    - replace (St X V le tr M) with (St X V le (tr + 0) M) by (rewrite Z.add_0_r; reflexivity).
      do 3 step1 tr. regs. replace (rd _ (tr + 8 + 4088) 4) with (le_enc 4 clo).
      2: { rewrite rd_wr_other by (rewrite zlen_enc; lia). replace (tr + 8 + 4088) with (tr + 4096) by lia. auto. }
      rewrite dec_enc4 by lia. step1 tr. step1 tr. regs. replace (rd _ (tr + 16 + 4084) 4) with (le_enc 4 (org + closure_entry c true)).
      2: { rewrite !rd_wr_other by (rewrite zlen_enc; lia). replace (tr + 16 + 4084) with (tr + 4100) by lia. auto. }
      rewrite dec_enc4 by lia. rewrite XS. replace (S + -8 + 0) with (S - 8) by lia. replace (S + -8 + 4) with (S - 4) by lia. apply reach_refl.
    - regs. lia.
    - intros r A B. rewrite !upd_other by lia. reflexivity. }
  destruct R1 as (Xa & R1 & XA13 & XAO).
  destruct (alt_in e org O0 O1 (use_vfp c) Xa V le Ma S (2 * s8) XA13 QS ltac:(lia)) as (Xb & R2 & XB12 & XB13 & XBO).
  assert (BC : Xb 12 = clo).
  { rewrite XB12. unfold Ma. rewrite rd_wr_same by (rewrite le_enc_length; reflexivity). apply dec_enc4. lia. }
  destruct (closure_way Xb V le Ma BMa BV C1 DIS XB13 BC) as (X1 & M1 & R & IA & A & VF).
  { rewrite <- W2. apply rd_ext. intros x L. apply OUT. lia. }
  exists Xa, Ma, X1, M1. split; [exact R1|]. split; [|split; [exact IA|split; [|exact VF]]].
  - eapply reach_trans; [|exact R]. exact R2.
  - apply (at_inner_from _ X M Xb Ma); auto.
    + rewrite XBO, XAO by lia. reflexivity.
    + intros r Q. rewrite XBO, XAO by lia. reflexivity.
    + unfold words_of. cbn [map concat]. rewrite !XBO, !XAO by lia. reflexivity.
Qed.

(** A go closure, called with its address in the register for the static chain. *)
Theorem go_way X V le M m : bmem M -> (forall k, byte_ok (V k)) -> clo + 12 <= 2 ^ 32 - 1 -> clo + 12 <= S - 120 \/ S <= clo ->
  X 13 = S -> X 12 = clo -> (forall x, clo <= x < clo + 12 -> M x = prep_go c org clo cif func m x) ->
  exists X1 M1, reach e text org (St X V le (le_dec (rd M clo 4)) M) (St X1 V le (e (use_vfp c)) M1) /\
    inner_args clo X1 /\ at_inner S (org + (if use_vfp c then 256 else 180)) X M X1 M1 /\
    (use_vfp c = true -> rd M1 (S - 112) 64 = rd V 0 64).
Proof.
  intros BM BV C1 DIS XS XC HM. pose proof (pr_min _ _ _ _ P) as BMIN. destruct SA as [s8 S8]. destruct CA as [qc QC].
  assert (TL : 4 * zlen text = 356) by reflexivity.
  assert (W : rd M clo 12 = le_enc 4 (org + (if use_vfp c then 192 else 120)) ++ le_enc 4 cif ++ le_enc 4 func).
  { rewrite (rd_ext (prep_go c org clo cif func m) M) by (intros x L; apply HM; lia). unfold prep_go.
    apply rd_wr_same. rewrite !app_length, !le_enc_length. reflexivity. }
  apply three in W. destruct W as (W0 & W1 & W2). rewrite W0, dec_enc4 by (destruct (use_vfp c); lia).
  destruct (go_in e org O0 O1 (use_vfp c) X V le M S (2 * s8) clo qc XS XC ltac:(lia) ltac:(lia) ltac:(lia) C0 C1) as (Xa & Ma & R1 & EM & Z0 & Z1 & Z2 & Z13 & Z14 & ZS).
  destruct (mid_inner c hard rt ts P S SA S0 SH e org X Xa V le M Ma O0 O1 BM BV Z13 Z14 ZS EM) as (X1 & M1 & R2 & Y0 & Y1 & Y2 & A & VF).
  exists X1, M1. split; [|split; [|split; [exact A|exact VF]]].
  - eapply reach_trans; [exact R1|exact R2].
  - pose proof (words_len X) as WL. unfold inner_args. rewrite Y0, Y1, Y2, Z0, Z1, Z2, EM, !rd_wr_other by lia. rewrite W1, W2, !dec_enc4 by lia. auto.
Qed.
End Ways.
