(** Closures on 32-bit ARM, assembly code and C code together. *)
From Coq Require Import ZifyBool ZifyNat.
From Verif Require Import Base BaseFacts Types LayoutSpec NaturalTypes NaturalFacts ByteMem ArmModel ArmSpec ArmHfa ArmFp ArmPlan ArmCall ArmPrep ArmCallMem ArmClosure ArmAsmModel ArmAsmFacts ArmAsm ArmJoin ArmMain.
Local Open Scope Z_scope.
Local Arguments Z.mul : simpl never.
Local Arguments Z.add : simpl never.
Local Arguments Z.sub : simpl never.
Local Arguments Z.pow : simpl never.
Local Arguments Z.of_nat : simpl never.

(** What the standard puts into registers is what the handler sees. *)
Lemma seen_held (F : list Z) core V E M M' vfp : rd M' (E - 16) 16 = core -> (forall x, E <= x -> M' x = M x) ->
  (forall j k, In j F -> 4 * j <= k < 4 * j + 4 -> M' (vfp + k) = V k) ->
  forall ts ls objs, Forall ctype ts -> Forall2 good_loc ts ls -> Forall2 (fp_in F) ts ls ->
  held core V E M ts ls objs -> seen M' ts (map (pos (E - 16) vfp) ls) objs.
Proof.
  intros CO HI FP. induction ts as [|t ts IH]; intros [|l ls] [|o objs] TS GL FI H; cbn [held seen map] in *; auto.
  destruct H as [H1 H2]. inversion TS as [|? ? C TS']; subst. inversion GL as [|? ? ? ? G1 GL']; subst. inversion FI as [|? ? ? ? F1 FI']; subst.
  split; [|apply IH; auto]. destruct (ctype_basic t C) as (S1 & _).
  destruct l as [i|i|off]; cbn [at_loc pos good_loc fp_in] in *.
  - destruct H1 as [H1 _]. rewrite <- H1. apply rd_shift. intros k K. unfold area. destruct (4 * i + k <? 16) eqn:L.
    + rewrite rd_nth by lia. f_equal. lia.
    + rewrite HI by lia. f_equal. lia.
  - destruct G1 as (G1 & G2 & _). rewrite <- H1. apply rd_shift. intros k K. rewrite <- (FP ((4 * i + k) / 4)); [f_equal; lia| |lia]. apply F1; lia.
  - destruct H1 as [H1 _]. rewrite <- H1. apply rd_shift. intros k K. rewrite HI by lia. f_equal. lia.
Qed.
Section Clo.
Variables (c : acif) (hard : bool) (rt : ftype) (ts : list ftype).
Hypothesis P : prepared c hard rt ts.
Hypothesis TS : Forall ctype ts.
Hypothesis RT : rtype_ok rt.
Variables (S : Z).
Hypothesis SA : (8 | S).
Hypothesis S0 : 120 <= S.
Hypothesis SH : S + k_bytes c < 2 ^ 32.
Let ls := plan hard ts (first_core hard rt) [] 0.

Lemma soft_plan : use_vfp c = false -> ls = plan false ts (first_core hard rt) [] 0.
Proof.
  intros UV. pose proof (pr_use _ _ _ _ P) as PU. rewrite UV in PU. unfold ls. destruct hard; [|reflexivity]. cbn [andb] in PU. symmetry in PU.
  apply no_fp_forall in PU. apply plan_no_fp. auto.
Qed.
Lemma hard_plan : use_vfp c = true -> ls = plan true ts (first_core hard rt) [] 0 /\ hard = true.
Proof. intros UV. pose proof (pr_use _ _ _ _ P) as PU. rewrite UV in PU. symmetry in PU. apply andb_prop in PU. destruct PU as [HD _]. split; [|exact HD]. unfold ls. rewrite HD at 1. reflexivity. Qed.
Lemma ls_good : Forall2 good_loc ts ls.
Proof. apply plan_good; auto; [unfold first_core; destruct (in_memory hard rt); lia|lia|exists 0; reflexivity|apply packed_nil]. Qed.

(** The pointers given to the handler. *)
Lemma inner_ok M : bmem M -> exists m' rvalue, inner c (S - 112) M = Ok (m', rvalue, map (pos (S - 16) (S - 112)) ls) /\
  (in_memory hard rt = true -> rvalue = le_dec (rd M (S - 16) 4)) /\ (in_memory hard rt = false -> rvalue = S - 48) /\
  (forall x, ~ (S - 48 <= x < S - 44) -> m' x = M x) /\ bmem m'.
Proof.
  intros BM. pose proof (pr_over _ _ _ _ P) as OV. fold ls in OV. pose proof (pr_min _ _ _ _ P) as BMIN.
  destruct SA as [s8 S8]. assert (D8 : (8 | S - 16)) by (exists (s8 - 2); lia).
  assert (FC : first_core hard rt = if in_memory hard rt then 1 else 0) by reflexivity.
  unfold inner. destruct (use_vfp c) eqn:UV.
  - destruct (hard_plan UV) as [L HD]. rewrite L in OV |- *. unfold inner_vfp. rewrite (pr_mem _ _ _ _ P), (pr_args _ _ _ _ P).
    replace (S - 112 + 96) with (S - 16) by lia. replace (S - 112 + 64) with (S - 48) by lia.
    set (r := if in_memory hard rt then (le_dec (rd M (S - 16) 4), S - 16 + 4) else (S - 48, S - 16)).
    assert (RR : r = (if in_memory hard rt then le_dec (rd M (S - 16) 4) else S - 48, S - 16 + 4 * first_core hard rt)).
    { unfold r. rewrite FC. destruct (in_memory hard rt); f_equal; lia. }
    rewrite RR. cbv iota beta.
    rewrite (incoming_vfp_spec (S - 16) (S - 112) (k_bytes c + 4) D8 ltac:(lia) ltac:(lia) ltac:(lia) ts TS (first_core hard rt) [] 0).
    + cbn [bind]. eexists. eexists. split; [reflexivity|]. split; [intros ->; reflexivity|]. split; [intros ->; reflexivity|]. split; [auto|exact BM].
    + split; [rewrite FC; destruct (in_memory hard rt); lia|]. split; [lia|]. split; [exists 0; reflexivity|]. split; [apply packed_nil|].
      cbn [i_left i_argp i_used i_done i_regp]. split; [apply (pr_vfp _ _ _ _ P HD)|]. split; [lia|]. split; [lia|]. split; [discriminate|]. split; [discriminate|].
      intros _. rewrite FC. destruct (in_memory hard rt); lia.
    + exact OV.
  - rewrite (soft_plan UV) in OV |- *. unfold inner_sysv. rewrite (pr_mem _ _ _ _ P), (pr_args _ _ _ _ P), (pr_rtype _ _ _ _ P).
    replace (S - 112 + 96) with (S - 16) by lia. replace (S - 112 + 64) with (S - 48) by lia.
    assert (IN : forall p, p = S - 16 + 4 * first_core hard rt -> incoming_sysv ts p = map (pos (S - 16) (S - 112)) (plan false ts (first_core hard rt) [] 0)).
    { intros p ->. apply (incoming_sysv_spec (S - 16) (S - 112) (k_bytes c + 4) D8 ltac:(lia) ltac:(lia) ts TS (first_core hard rt) 0); auto; try lia.
      - rewrite FC. destruct (in_memory hard rt); lia.
      - exists 0. reflexivity.
      - unfold fill. cbn [Z.eqb]. lia.
      - rewrite FC. destruct (in_memory hard rt); lia. }
    rewrite FC in IN. rewrite FC. destruct (in_memory hard rt).
    + rewrite IN by lia. eexists. eexists. split; [reflexivity|]. split; [reflexivity|]. split; [discriminate|]. split; [auto|exact BM].
    + rewrite IN by lia. eexists. eexists. split; [reflexivity|]. split; [discriminate|]. split; [reflexivity|].
      destruct (_ && _); [|split; [auto|exact BM]]. split.
      * intros x X. apply wr_out. rewrite le_enc_zlen. lia.
      * intros x. apply wr_bytes; [exact BM|apply enc_bytes].
Qed.

(** When the inner function is entered. *)
Record at_inner (ret : Z) (X : Z -> Z) (M : Z -> Z) (X1 M1 : Z -> Z) : Prop := AtInner {
  ai_frame : X1 3 = S - 112;
  ai_sp : X1 13 = S - 120;
  ai_lr : X1 14 = ret;
  ai_saved : forall r, 4 <= r < 12 -> X1 r = X r;
  ai_words : rd M1 (S - 120) 8 = le_enc 4 S ++ le_enc 4 (X 14);
  ai_core : rd M1 (S - 16) 16 = words_of X [0; 1; 2; 3];
  ai_outside : forall x, x < S - 120 \/ S <= x -> M1 x = M x;
  ai_bytes : bmem M1
}.

Lemma words_len (X : Z -> Z) : zlen (words_of X [0; 1; 2; 3]) = 16.
Proof. unfold words_of. cbn [map concat]. rewrite !zlen_app, !zlen_enc. reflexivity. Qed.
Lemma words_bytes X l : bytes_ok (words_of X l).
Proof. unfold words_of. induction l as [|r l IH]; cbn [map concat]; [constructor|]. apply Forall_app. split; [apply enc_bytes|exact IH]. Qed.

(** From the label 0 on, the argument registers pushed. *)
Lemma mid_inner e org X X0 V le M M0 : 0 <= org -> org + 4 * zlen text <= 2 ^ 32 -> bmem M -> (forall k, byte_ok (V k)) ->
  X0 13 = S - 16 -> X0 14 = X 14 -> (forall r, 4 <= r < 12 -> X0 r = X r) -> M0 = wr M (S - 16) (words_of X [0; 1; 2; 3]) ->
  exists X1 M1, reach e text org (St X0 V le (org + (if use_vfp c then 232 else 160)) M0) (St X1 V le (e (use_vfp c)) M1) /\
    X1 0 = X0 0 /\ X1 1 = X0 1 /\ X1 2 = X0 2 /\
    at_inner (org + (if use_vfp c then 256 else 180)) X M X1 M1 /\
    (use_vfp c = true -> rd M1 (S - 112) 64 = rd V 0 64).
Proof.
  intros O0 O1 BM BV X13 X14 XS EM0. destruct SA as [s8 S8]. pose proof (pr_min _ _ _ _ P) as BMIN.
  destruct (closure_mid e org O0 O1 (use_vfp c) X0 V le M0 S (2 * s8) X13 ltac:(lia) ltac:(lia)) as (X1 & M1 & RE & EM & Z0 & Z1 & Z2 & Z3 & Z13 & Z14 & ZS).
  exists X1, M1. split; [exact RE|]. split; [exact Z0|]. split; [exact Z1|]. split; [exact Z2|]. rewrite X14 in EM. cbv zeta in EM.
  set (Ma := if use_vfp c then wr M0 (S - 112) (rd V 0 64) else M0) in *.
  assert (ZL : zlen (le_enc 4 S ++ le_enc 4 (X 14)) = 8) by (rewrite zlen_app, !zlen_enc; reflexivity).
  pose proof (words_len X) as WL.
  assert (MA : forall x, x < S - 112 \/ S - 48 <= x -> Ma x = M0 x).
  { intros x L. unfold Ma. destruct (use_vfp c); [|reflexivity]. apply wr_out. rewrite rd_zlen. lia. }
  assert (M1H : forall x, S - 48 <= x -> M1 x = M0 x) by (intros x L; rewrite EM, wr_out by lia; apply MA; lia).
  split.
  - constructor; auto.
    + intros r R. rewrite ZS by lia. auto.
    + rewrite EM. apply rd_wr_same. reflexivity.
    + rewrite (rd_ext M0 M1) by (intros x L; apply M1H; lia). rewrite EM0. apply rd_wr_same. unfold zlen in WL. lia.
    + intros x L. rewrite EM, wr_out by lia. rewrite MA by lia. rewrite EM0. apply wr_out. lia.
    + assert (B0 : bmem M0) by (rewrite EM0; intros x; apply wr_bytes; [exact BM|apply words_bytes]).
      assert (BA : bmem Ma) by (unfold Ma; destruct (use_vfp c); [|exact B0]; intros x; apply wr_bytes; [exact B0|apply bytes_rd; exact BV]).
      rewrite EM. intros x. apply wr_bytes; [exact BA|]. apply Forall_app. split; apply enc_bytes.
  - intros UV. rewrite EM, rd_wr_other by lia. unfold Ma. rewrite UV. apply rd_wr_same. rewrite rd_length. reflexivity.
Qed.

(** The arguments as the handler sees them. *)
Lemma inner_seen ret X V M X1 M1 objs : at_inner ret X M X1 M1 -> (use_vfp c = true -> rd M1 (S - 112) 64 = rd V 0 64) ->
  (in_memory hard rt = true -> 0 <= X 0 < 2 ^ 32) ->
  held (words_of X [0; 1; 2; 3]) V S M ts ls objs ->
  exists m2 rvalue ps, inner c (S - 112) M1 = Ok (m2, rvalue, ps) /\ seen m2 ts ps objs /\
    (in_memory hard rt = true -> rvalue = X 0) /\ (in_memory hard rt = false -> rvalue = S - 48) /\
    (forall x, ~ (S - 48 <= x < S - 44) -> m2 x = M1 x) /\ bmem m2.
Proof.
  intros A VF X0B H. destruct (inner_ok M1 (ai_bytes _ _ _ _ _ A)) as (m2 & rvalue & E & R1 & R2 & R3 & R4).
  exists m2, rvalue, (map (pos (S - 16) (S - 112)) ls). split; [exact E|]. split; [|split; [|split; [exact R2|split; [exact R3|exact R4]]]].
  - set (F := if use_vfp c then fpu [] ts else []).
    apply (seen_held F (words_of X [0; 1; 2; 3]) V S M m2 (S - 112)); auto.
    + rewrite <- (ai_core _ _ _ _ _ A). apply rd_ext. intros x L. apply R3. lia.
    + intros x L. rewrite R3 by lia. apply (ai_outside _ _ _ _ _ A). lia.
    + intros j k J K. unfold F in J. destruct (use_vfp c) eqn:UV; [|destruct J].
      assert (JB : 0 <= j < 16).
      { destruct (layout_spec ts TS [] (VSt 0 0 []) rel_start) as (v' & _ & _ & JJ & _). apply JJ. exact J. }
      specialize (VF eq_refl). rewrite R3 by lia.
      assert (Q : nth (Z.to_nat k) (rd M1 (S - 112) 64) 0 = nth (Z.to_nat k) (rd V 0 64) 0) by (rewrite VF; reflexivity).
      rewrite !rd_nth in Q by lia. replace (S - 112 + Z.of_nat (Z.to_nat k)) with (S - 112 + k) in Q by lia. replace (0 + Z.of_nat (Z.to_nat k)) with k in Q by lia. exact Q.
    + apply ls_good.
    + unfold F. destruct (use_vfp c) eqn:UV.
      * destruct (hard_plan UV) as [L _]. rewrite L. apply plan_fp_in. auto.
      * rewrite (soft_plan UV). apply plan_soft_fp.
  - intros I. rewrite (R1 I). pose proof (ai_core _ _ _ _ _ A) as CO. change 16%nat with (4 + 12)%nat in CO. rewrite rd_app in CO.
    unfold words_of in CO. cbn [map concat] in CO. apply app_split in CO; [|rewrite rd_length, le_enc_length; reflexivity]. destruct CO as [CO _].
    rewrite CO. apply dec_enc4. exact (X0B I).
Qed.

(** The way back. *)
Theorem closure_return e org X V le M lr : 0 <= org -> org + 4 * zlen text <= 2 ^ 32 -> bmem M ->
  X 13 = S - 120 -> X 0 = k_flags c -> rd M (S - 120) 8 = le_enc 4 S ++ le_enc 4 lr -> 0 <= lr < 2 ^ 32 ->
  exists X1 V1, reach e text org (St X V le (org + (if use_vfp c then 256 else 180)) M) (St X1 V1 le lr M) /\
    X1 13 = S /\ (forall r, 4 <= r < 12 -> X1 r = X r) /\ (forall k, 64 <= k -> V1 k = V k) /\
    (ctype rt -> in_memory hard rt = false -> result_bytes hard rt (words_of X1 [0; 1]) V1 = rd M (S - 48) (Z.to_nat (ty_size rt))).
Proof.
  intros O0 O1 BM X13 X0 WO LRB. destruct SA as [s8 S8]. pose proof (pr_min _ _ _ _ P) as BMIN. pose proof (pr_range _ _ _ _ P) as FR.
  destruct (closure_out e org O0 O1 (use_vfp c) X V le M S (2 * s8) (k_flags c) X13 X0 FR ltac:(lia) ltac:(lia)) as (X1 & V1 & RE & RR & Z13 & ZS).
  change 8%nat with (4 + 4)%nat in WO. rewrite rd_app in WO. apply app_split in WO; [|rewrite rd_length, le_enc_length; reflexivity]. destruct WO as [W1 W2].
  change (Z.of_nat 4) with 4 in W2. replace (S - 120 + 4) with (S - 116) in W2 by lia.
  rewrite W2, dec_enc4 in RE by lia. rewrite W1, dec_enc4 in Z13 by lia.
  exists X1, V1. split; [exact RE|]. split; [exact Z13|]. split; [exact ZS|]. split.
  - intros k K. unfold result_regs in RR.
    assert (C : k_flags c = 0 \/ k_flags c = 1 \/ k_flags c = 2 \/ k_flags c = 3 \/ k_flags c = 4 \/ k_flags c = 5 \/ k_flags c = 6) by lia.
    destruct C as [C|[C|[C|[C|[C|[C|C]]]]]]; rewrite C in RR; cbn [Z.eqb Pos.eqb] in RR.
    all: try (rewrite RR, wr_out by (rewrite rd_zlen; lia); reflexivity).
    all: try (destruct RR as (_ & _ & ->); reflexivity). all: try (destruct RR as (_ & ->); reflexivity). all: rewrite RR; reflexivity.
  - intros C IM. pose proof (flags_cases c hard rt ts P C IM) as FC. unfold result_bytes. unfold result_regs in RR.
    destruct (if hard then hfa_of rt else None).
    + destruct FC as [(F1 & F2)|[(F1 & F2)|(F1 & F2)]]; rewrite F1 in RR; cbn [Z.eqb Pos.eqb] in RR; rewrite RR.
      * rewrite F2. apply rd_wr_same. reflexivity.
      * rewrite F2. apply rd_wr_same. reflexivity.
      * rewrite rd_wr_sub by (rewrite ?rd_zlen; lia). rewrite Z.sub_diag. cbn [Z.to_nat skipn]. apply rd_firstn. lia.
    + destruct FC as [(F1 & F2)|(F1 & F2)]; rewrite F1 in RR; cbn [Z.eqb Pos.eqb] in RR.
      * destruct RR as (Z0 & Z1 & _). unfold words_of. cbn [map concat]. rewrite Z0, Z1, !enc_dec_rd by exact BM. rewrite app_nil_r, F2.
        change (Z.to_nat 8) with (4 + 4)%nat. rewrite rd_app. apply firstn_all2. rewrite app_length, !rd_length. lia.
      * destruct RR as (Z0 & _). unfold words_of. cbn [map concat]. rewrite Z0, enc_dec_rd by exact BM.
        rewrite firstn_app, rd_length. replace (Z.to_nat (ty_size rt) - 4)%nat with O by lia. rewrite firstn_O, app_nil_r. apply rd_firstn. lia.
Qed.
End Clo.
