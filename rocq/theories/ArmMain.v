(** ffi_call on 32-bit ARM, C code and assembly code together. *)
From Coq Require Import ZifyBool ZifyNat.
From Verif Require Import Base BaseFacts Types LayoutSpec NaturalTypes NaturalFacts ByteMem ArmModel ArmSpec ArmHfa ArmFp ArmPlan ArmCall ArmPrep ArmCallMem ArmAsmModel ArmAsmFacts ArmAsm ArmJoin.
Local Open Scope Z_scope.
Local Arguments Z.mul : simpl never.
Local Arguments Z.add : simpl never.
Local Arguments Z.sub : simpl never.
Local Arguments Z.pow : simpl never.
Local Arguments Z.of_nat : simpl never.

(** ** Results *)

Lemma flags_cases c hard rt ts : prepared c hard rt ts -> ctype rt -> in_memory hard rt = false ->
  match (if hard then hfa_of rt else None) with
  | Some _ => (k_flags c = 0 /\ ty_size rt = 4) \/ (k_flags c = 1 /\ ty_size rt = 8) \/ (k_flags c = 2 /\ 8 <= ty_size rt <= 32)
  | None => (k_flags c = 3 /\ ty_size rt = 8) \/ (k_flags c = 4 /\ 1 <= ty_size rt <= 4)
  end.
Proof.
  intros P C IM. pose proof (pr_flags _ _ _ _ P) as F. pose proof (pr_hard _ _ _ _ P) as H. subst hard. remember (k_abi c) as a eqn:EA. remember (k_flags c) as f eqn:EF. clear EA EF P.
  destruct (ctype_basic rt C) as (S1 & _).
  assert (COMP : (if ty_size rt <=? 4 then Ok K_INT else Ok K_STRUCT) = Ok f -> (4 <? ty_size rt) = false -> f = 4 /\ 1 <= ty_size rt <= 4).
  { intros E Q. replace (ty_size rt <=? 4) with true in E by lia. injection E as <-. unfold K_INT. lia. }
  assert (SC : forall x, In rt scalars -> ret_flags a rt = Ok x ->
     match (if hard_of a then hfa_of rt else None) with
     | Some _ => (x = 0 /\ ty_size rt = 4) \/ (x = 1 /\ ty_size rt = 8) \/ (x = 2 /\ 8 <= ty_size rt <= 32)
     | None => (x = 3 /\ ty_size rt = 8) \/ (x = 4 /\ 1 <= ty_size rt <= 4) end).
  { intros x I. cbn in I. in_cases I; destruct a; cbn; intros [= <-]; kc; lia. }
  destruct (ctype_cases rt C) as [I|AG]; [apply SC; auto|].
  assert (CC : ty_code rt = T_STRUCT \/ ty_code rt = T_COMPLEX).
  { destruct AG as [(u & _ & ->)|(s & al & es & -> & _)]; cbn; auto. }
  assert (FC : ret_flags a rt = match a with
     | VFP => let* h := vfp_type rt in if h =? 0 then (if ty_size rt <=? 4 then Ok K_INT else Ok K_STRUCT) else if h =? 256 + 2 then Ok K_VFP_S else if h =? 256 + 3 then Ok K_VFP_D else Ok K_VFP_N
     | SYSV => if ty_size rt <=? 4 then Ok K_INT else Ok K_STRUCT end).
  { unfold ret_flags. destruct CC as [-> | ->]; reflexivity. }
  assert (IC : in_memory (hard_of a) rt = match (if hard_of a then hfa_of rt else None) with Some _ => false | None => 4 <? ty_size rt end).
  { unfold in_memory. destruct CC as [-> | ->]; reflexivity. }
  rewrite IC in IM. rewrite FC in F. destruct a; cbn [hard_of] in *.
  - right. apply COMP; auto.
  - rewrite (vfp_type_exact rt C) in F. cbn [bind] in F. rewrite vfp_code_zero in F.
    destruct (hfa_of rt) as [[d n]|] eqn:HF; [|right; apply COMP; auto].
    destruct (vfp_code_some rt d n HF) as [VC _]. apply hfa_of_spec in HF. destruct HF as (MM & FL & NB).
    destruct (homogeneous_size rt C d n FL MM) as [SZ _]. rewrite VC in F.
    destruct d; try discriminate FL; cbn [tcode_num fsize] in *.
    + destruct (Z.eq_dec (Z.of_nat n) 1) as [E1|E1].
      * replace (256 * Z.of_nat n + 2 =? 256 + 2) with true in F by lia. injection F as <-. unfold K_VFP_S. lia.
      * replace (256 * Z.of_nat n + 2 =? 256 + 2) with false in F by lia. replace (256 * Z.of_nat n + 2 =? 256 + 3) with false in F by lia. injection F as <-. unfold K_VFP_N. lia.
    + replace (256 * Z.of_nat n + 3 =? 256 + 2) with false in F by lia. destruct (Z.eq_dec (Z.of_nat n) 1) as [E1|E1].
      * replace (256 * Z.of_nat n + 3 =? 256 + 3) with true in F by lia. injection F as <-. unfold K_VFP_D. lia.
      * replace (256 * Z.of_nat n + 3 =? 256 + 3) with false in F by lia. injection F as <-. unfold K_VFP_N. lia.
Qed.

(** ** The call *)

Lemma app_split {A} (a b x y : list A) : a ++ b = x ++ y -> length a = length x -> a = x /\ b = y.
Proof.
  revert x. induction a as [|h a IH]; intros [|k x] E L; try discriminate L; [auto|]. cbn in E. injection E as -> E.
  destruct (IH x E) as [-> ->]; [cbn in L; lia|]. auto.
Qed.

Lemma words_rd X M a : bmem M -> (forall i, 0 <= i < 4 -> X i = le_dec (rd M (a + 4 * i) 4)) -> words_of X [0; 1; 2; 3] = rd M a 16.
Proof.
  intros B H. unfold words_of. cbn [map concat]. rewrite !H by lia. rewrite !enc_dec_rd by exact B. rewrite app_nil_r.
  change 16%nat with (4 + (4 + (4 + 4)))%nat. rewrite !rd_app. change (Z.of_nat 4) with 4.
  replace (a + 4 * 0) with a by lia. replace (a + 4 * 1) with (a + 4) by lia. replace (a + 4 * 2) with (a + 4 + 4) by lia. replace (a + 4 * 3) with (a + 4 + 4 + 4) by lia. reflexivity.
Qed.

Lemma low_bits v j : 0 <= v <= 3 -> 0 <= j -> Z.testbit v j = true -> j < 2.
Proof.
  intros V J T. destruct (Z_lt_ge_dec j 2); auto. exfalso.
  assert (C : v = 0 \/ v = 1 \/ v = 2 \/ v = 3) by lia.
  rewrite Z.bits_above_log2 in T; [discriminate T|lia|]. destruct C as [-> |[-> |[-> | ->]]]; cbn; lia.
Qed.

Section Main.
Variables (c : acif) (hard : bool) (rt : ftype) (ts : list ftype).
Hypothesis P : prepared c hard rt ts.
Hypothesis TS : Forall ctype ts.
Hypothesis RT : rtype_ok rt.
Variables (rv : option Z) (objs : list (list Z)) (closure base : Z).
Hypothesis OB : objects_ok ts objs.
Hypothesis BA : (8 | base).
Hypothesis B0 : 0 <= base.
Hypothesis BH : base + alloc_size c rv < 2 ^ 32.
Hypothesis RVB : forall a, rv = Some a -> 0 <= a < 2 ^ 32.
Hypothesis CLB : 0 <= closure < 2 ^ 32.
Hypothesis FITS : ArmPlan.fits (k_bytes c) ts (plan hard ts (first_core hard rt) [] 0).

Let stk := stack_at c base.
Let fr := frame_at c base.

Lemma geometry : stk = base + (if use_vfp c then 64 else 0) /\ fr = stk + k_bytes c /\ 16 <= k_bytes c /\ fr + 20 + call_rsize c rv < 2 ^ 32 /\ 0 <= call_rsize c rv.
Proof.
  split; [reflexivity|]. split; [reflexivity|]. split; [apply (pr_min _ _ _ _ P)|].
  assert (RS : 0 <= call_rsize c rv) by (apply rsize_nonneg; rewrite (pr_rtype _ _ _ _ P); auto).
  unfold alloc_size, frame_size in BH. unfold fr, frame_at, stack_at. lia.
Qed.
Lemma new_bound : 0 <= new_rvalue c rv base < 2 ^ 32.
Proof.
  destruct geometry as (G1 & G2 & G3 & G4 & G5). unfold new_rvalue. fold fr. unfold frame_size. destruct (_ =? 0); [destruct rv as [a|]; [apply RVB; reflexivity|lia]|].
  destruct (use_vfp c); lia.
Qed.

(** The state when the function is entered. *)
Record entered (ret : Z) (X V : Z -> Z) (m : Z -> Z) (X1 V1 M1 : Z -> Z) : Prop := Entered {
  en_held : held (words_of X1 [0; 1; 2; 3]) V1 (X1 13) M1 ts (plan hard ts (first_core hard rt) [] 0) objs;
  en_sp : X1 13 = stk + 16;
  en_hidden : in_memory hard rt = true -> X1 0 = new_rvalue c rv base;
  en_chain : X1 12 = closure;
  en_lr : X1 14 = ret;
  en_fp : X1 11 = fr;
  en_saved : forall r, 4 <= r < 11 -> X1 r = X r;
  en_vsaved : forall k, 64 <= k -> V1 k = V k;
  en_frame : rd M1 fr 16 = le_enc 4 (X 11) ++ le_enc 4 (X 14) ++ le_enc 4 (new_rvalue c rv base) ++ le_enc 4 (call_flags c rv);
  en_outside : forall x, x < base \/ fr + 20 <= x -> M1 x = m x;
  en_bytes : bmem M1
}.

Theorem call_entry m : bmem m -> exists m', call c rv objs closure base m = Ok m' /\
  forall e org X V le fn, 0 <= org -> org + 4 * zlen text <= 2 ^ 32 ->
  X 0 = (if use_vfp c then base else stk) -> X 1 = fr -> X 2 = fn -> (use_vfp c = true -> X 3 = v_used (k_vfp c)) ->
  exists X1 V1 le1 M1,
    reach e text org (St X V le (org + (if use_vfp c then 0 else 16)) m') (St X1 V1 le1 fn M1) /\
    entered (org + 44) X V m X1 V1 M1.
Proof.
  intros BM. destruct (call_memory c hard rt ts P TS RT rv objs closure base OB BA B0 BH m) as (m' & E & ST & HP & F8 & F12 & F16 & OUT).
  exists m'. split; [exact E|]. intros e org X V le fn O0 O1 X0 X1 X2 X3.
  pose proof (call_bytes _ _ _ _ _ _ _ BM (objects_bytes _ _ OB) E) as BM'.
  destruct geometry as (G1 & G2 & G3 & G4 & G5). fold stk in ST, HP. fold fr in F8, F12, F16, OUT. unfold frame_size in OUT.
  pose proof (stk_8 c base BA) as S8. fold stk in S8. destruct S8 as [q8 Q8].
  pose proof (pr_align _ _ _ _ P) as [b8 B8]. pose proof new_bound as NB.
  (* the memory after stm *)
  set (M1 := wr m' fr (le_enc 4 (X 11) ++ le_enc 4 (X 14))).
  assert (BM1 : bmem M1) by (intros x; apply wr_bytes; [exact BM'|]; apply Forall_app; split; apply enc_bytes).
  assert (ZL : zlen (le_enc 4 (X 11) ++ le_enc 4 (X 14)) = 8) by (rewrite zlen_app, !zlen_enc; reflexivity).
  assert (LOW : forall x, x < fr \/ fr + 8 <= x -> M1 x = m' x) by (intros x L; apply wr_out; lia).
  set (ls := plan hard ts (first_core hard rt) [] 0) in *.
  assert (FC : 0 <= first_core hard rt <= 4) by (unfold first_core; destruct (in_memory hard rt); lia).
  assert (GL : Forall2 good_loc ts ls) by (apply plan_good; auto; [lia|exists 0; reflexivity|apply packed_nil]).
  assert (ST1 : stored M1 stk base ts ls objs).
  { apply (stored_ext ts m' M1 stk base (k_bytes c)); auto; try lia.
    - destruct (use_vfp c) eqn:UV; [left; lia|right]. intros I. apply in_map_iff in I. destruct I as (l & L1 & L2).
      pose proof (pr_use _ _ _ _ P) as PU. rewrite UV in PU.
      assert (L : ls = plan false ts (first_core hard rt) [] 0).
      { unfold ls. destruct hard; [|reflexivity]. cbn [andb] in PU. symmetry in PU. apply no_fp_forall in PU. apply plan_no_fp. auto. }
      rewrite L in L2. pose proof (plan_soft_fp ts [] (first_core hard rt) [] 0) as PF.
      assert (GP : forall ts' ls', Forall2 (fp_in []) ts' ls' -> Forall2 good_loc ts' ls' -> Forall ctype ts' -> In l ls' -> False).
      { clear - L1. induction 1 as [|t l' ts' ls' H HH IH]; intros G C [].
        - subst l'. destruct l as [i|i|o]; try discriminate L1. inversion C as [|? ? C1 C2]; subst. destruct (ctype_basic t C1) as (S1 & _). inversion G; subst. cbn [fp_in] in H.
          apply (H i); lia.
        - inversion C; subst. inversion G; subst. auto. }
      rewrite L in GL. eapply GP; eauto. }
  assert (FRM : rd M1 fr 16 = le_enc 4 (X 11) ++ le_enc 4 (X 14) ++ le_enc 4 (new_rvalue c rv base) ++ le_enc 4 (call_flags c rv)).
  { change 16%nat with (8 + (4 + 4))%nat. rewrite !rd_app. change (Z.of_nat 8) with 8. change (Z.of_nat 4) with 4.
    replace (rd M1 fr 8) with (le_enc 4 (X 11) ++ le_enc 4 (X 14)) by (symmetry; apply rd_wr_same; reflexivity).
    rewrite (rd_ext m' M1 4 (fr + 8)) by (intros x L; apply LOW; lia). rewrite (rd_ext m' M1 4 (fr + 8 + 4)) by (intros x L; apply LOW; lia).
    replace (fr + 8 + 4) with (fr + 12) by lia. rewrite F8, F12, <- app_assoc. reflexivity. }
  assert (CH : le_dec (rd M1 (fr + 16) 4) = closure).
  { rewrite (rd_ext m' M1 4) by (intros x L; apply LOW; lia). rewrite F16. apply dec_enc4. lia. }
  assert (HID : in_memory hard rt = true -> le_dec (rd M1 (stk + 4 * 0) 4) = new_rvalue c rv base).
  { intros I. replace (stk + 4 * 0) with stk by lia. rewrite (rd_ext m' M1 4) by (intros x L; apply LOW; lia). rewrite (HP I). apply dec_enc4. lia. }
  (* from the label ffi_call_SYSV *)
  assert (TAIL : forall Y W l, Y 0 = stk -> Y 1 = fr -> Y 2 = fn -> (forall r, r <> 0 -> Y r = X r) -> (forall k, 64 <= k -> W k = V k) ->
    (forall F, Forall2 (fp_in F) ts ls -> exists F', Forall2 (fp_in F') ts ls /\ forall j k, In j F' -> 4 * j <= k < 4 * j + 4 -> W k = M1 (base + k)) ->
    exists X1 M2, reach e text org (St Y W l (org + 16) m') (St X1 W l fn M2) /\ entered (org + 44) X V m X1 W M2).
  { intros Y W l Y0 Y1 Y2 YR WS WF.
    destruct (call_sysv e org O0 O1 Y W l m' (2 * q8) (2 * (q8 + b8)) ltac:(lia) ltac:(lia) ltac:(destruct (use_vfp c); lia) ltac:(lia) ltac:(destruct (use_vfp c); lia) ltac:(lia))
      as (Z1 & M2 & EM & RE & Z03 & Z13 & Z14 & Z12 & Z11 & ZS).
    rewrite Y1, (YR 11), (YR 14) in EM by lia. fold M1 in EM. subst M2. rewrite Y2 in RE. exists Z1, M1. split; [exact RE|].
    rewrite Y0 in Z03, Z13. rewrite Y1 in Z12, Z11.
    assert (CO : words_of Z1 [0; 1; 2; 3] = rd M1 stk 16) by (apply words_rd; auto).
    constructor; auto; try congruence.
    - destruct (WF (if hard then fpu [] ts else [])) as (F' & FI & FA).
      { unfold ls. destruct hard; [apply plan_fp_in; auto|apply plan_soft_fp]. }
      rewrite Z13. apply (held_stored F' _ W stk base M1 CO FA); auto.
    - intros I. rewrite Z03 by lia. auto.
    - intros r R. rewrite ZS by lia. apply YR. lia.
    - intros x L. rewrite LOW by (destruct (use_vfp c); lia). apply OUT. exact L. }
  destruct (use_vfp c) eqn:UV.
  - pose proof (pr_use _ _ _ _ P) as PU. rewrite UV in PU. symmetry in PU. apply andb_prop in PU. destruct PU as [HD _].
    pose proof (pr_used _ _ _ _ P) as VU. specialize (X3 eq_refl). destruct BA as [bq BQ].
    destruct (call_vfp e org O0 O1 X V le m' (2 * bq) ltac:(lia) ltac:(lia) ltac:(lia) ltac:(lia)) as (Y & W & l & RE & Y0 & YR & WE).
    destruct (TAIL Y W l) as (Z1 & M2 & RE2 & EN).
    + lia.
    + rewrite YR by lia. auto.
    + rewrite YR by lia. auto.
    + auto.
    + intros k K. rewrite WE. destruct (X 3 <=? 3); rewrite wr_out by (rewrite rd_zlen; lia); reflexivity.
    + intros _ _. exists (fpu [] ts). split; [unfold ls; rewrite HD; apply plan_fp_in; auto|].
      intros j k J K. pose proof (pr_bits _ _ _ _ P j HD J) as TB.
      assert (JB : 0 <= j < 16).
      { destruct (layout_spec ts TS [] (VSt 0 0 []) rel_start) as (v' & _ & _ & JJ & _). apply JJ. exact J. }
      assert (MK : forall n, 4 * j + 4 <= Z.of_nat n -> Z.of_nat n <= 64 -> wr V 0 (rd m' (X 0) n) k = M1 (base + k)).
      { intros n N1 N2. rewrite wr_in by (rewrite rd_zlen; lia). rewrite rd_nth by lia. rewrite X0. rewrite LOW by lia. f_equal. lia. }
      rewrite WE. destruct (X 3 <=? 3) eqn:L.
      * apply MK; [|lia]. assert (j < 2) by (apply (low_bits (v_used (k_vfp c))); auto; lia). lia.
      * apply MK; lia.
    + exists Z1, W, l, M2. split; [|exact EN]. eapply reach_trans; eauto.
  - destruct (TAIL X V le) as (Z1 & M2 & RE2 & EN); auto.
    + intros F FI. exists []. split; [|intros j k []].
      pose proof (pr_use _ _ _ _ P) as PU. rewrite UV in PU.
      assert (L : ls = plan false ts (first_core hard rt) [] 0).
      { unfold ls. destruct hard; [|reflexivity]. cbn [andb] in PU. symmetry in PU. apply no_fp_forall in PU. apply plan_no_fp. auto. }
      rewrite L. apply plan_soft_fp.
    + exists Z1, V, le, M2. split; [exact RE2|exact EN].
Qed.

(** Memory that a result takes: integers are widened to a word. *)
Definition room (t : ftype) : Z := if tcode_eqb (ty_code t) T_STRUCT then ty_size t else Z.max 4 (ty_size t).

Theorem call_return e org X V le M fp lr : 0 <= org -> org + 4 * zlen text <= 2 ^ 32 -> bmem M -> X 11 = fr ->
  rd M fr 16 = le_enc 4 fp ++ le_enc 4 lr ++ le_enc 4 (new_rvalue c rv base) ++ le_enc 4 (call_flags c rv) ->
  0 <= fp < 2 ^ 32 -> 0 <= lr < 2 ^ 32 ->
  (forall a, rv = Some a -> (4 | a) /\ a + 32 < 2 ^ 32 /\ (a + 32 <= base \/ base + alloc_size c rv <= a)) ->
  exists X1 M1, reach e text org (St X V le (org + 44) M) (St X1 V le lr M1) /\
    X1 11 = fp /\ X1 13 = fr + 8 /\ (forall r, 4 <= r < 11 -> X1 r = X r) /\
    (forall a, rv = Some a -> ctype rt -> in_memory hard rt = false ->
       rd (copy_back c rv base M1) a (Z.to_nat (ty_size rt)) = result_bytes hard rt (words_of X [0; 1]) V) /\
    (forall x, (forall a, rv = Some a -> ctype rt -> in_memory hard rt = false -> ~ (a <= x < a + room rt)) ->
       x < fr + 20 \/ base + alloc_size c rv <= x -> copy_back c rv base M1 x = M x).
Proof.
  intros O0 O1 BM XF FRM FPB LRB RVA. destruct geometry as (G1 & G2 & G3 & G4 & G5). pose proof new_bound as NB.
  pose proof (stk_8 c base BA) as S8. fold stk in S8. destruct S8 as [q8 Q8]. pose proof (pr_align _ _ _ _ P) as [b8 B8].
  assert (AL : base + alloc_size c rv = fr + 20 + call_rsize c rv) by (unfold alloc_size, frame_size, fr, frame_at, stack_at; lia).
  assert (W : rd M fr 4 = le_enc 4 fp /\ rd M (fr + 4) 4 = le_enc 4 lr /\ rd M (fr + 8) 4 = le_enc 4 (new_rvalue c rv base) /\ rd M (fr + 12) 4 = le_enc 4 (call_flags c rv)).
  { change 16%nat with (4 + (4 + (4 + 4)))%nat in FRM. rewrite !rd_app in FRM. change (Z.of_nat 4) with 4 in FRM.
    replace (fr + 4 + 4 + 4) with (fr + 12) in FRM by lia. replace (fr + 4 + 4) with (fr + 8) in FRM by lia.
    apply app_split in FRM; [|rewrite rd_length, le_enc_length; reflexivity]. destruct FRM as [W1 FRM]. split; [exact W1|].
    apply app_split in FRM; [|rewrite rd_length, le_enc_length; reflexivity]. destruct FRM as [W2 FRM]. split; [exact W2|].
    apply app_split in FRM; [|rewrite rd_length, le_enc_length; reflexivity]. exact FRM. }
  destruct W as (W0 & W4 & W8 & W12).
  set (nr := new_rvalue c rv base) in *. set (fl := call_flags c rv) in *.
  assert (FB : 0 <= fl <= 6).
  { pose proof (pr_range _ _ _ _ P). unfold fl, call_flags. destruct rv; [auto|]. unfold K_STRUCT, K_VOID. destruct (_ =? _); lia. }
  (* where the result is stored *)
  assert (NRA : fl < 5 -> exists a, rv = Some a /\ fl = k_flags c /\
    ((call_rsize c rv = 0 /\ nr = a /\ fl <> 2 /\ (fl = 4 -> ty_code rt <> T_STRUCT)) \/
     (call_rsize c rv = width fl /\ nr = fr + 20 /\ (fl = 2 \/ (fl = 4 /\ ty_code rt = T_STRUCT))))).
  { intros L. unfold fl, call_flags, nr, new_rvalue in *. fold fr. unfold frame_size. destruct rv as [a|]; [exists a; split; [auto|]; split; [auto|]|].
    - unfold call_rsize. rewrite (pr_rtype _ _ _ _ P). kc. destruct (k_flags c =? 2) eqn:E2.
      + right. replace (k_flags c) with 2 by lia. auto.
      + destruct (k_flags c =? 4) eqn:E4; cbn [andb].
        * destruct (tcode_eqb (ty_code rt) T_STRUCT) eqn:TC.
          -- right. replace (k_flags c) with 4 by lia. cbn. split; [auto|]. split; [auto|]. right. split; [auto|]. destruct (ty_code rt); try discriminate TC. reflexivity.
          -- left. split; [auto|]. split; [auto|]. split; [lia|]. intros _ E. rewrite E in TC. discriminate TC.
        * left. split; [auto|]. split; [auto|]. split; [lia|]. intros E. exfalso. lia.
    - exfalso. unfold K_STRUCT, K_VOID in L. destruct (k_flags c =? 6); lia. }
  assert (WB : 4 <= width fl <= 32) by (unfold width; destruct (fl =? 2); [lia|]; destruct (_ || _); lia).
  assert (N4 : exists qr, fl < 5 -> nr = 4 * qr /\ nr + width fl <= 2 ^ 32 - 1).
  { destruct (Z_lt_ge_dec fl 5) as [L|L]; [|exists 0; lia]. destruct (NRA L) as (a & EA & EF & [(R0 & EN & _)|(R0 & EN & _)]).
    - destruct (RVA a EA) as ([qa QA] & A1 & A2). exists qa. lia.
    - exists (2 * (q8 + b8) + 5). intros _. lia. }
  destruct N4 as [qr N4].
  destruct (ret_sysv e org O0 O1 X V le M fr (2 * (q8 + b8)) fl nr qr XF ltac:(lia) ltac:(destruct (use_vfp c); lia) ltac:(lia) W8 W12 FB NB N4) as (X1 & M1 & EM & RE & R11 & R13 & RS).
  (* the memory behind the stores *)
  assert (MO : forall x, ~ (fl < 5 /\ nr <= x < nr + width fl) -> M1 x = M x).
  { intros x N. rewrite EM. unfold kept_result, width in *.
    assert (C : fl = 0 \/ fl = 1 \/ fl = 2 \/ fl = 3 \/ fl = 4 \/ fl = 5 \/ fl = 6) by lia.
    destruct C as [C|[C|[C|[C|[C|[C|C]]]]]]; rewrite C in N |- *; cbn [Z.eqb Pos.eqb orb] in N |- *; rewrite ?wr_out by (rewrite ?rd_zlen, ?zlen_enc; lia); reflexivity. }
  assert (LOW : forall k, 0 <= k -> k + 4 <= 20 -> rd M1 (fr + k) 4 = rd M (fr + k) 4).
  { intros k K1 K2. apply rd_ext. intros x Hx. apply MO. intros (L & IN). destruct (NRA L) as (a & EA & EF & [(R0 & EN & _)|(R0 & EN & _)]); [|lia].
    destruct (RVA a EA) as (_ & A1 & A2). destruct (use_vfp c); lia. }
  assert (H0 : rd M1 fr 4 = le_enc 4 fp) by (rewrite <- W0, <- (Z.add_0_r fr); apply LOW; lia).
  rewrite (LOW 4), W4, dec_enc4 in RE by lia. rewrite H0, dec_enc4 in R11 by lia.
  exists X1, M1. split; [exact RE|]. split; [exact R11|]. split; [exact R13|]. split; [exact RS|].
  (* codes with a result *)
  assert (RES : forall a, rv = Some a -> ctype rt -> in_memory hard rt = false -> fl < 5 /\ fl = k_flags c).
  { intros a EA C IM. assert (EF : fl = k_flags c) by (unfold fl, call_flags; rewrite EA; reflexivity). split; [|exact EF]. rewrite EF.
    pose proof (flags_cases c hard rt ts P C IM) as FC. destruct (if hard then hfa_of rt else None); lia. }
  assert (NORES : fl < 5 -> ctype rt /\ in_memory hard rt = false).
  { intros L. destruct (NRA L) as (a & EA & EF & _). rewrite EF in L. split.
    - destruct RT as [-> |C]; [|exact C]. pose proof (pr_flags _ _ _ _ P) as PF. cbn in PF. injection PF as PF. unfold K_VOID in PF. lia.
    - rewrite <- (pr_mem _ _ _ _ P). unfold K_STRUCT. lia. }
  split.
  - intros a EA C IM. destruct (RES a EA C IM) as [L EF]. pose proof (flags_cases c hard rt ts P C IM) as FC. rewrite <- EF in FC.
    destruct (RVA a EA) as (_ & A1 & A2). destruct (ctype_basic rt C) as (S1 & _).
    (* the bytes stored *)
    assert (KR : rd M1 nr (Z.to_nat (ty_size rt)) = result_bytes hard rt (words_of X [0; 1]) V).
    { rewrite EM. unfold result_bytes, kept_result. destruct (if hard then hfa_of rt else None).
      - destruct FC as [(F1 & F2)|[(F1 & F2)|(F1 & F2)]]; rewrite F1; cbn [Z.eqb Pos.eqb].
        + rewrite F2. apply rd_wr_same. reflexivity.
        + rewrite F2. apply rd_wr_same. reflexivity.
        + rewrite rd_wr_sub by (rewrite ?rd_zlen; lia). rewrite Z.sub_diag. cbn [Z.to_nat skipn]. apply rd_firstn. lia.
      - destruct FC as [(F1 & F2)|(F1 & F2)]; rewrite F1; cbn [Z.eqb Pos.eqb].
        + rewrite F2. change (Z.to_nat 8) with (4 + 4)%nat. rewrite rd_app. change (Z.of_nat 4) with 4.
          rewrite rd_wr_same by reflexivity. rewrite rd_wr_other by (rewrite zlen_enc; lia). rewrite rd_wr_same by reflexivity.
          unfold words_of. cbn [map concat]. rewrite app_nil_r. rewrite firstn_all2 by (rewrite app_length, !le_enc_length; lia). reflexivity.
        + rewrite rd_wr_sub by (rewrite ?zlen_enc; lia). rewrite Z.sub_diag. cbn [Z.to_nat skipn].
          unfold words_of. cbn [map concat]. rewrite firstn_app, le_enc_length. replace (Z.to_nat (ty_size rt) - 4)%nat with O by lia. rewrite firstn_O, app_nil_r. reflexivity. }
    unfold copy_back. rewrite EA. fold nr. rewrite <- EA. fold nr. destruct (nr =? a) eqn:EQ.
    + replace a with nr by lia. exact KR.
    + rewrite (pr_rtype _ _ _ _ P), KR. rewrite <- KR. apply rd_wr_same. rewrite rd_length. reflexivity.
  - intros x OUT BL. unfold copy_back.
    assert (STEP : forall y, y = x -> M1 y = M y).
    { intros y ->. apply MO. intros (L & IN). destruct (NORES L) as [C IM]. destruct (NRA L) as (a & EA & EF & [(R0 & EN & E2 & E4)|(R0 & EN & _)]); [|lia].
      apply (OUT a EA C IM). pose proof (flags_cases c hard rt ts P C IM) as FC. rewrite <- EF in FC. unfold room, width in *.
      assert (ST : tcode_eqb (ty_code rt) T_STRUCT = true -> ty_code rt = T_STRUCT) by (destruct (ty_code rt); cbn; congruence).
      destruct (if hard then hfa_of rt else None).
      - destruct FC as [(F1 & F2)|[(F1 & F2)|(F1 & F2)]]; rewrite F1 in IN; cbn [Z.eqb Pos.eqb orb] in IN; try lia; destruct (tcode_eqb _ _); lia.
      - destruct FC as [(F1 & F2)|(F1 & F2)]; rewrite F1 in IN; cbn [Z.eqb Pos.eqb orb] in IN; destruct (tcode_eqb (ty_code rt) T_STRUCT) eqn:TC; try lia.
        exfalso. apply (E4 F1). auto. }
    destruct rv as [a|] eqn:EA; [|apply STEP; reflexivity]. rewrite <- EA in *. destruct (new_rvalue c rv base =? a) eqn:EQ; [apply STEP; reflexivity|].
    assert (RNZ : fl < 5).
    { destruct (Z_lt_ge_dec fl 5) as [L|L]; [exact L|]. exfalso. assert (EF : fl = k_flags c) by (unfold fl; rewrite ?EA; reflexivity).
      assert (new_rvalue c rv base = a); [|lia]. unfold new_rvalue. rewrite EA. unfold call_rsize. kc. replace (k_flags c =? 2) with false by lia. replace (k_flags c =? 4) with false by lia. reflexivity. }
    destruct (NORES RNZ) as [C IM]. destruct (ctype_basic rt C) as (S1 & _). rewrite wr_out; [apply STEP; reflexivity|]. rewrite rd_zlen, (pr_rtype _ _ _ _ P).
    specialize (OUT a EA C IM). unfold room in OUT. destruct (tcode_eqb _ _); lia.
Qed.
End Main.
