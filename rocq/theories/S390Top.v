(** Calls and closures of the s390x backend, C and assembly code together. *)
From Coq Require Import ZifyBool ZifyNat.
From Verif Require Import Base BaseFacts Types LayoutSpec NaturalTypes NaturalFacts ByteMem S390Model S390Spec S390Facts S390Arg S390Call S390Clo S390AsmModel S390AsmRun.
Local Open Scope Z_scope.
Local Arguments Z.mul : simpl never.
Local Arguments Z.add : simpl never.
Local Arguments Z.sub : simpl never.
Local Arguments Z.pow : simpl never.
Local Arguments Z.div : simpl never.
Local Arguments Z.modulo : simpl never.
Local Arguments Z.of_nat : simpl never.
Local Arguments be_enc : simpl never.
Local Arguments be_dec : simpl never.
Local Arguments rd : simpl never.

Lemma cif_ok rt ts : rtype_ok rt -> Forall ctype ts -> room (hidden rt) ts < 2 ^ 32 ->
  exists c, machdep rt ts = Ok c /\ tc_args c = ts /\ tc_rt c = rt /\ tc_bytes c = room (hidden rt) ts /\
    in_mem (tc_flags c) = (hidden rt =? 1) /\
    Z.land (tc_flags c) 7 = match ty_code rt with T_VOID | T_STRUCT | T_LONGDOUBLE | T_COMPLEX => 4 | T_FLOAT => 1 | T_DOUBLE => 0 | _ => 2 end.
Proof.
  intros R C N. destruct (machdep_ok rt ts R C N) as (fl & E & M & V). eexists. split; [exact E|]. cbn [tc_args tc_rt tc_bytes tc_flags].
  split; [reflexivity|]. split; [reflexivity|]. split; [reflexivity|]. split; [exact M|]. rewrite V. destruct (ty_code rt); reflexivity.
Qed.

(** A call as set up by ffi_call_int: result type, argument types, cif, result pointer (0: none),
    argument pointers, values, memory, the stack pointer, the end of the block from alloca. *)
Definition setup (rt : ftype) (ts : list ftype) (c : zcif) (rv : Z) (args : list Z) (vs : list (list Z)) (m : Z -> Z) (sp hi : Z) : Prop :=
  rtype_ok rt /\ machdep rt ts = Ok c /\ room (hidden rt) ts < 2 ^ 32 /\
  hi = sp + 160 + tc_bytes c + 160 + (if (rv =? 0) && (hidden rt =? 1) then ty_size rt else 0) /\
  0 <= sp /\ hi <= 2 ^ 64 /\ objects m sp hi ts args vs /\ 0 <= rv < 2 ^ 64.

Lemma setup_cif rt ts c rv args vs m sp hi : setup rt ts c rv args vs m sp hi ->
  Forall ctype ts /\ tc_args c = ts /\ tc_rt c = rt /\ tc_bytes c = room (hidden rt) ts /\ in_mem (tc_flags c) = (hidden rt =? 1) /\
  Z.land (tc_flags c) 7 = match ty_code rt with T_VOID | T_STRUCT | T_LONGDOUBLE | T_COMPLEX => 4 | T_FLOAT => 1 | T_DOUBLE => 0 | _ => 2 end.
Proof.
  intros (R & E & N & _ & _ & _ & Ob & _). assert (C := objects_types _ _ _ _ _ _ Ob). split; [exact C|].
  destruct (cif_ok rt ts R C N) as (c' & E' & A). rewrite E in E'. injection E' as <-. exact A.
Qed.

Lemma call_mem rt ts c rv args vs m sp hi back : setup rt ts c rv args vs m sp hi ->
  exists m1 frame code rvalue, call_int c rv args (sp + 160) back m = Ok (m1, frame, code, rvalue) /\
    frame = sp + 160 + room (hidden rt) ts /\
    code = (if rv =? 0 then if hidden rt =? 1 then Z.land (tc_flags c) 7 else 4 else Z.land (tc_flags c) 7) /\
    rvalue = (if (rv =? 0) && (hidden rt =? 1) then frame + 160 else rv) /\
    (hidden rt = 1 -> fword (sp + 160) frame m1 (LG 2) = rvalue) /\
    (forall x, ~ (sp + 160 <= x < frame + 160) -> m1 x = m x) /\
    (forall i t v, nth_error ts i = Some t -> nth_error vs i = Some v ->
       let l := place (hidden rt) (firstn i ts) t in let w := fword (sp + 160) frame m1 l in
       carries m1 t l w v /\ copy_in (sp + 160) frame t w).
Proof.
  intros Su. destruct (setup_cif _ _ _ _ _ _ _ _ _ Su) as (Ct & Ea & Er & Eb & Em & Ef).
  destruct Su as (R & E & N & Hh & S0 & Hi & Ob & Rv).
  set (h := hidden rt) in *. pose proof (hidden_ge rt) as H0. fold h in H0.
  pose proof (slots_ge h ts) as Sg. pose proof (copies_ge ts Ct) as Cg. unfold room in *. pose proof (r16_bound (8 * slots h ts)) as Rb. unfold r16 in Rb.
  assert (Rs : (if (rv =? 0) && (h =? 1) then ty_size rt else 0) = 0 <-> ((rv =? 0) && (h =? 1)) = false).
  { destruct ((rv =? 0) && (h =? 1)) eqn:Z; [|tauto]. split; [|discriminate]. intros Hs. destruct R as [->|C]; [discriminate|]. pose proof (ctype_size rt C). lia. }
  assert (Rp : 0 <= (if (rv =? 0) && (h =? 1) then ty_size rt else 0)).
  { destruct ((rv =? 0) && (h =? 1)); [|lia]. destruct R as [->|C]; [cbn; lia|]. pose proof (ctype_size rt C). lia. }
  unfold call_int. rewrite Em, Ea, Er, Eb. fold h.
  set (frame := sp + 160 + ((8 * slots h ts + 15) / 16 * 16 + copies ts)) in *.
  set (rvalue := if (if (rv =? 0) && (h =? 1) then ty_size rt else 0) =? 0 then rv else frame + FRAME).
  assert (Erv : rvalue = if (rv =? 0) && (h =? 1) then frame + 160 else rv).
  { unfold rvalue. destruct ((if (rv =? 0) && (h =? 1) then ty_size rt else 0) =? 0) eqn:Z; destruct ((rv =? 0) && (h =? 1)) eqn:Z2; try reflexivity; exfalso; lia. }
  assert (Hf : frame + 160 <= hi) by lia. assert (Hfs : sp + 160 <= frame) by lia.
  set (m0 := wr m frame (be_enc 8 back)).
  set (s := if h =? 1 then CSt (wr m0 (frame + O_GPR) (be_enc 8 rvalue)) 1 0 0 frame else CSt m0 0 0 0 frame).
  assert (Is : inv h [] s).
  { unfold s. destruct (h =? 1) eqn:Z; constructor; cbn [n_gpr n_fpr n_ov]; unfold slots, ints, fps, count, zlen; cbn; lia. }
  assert (Ps : p_struct s = frame) by (unfold s; destruct (h =? 1); reflexivity).
  assert (Lo : forall x, ~ (sp + 160 <= x < frame + 160) -> c_m s x = m x).
  { intros x Hx. unfold s, m0, O_GPR. destruct (h =? 1); cbn [c_m]; rewrite !wr_out by (ze; lia); reflexivity. }
  assert (Os : objects (c_m s) sp hi ts args vs) by (eapply objects_ext; [|exact Ob]; intros x Hx; apply Lo; lia).
  assert (Os' : objects (c_m s) (sp + 160) hi ts args vs).
  { clear - Os. generalize (c_m s) Os. clear Os. intros mm. revert args vs. induction ts as [|t l IH]; intros [|a args] [|v vs] Os; cbn in Os |- *; try contradiction; [exact Logic.I|]. destruct Os as (A & B & C & D & Os). split; [exact A|]. split; [exact B|]. split; [exact C|]. split; [lia|]. apply IH, Os. }
  destruct (args_ok h (sp + 160) frame hi ltac:(lia) Hf Hi ltac:(lia) ts args vs [] s Is Os') as (s' & K & I' & P' & Fr & Ca).
  1: lia.
  1: { cbn [app]. rewrite Ps. unfold frame. lia. }
  cbv zeta. fold m0. fold s. rewrite K. cbn [bind].
  eexists _, _, _, _. split; [reflexivity|]. split; [reflexivity|].
  split. { destruct (rv =? 0), (h =? 1); reflexivity. }
  split; [exact Erv|]. split.
  { intros H1. unfold fword. cbn [addr]. change (8 * (2 - 2)) with 0. rewrite Z.add_0_r.
    transitivity (be_dec (rd (c_m s) (frame + 16) 8)).
    - f_equal. apply rd_ext. change (Z.of_nat 8) with 8. intros x Hx. apply Fr. unfold fresh. destruct Is as [G1 F1 O1]. rewrite G1, F1, O1.
      rewrite H1. unfold ints, fps, slots, ints, fps, count, zlen. cbn. lia.
    - unfold s. rewrite H1. cbn [Z.eqb Pos.eqb c_m]. unfold O_GPR. rewrite rd_wr_same by (rewrite be_enc_length; reflexivity). apply dec_enc8. destruct ((rv =? 0) && (h =? 1)) eqn:Z2; lia. }
  split.
  { intros x Hx. rewrite Fr; [apply Lo, Hx|]. intros Hy. apply Hx. apply (fresh_bounds h [] (sp + 160) frame s x); auto; lia. }
  intros i t v Nt Nv. destruct (Ca i t v Nt Nv) as (Q1 & Q2). cbn [app] in Q1, Q2. split; [exact Q1|]. intros B. destruct (Q2 B) as (L1 & L2). rewrite P', Ps in L1. rewrite Ps in L2. split; [|exact L2]. refine (Z.le_trans _ _ _ _ L1). unfold frame. lia.
Qed.

(** Memory words become registers. *)
Lemma place_regs h ts i t : 0 <= h -> match place h (firstn i ts) t with LG r => 2 <= r <= 6 | LF r => r = 0 \/ r = 2 \/ r = 4 \/ r = 6 | LS k => 0 <= k end.
Proof.
  intros H0. unfold place. pose proof (ints_ge h (firstn i ts) H0). pose proof (fps_ge (firstn i ts)). pose proof (slots_ge h (firstn i ts)).
  destruct (floating t); [destruct (fps (firstn i ts) <? 4) eqn:E|destruct (ints h (firstn i ts) <? 5) eqn:E]; lia.
Qed.
Lemma slot_room h ts i t k : place h (firstn i ts) t = LS k -> nth_error ts i = Some t -> 8 * k + 8 <= 8 * slots h ts.
Proof.
  intros P Nt. assert (Ap : firstn (S i) ts = firstn i ts ++ [t]).
  { clear P. revert i Nt. clear. induction ts as [|a l IH]; intros [|i] Nt; cbn in Nt; try discriminate; [injection Nt as ->; reflexivity|]. cbn [firstn app]. rewrite <- (IH i Nt). reflexivity. }
  pose proof (slots_app h (firstn (S i) ts) (skipn (S i) ts)) as A. rewrite firstn_skipn in A. rewrite Ap in A.
  unfold slots in A at 1. rewrite ints_snoc, fps_snoc in A. unfold place, slots in P. 
  destruct (floating t); [destruct (fps (firstn i ts) <? 4) eqn:E|destruct (ints h (firstn i ts) <? 5) eqn:E]; try discriminate; injection P as <-; lia.
Qed.


Lemma stored_bytes rt v X F code : rtype_ok rt -> is_value rt v -> returned rt v X F ->
  code = match ty_code rt with T_VOID | T_STRUCT | T_LONGDOUBLE | T_COMPLEX => 4 | T_FLOAT => 1 | T_DOUBLE => 0 | _ => 2 end ->
  table_bytes code (X 2) (F 0) = stored rt v.
Proof.
  intros R V H ->. unfold returned, stored in *. destruct R as [->|C]; [reflexivity|].
  destruct (ty_code rt) eqn:E; try reflexivity;
    try (cbn [table_bytes]; rewrite word_all, <- (be_enc_mod 8 (X 2)); change (8 * Z.of_nat 8) with 64; rewrite H;
         change 64 with (8 * Z.of_nat 8); apply be_enc_mod).
  - destruct (scalar_code rt C) as [->|I]; try congruence; [discriminate E|]. cbn in I. repeat destruct I as [<-|I]; try discriminate E; [|contradiction].
    cbn [table_bytes]. change (Z.to_nat (ty_size ty_float)) with 4%nat in H. rewrite <- H, word_high, Z.shiftr_div_pow2 by lia. reflexivity.
  - destruct (scalar_code rt C) as [->|I]; try congruence; [discriminate E|]. cbn in I. repeat destruct I as [<-|I]; try discriminate E; [|contradiction].
    cbn [table_bytes]. change (Z.to_nat (ty_size ty_double)) with 8%nat in H. rewrite <- H, word_all. reflexivity.
Qed.

Lemma do_int_bytes stack frame v s : bytes_in (c_m s) -> bytes_in (c_m (do_int stack frame v s)).
Proof. intros B. unfold do_int. destruct (n_gpr s <? MAX_GPR); apply wr_bytes; auto using be_enc_ok. Qed.
Lemma do_fp_bytes stack frame r o s : bytes_in (c_m s) -> bytes_in (c_m (do_fp stack frame r o s)).
Proof. intros B. unfold do_fp. destruct (n_fpr s <? MAX_FPR); apply wr_bytes; auto using be_enc_ok. Qed.
Lemma do_ref_bytes stack frame t a s : bytes_in (c_m s) -> bytes_in (c_m (do_ref stack frame t a s)).
Proof. intros B. unfold do_ref. apply do_int_bytes. apply wr_bytes; auto using rd_bytes. Qed.
Lemma do_scalar_bytes stack frame c a s s' : bytes_in (c_m s) -> do_scalar stack frame c a s = Ok s' -> bytes_in (c_m s').
Proof. intros B. unfold do_scalar. destruct c; intros H; try discriminate H; injection H as <-; auto using do_int_bytes, do_fp_bytes. Qed.
Lemma call_arg_bytes stack frame t a s s' : bytes_in (c_m s) -> call_arg stack frame t a s = Ok s' -> bytes_in (c_m s').
Proof.
  intros B. unfold call_arg. destruct (ty_code t); try (apply do_scalar_bytes, B); try (intros H; injection H as <-; apply do_ref_bytes, B).
  destruct (check_struct t); try (apply do_scalar_bytes, B). intros H; injection H as <-; apply do_ref_bytes, B.
Qed.
Lemma call_args_bytes stack frame ts : forall args s s', bytes_in (c_m s) -> call_args stack frame ts args s = Ok s' -> bytes_in (c_m s').
Proof.
  induction ts as [|t ts IH]; intros args s s' B H; [cbn in H; injection H as <-; exact B|].
  destruct args as [|a args]; [discriminate H|]. cbn [call_args] in H. destruct (call_arg stack frame t a s) as [s1| |] eqn:K; try discriminate H.
  cbn [bind] in H. apply (IH args s1 s'); [|exact H]. apply (call_arg_bytes _ _ _ _ _ _ B K).
Qed.
Lemma call_int_bytes c rv args stack back m m1 fr cd p : bytes_in m -> call_int c rv args stack back m = Ok (m1, fr, cd, p) -> bytes_in m1.
Proof.
  intros B. unfold call_int. cbv zeta.
  destruct (call_args _ _ _ _ _) as [s'| |] eqn:K; cbn [bind]; intros H; try discriminate H. injection H as <- _ _ _.
  eapply call_args_bytes; [|exact K]. destruct (in_mem (tc_flags c)); cbn [c_m]; repeat (apply wr_bytes; [|apply be_enc_ok]); exact B.
Qed.

Lemma dec8_word m a : bytes_in m -> word_ok (be_dec (rd m a 8)).
Proof. intros B. pose proof (be_dec_bound _ (rd_bytes m B 8 a)) as Q. unfold zlen in Q. rewrite rd_length in Q. exact Q. Qed.

(** The state in which the function is entered. *)
Definition entered (rt : ftype) (ts : list ftype) (vs : list (list Z)) (rv : Z) (m : Z -> Z) (sp hi frame rvalue cl : Z) (X F X1 F1 M1 : Z -> Z) : Prop :=
  passed (hidden rt) ts vs X1 F1 M1 /\ refs_within (hidden rt) ts X1 F1 M1 (sp + 160) frame /\
  (hidden rt = 1 -> X1 2 = rvalue /\ rvalue = if rv =? 0 then hi - ty_size rt else rv) /\
  X1 0 = cl /\ X1 15 = sp /\ (forall r, 7 <= r <= 11 -> X1 r = X r) /\ (forall r, saved_f r -> F1 r = F r) /\
  (forall x, ~ (sp <= x < hi) -> M1 x = m x).

Lemma call_main rt ts c rv args vs m sp hi back org e fn cl ra :
  setup rt ts c rv args vs m sp hi -> 0 <= org -> org + 512 <= 2 ^ 64 ->
  exists m1 frame code rvalue, call_int c rv args (sp + 160) back m = Ok (m1, frame, code, rvalue) /\
  frame = sp + 160 + room (hidden rt) ts /\
  forall X F, words_in X -> X 2 = frame -> X 3 = code -> X 4 = rvalue -> X 5 = fn -> X 6 = cl -> X 14 = ra -> X 15 = sp ->
  exists X1 F1 M1, reach e text org (St X F (at_label src org 1) m1) (St X1 F1 fn M1) /\
    entered rt ts vs rv m sp hi frame rvalue cl X F X1 F1 M1 /\
    X1 14 = at_label src org 2 + 8 * code /\
    (bytes_in m -> bytes_in M1 /\ (forall r, 2 <= r <= 6 \/ r = 13 \/ r = 14 -> 0 <= X1 r < 2 ^ 64) /\ (forall r, r = 0 \/ r = 2 \/ r = 4 \/ r = 6 -> 0 <= F1 r < 2 ^ 64)) /\
    forall X2 F2 M2 v, (forall r, saved_x r -> X2 r = X1 r) ->
      (forall x, frame + 88 <= x < frame + 120 -> M2 x = M1 x) -> is_value rt v -> returned rt v X2 F2 ->
      (rv <> 0 -> hidden rt = 0 -> rv + 8 <= sp \/ hi <= rv /\ rv + 8 <= 2 ^ 64) ->
      exists X3 M3, reach e text org (St X2 F2 (X1 14) M2) (St X3 F2 ra M3) /\
        (forall r, saved_x r -> X3 r = X r) /\
        (rv <> 0 -> bytes_at M3 rv (zlen (stored rt v)) = stored rt v) /\
        (forall x, ~ (rv <> 0 /\ rv <= x < rv + zlen (stored rt v)) -> M3 x = M2 x).
Proof.
  intros Su Ho Ho2. destruct (call_mem _ _ _ _ _ _ _ _ _ back Su) as (m1 & frame & code & rvalue & K & Ef & Ec & Er & Hp & Lo & Ar).
  destruct (setup_cif _ _ _ _ _ _ _ _ _ Su) as (Ct & _ & _ & Eb & Em & Efl).
  destruct Su as (R & E & N & Hh & S0 & Hi & Ob & Rv).
  exists m1, frame, code, rvalue. split; [exact K|]. split; [exact Ef|]. intros X F Wx H2 H3 H4 H5 H6 H14 H15.
  set (h := hidden rt) in *. pose proof (hidden_ge rt) as H0. fold h in H0.
  pose proof (slots_ge h ts) as Sg. pose proof (copies_ge ts Ct) as Cg. pose proof (r16_bound (8 * slots h ts)) as Rb. unfold r16 in Rb.
  assert (Rp : 0 <= (if (rv =? 0) && (h =? 1) then ty_size rt else 0)).
  { destruct ((rv =? 0) && (h =? 1)); [|lia]. destruct R as [->|C]; [cbn; lia|]. pose proof (ctype_size rt C). lia. }
  assert (Hr : 0 <= room h ts) by (unfold room; lia).
  assert (Hf : frame + 160 <= hi) by lia. assert (Hfs : sp + 160 <= frame) by lia.
  set (cd := match ty_code rt with T_VOID | T_STRUCT | T_LONGDOUBLE | T_COMPLEX => 4 | T_FLOAT => 1 | T_DOUBLE => 0 | _ => 2 end) in *.
  assert (Hc4 : h = 1 -> cd = 4) by (unfold h, cd, hidden; destruct (ty_code rt); (reflexivity || discriminate)).
  assert (Ec' : code = if rv =? 0 then 4 else cd).
  { rewrite Ec, Efl. destruct (rv =? 0); [|reflexivity]. destruct (h =? 1) eqn:Z1; [apply Hc4; lia|reflexivity]. }
  assert (Hcd : cd = 0 \/ cd = 1 \/ cd = 2 \/ cd = 4) by (unfold cd; destruct (ty_code rt); auto).
  assert (Hcode : code = 0 \/ code = 1 \/ code = 2 \/ code = 4) by (rewrite Ec'; destruct (rv =? 0); auto).
  destruct (run_enter e org X F m1 frame code fn Ho Ho2 H2 H3 H5 ltac:(lia) ltac:(lia) ltac:(lia) ltac:(lia))
    as (X1 & F1 & M1 & Re & A0 & A12 & A13 & A14 & Ag & As & F0 & F2 & F4 & F6 & Fs & Sv & Lo2 & Bm2).
  exists X1, F1, M1. split; [exact Re|].
  assert (A15 : X1 15 = sp) by (rewrite As by lia; exact H15).
  rewrite H15 in Lo2.
  assert (Wd : forall i t, nth_error ts i = Some t -> word X1 F1 M1 (place h (firstn i ts) t) = fword (sp + 160) frame m1 (place h (firstn i ts) t)).
  { intros i t Nt. pose proof (place_regs h ts i t (proj1 H0)) as Pr. destruct (place h (firstn i ts) t) as [r|r|k] eqn:Ep.
    - unfold fword. cbn [word addr]. apply Ag. exact Pr.
    - unfold fword. cbn [word addr]. destruct Pr as [->|[->|[->| ->]]]; rewrite ?F0, ?F2, ?F4, ?F6; f_equal; f_equal; lia.
    - rewrite word_slot. unfold fword. cbn [addr]. rewrite A15. f_equal. apply rd_ext. change (Z.of_nat 8) with 8. intros x Hx.
      pose proof (slot_room h ts i t k Ep Nt) as Sr. assert (Q : sp + 160 + 8 * k + 8 <= frame) by (clear - Sr Ef Rb Cg; unfold room in Ef; lia). clear - Lo2 Hx Q Hf Hfs Pr. apply Lo2; lia. }
  assert (Tv : forall i t, nth_error ts i = Some t -> exists v, nth_error vs i = Some v).
  { clear - Ob. revert args vs Ob. induction ts as [|t0 l IH]; intros [|a args] [|v vs] Ob [|i] t Nt; cbn in Ob, Nt; try discriminate; try contradiction; [exists v; reflexivity|]. cbn. apply (IH args vs (proj2 (proj2 (proj2 (proj2 Ob)))) i t Nt). }
  split.
  { unfold entered. fold h. split; [|split; [|split; [|split; [|split; [|split; [|split]]]]]].
    - intros i t v Nt Nv. fold h. rewrite (Wd i t Nt). destruct (Ar i t v Nt Nv) as (Ca & Ci). eapply carries_ext; [|pose proof (ctype_size t (proj1 (Forall_forall _ _) Ct t (nth_error_In _ _ Nt))); lia|exact Ca].
      intros B x Hx. destruct (Ci B) as (L1 & L2). clear - Lo2 L1 L2 Hx Hf Hfs. apply Lo2; lia.
    - intros i t Nt B. cbv zeta. fold h. rewrite (Wd i t Nt). destruct (Tv i t Nt) as (v & Nv). destruct (Ar i t v Nt Nv) as (Ca & Ci). exact (Ci B).
    - intros H1. specialize (Hp H1). unfold fword in Hp. cbn [addr] in Hp. rewrite (Ag 2) by lia. split; [exact Hp|]. rewrite Er. rewrite H1 in *. cbn [Z.eqb Pos.eqb] in *. rewrite andb_true_r in *. clear - Hh Ef Eb. destruct (rv =? 0); lia.
    - rewrite A0. exact H6.
    - exact A15.
    - intros r Hr'. apply As. lia.
    - intros r Hr'. apply Fs. unfold saved_f in Hr'. lia.
    - intros x Hx. rewrite Lo2 by (clear - Hx Hf Hfs; lia). apply Lo. clear - Hx Hf Hfs; lia. }
  split; [exact A14|]. split.
  { intros Bm. assert (Bm1 : bytes_in m1) by exact (call_int_bytes _ _ _ _ _ _ _ _ _ _ Bm K).
    split; [|split].
    - apply Bm2, Bm1.
    - intros r [Hr'|[->| ->]]; [rewrite (Ag r Hr'); apply (dec8_word m1), Bm1|rewrite A13; clear - S0 Hf Hfs Hi; lia|rewrite A14, label_2; clear - Ho Ho2 Hcode; lia].
    - intros r [->|[->|[->| ->]]]; rewrite ?F0, ?F2, ?F4, ?F6; apply (dec8_word m1), Bm1. }
  intros X2 F2' M2 v Sx Fm V Rt Dr.
  assert (Sv2 : rd M2 (frame + 88) 32 = be_enc 8 (X 6) ++ be_enc 8 (X 12) ++ be_enc 8 (X 13) ++ be_enc 8 (X 14)).
  { rewrite <- Sv. apply rd_ext. change (Z.of_nat 32) with 32. intros x Hx. apply Fm. clear - Hx. lia. }
  assert (B12 : X2 12 = rvalue) by (rewrite Sx by (unfold saved_x; lia); rewrite A12; exact H4).
  assert (B13 : X2 13 = frame) by (rewrite Sx by (unfold saved_x; lia); exact A13).
  destruct (run_leave e org X2 F2' M2 frame code rvalue (X 6) (X 12) (X 13) (X 14) Ho Ho2 B13 B12 Hcode ltac:(clear - S0 Hfs; lia) ltac:(clear - Hf Hi; lia)) as (X3 & M3 & Re3 & C6 & C12 & C13 & Cs & Rd3 & Lo3).
  2: exact Sv2. 2: apply Wx. 2: apply Wx. 2: apply Wx. 2: apply Wx.
  1: { intros N4. rewrite Ec' in N4. destruct (rv =? 0) eqn:Z0; [lia|]. rewrite Er. cbn [andb]. rewrite (Bool.andb_false_l) in *. 
    assert (h = 0) by (unfold h, hidden, cd in *; destruct (ty_code rt); (reflexivity || lia)). specialize (Dr ltac:(clear - Z0; lia) H). clear - Dr Rv Hf Hfs S0 Hi. lia. }
  exists X3, M3. rewrite A14, <- H14. split; [exact Re3|]. split.
  { intros r Hr'. unfold saved_x in Hr'. destruct (Z.eq_dec r 6) as [->|N6]; [exact C6|]. destruct (Z.eq_dec r 12) as [->|N12]; [exact C12|]. destruct (Z.eq_dec r 13) as [->|N13]; [exact C13|].
    rewrite Cs by (clear - Hr' N6 N12 N13; lia). rewrite Sx by exact Hr'. apply As. clear - Hr' N6 N12 N13; lia. }
  destruct (rv =? 0) eqn:Z0.
  - split; [intros Hne; clear - Hne Z0; lia|]. intros x _. apply Lo3. rewrite Ec'. cbn [table_bytes]. unfold zlen. cbn. clear; lia.
  - rewrite (stored_bytes rt v X2 F2' code R V Rt Ec') in *. assert (Erv : rvalue = rv) by (rewrite Er; reflexivity). rewrite Erv in *.
    split. { intros _. rewrite bytes_at_rd. unfold zlen. rewrite Nat2Z.id. exact Rd3. }
    intros x Hx. apply Lo3. clear - Hx Z0. lia.
Qed.
