(** Closures of the s390x backend, C and assembly code together. *)
From Coq Require Import ZifyBool ZifyNat.
From Verif Require Import Base BaseFacts Types LayoutSpec NaturalTypes NaturalFacts ByteMem S390Model S390Spec S390Facts S390Arg S390Call S390Clo S390AsmModel S390AsmRun S390Top.
Local Open Scope Z_scope.
Local Arguments Z.mul : simpl never.
Local Arguments Z.add : simpl never.
Local Arguments Z.sub : simpl never.
Local Arguments Z.pow : simpl never.
Local Arguments Z.div : simpl never.
Local Arguments Z.modulo : simpl never.
Local Arguments Z.of_nat : simpl never.
Local Arguments be_enc : simpl never.
Local Arguments be_dec : simpl never.
Local Arguments rd : simpl never.

(** A function of type rt(ts) is entered with arguments [vs]; the closure is at [clo]. *)
Definition incoming (rt : ftype) (ts : list ftype) (vs : list (list Z)) (c : zcif) (clo : Z) (X F M : Z -> Z) : Prop :=
  rtype_ok rt /\ Forall ctype ts /\ room (hidden rt) ts < 2 ^ 32 /\ machdep rt ts = Ok c /\ Forall2 is_value ts vs /\
  bytes_in M /\ (forall r, 2 <= r <= 6 \/ r = 13 \/ r = 14 -> 0 <= X r < 2 ^ 64) /\ (forall r, r = 0 \/ r = 2 \/ r = 4 \/ r = 6 -> 0 <= F r < 2 ^ 64) /\
  176 <= X 15 /\ X 15 + 168 <= 2 ^ 64 /\ 0 <= clo /\ clo + 56 <= 2 ^ 64 /\ (clo + 56 <= X 15 + 16 \/ X 15 + 56 <= clo) /\
  passed (hidden rt) ts vs X F M /\ refs_outside (hidden rt) ts X F M (X 15 - 176) (X 15 + 160).

(** Values at the pointers in avalue. *)
Definition avalues (M : Z -> Z) (ts : list ftype) (vs : list (list Z)) (avs : list Z) : Prop :=
  length avs = length ts /\ Forall2 (fun p tv => bytes_at M p (ty_size (fst tv)) = snd tv) avs (combine ts vs).

(** The result is taken from rvalue. *)
Lemma result_ok rt v sp rvalue M : rtype_ok rt -> is_value rt v -> bytes_at M rvalue (zlen (stored rt v)) = stored rt v ->
  exists M', closure_result rt rvalue (sp + 16) (sp + 128) M = Ok M' /\
    (forall x, ~ (sp + 16 <= x < sp + 24) -> ~ (sp + 128 <= x < sp + 136) -> M' x = M x) /\
    (forall X F, X 2 = be_dec (rd M' (sp + 16) 8) -> F 0 = be_dec (rd M' (sp + 128) 8) -> returned rt v X F).
Proof.
  intros R V H. rewrite bytes_at_rd in H. unfold stored, returned, closure_result in *.
  destruct R as [->|C].
  { exists M. split; [reflexivity|]. split; [auto|]. intros; exact Logic.I. }
  destruct V as [L B]. fold (bytes_ok v) in B.
  assert (Ob : forall p l, (forall x, ~ (p <= x < p + 8) -> wr M p (be_enc 8 l) x = M x)).
  { intros p l x Hx. apply wr_out. rewrite be_enc_zlen. lia. }
  assert (Rs : forall p l, be_dec (rd (wr M p (be_enc 8 l)) p 8) = l mod 2 ^ 64).
  { intros p l. rewrite rd_wr_same by (rewrite be_enc_length; reflexivity). apply be_dec_enc. }
  assert (Int : rd M rvalue (Z.to_nat (zlen (word_bytes 0 8 (extended rt v)))) = word_bytes 0 8 (extended rt v) ->
    exists M', Ok (wr M (sp + 16) (be_enc 8 (be_dec (rd M rvalue 8)))) = Ok M' /\
    (forall x, ~ (sp + 16 <= x < sp + 24) -> ~ (sp + 128 <= x < sp + 136) -> M' x = M x) /\
    (forall X F : Z -> Z, X 2 = be_dec (rd M' (sp + 16) 8) -> F 0 = be_dec (rd M' (sp + 128) 8) -> X 2 mod 2 ^ 64 = extended rt v mod 2 ^ 64)).
  { rewrite word_all, be_enc_zlen. change (Z.to_nat (Z.of_nat 8)) with 8%nat. intros ->. eexists. split; [reflexivity|]. split; [intros; apply Ob; lia|].
    intros X F H2 _. rewrite H2, Rs, be_dec_enc. change (8 * Z.of_nat 8) with 64. rewrite !Z.mod_mod by lia. reflexivity. }
  destruct (ty_code rt) eqn:E; try (exists M; split; [reflexivity|]; split; [auto|]; intros; exact Logic.I); try exact (Int H).
  - destruct (scalar_code rt C) as [->|I]; try congruence; [discriminate E|]. cbn in I. repeat destruct I as [<-|I]; try discriminate E; [|contradiction].
    rewrite L in H. change (Z.to_nat (ty_size ty_float)) with 4%nat in *. eexists. split; [reflexivity|]. split; [intros; apply Ob; lia|].
    intros X F _ F0. rewrite F0, Rs, word_high, H. rewrite Z.shiftl_mul_pow2 by lia.
    pose proof (be_dec_bound v B) as Bd. rewrite L in Bd. change (2 ^ (8 * ty_size ty_float)) with (2 ^ 32) in Bd.
    rewrite (Z.mod_small (be_dec v * 2 ^ 32)) by lia. rewrite Z.div_mul by lia.
    replace 4%nat with (length v) by (unfold zlen in L; change (ty_size ty_float) with 4 in L; lia). apply be_enc_dec, B.
  - destruct (scalar_code rt C) as [->|I]; try congruence; [discriminate E|]. cbn in I. repeat destruct I as [<-|I]; try discriminate E; [|contradiction].
    rewrite L in H. change (Z.to_nat (ty_size ty_double)) with 8%nat in *. eexists. split; [reflexivity|]. split; [intros; apply Ob; lia|].
    intros X F _ F0. rewrite F0, Rs, word_all, H.
    pose proof (be_dec_bound v B) as Bd. rewrite L in Bd. change (2 ^ (8 * ty_size ty_double)) with (2 ^ 64) in Bd.
    rewrite Z.mod_small by lia.
    replace 8%nat with (length v) by (unfold zlen in L; change (ty_size ty_double) with 8 in L; lia). apply be_enc_dec, B.
Qed.

Lemma closure_main (o : bool) rt ts vs c clo X F M e org : incoming rt ts vs c clo X F M -> X 0 = clo ->
  0 <= org -> org + 512 <= 2 ^ 64 -> 0 <= e < 2 ^ 64 ->
  let sp := X 15 in
  exists X1 M1, reach e text org (St X F (at_label src org (if o then 4 else 5)) M) (St X1 F e M1) /\
    X1 2 = be_dec (rd M (clo + (if o then 8 else 32)) 8) /\ X1 3 = be_dec (rd M (clo + (if o then 16 else 40)) 8) /\
    X1 4 = (if o then clo else be_dec (rd M (clo + 48) 8)) /\
    (forall x, ~ (sp - 176 <= x < sp - 168) -> ~ (sp - 16 <= x < sp - 8) -> ~ (sp + 16 <= x < sp + 56) -> ~ (sp + 104 <= x < sp + 160) -> M1 x = M x) /\
    X1 5 = sp + 16 /\ X1 6 = sp + 128 /\ X1 15 = sp - 176 /\ rd M1 (sp + 48) 8 = be_enc 8 (X 6) /\
    forall buf, exists avs, let rvalue := if hidden rt =? 1 then X 2 else buf in
      closure_values c (X1 5) (X1 6) (be_dec (rd M1 (X1 15 + 160) 8)) buf M1 = Ok (rvalue, avs) /\ avalues M1 ts vs avs /\
      (forall i t p, nth_error ts i = Some t -> nth_error avs i = Some p ->
         let l := place (hidden rt) (firstn i ts) t in p = if by_ref t then word X F M l else addr (sp + 160) sp l + part t l) /\
      forall M2 v, is_value rt v -> bytes_at M2 rvalue (zlen (stored rt v)) = stored rt v ->
        (forall x, sp + 104 <= x < sp + 120 -> M2 x = M1 x) ->
        exists M3, closure_result rt rvalue (X1 5) (X1 6) M2 = Ok M3 /\
          (forall x, ~ (sp + 16 <= x < sp + 24) -> ~ (sp + 128 <= x < sp + 136) -> M3 x = M2 x) /\
          forall X2 F2, (forall r, saved_x r -> X2 r = X1 r) -> (forall r, saved_f r -> F2 r = F r) ->
          exists X3 F3, reach e text org (St X2 F2 (X1 14) M3) (St X3 F3 (X 14) M3) /\ returned rt v X3 F3 /\
            (forall r, saved_x r -> r <> 6 -> X3 r = X r) /\ (forall r, saved_f r -> F3 r = F r) /\
            X3 6 = be_dec (rd M2 (sp + 48) 8).
Proof.
  intros (R & Ct & N & E & Iv & Bm & Wx & Wf & S0 & S1 & C0 & C1 & Dc & Ps & Ro) Hc Ho Ho2 He sp.
  set (h := hidden rt) in *. pose proof (hidden_ge rt) as H0. fold h in H0.
  destruct (run_closure o e org X F M clo Ho Ho2 He Hc C0 C1 S0 S1 Dc)
    as (X1 & M1 & Re & A2 & A3 & A4 & A5 & A6 & Aov & A14 & A13 & A15 & As & Rg & Rf0 & Rf2 & Rf4 & Rf6 & Rx13 & Rx14 & Lo).
  fold sp in A5, A6, Aov, A13, A15, Rg, Rf0, Rf2, Rf4, Rf6, Rx13, Rx14, Lo.
  destruct (cif_ok rt ts R Ct N) as (c' & E' & Ea & Er & Eb & Em & Ef). rewrite E in E'. injection E' as <-.
  exists X1, M1. split; [exact Re|]. split; [exact A2|]. split; [exact A3|]. split; [exact A4|]. split; [exact Lo|]. split; [exact A5|]. split; [exact A6|]. split; [exact A15|].
  split. { change (sp + 48) with (sp + (16 + 8 * (6 - 2))). rewrite Z.add_assoc. apply Rg. lia. }
  intros buf.
  assert (Wl : forall i t, nth_error ts i = Some t -> let l := place h (firstn i ts) t in rd M1 (addr (sp + 160) sp l) 8 = be_enc 8 (word X F M l) /\ word_ok (word X F M l)).
  { intros i t Nt. cbv zeta. pose proof (place_regs h ts i t (proj1 H0)) as Pr. destruct (place h (firstn i ts) t) as [r|r|k] eqn:Ep.
    - cbn [word addr]. split; [apply Rg, Pr|apply Wx; lia].
    - cbn [word addr]. split; [|apply Wf, Pr]. destruct Pr as [->|[->|[->| ->]]]; [rewrite <- Rf0|rewrite <- Rf2|rewrite <- Rf4|rewrite <- Rf6]; f_equal; lia.
    - rewrite word_slot. cbn [addr]. fold sp. split; [|apply dec8_word, Bm].
      replace (rd M1 (sp + 160 + 8 * k) 8) with (rd M (sp + 160 + 8 * k) 8) by (apply rd_ext; change (Z.of_nat 8) with 8; intros x Hx; symmetry; clear - Lo Hx Pr; apply Lo; lia).
      rewrite <- (be_enc_dec (rd M (sp + 160 + 8 * k) 8)) at 1 by (apply rd_bytes, Bm). rewrite rd_length. reflexivity. }
  destruct (clo_args h sp M1 (word X F M) (proj1 H0) ts vs [] (Cnt (if h =? 1 then 1 else 0) 0 0 0) Ct Iv) as (avs & K & Va & Le & Lc).
  { cbn [k_gpr]. unfold ints, count, zlen. cbn. clear - H0. destruct (h =? 1) eqn:Z1; lia. } { reflexivity. } { cbn [k_ov]. unfold slots, ints, fps, count, zlen. cbn. lia. }
  { intros i t v Nt Nv. cbn [app]. split; [|exact (Wl i t Nt)]. cbv zeta in Wl. specialize (Ps i t v Nt Nv).
    eapply carries_ext; [|pose proof (ctype_size t (proj1 (Forall_forall _ _) Ct t (nth_error_In _ _ Nt))); lia|exact Ps].
    intros B x Hx. specialize (Ro i t Nt B). cbv zeta in Ro. fold sp in Ro. clear - Lo Ro Hx. apply Lo; lia. }
  exists avs. cbv zeta. split.
  { unfold closure_values. rewrite A5, A6, Aov, Em, Ea. fold h. rewrite K. cbn [bind]. do 2 f_equal.
    destruct (h =? 1); [|reflexivity]. replace (sp + 16) with (sp + 16 + 8 * (2 - 2)) by lia. rewrite Rg by lia. apply dec_enc8, Wx. lia. }
  split. { split; [exact Le|]. clear - Va. induction Va as [|p tv l l' Hp _ IH]; constructor; [rewrite bytes_at_rd; exact Hp|exact IH]. }
  split. { intros i t p Nt Np. exact (Lc i t p Nt Np). }
  intros M2 v V Hr Fm. set (rvalue := if h =? 1 then X 2 else buf) in *.
  destruct (result_ok rt v sp rvalue M2 R V Hr) as (M3 & Kr & Lo3 & Ret). exists M3. rewrite A5, A6. split; [exact Kr|]. split; [exact Lo3|].
  intros X2 F2 Sx Sf.
  assert (B13 : X2 13 = sp) by (rewrite Sx by (unfold saved_x; lia); exact A13).
  assert (T : forall k, 104 <= k <= 112 -> rd M3 (sp + k) 8 = rd M1 (sp + k) 8).
  { intros k Hk. apply rd_ext. change (Z.of_nat 8) with 8. intros x Hx. rewrite Lo3 by (clear - Hx Hk; lia). apply Fm. clear - Hx Hk; lia. }
  destruct (run_back e org X2 F2 M3 sp (X 13) (X 14) Ho Ho2 B13 ltac:(clear - S0; lia) ltac:(clear - S1; lia)) as (X3 & F3 & Re3 & B2 & B6 & B13' & B15 & Bs & Bf & Bfs).
  { rewrite T by lia. exact Rx13. } { rewrite T by lia. exact Rx14. } { apply Wx; auto. } { apply Wx; auto. }
  exists X3, F3. rewrite A14. split; [exact Re3|]. split; [apply Ret; assumption|]. split; [|split].
  - intros r Hr' N6. unfold saved_x in Hr'. destruct (Z.eq_dec r 13) as [->|N13]; [exact B13'|]. destruct (Z.eq_dec r 15) as [->|N15]; [exact B15|].
    assert (7 <= r <= 12) by (clear - Hr' N6 N13 N15; lia). rewrite Bs by assumption. rewrite Sx by (unfold saved_x; lia). apply As. assumption.
  - intros r Hr'. rewrite Bfs by (unfold saved_f in Hr'; lia). apply Sf, Hr'.
  - rewrite B6. f_equal. apply rd_ext. change (Z.of_nat 8) with 8. intros x Hx. apply Lo3; clear - Hx; lia.
Qed.

(** ** The code a closure is called by *)

Lemma dynamic_main closure cif func data codeloc entry m m' Mx X F :
  prep_closure true closure cif func data codeloc entry m = Some m' ->
  (forall k, 0 <= k < 56 -> Mx (codeloc + k) = m' (closure + k)) ->
  0 <= codeloc -> codeloc + 56 <= 2 ^ 64 -> 0 <= entry < 2 ^ 64 -> 0 <= cif < 2 ^ 64 -> 0 <= func < 2 ^ 64 -> 0 <= data < 2 ^ 64 ->
  (exists X1, msteps 3 (St X F codeloc Mx) = Some (St X1 F entry Mx) /\ X1 0 = codeloc /\ (forall r, 2 <= r -> X1 r = X r)) /\
  be_dec (rd Mx (codeloc + 32) 8) = cif /\ be_dec (rd Mx (codeloc + 40) 8) = func /\ be_dec (rd Mx (codeloc + 48) 8) = data /\
  (forall x, ~ (closure <= x < closure + 56) -> m' x = m x).
Proof.
  intros K Al L0 L1 We Wc Wf Wd. unfold prep_closure in K. injection K as K.
  assert (Rd : forall k n, 0 <= k -> k + Z.of_nat n <= 56 -> rd Mx (codeloc + k) n = rd m' (closure + k) n).
  { intros k n H0 H1. apply (nth_ext _ _ 0 0); [rewrite !rd_length; reflexivity|]. intros j Hj. rewrite rd_length in Hj. rewrite !rd_nth by lia.
    rewrite <- !Z.add_assoc. apply Al. lia. }
  assert (W : forall k v, 0 <= k -> k + 8 <= 56 -> rd m' (closure + k) 8 = be_enc 8 v -> rd Mx (codeloc + k) 8 = be_enc 8 v).
  { intros k v H0 H1 <-. apply Rd; [exact H0|lia]. }
  assert (T0 : rd Mx codeloc 10 = template).
  { rewrite <- (Z.add_0_r codeloc), Rd by lia. rewrite Z.add_0_r, <- K. rewrite !(rd_wr_other) by (change (Z.of_nat 10) with 10; rewrite be_enc_zlen; lia). apply rd_wr_same. reflexivity. }
  assert (T1 : rd Mx (codeloc + 16) 8 = be_enc 8 codeloc).
  { apply W; try lia. rewrite <- K. rewrite !(rd_wr_other) by (change (Z.of_nat 8) with 8; rewrite be_enc_zlen; lia). apply rd_wr_same. rewrite be_enc_length. reflexivity. }
  assert (T2 : rd Mx (codeloc + 24) 8 = be_enc 8 entry).
  { apply W; try lia. rewrite <- K. do 3 (rewrite (rd_wr_other) by (change (Z.of_nat 8) with 8; rewrite be_enc_zlen; lia)). apply rd_wr_same. rewrite be_enc_length. reflexivity. }
  destruct (run_dynamic X F Mx codeloc codeloc entry L0 ltac:(lia) T0 T1 T2 ltac:(lia) We) as (X1 & Ms & A0 & _ & Ar).
  split. { exists X1. auto. }
  split. { rewrite (W 32 cif); try lia; [apply dec_enc8, Wc|]. rewrite <- K. do 2 (rewrite (rd_wr_other) by (change (Z.of_nat 8) with 8; rewrite be_enc_zlen; lia)). apply rd_wr_same. rewrite be_enc_length. reflexivity. }
  split. { rewrite (W 40 func); try lia; [apply dec_enc8, Wf|]. rewrite <- K. do 1 (rewrite (rd_wr_other) by (change (Z.of_nat 8) with 8; rewrite be_enc_zlen; lia)). apply rd_wr_same. rewrite be_enc_length. reflexivity. }
  split. { rewrite (W 48 data); try lia; [apply dec_enc8, Wd|]. rewrite <- K. apply rd_wr_same. rewrite be_enc_length. reflexivity. }
  intros x Hx. rewrite <- K. rewrite !wr_out by (rewrite ?be_enc_zlen; unfold zlen; cbn; lia). reflexivity.
Qed.

Lemma static_main i table closure cif func data entry m m' e X F :
  prep_closure_static true closure cif func data (table + 4096 + 16 * i) entry m = Some m' ->
  0 <= i < 256 -> 0 <= table -> table + 8192 <= 2 ^ 64 ->
  (closure + 56 <= table \/ table + 8192 <= closure) ->
  0 <= closure < 2 ^ 64 -> 0 <= entry < 2 ^ 64 -> 0 <= cif < 2 ^ 64 -> 0 <= func < 2 ^ 64 -> 0 <= data < 2 ^ 64 ->
  (exists X1, reach e table_text table (St X F (table + 16 * i) m') (St X1 F entry m') /\ X1 0 = closure /\ (forall r, 2 <= r -> X1 r = X r)) /\
  be_dec (rd m' (closure + 32) 8) = cif /\ be_dec (rd m' (closure + 40) 8) = func /\ be_dec (rd m' (closure + 48) 8) = data /\
  (forall x, ~ (closure + 32 <= x < closure + 56) -> ~ (table + 4096 + 16 * i <= x < table + 4096 + 16 * i + 16) -> m' x = m x).
Proof.
  intros K Hi T0 T1 Dj Wcl We Wc Wf Wd. unfold prep_closure_static in K. injection K as K.
  assert (P0 : rd m' (table + 4096 + 16 * i) 8 = be_enc 8 closure).
  { rewrite <- K. do 4 (rewrite rd_wr_other by (change (Z.of_nat 8) with 8; rewrite be_enc_zlen; lia)). apply rd_wr_same. rewrite be_enc_length. reflexivity. }
  assert (P1 : rd m' (table + 4096 + 16 * i + 8) 8 = be_enc 8 entry).
  { rewrite <- K. do 3 (rewrite rd_wr_other by (change (Z.of_nat 8) with 8; rewrite be_enc_zlen; lia)). apply rd_wr_same. rewrite be_enc_length. reflexivity. }
  destruct (run_static e X F m' table i closure entry Hi T0 T1 P0 P1 Wcl We) as (X1 & Re & A0 & _ & Ar).
  split. { exists X1. auto. }
  split. { rewrite <- K. do 2 (rewrite (rd_wr_other) by (change (Z.of_nat 8) with 8; rewrite be_enc_zlen; lia)). rewrite rd_wr_same by (rewrite be_enc_length; reflexivity). apply dec_enc8, Wc. }
  split. { rewrite <- K. do 1 (rewrite (rd_wr_other) by (change (Z.of_nat 8) with 8; rewrite be_enc_zlen; lia)). rewrite rd_wr_same by (rewrite be_enc_length; reflexivity). apply dec_enc8, Wf. }
  split. { rewrite <- K. rewrite rd_wr_same by (rewrite be_enc_length; reflexivity). apply dec_enc8, Wd. }
  intros x N1 N2. rewrite <- K. rewrite !wr_out by (rewrite ?be_enc_zlen; lia). reflexivity.
Qed.

Lemma go_main closure cif func entry m m' :
  prep_go true closure cif func entry m = Some m' -> 0 <= entry < 2 ^ 64 -> 0 <= cif < 2 ^ 64 -> 0 <= func < 2 ^ 64 ->
  be_dec (rd m' closure 8) = entry /\ be_dec (rd m' (closure + 8) 8) = cif /\ be_dec (rd m' (closure + 16) 8) = func /\
  (forall x, ~ (closure <= x < closure + 24) -> m' x = m x).
Proof.
  intros K We Wc Wf. unfold prep_go in K. injection K as K. rewrite <- K.
  split. { do 2 (rewrite (rd_wr_other) by (change (Z.of_nat 8) with 8; rewrite be_enc_zlen; lia)). rewrite rd_wr_same by (rewrite be_enc_length; reflexivity). apply dec_enc8, We. }
  split. { do 1 (rewrite (rd_wr_other) by (change (Z.of_nat 8) with 8; rewrite be_enc_zlen; lia)). rewrite rd_wr_same by (rewrite be_enc_length; reflexivity). apply dec_enc8, Wc. }
  split. { rewrite rd_wr_same by (rewrite be_enc_length; reflexivity). apply dec_enc8, Wf. }
  intros x N1. rewrite !wr_out by (rewrite ?be_enc_zlen; lia). reflexivity.
Qed.

(** ** A closure called by ffi_call *)

Lemma objects_values m lo hi ts : forall args vs, objects m lo hi ts args vs -> Forall2 is_value ts vs.
Proof. induction ts as [|t l IH]; intros [|a args] [|v vs] H; cbn in H; try contradiction; constructor; [apply H|]. apply (IH args), H. Qed.

Lemma passed_regs h ts vs X Y F M : (forall r, 2 <= r -> Y r = X r) -> 0 <= h -> passed h ts vs X F M -> passed h ts vs Y F M.
Proof.
  intros A H0 P i t v Nt Nv. specialize (P i t v Nt Nv). pose proof (place_regs h ts i t H0) as Pr.
  replace (word Y F M (place h (firstn i ts) t)) with (word X F M (place h (firstn i ts) t)); [exact P|].
  destruct (place h (firstn i ts) t) as [r|r|k]; cbn [word]; [symmetry; apply A; lia|reflexivity|rewrite A by lia; reflexivity].
Qed.
Lemma refs_regs h ts X Y F M lo hi : (forall r, 2 <= r -> Y r = X r) -> 0 <= h -> refs_outside h ts X F M lo hi -> refs_outside h ts Y F M lo hi.
Proof.
  intros A H0 P i t Nt B. specialize (P i t Nt B). cbv zeta in *. pose proof (place_regs h ts i t H0) as Pr.
  replace (word Y F M (place h (firstn i ts) t)) with (word X F M (place h (firstn i ts) t)); [exact P|].
  destruct (place h (firstn i ts) t) as [r|r|k]; cbn [word]; [symmetry; apply A; lia|reflexivity|rewrite A by lia; reflexivity].
Qed.

Lemma trip_main rt ts c rv args vs m m0 sp hi back org e cl ra clo cif func data :
  setup rt ts c rv args vs m sp hi -> 0 <= org -> org + 512 <= 2 ^ 64 -> 0 <= e < 2 ^ 64 -> bytes_in m ->
  prep_closure true clo cif func data clo (at_label src org 5) m0 = Some m ->
  0 <= clo -> clo + 56 <= 2 ^ 64 -> (clo + 56 <= sp \/ hi <= clo) -> 176 <= sp ->
  0 <= cif < 2 ^ 64 -> 0 <= func < 2 ^ 64 -> 0 <= data < 2 ^ 64 ->
  (rv <> 0 -> hidden rt = 0 -> rv + 8 <= sp \/ hi <= rv /\ rv + 8 <= 2 ^ 64) ->
  exists m1 frame code rvalue, call_int c rv args (sp + 160) back m = Ok (m1, frame, code, rvalue) /\
  forall X F, words_in X -> X 2 = frame -> X 3 = code -> X 4 = rvalue -> X 5 = clo -> X 6 = cl -> X 14 = ra -> X 15 = sp ->
  exists X1 F1 M1 X2 X3 M3,
    reach e text org (St X F (at_label src org 1) m1) (St X1 F1 clo M1) /\
    msteps 3 (St X1 F1 clo M1) = Some (St X2 F1 (at_label src org 5) M1) /\
    reach e text org (St X2 F1 (at_label src org 5) M1) (St X3 F1 e M3) /\
    X3 2 = cif /\ X3 3 = func /\ X3 4 = data /\
    forall buf, exists p avs, closure_values c (X3 5) (X3 6) (be_dec (rd M3 (X3 15 + 160) 8)) buf M3 = Ok (p, avs) /\ avalues M3 ts vs avs /\
      p = (if hidden rt =? 1 then if rv =? 0 then hi - ty_size rt else rv else buf) /\
      forall M4 v, is_value rt v -> bytes_at M4 p (zlen (stored rt v)) = stored rt v ->
        (forall x, sp + 48 <= x < sp + 56 \/ sp + 104 <= x < sp + 120 \/ frame + 88 <= x < frame + 120 -> M4 x = M3 x) ->
        exists M5, closure_result rt p (X3 5) (X3 6) M4 = Ok M5 /\
        forall X5 F5, (forall r, saved_x r -> X5 r = X3 r) -> (forall r, saved_f r -> F5 r = F1 r) ->
        exists X6 F6 X7 M7, reach e text org (St X5 F5 (X3 14) M5) (St X6 F6 (X1 14) M5) /\
          reach e text org (St X6 F6 (X1 14) M5) (St X7 F6 ra M7) /\
          (forall r, saved_x r -> X7 r = X r) /\ (forall r, saved_f r -> F6 r = F r) /\
          (rv <> 0 -> bytes_at M7 rv (zlen (stored rt v)) = stored rt v) /\
          (forall x, ~ (rv <> 0 /\ rv <= x < rv + zlen (stored rt v)) -> M7 x = M5 x).
Proof.
  intros Su Ho Ho2 He Bm Pc C0 C1 Dc S176 Wc Wf Wd Dr.
  destruct (call_main rt ts c rv args vs m sp hi back org e clo cl ra Su Ho Ho2) as (m1 & frame & code & rvalue & K & Ef & Run).
  exists m1, frame, code, rvalue. split; [exact K|]. intros X F Wx H2 H3 H4 H5 H6 H14 H15.
  destruct (Run X F Wx H2 H3 H4 H5 H6 H14 H15) as (X1 & F1 & M1 & Re1 & (Pa & Ro1 & Hp & A0 & A15 & As & Fs & Lo) & A14 & By & Back).
  destruct (By Bm) as (Bm1 & Wx1 & Wf1). clear By Run.
  destruct (setup_cif _ _ _ _ _ _ _ _ _ Su) as (Ct & _ & _ & Eb & Em & Efl).
  destruct Su as (R & E & N & Hh & S0 & Hi & Ob & Rv).
  pose proof (hidden_ge rt) as H0.
  assert (Rp : 0 <= (if (rv =? 0) && (hidden rt =? 1) then ty_size rt else 0)).
  { destruct ((rv =? 0) && (hidden rt =? 1)); [|lia]. destruct R as [->|C]; [cbn; lia|]. pose proof (ctype_size rt C). lia. }
  assert (Hr : 0 <= room (hidden rt) ts).
  { unfold room. pose proof (slots_ge (hidden rt) ts). pose proof (copies_ge ts Ct). pose proof (r16_bound (8 * slots (hidden rt) ts)). unfold r16 in *. lia. }
  assert (Hs : sp + 320 <= hi) by (clear - Hh Eb Hr Rp; lia).
  assert (Hfr : sp + 160 <= frame) by (clear - Ef Hr; lia).
  assert (Al : forall k, 0 <= k < 56 -> M1 (clo + k) = m (clo + k)) by (intros k Hk; apply Lo; clear - Hk Dc; lia).
  assert (We : 0 <= at_label src org 5 < 2 ^ 64) by (rewrite label_5; clear - Ho Ho2; lia).
  destruct (dynamic_main clo cif func data clo (at_label src org 5) m0 m M1 X1 F1 Pc Al C0 C1 We Wc Wf Wd) as ((X2 & Ms & B0 & Br) & Rc & Rf & Rdt & _).
  assert (Inc : incoming rt ts vs c clo X2 F1 M1).
  { unfold incoming. rewrite !(Br 15), A15 by (clear; lia). split; [exact R|]. split; [exact Ct|]. split; [exact N|]. split; [exact E|]. split; [exact (objects_values _ _ _ _ _ _ Ob)|].
    split; [exact Bm1|]. split. { intros r Hr'. rewrite Br by (clear - Hr'; lia). apply Wx1, Hr'. } split; [exact Wf1|]. split; [exact S176|]. split; [clear - Hs Hi; lia|]. split; [exact C0|]. split; [exact C1|].
    split; [clear - Dc Hs; lia|]. split; [exact (passed_regs _ _ _ _ _ _ _ Br (proj1 H0) Pa)|].
    apply (refs_regs _ _ X1); [exact Br|apply H0|]. intros i t Nt B. specialize (Ro1 i t Nt B). cbv zeta in *. clear - Ro1. lia. }
  destruct (closure_main false rt ts vs c clo X2 F1 M1 e org Inc B0 Ho Ho2 He) as (X3 & M3 & Re3 & D2 & D3 & D4 & Lo3 & D5 & D6 & D15 & R6 & Cl).
  rewrite (Br 15), A15 in * by (clear; lia).
  exists X1, F1, M1, X2, X3, M3. split; [exact Re1|]. split; [exact Ms|]. split; [exact Re3|]. split; [rewrite D2; exact Rc|]. split; [rewrite D3; exact Rf|]. split; [rewrite D4; exact Rdt|].
  intros buf. destruct (Cl buf) as (avs & Kv & Va & _ & Res). cbv zeta in Kv, Res. clear Cl.
  exists (if hidden rt =? 1 then X2 2 else buf), avs. split; [exact Kv|]. split; [exact Va|]. split.
  { destruct (hidden rt =? 1) eqn:Z1; [|reflexivity]. rewrite Br by (clear; lia). destruct (Hp ltac:(clear - Z1; lia)) as (-> & ->). reflexivity. }
  intros M4 v V Hv Fm. destruct (Res M4 v V Hv) as (M5 & Kr & Lo5 & Res2). { intros x Hx. apply Fm. auto. }
  exists M5. split; [exact Kr|]. intros X5 F5 Sx Sf. destruct (Res2 X5 F5 Sx Sf) as (X6 & F6 & Re6 & Ret & Sx6 & Sf6 & E6). clear Res Res2.
  rewrite (Br 14) in Re6 by (clear; lia).
  assert (Sx6' : forall r, saved_x r -> X6 r = X1 r).
  { intros r Hr'. destruct (Z.eq_dec r 6) as [->|N6]; [|rewrite Sx6 by assumption; apply Br; clear - Hr'; unfold saved_x in Hr'; lia].
    rewrite E6. replace (rd M4 (sp + 48) 8) with (rd M3 (sp + 48) 8) by (apply rd_ext; change (Z.of_nat 8) with 8; intros x Hx; symmetry; apply Fm; clear - Hx; lia).
    rewrite R6, (Br 6) by (clear; lia). apply dec_enc8, Wx1. clear; lia. }
  destruct (Back X6 F6 M5 v Sx6') as (X7 & M7 & Re7 & Sx7 & Rd7 & Lo7); [|exact V|exact Ret|exact Dr|].
  { intros x Hx. rewrite Lo5 by (clear - Hx Hfr; lia). rewrite Fm by auto. apply Lo3; clear - Hx Hfr; lia. }
  exists X6, F6, X7, M7. split; [exact Re6|]. split; [exact Re7|]. split; [exact Sx7|]. split; [intros r Hr'; rewrite Sf6 by exact Hr'; apply Fs, Hr'|]. split; [exact Rd7|exact Lo7].
Qed.

(** ** The parts of a call and of a closure by themselves *)

Lemma call_entry rt ts c rv args vs m sp hi back org e fn cl :
  setup rt ts c rv args vs m sp hi -> 0 <= org -> org + 512 <= 2 ^ 64 ->
  exists m1 frame code rvalue, call_int c rv args (sp + 160) back m = Ok (m1, frame, code, rvalue) /\
  forall X F, words_in X -> X 2 = frame -> X 3 = code -> X 4 = rvalue -> X 5 = fn -> X 6 = cl -> X 15 = sp ->
  exists X1 F1 M1, reach e text org (St X F (at_label src org 1) m1) (St X1 F1 fn M1) /\
    passed (hidden rt) ts vs X1 F1 M1 /\ refs_within (hidden rt) ts X1 F1 M1 (sp + 160) frame /\
    (hidden rt = 1 -> X1 2 = if rv =? 0 then hi - ty_size rt else rv) /\
    X1 0 = cl /\ X1 15 = sp /\ (forall r, saved_f r -> F1 r = F r) /\
    (forall x, ~ (sp <= x < hi) -> M1 x = m x).
Proof.
  intros Su Ho Ho2.
  destruct (call_mem _ _ _ _ _ _ _ _ _ back Su) as (m1 & frame & code & rvalue & K & _).
  exists m1, frame, code, rvalue. split; [exact K|]. intros X F Wx H2 H3 H4 H5 H6 H15.
  destruct (call_main rt ts c rv args vs m sp hi back org e fn cl (X 14) Su Ho Ho2) as (m1' & frame' & code' & rvalue' & K' & Ef & Run).
  rewrite K in K'. injection K' as <- <- <- <-.
  destruct (Run X F Wx H2 H3 H4 H5 H6 eq_refl H15) as (X1 & F1 & M1 & Re1 & (Pa & Ro1 & Hp & A0 & A15 & As & Fs & Lo) & _).
  exists X1, F1, M1. split; [exact Re1|]. split; [exact Pa|]. split; [exact Ro1|]. split; [|auto]. intros H1. destruct (Hp H1) as (-> & ->). reflexivity.
Qed.

Lemma call_return rt ts c rv args vs m sp hi back org e fn cl ra :
  setup rt ts c rv args vs m sp hi -> 0 <= org -> org + 512 <= 2 ^ 64 ->
  (rv <> 0 -> hidden rt = 0 -> rv + 8 <= sp \/ hi <= rv /\ rv + 8 <= 2 ^ 64) ->
  exists m1 frame code rvalue, call_int c rv args (sp + 160) back m = Ok (m1, frame, code, rvalue) /\
  forall X F, words_in X -> X 2 = frame -> X 3 = code -> X 4 = rvalue -> X 5 = fn -> X 6 = cl -> X 14 = ra -> X 15 = sp ->
  exists X1 F1 M1, reach e text org (St X F (at_label src org 1) m1) (St X1 F1 fn M1) /\
    forall X2 F2 M2 v, (forall r, saved_x r -> X2 r = X1 r) -> (forall r, saved_f r -> F2 r = F1 r) ->
      (forall x, frame + 88 <= x < frame + 120 -> M2 x = M1 x) -> is_value rt v -> returned rt v X2 F2 ->
      exists X3 M3, reach e text org (St X2 F2 (X1 14) M2) (St X3 F2 ra M3) /\
        (forall r, saved_x r -> X3 r = X r) /\ (forall r, saved_f r -> F2 r = F r) /\
        (rv <> 0 -> bytes_at M3 rv (zlen (stored rt v)) = stored rt v) /\
        (forall x, ~ (rv <> 0 /\ rv <= x < rv + zlen (stored rt v)) -> M3 x = M2 x).
Proof.
  intros Su Ho Ho2 Dr.
  destruct (call_main rt ts c rv args vs m sp hi back org e fn cl ra Su Ho Ho2) as (m1 & frame & code & rvalue & K & Ef & Run).
  exists m1, frame, code, rvalue. split; [exact K|]. intros X F Wx H2 H3 H4 H5 H6 H14 H15.
  destruct (Run X F Wx H2 H3 H4 H5 H6 H14 H15) as (X1 & F1 & M1 & Re1 & (Pa & Ro1 & Hp & A0 & A15 & As & Fs & Lo) & A14 & By & Back).
  exists X1, F1, M1. split; [exact Re1|]. intros X2 F2 M2 v Sx Sf Fm V Rt.
  destruct (Back X2 F2 M2 v Sx Fm V Rt Dr) as (X3 & M3 & Re3 & Sx3 & Rd3 & Lo3).
  exists X3, M3. split; [exact Re3|]. split; [exact Sx3|]. split; [intros r Hr; rewrite Sf by exact Hr; apply Fs, Hr|]. split; [exact Rd3|exact Lo3].
Qed.

Lemma closure_entry (o : bool) rt ts vs c clo X F M e org : incoming rt ts vs c clo X F M -> X 0 = clo ->
  0 <= org -> org + 512 <= 2 ^ 64 -> 0 <= e < 2 ^ 64 ->
  exists X1 M1, reach e text org (St X F (at_label src org (if o then 4 else 5)) M) (St X1 F e M1) /\
    X1 2 = value (bytes_at M (clo + (if o then 8 else 32)) 8) /\ X1 3 = value (bytes_at M (clo + (if o then 16 else 40)) 8) /\
    X1 4 = (if o then clo else value (bytes_at M (clo + 48) 8)) /\
    (forall x, ~ (X 15 - 176 <= x < X 15 + 160) -> M1 x = M x) /\
    forall buf, exists avs, 
      closure_values c (X1 5) (X1 6) (be_dec (rd M1 (X1 15 + 160) 8)) buf M1 = Ok (if hidden rt =? 1 then X 2 else buf, avs) /\ avalues M1 ts vs avs.
Proof.
  intros I Hc Ho Ho2 He.
  destruct (closure_main o rt ts vs c clo X F M e org I Hc Ho Ho2 He) as (X1 & M1 & Re & A2 & A3 & A4 & Lo & A5 & A6 & A15 & R6 & Cl).
  assert (B : forall a, value (bytes_at M a 8) = be_dec (rd M a 8)) by (intros a; rewrite value_dec, bytes_at_rd; reflexivity).
  exists X1, M1. rewrite !B. split; [exact Re|]. split; [exact A2|]. split; [exact A3|]. split; [exact A4|]. split; [intros x Hx; apply Lo; lia|].
  intros buf. destruct (Cl buf) as (avs & Kv & Va & _). exists avs. split; [exact Kv|exact Va].
Qed.

Lemma closure_return (o : bool) rt ts vs c clo X F M e org : incoming rt ts vs c clo X F M -> X 0 = clo ->
  0 <= org -> org + 512 <= 2 ^ 64 -> 0 <= e < 2 ^ 64 ->
  exists X1 M1, reach e text org (St X F (at_label src org (if o then 4 else 5)) M) (St X1 F e M1) /\
    forall buf p avs, closure_values c (X1 5) (X1 6) (be_dec (rd M1 (X1 15 + 160) 8)) buf M1 = Ok (p, avs) ->
      forall M2 v, is_value rt v -> bytes_at M2 p (zlen (stored rt v)) = stored rt v ->
        (forall x, X 15 + 104 <= x < X 15 + 120 -> M2 x = M1 x) ->
        exists M3, closure_result rt p (X1 5) (X1 6) M2 = Ok M3 /\
          (forall x, ~ (X 15 + 16 <= x < X 15 + 24) -> ~ (X 15 + 128 <= x < X 15 + 136) -> M3 x = M2 x) /\
          forall X2 F2, (forall r, saved_x r -> X2 r = X1 r) -> (forall r, saved_f r -> F2 r = F r) ->
          exists X3 F3, reach e text org (St X2 F2 (X1 14) M3) (St X3 F3 (X 14) M3) /\ returned rt v X3 F3 /\
            (forall r, saved_x r -> r <> 6 -> X3 r = X r) /\ (forall r, saved_f r -> F3 r = F r) /\
            ((forall x, X 15 + 48 <= x < X 15 + 56 -> M2 x = M1 x) -> forall r, saved_x r -> X3 r = X r).
Proof.
  intros I Hc Ho Ho2 He.
  destruct (closure_main o rt ts vs c clo X F M e org I Hc Ho Ho2 He) as (X1 & M1 & Re & A2 & A3 & A4 & Lo & A5 & A6 & A15 & R6 & Cl).
  exists X1, M1. split; [exact Re|]. intros buf p avs Kp M2 v V Hv Fm.
  destruct (Cl buf) as (avs' & Kv & _ & _ & Res). cbv zeta in Kv, Res. rewrite Kp in Kv. injection Kv as -> ->.
  destruct (Res M2 v V Hv Fm) as (M3 & Kr & Lo3 & Res2). exists M3. split; [exact Kr|]. split; [exact Lo3|].
  intros X2 F2 Sx Sf. destruct (Res2 X2 F2 Sx Sf) as (X3 & F3 & Re3 & Ret & Sx3 & Sf3 & E6). exists X3, F3.
  split; [exact Re3|]. split; [exact Ret|]. split; [exact Sx3|]. split; [exact Sf3|].
  intros F6 r Hr. destruct (Z.eq_dec r 6) as [->|N6]; [|apply Sx3; assumption].
  rewrite E6. replace (rd M2 (X 15 + 48) 8) with (rd M1 (X 15 + 48) 8) by (apply rd_ext; change (Z.of_nat 8) with 8; intros x Hx; symmetry; apply F6; lia).
  rewrite R6. apply dec_enc8. destruct I as (_ & _ & _ & _ & _ & _ & Wx & _). apply Wx. lia.
Qed.

(** A handler that assigns to its fifth argument. *)
Definition five : list ftype := [ty_uint64; ty_uint64; ty_uint64; ty_uint64; ty_uint64].
Definition clear_fifth (p : Z) (avs : list Z) (M : Z -> Z) : Z -> Z := wr M (nth 4 avs 0) (be_enc 8 0).

Lemma sixth_lost : exists rt ts (h : Z -> list Z -> (Z -> Z) -> Z -> Z),
  (forall p avs M x, length avs = length ts -> (forall i t a, nth_error ts i = Some t -> nth_error avs i = Some a -> ~ (a <= x < a + ty_size t)) -> h p avs M x = M x) /\
  forall (o : bool) vs c clo X F M e org, incoming rt ts vs c clo X F M -> X 0 = clo -> 0 <= org -> org + 512 <= 2 ^ 64 -> 0 <= e < 2 ^ 64 -> X 6 <> 0 ->
  exists X1 M1, reach e text org (St X F (at_label src org (if o then 4 else 5)) M) (St X1 F e M1) /\
    forall buf, exists M3, closure_helper c h (X1 5) (X1 6) (be_dec (rd M1 (X1 15 + 160) 8)) buf M1 = Ok M3 /\
      forall X2 F2, (forall r, saved_x r -> X2 r = X1 r) -> (forall r, saved_f r -> F2 r = F r) ->
      exists X3 F3, reach e text org (St X2 F2 (X1 14) M3) (St X3 F3 (X 14) M3) /\ X3 6 <> X 6.
Proof.
  exists ty_void, five, clear_fifth. split.
  { intros p avs M x L H. unfold clear_fifth. apply wr_out. rewrite be_enc_zlen. change (Z.of_nat 8) with 8.
    destruct avs as [|a0 [|a1 [|a2 [|a3 [|a4 l]]]]]; try discriminate L. specialize (H 4%nat ty_uint64 a4 eq_refl eq_refl). change (ty_size ty_uint64) with 8 in H. cbn [nth]. lia. }
  intros o vs c clo X F M e org I Hc Ho Ho2 He N6.
  destruct (closure_main o ty_void five vs c clo X F M e org I Hc Ho Ho2 He) as (X1 & M1 & Re & A2 & A3 & A4 & Lo & A5 & A6 & A15 & R6 & Cl).
  exists X1, M1. split; [exact Re|]. intros buf. destruct (Cl buf) as (avs & Kv & (Le & _) & Lc & Res). cbv zeta in Kv, Lc, Res.
  assert (E4 : nth 4 avs 0 = X 15 + 48).
  { destruct avs as [|a0 [|a1 [|a2 [|a3 [|a4 l]]]]]; try discriminate Le. cbn [nth]. rewrite (Lc 4%nat ty_uint64 a4 eq_refl eq_refl). change (by_ref ty_uint64) with false. cbv iota.
    change (place (hidden ty_void) (firstn 4 five) ty_uint64) with (LG 6). cbn [addr]. change (part ty_uint64 (LG 6)) with 0. lia. }
  set (p := if hidden ty_void =? 1 then X 2 else buf) in *.
  set (M2 := clear_fifth p avs M1).
  destruct I as (R & Ct & N & E & _). destruct (cif_ok _ _ R Ct N) as (c' & E' & Ea & Er & _). rewrite E in E'. injection E' as <-.
  destruct (Res M2 [0]) as (M3 & Kr & Lo3 & Res2).
  { split; [reflexivity|]. repeat constructor; lia. } { reflexivity. }
  { intros x Hx. unfold M2, clear_fifth. rewrite E4. apply wr_out. rewrite be_enc_zlen. lia. }
  exists M3. split. { unfold closure_helper. rewrite Kv. cbn [bind]. rewrite Er. exact Kr. }
  intros X2 F2 Sx Sf. destruct (Res2 X2 F2 Sx Sf) as (X3 & F3 & Re3 & _ & _ & _ & E6). exists X3, F3. split; [exact Re3|].
  rewrite E6. unfold M2, clear_fifth. rewrite E4, rd_wr_same by (rewrite be_enc_length; reflexivity). rewrite dec_enc8 by lia. auto.
Qed.
Lemma closure_saved (o : bool) rt ts vs c clo X F M e org : incoming rt ts vs c clo X F M -> X 0 = clo ->
  0 <= org -> org + 512 <= 2 ^ 64 -> 0 <= e < 2 ^ 64 ->
  exists X1 M1, reach e text org (St X F (at_label src org (if o then 4 else 5)) M) (St X1 F e M1) /\
    forall buf p avs, closure_values c (X1 5) (X1 6) (be_dec (rd M1 (X1 15 + 160) 8)) buf M1 = Ok (p, avs) ->
      forall M2 v, is_value rt v -> bytes_at M2 p (zlen (stored rt v)) = stored rt v ->
        (forall x, X 15 + 104 <= x < X 15 + 120 \/ X 15 + 48 <= x < X 15 + 56 -> M2 x = M1 x) ->
        exists M3, closure_result rt p (X1 5) (X1 6) M2 = Ok M3 /\
          forall X2 F2, (forall r, saved_x r -> X2 r = X1 r) -> (forall r, saved_f r -> F2 r = F r) ->
          exists X3 F3, reach e text org (St X2 F2 (X1 14) M3) (St X3 F3 (X 14) M3) /\
            (forall r, saved_x r -> X3 r = X r) /\ (forall r, saved_f r -> F3 r = F r).
Proof.
  intros I Hc Ho Ho2 He. destruct (closure_return o rt ts vs c clo X F M e org I Hc Ho Ho2 He) as (X1 & M1 & Re & Cl).
  exists X1, M1. split; [exact Re|]. intros buf p avs K M2 v V Hv Fm. destruct (Cl buf p avs K M2 v V Hv) as (M3 & Kr & _ & Res); [auto|].
  exists M3. split; [exact Kr|]. intros X2 F2 Sx Sf. destruct (Res X2 F2 Sx Sf) as (X3 & F3 & Re3 & _ & _ & Sf3 & Sx3). exists X3, F3. auto 6.
Qed.
