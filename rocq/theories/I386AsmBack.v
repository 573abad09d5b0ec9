(** The return of a call: the store table and the x87 stack. *)
From Coq Require Import ZifyBool ZifyNat.
From Verif Require Import Base Types BaseFacts ByteMem X87Model X87Facts I386Model I386Spec I386RetSpec I386Facts I386Call I386CallOk I386Ret.
From Verif Require Import I386AsmModel I386AsmFacts I386AsmCall I386AsmEnter.
Local Open Scope Z_scope.
Local Arguments Z.mul : simpl never.
Local Arguments Z.add : simpl never.
Local Arguments Z.sub : simpl never.
Local Arguments Z.pow : simpl never.
Local Arguments Z.of_nat : simpl never.

(** What the store table stores is what [call_ret] says. *)
Lemma stored_ret f eax edx F st0 d F' M p n b :
  stored (ret_num f) eax edx F = Some (d, F') -> (ret_num f <= 2 -> exists T, F = st0 :: T) -> call_ret f eax edx st0 (rd M p n) = Ok b ->
  rd (wr M p d) p n = b.
Proof.
  intros S X C.
  assert (ONE : forall x, of_option (set_range (rd M p n) 0 x) = Ok b -> rd (wr M p x) p n = b).
  { intros x Q. destruct (set_range (rd M p n) 0 x) as [y|] eqn:E; cbn [of_option] in Q; [|discriminate Q]. injection Q as ->.
    apply rd_wr_range in E. rewrite Z.add_0_r in E. exact E. }
  assert (NON : Ok (rd M p n) = Ok b -> rd (wr M p []) p n = b).
  { intros Q. injection Q as <-. apply rd_ext. intros x _. apply wr_nil. }
  destruct f; cbn [ret_num stored call_ret] in S, C;
    try (destruct (X ltac:(cbn [ret_num]; lia)) as (T & ->)); 
    pose proof (f_equal (fun q => match q with Some (q1, _) => q1 | None => [] end) S) as Sd; cbn beta iota in Sd; rewrite <- Sd; clear S Sd;
    try (apply ONE; exact C); try (apply NON; exact C).
  destruct (set_range (rd M p n) 4 (le_enc 4 edx)) as [b1|] eqn:E1; cbn [of_option bind] in C; [|discriminate C].
  apply rd_wr_range in E1. rewrite <- E1 in C.
  destruct (set_range (rd (wr M (p + 4) (le_enc 4 edx)) p n) 0 (le_enc 4 eax)) as [b2|] eqn:E2; cbn [of_option] in C; [|discriminate C].
  injection C as ->. apply rd_wr_range in E2. rewrite Z.add_0_r in E2. rewrite <- E2. apply rd_ext. intros x _. rewrite wr_app, le_enc_zlen. reflexivity.
Qed.

(** Results in the x87 register and their codes. *)
Lemma x87_code o a rt f : (ctype32 o rt \/ ty_code rt = T_VOID) -> x87_struct o rt -> ret_flags o a rt = Some f ->
  match in_x87 o rt with
  | Some n => ((f = R_FLOAT /\ n = 4) \/ (f = R_DOUBLE /\ n = 8) \/ (f = R_LDOUBLE /\ n = 10)) /\ n <= ty_size rt /\ in_memory o rt = false /\ ty_code rt <> T_VOID
  | None => 3 <= ret_num f
  end.
Proof.
  intros [C|V] XS RF.
  - inversion C as [|t0 I|t0 I|s0 a0 es0 offs NE F SL]; subst.
    + cbn in RF. injection RF as <-. cbn. lia.
    + destruct o; cbn in I; in_cases I; cbn in RF; injection RF as <-; cbn; try lia; (split; [auto|split; [lia|split; [reflexivity|discriminate]]]).
    + destruct o; cbn in I; in_cases I; cbn in RF; injection RF as <-; cbn; try lia; destruct a; cbn; lia.
    + rewrite (XS eq_refl). unfold ret_flags in RF. cbn [ty_code ty_size] in RF.
      assert (SF : 3 <= ret_num (struct_flags a)) by (destruct a; cbn; lia).
      destruct o; repeat match type of RF with context [if ?q then _ else _] => destruct q end; injection RF as <-; try exact SF; cbn; lia.
  - unfold ret_flags in RF. unfold in_x87. rewrite V in *. injection RF as <-. cbn. lia.
Qed.

Lemma ctype_not_void o rt : ctype32 o rt -> ty_code rt <> T_VOID.
Proof.
  intros C V. inversion C as [|t0 I|t0 I|s0 a0 es0 offs NE F SL]; subst; [discriminate V| | |discriminate V];
    destruct o; cbn in I; in_cases I; discriminate V.
Qed.

Lemma in_x87_memory o rt : in_memory o rt = true -> x87_struct o rt -> in_x87 o rt = None.
Proof.
  intros M XS. unfold x87_struct in XS. unfold in_x87 in *. unfold in_memory in M. destruct (ty_code rt); try reflexivity; try discriminate M. apply XS. reflexivity.
Qed.

(** Bytes at the result address that the return may change. *)
Definition result_bytes (o : sys) (rt : ftype) (c : cif) (rv : option Z) (P x : Z) : Prop :=
  in_memory o rt = false /\ ty_code rt <> T_VOID /\
  match rv with Some p => p <= x < p + result_size rt | None => P + 32 <= x < P + 32 + call_rsize c rv end.

Lemma stored_zlen f eax edx F d F' : stored (ret_num f) eax edx F = Some (d, F') -> zlen d <= match f with R_DOUBLE | R_INT64 => 8 | R_LDOUBLE => 10 | _ => 4 end.
Proof.
  intros S. destruct f; cbn [ret_num stored] in S; try (destruct F as [|x T]; [discriminate S|]);
    pose proof (f_equal (fun q => match q with Some (q1, _) => q1 | None => [] end) S) as Sd; cbn beta iota in Sd; rewrite <- Sd; clear S Sd;
    rewrite ?zlen_app, ?le_enc_zlen; try (rewrite fstp_zlen by auto); try (change (zlen (@nil Z)) with 0); lia.
Qed.

Lemma size_code o a rt f : ctype32 o rt -> in_memory o rt = false -> x87_struct o rt -> ret_flags o a rt = Some f ->
  match f with R_DOUBLE | R_INT64 => 8 | R_LDOUBLE => 10 | _ => 4 end <= result_size rt.
Proof.
  intros C MEM XS RF. unfold result_size. inversion C as [|t0 I|t0 I|s0 a0 es0 offs NE F SL]; subst.
  - cbn in RF. injection RF as <-. lia.
  - destruct o; cbn in I; in_cases I; cbn in RF; injection RF as <-; vm_compute; try discriminate; lia.
  - destruct o; cbn in I; in_cases I; cbn in RF; injection RF as <-; vm_compute; try discriminate; try lia; discriminate MEM.
  - unfold in_memory in MEM. unfold ret_flags in RF. cbn [ty_code ty_size] in RF, MEM |- *.
    destruct o; [discriminate MEM|..];
      (destruct (Z.eqb_spec s0 1) as [->|N1]; [injection RF as <-; lia|]); (destruct (Z.eqb_spec s0 2) as [->|N2]; [injection RF as <-; lia|]);
      (destruct (Z.eqb_spec s0 4) as [->|N4]; [injection RF as <-; lia|]); (destruct (Z.eqb_spec s0 8) as [->|N8]; [injection RF as <-; lia|]); discriminate MEM.
Qed.

(** From the function's return to the return to ffi_call_int. *)
Lemma call_left o a rt ts c rv base d ebp ra g e org X F st0 M :
  let P := base + stack_align (k_bytes c) in
  (ctype32 o rt \/ ty_code rt = T_VOID) -> x87_struct o rt -> prep o a rt ts = Some c ->
  0 <= org -> org + 2048 <= 2 ^ 32 -> tracked e g -> regs_ok X -> mem_ok M ->
  X EBP = P -> 4 <= X ESP -> X ESP <= P -> P + 32 + call_rsize c rv <= 2 ^ 32 -> 0 <= ebp < 2 ^ 32 -> 0 <= ra < 2 ^ 32 ->
  frame_at M P ebp ra (ret_num (call_flags c rv)) (result_place c rv base) ->
  (in_memory o rt = false -> ty_code rt <> T_VOID -> zlen d = ty_size rt /\ returned o rt d (X EAX) (X EDX) st0) ->
  match rv with
  | Some p => 0 <= p < 2 ^ 32 /\
    (in_memory o rt = false -> ty_code rt <> T_VOID -> p + result_size rt <= 2 ^ 32 /\ (p + result_size rt <= X ESP - 4 \/ P + 32 <= p))
  | None => True
  end ->
  exists X1 M1,
    reach e (text g) org (St X (match in_x87 o rt with Some _ => st0 :: F | None => F end) false (at_label (src g) org 5) M) (St X1 F false ra M1) /\
    X1 ESP = P + 8 /\ X1 EBP = ebp /\ (forall i, i = EBX \/ 6 <= i -> X1 i = X i) /\
    match rv with
    | Some p => in_memory o rt = false -> ty_code rt <> T_VOID -> result_in rt d (rd M1 p (Z.to_nat (result_size rt)))
    | None => True
    end /\
    (forall x, ~ (P + 8 <= x < P + 12) -> ~ (X ESP - 4 <= x < X ESP) -> ~ result_bytes o rt c rv P x -> M1 x = M x).
Proof.
  intros P RT XS PR Ho Ho2 HT HX HM HP HS HSP HP32 RE RR (W0 & W4 & W12 & W16) RET RVOK.
  pose proof (rsize_prep o a rt ts c rv RT PR) as RZ.
  assert (RF : ret_flags o a rt = Some (k_flags c)).
  { unfold prep in PR. destruct (ret_flags o a rt) as [f|]; [|discriminate PR]. injection PR as <-. reflexivity. }
  assert (KT : k_rtype c = rt).
  { unfold prep in PR. destruct (ret_flags o a rt) as [f|]; [|discriminate PR]. injection PR as <-. reflexivity. }
  pose proof (x87_code o a rt _ RT XS RF) as XC. pose proof (flags_memory o a rt _ RT RF) as [FM _].
  set (f := call_flags c rv) in *. set (p := result_place c rv base) in *. set (F0 := match in_x87 o rt with Some _ => st0 :: F | None => F end).
  assert (RN : 0 <= ret_num f < 14) by (destruct f; cbn; lia).
  assert (PV : 0 <= p < 2 ^ 32).
  { subst p. unfold result_place. destruct rv as [q|]; [apply RVOK|]. pose proof (HX EBP). fold P. destruct (Z.ltb_spec 0 (call_rsize c None)); lia. }
  assert (CW : forall w, 0 <= w < 2 ^ 32 -> forall q, rd M q 4 = le_enc 4 w -> le_dec (rd M q 4) = w) by (intros w Hw q ->; apply word_back, Hw).
  (* what is stored *)
  assert (ST : exists x, stored (ret_num f) (X EAX) (X EDX) F0 = Some (x, F) /\
    (x = [] \/ (in_memory o rt = false /\ ty_code rt <> T_VOID /\ p + zlen x <= 2 ^ 32 /\ (p + zlen x <= X ESP - 4 \/ P + 32 <= p) /\
       (forall y, p <= y < p + zlen x -> result_bytes o rt c rv P y)))).
  { subst F0. unfold f, call_flags. destruct rv as [q|].
    - destruct (stored (ret_num (k_flags c)) (X EAX) (X EDX) (match in_x87 o rt with Some _ => st0 :: F | None => F end)) as [[x F']|] eqn:S.
      + assert (F' = F).
        { destruct (in_x87 o rt) as [n|]; [destruct XC as ([(Ef & _)|[(Ef & _)|(Ef & _)]] & _); rewrite Ef in S; cbn [ret_num stored] in S; congruence|].
          destruct (k_flags c); cbn [ret_num] in XC; try lia; cbn [ret_num stored] in S; congruence. }
        subst F'. exists x. split; [reflexivity|].
        destruct (in_memory o rt) eqn:MEM.
        * left. destruct (k_flags c); try discriminate FM; cbn [ret_num stored] in S; congruence.
        * destruct RT as [C|V].
          -- right. assert (NV : ty_code rt <> T_VOID).
             { exact (ctype_not_void o rt C). }
             pose proof (stored_zlen _ _ _ _ _ _ S) as SZ. pose proof (size_code o a rt _ C MEM XS RF) as SC.
             destruct RVOK as [_ RVOK]. specialize (RVOK eq_refl NV). change p with q.
             split; [reflexivity|]. split; [exact NV|]. split; [lia|]. split; [lia|]. intros y Hy. split; [exact MEM|]. split; [exact NV|]. cbn. lia.
          -- left. unfold ret_flags in RF. rewrite V in RF. injection RF as E. rewrite <- E in S. cbn [ret_num stored] in S. congruence.
      + exfalso. destruct (in_x87 o rt) as [n|]; [destruct XC as ([(E & _)|[(E & _)|(E & _)]] & _); rewrite E in S; discriminate S|].
        destruct (k_flags c); cbn [ret_num] in XC; try lia; discriminate S.
    - destruct (in_x87 o rt) as [n|].
      + destruct XC as (CS & NS & MEM & NV).
        assert (CR : call_rsize c None = ty_size rt) by (unfold call_rsize; rewrite KT; destruct CS as [(Ef & _)|[(Ef & _)|(Ef & _)]]; rewrite Ef; reflexivity).
        assert (SX : (stored (ret_num (match k_flags c with R_FLOAT | R_DOUBLE | R_LDOUBLE | R_STRUCTPOP | R_STRUCTARG => k_flags c | _ => R_VOID end)) (X EAX) (X EDX) (st0 :: F) = Some (fstp n st0, F)) /\
          zlen (fstp n st0) = n /\ 4 <= n).
        { destruct CS as [(Ef & ->)|[(Ef & ->)|(Ef & ->)]]; (split; [rewrite Ef; reflexivity|]); rewrite fstp_zlen by auto; lia. }
        destruct SX as (SX & SZ & N4). exists (fstp n st0). split; [exact SX|]. right. split; [exact MEM|]. split; [exact NV|].
        assert (PE : p = P + 32) by (subst p; unfold result_place; rewrite CR; destruct (Z.ltb_spec 0 (ty_size rt)); [reflexivity|lia]).
        rewrite PE, SZ, CR in *. split; [lia|]. split; [lia|]. intros y Hy. split; [exact MEM|]. split; [exact NV|]. rewrite CR. lia.
      + exists []. split; [|left; reflexivity]. destruct (k_flags c); cbn [ret_num] in XC; try lia; reflexivity. }
  destruct ST as (x & ST & SP).
  assert (C12 : le_dec (rd M (P + 12) 4) mod 16 = ret_num f) by (rewrite (CW (ret_num f) ltac:(lia) _ W12); apply Z.mod_small; lia).
  assert (ZX : 0 <= zlen x) by (unfold zlen; lia).
  assert (PX : p + zlen x <= 2 ^ 32) by (destruct SP as [->|SP]; [change (zlen (@nil Z)) with 0; lia|lia]).
  assert (DX : x = [] \/ p + zlen x <= P \/ P + 12 <= p) by (destruct SP as [->|SP]; [left; reflexivity|right; lia]).
  destruct (call_leave g e org X F0 M P ra ebp p (ret_num f) x F Ho Ho2 HT HX HM HP HS HSP ltac:(lia) (CW _ RE _ W0) (CW _ RR _ W4) C12 (CW _ PV _ W16) RN ST PX DX)
    as (X1 & M1 & R1 & S1 & B1 & K1 & D1 & O1).
  exists X1, M1. split; [exact R1|]. split; [exact S1|]. split; [exact B1|]. split; [exact K1|]. split.
  - destruct rv as [q|]; [|exact Logic.I]. intros MEM NV. destruct RT as [C|V]; [|contradiction].
    destruct (RET MEM NV) as [ZD RET']. destruct RVOK as [_ RVOK]. specialize (RVOK MEM NV).
    assert (RSZ : 4 <= result_size rt) by (unfold result_size; lia).
    destruct (call_result o a rt c ts d (X EAX) (X EDX) st0 (rd M p (Z.to_nat (result_size rt))) C MEM XS PR ZD RET' ltac:(rewrite rd_zlen; lia)) as (b & CB & _ & RI & _).
    change q with p. assert (E : rd M1 p (Z.to_nat (result_size rt)) = b); [|rewrite E; exact RI].
    rewrite <- (stored_ret (k_flags c) (X EAX) (X EDX) F0 st0 x F M p (Z.to_nat (result_size rt)) b ST).
    + apply rd_ext. intros y Hy. change p with q in *. destruct (Z_lt_dec y (q + zlen x)) as [L|L].
      * rewrite wr_in by lia. rewrite <- D1 at 1. rewrite rd_nth by (unfold zlen in L; lia). f_equal. lia.
      * rewrite wr_out by lia. apply O1; lia.
    + intros L. subst F0. destruct (in_x87 o rt); [eexists; reflexivity|]. lia.
    + exact CB.
  - intros y N1 N2 N3. apply O1; [|exact N1|exact N2]. intros Hy. destruct SP as [->|SP]; [change (zlen (@nil Z)) with 0 in Hy; lia|]. apply N3, SP, Hy.
Qed.
