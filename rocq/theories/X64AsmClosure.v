(** The closure code and ffi_closure_unix64_inner together. *)
From Coq Require Import ZifyBool ZifyNat.
From Verif Require Import Base BaseFacts ByteMem Types LayoutSpec NaturalTypes Unix64Model Unix64Spec Unix64Link Unix64Fill Unix64Main Unix64Ret Unix64Ret2 PropsUnix64Lemmas
  X64AsmModel X64AsmFacts X64AsmCall X64AsmRet X64AsmSpec X64AsmWhole X64AsmLeave X64AsmClo X64AsmExit.
Local Open Scope Z_scope.
Local Arguments Z.mul : simpl never.
Local Arguments Z.add : simpl never.
Local Arguments Z.sub : simpl never.
Local Arguments Z.pow : simpl never.
Local Arguments Z.of_nat : simpl never.
Local Arguments le_enc : simpl never.

(** What was where the vector registers are saved. *)
Definition stale (M : Z -> Z) (f : Z) : list (list Z) := map (fun i => rd M (f + 48 + 16 * i) 16) [0; 1; 2; 3; 4; 5; 6; 7].

Lemma stale_rd M f : concat (stale M f) = rd M (f + 48) 128.
Proof.
  unfold stale. cbn [map concat]. rewrite app_nil_r.
  rewrite (rd_app _ 16 112), (rd_app _ 16 96), (rd_app _ 16 80), (rd_app _ 16 64), (rd_app _ 16 48), (rd_app _ 16 32), (rd_app _ 16 16).
  change (Z.of_nat 16) with 16. repeat (apply f_equal2; [f_equal; lia|]). f_equal. lia.
Qed.

(** State of the caller as Unix64Model sees it. *)
Definition caller_state (X : Z -> Z) (V : Z -> list Z) (M : Z -> Z) (sp : Z) (n : nat) : mstate :=
  MState (gpr_args X) (xmm_args V) (X RAX mod 2 ^ 32) (X R10) sp (rd M sp n).

Lemma closure_entered (go : bool) rt ts vs b fl c k inner org X V F cf zf M f cl n g_tmp :
  rt_ok rt -> Forall natural ts -> Forall2 (fun t v => zlen v = ty_size t) ts vs ->
  machdep64 (TCif FFI_UNIX64 ts rt b fl) = Ok (FFI_OK, c) -> zlen g_tmp = 16 ->
  0 <= org -> org + 2048 <= 2 ^ 64 -> machine_ok X V F M ->
  X RSP = f + 216 -> f mod 16 = 0 -> 8 <= f -> f + 224 + stack_used rt ts + 16 < 2 ^ 64 ->
  X R10 = cl -> cl + 56 <= 2 ^ 64 -> cl + 56 <= f \/ f + 176 <= cl ->
  args_passed rt ts vs (gpr_args X) (xmm_args V) (rd M (f + 224) n) ->
  exists X1 c1 z1 M1,
    reach inner (text k) org (St X V F cf zf (at_label (src k) org (entry_label go (saves_vectors c))) M) (St X1 V F c1 z1 inner M1) /\
    (X1 RDI, X1 RSI, X1 RDX) = closure_words go M cl /\ X1 RCX = f + 176 /\ X1 R8 = f /\ X1 R9 = f + 224 /\ X1 RSP = f - 8 /\
    (forall i, callee_saved i -> X1 i = X i) /\
    rd M1 (f - 8) 8 = le_enc 8 (at_label (src k) org 19) /\
    (forall x, ~ (f - 8 <= x < f + 176) -> M1 x = M x) /\
    rd M1 f 176 = closure_frame c (caller_state X V M (f + 224) n) (stale M f) /\
    exists ps r fl', closure64 c (caller_state X V M (f + 224) n) (stale M f) g_tmp = Ok (ps, r, fl') /\
      args_seen (rd M1 f 176) (caller_state X V M (f + 224) n) ps ts vs /\
      (hidden_pointer rt = true -> r = RCaller (X RDI) /\ fl' = RET_INT64) /\
      (hidden_pointer rt = false -> r = RSlot /\ fl' = c_flags c).
Proof.
  intros R N L P Lt Ho Ho2 (HX & HV & HF & HF8 & HM) Hsp F16 F0 F1 Hcl C1 Hd A.
  assert (U0 : 0 <= stack_used rt ts).
  { unfold stack_used. destruct (assign ts (first_gpr rt) 0 0) as [[[l g'] x'] s'] eqn:As.
    pose proof (Unix64Fill.assign_mono _ N _ _ 0 _ _ _ _ (Z.le_refl 0) As). lia. }
  pose proof (HX R10) as Bc. rewrite Hcl in Bc.
  destruct (clo_enter go (saves_vectors c) k inner org X V F cf zf M f cl) as
    (X1 & c1 & z1 & M1 & R1 & W & A1 & A2 & A3 & A4 & A5 & A6 & A7 & A8 & A9); auto; try lia.
  exists X1, c1, z1, M1. repeat (split; [assumption|]).
  assert (Fr : rd M1 f 176 = closure_frame c (caller_state X V M (f + 224) n) (stale M f)).
  { change 176%nat with (48 + 128)%nat. rewrite rd_app. change (Z.of_nat 48) with 48. rewrite A7, A8.
    unfold closure_frame, caller_state. cbn [m_gpr m_xmm]. f_equal. destruct (saves_vectors c); [reflexivity|]. symmetry. apply stale_rd. }
  split; [exact Fr|]. rewrite Fr.
  destruct (closure64_ok rt ts vs b fl c (caller_state X V M (f + 224) n) (stale M f) g_tmp) as (ps & r & fl' & E & S & Q); auto.
  1-5: first [reflexivity | unfold caller_state, xmm_args; cbn [m_xmm map]; repeat constructor; apply HV | unfold stale; cbn [map]; repeat constructor; apply rd_zlen | idtac].
  { unfold caller_state. cbn [m_sp]. apply Z.mod_divide; [lia|]. rewrite Zplus_mod, F16. reflexivity. }
  { unfold caller_state. cbn [m_sp]. lia. }
  exists ps, r, fl'. split; [exact E|]. split.
  { split; [exact S|]. clear -L. induction L; cbn; auto. }
  destruct (hidden_pointer rt).
  - destruct Q as (p & Ep & -> & ->). split; [|discriminate]. intros _. split; [|reflexivity].
    unfold caller_state, gpr_args, znth in Ep. cbn [m_gpr] in Ep. cbn in Ep. injection Ep as <-. reflexivity.
  - split; [discriminate|]. intros _. exact Q.
Qed.

(** Only the low byte of the flags counts. *)
Lemma load_ret_low fl n slot r : fl mod 256 = n -> load_ret fl slot r = load_ret n slot r.
Proof. intros <-. unfold load_ret. rewrite Z.mod_mod by lia. reflexivity. Qed.

(** A result left in the slot. *)
Lemma closure_result rt ts b fl c v k inner org X V F cf zf M f ra :
  natural rt -> Forall natural ts -> stack_used rt ts + 64 < 2 ^ 32 ->
  machdep64 (TCif FFI_UNIX64 ts rt b fl) = Ok (FFI_OK, c) ->
  struct_x87 rt = false -> hidden_pointer rt = false -> zlen v = ty_size rt -> bytes_ok v ->
  0 <= org -> org + 2048 <= 2 ^ 64 -> machine_ok X V F M -> x87_results rt + zlen F <= 8 ->
  X RSP = f -> f + 224 < 2 ^ 64 -> le_dec (rd M (f + 216) 8) = ra -> X RAX mod 2 ^ 32 = c_flags c mod 2 ^ 32 ->
  result_holds rt v (rd M (f + 176) 32) ->
  exists X1 V1 F1 c1 z1,
    reach inner (text k) org (St X V F cf zf (at_label (src k) org 19) M) (St X1 V1 (F1 ++ F) c1 z1 ra M) /\
    returns rt (result_regs X1 V1 (F1 ++ F)) v /\ zlen F1 = x87_results rt /\
    X1 RSP = f + 224 /\ (forall i, callee_saved i -> X1 i = X i).
Proof.
  intros N Ns S P Sx Hh L B Ho Ho2 (HX & HV & HF & HF8 & HM) Hx Hsp F1 Hra Hf H.
  pose proof (prepared_flags _ _ _ _ _ (or_introl N) Ns S P) as Cf.
  destruct (flags_x87 _ _ _ (or_introl N) Cf) as (C15 & Cx & _). specialize (Cx Sx).
  pose proof (code_low _ _ Hf) as Ec. pose proof (HX RSP) as Bs. rewrite Hsp in Bs.
  assert (Bm : bytes_ok (rd M (f + 176) 32)).
  { apply Forall_forall. intros x Hi. apply In_nth with (d := 0) in Hi. destruct Hi as (j & Hj & <-). rewrite rd_length in Hj. rewrite rd_nth by exact Hj. apply HM. }
  destruct (return_loaded rt ts b fl c (rd M (f + 176) 32) (result_regs X V F) v) as (r' & E & Rt); auto.
  rewrite (load_ret_low _ (c_flags c mod 256)) in E by reflexivity.
  destruct (clo_exit k inner org X V F cf zf M f ra r' (c_flags c mod 256)) as (X1 & V1 & F2 & c1 & z1 & R1 & A1 & A2 & A3 & A4 & A5); auto; try lia.
  exists X1, V1, F2, c1, z1. split; [exact R1|]. rewrite A3. split; [exact Rt|]. split; [congruence|]. split; [exact A4|exact A5].
Qed.

(** A result returned in memory: its address. *)
Lemma closure_pointer p k inner org X V F cf zf M f ra :
  0 <= org -> org + 2048 <= 2 ^ 64 -> machine_ok X V F M ->
  X RSP = f -> f + 224 < 2 ^ 64 -> le_dec (rd M (f + 216) 8) = ra -> X RAX mod 2 ^ 32 = RET_INT64 ->
  0 <= p < 2 ^ 64 -> rd M (f + 176) 8 = le_enc 8 p ->
  exists X1 V1 c1 z1,
    reach inner (text k) org (St X V F cf zf (at_label (src k) org 19) M) (St X1 V1 F c1 z1 ra M) /\
    X1 RAX = p /\ X1 RSP = f + 224 /\ (forall i, callee_saved i -> X1 i = X i).
Proof.
  intros Ho Ho2 (HX & HV & HF & HF8 & HM) Hsp F1 Hra Hf Hp Es. pose proof (HX RSP) as Bs. rewrite Hsp in Bs.
  assert (Ec : X RAX mod 256 = 7) by (apply (code_low _ 7); exact Hf).
  destruct (clo_exit k inner org X V F cf zf M f ra (RState p (X RDX) (V 0) (V 1) (nth 0 F (repeat 0 10)) (nth 1 F (repeat 0 10))) 7) as
    (X1 & V1 & F2 & c1 & z1 & R1 & A1 & A2 & A3 & A4 & A5); auto; try lia.
  { unfold load_ret. change (7 mod 256) with 7. cbn [Z.eqb Pos.eqb RET_VOID RET_UINT8 RET_UINT16 RET_UINT32 RET_SINT8 RET_SINT16 RET_SINT32 RET_INT64].
    rewrite slot_get by lia. rewrite Z.add_0_r. change (Z.to_nat 8) with 8%nat. rewrite Es. cbn [of_option bind]. rewrite dec_enc8 by exact Hp. reflexivity. }
  destruct F2; [|exfalso; unfold zlen in A1; cbn [length] in A1; change (x87_used 7) with 0 in A1; lia].
  exists X1, V1, c1, z1. split; [exact R1|]. split; [unfold result_regs in A3; injection A3; auto|]. split; [exact A4|exact A5].
Qed.

(** No result. *)
Lemma closure_void k inner org X V F cf zf M f ra :
  0 <= org -> org + 2048 <= 2 ^ 64 -> machine_ok X V F M ->
  X RSP = f -> f + 224 < 2 ^ 64 -> le_dec (rd M (f + 216) 8) = ra -> X RAX mod 256 = RET_VOID ->
  exists X1 V1 c1 z1,
    reach inner (text k) org (St X V F cf zf (at_label (src k) org 19) M) (St X1 V1 F c1 z1 ra M) /\
    X1 RSP = f + 224 /\ (forall i, callee_saved i -> X1 i = X i).
Proof.
  intros Ho Ho2 (HX & HV & HF & HF8 & HM) Hsp F1 Hra Hf. pose proof (HX RSP) as Bs. rewrite Hsp in Bs.
  destruct (clo_exit k inner org X V F cf zf M f ra (result_regs X V F) 0) as
    (X1 & V1 & F2 & c1 & z1 & R1 & A1 & A2 & A3 & A4 & A5); auto; try lia.
  destruct F2; [|exfalso; unfold zlen in A1; cbn [length] in A1; change (x87_used 0) with 0 in A1; lia].
  exists X1, V1, c1, z1. split; [exact R1|]. split; [exact A4|exact A5].
Qed.

Lemma go_closure_entered rt ts vs b fl c k inner org X V F cf zf M f cl n g_tmp :
  rt_ok rt -> Forall natural ts -> Forall2 (fun t v => zlen v = ty_size t) ts vs ->
  machdep64 (TCif FFI_UNIX64 ts rt b fl) = Ok (FFI_OK, c) -> zlen g_tmp = 16 ->
  0 <= org -> org + 2048 <= 2 ^ 64 -> machine_ok X V F M ->
  X RSP = f + 216 -> f mod 16 = 0 -> 8 <= f -> f + 224 + stack_used rt ts + 16 < 2 ^ 64 ->
  X R10 = cl -> cl + 56 <= 2 ^ 64 -> cl + 56 <= f \/ f + 176 <= cl ->
  args_passed rt ts vs (gpr_args X) (xmm_args V) (rd M (f + 224) n) ->
  exists X1 c1 z1 M1,
    reach inner (text k) org (St X V F cf zf (at_label (src k) org (entry_label true (saves_vectors c))) M) (St X1 V F c1 z1 inner M1) /\
    X1 RDI = le_dec (rd M (cl + 8) 8) /\ X1 RSI = le_dec (rd M (cl + 16) 8) /\ X1 RDX = cl /\
    X1 RCX = f + 176 /\ X1 R8 = f /\ X1 R9 = f + 224 /\ X1 RSP = f - 8 /\
    (forall i, callee_saved i -> X1 i = X i) /\
    rd M1 (f - 8) 8 = le_enc 8 (at_label (src k) org 19) /\
    (forall x, ~ (f - 8 <= x < f + 176) -> M1 x = M x) /\
    exists ps r fl', closure64 c (caller_state X V M (f + 224) n) (stale M f) g_tmp = Ok (ps, r, fl') /\
      args_seen (rd M1 f 176) (caller_state X V M (f + 224) n) ps ts vs /\
      (hidden_pointer rt = true -> r = RCaller (X RDI) /\ fl' = RET_INT64) /\
      (hidden_pointer rt = false -> r = RSlot /\ fl' = c_flags c).
Proof.
  intros H1 H2 H3 H4 H5 H6 H7 H8 H9 H10 H11 H12 H13 H14 H15 H16.
  destruct (closure_entered true rt ts vs b fl c k inner org X V F cf zf M f cl n g_tmp H1 H2 H3 H4 H5 H6 H7 H8 H9 H10 H11 H12 H13 H14 H15 H16)
    as (X1 & c1 & z1 & M1 & R1 & W & B1 & B2 & B3 & B4 & B5 & B6 & B7 & _ & B8).
  exists X1, c1, z1, M1. unfold closure_words in W.
  assert (W1 : X1 RDI = le_dec (rd M (cl + 8) 8)) by (apply (f_equal (fun p => fst (fst p))) in W; exact W).
  assert (W2 : X1 RSI = le_dec (rd M (cl + 16) 8)) by (apply (f_equal (fun p => snd (fst p))) in W; exact W).
  assert (W3 : X1 RDX = cl) by (apply (f_equal snd) in W; exact W).
  repeat (split; [assumption|]). exact B8.
Qed.
