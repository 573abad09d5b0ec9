(** Trampolines of 32-bit x86 closures: the table of static ones with the entry points behind
    it, and the machine code in a closure. *)
From Coq Require Import ZifyBool ZifyNat.
From Verif Require Import Base BaseFacts ByteMem X87Model I386AsmModel I386AsmFacts.
Local Open Scope Z_scope.
Local Arguments Z.mul : simpl never.
Local Arguments Z.add : simpl never.
Local Arguments Z.sub : simpl never.
Local Arguments Z.pow : simpl never.
Local Arguments Z.of_nat : simpl never.

Ltac rds0 := repeat match goal with
  | |- context [rd (wr ?m ?a ?d) ?b ?n] =>
    first [rewrite (rd_wr_other m a d b n) by (rewrite ?le_enc_zlen; lia)
          |replace b with a by lia; rewrite (rd_wr_same m a d n) by reflexivity] end.

(** The entry points behind static trampolines: [s] is the stack pointer, with two words pushed. *)
Lemma alt_entry c g e org X F k M s :
  0 <= org -> org + 2048 <= 2 ^ 32 -> (k = true -> g_cet g = true) -> X ESP = s -> 0 <= s -> s + 8 < 2 ^ 32 ->
  exists X1,
    reach e (text g) org (St X F k (at_label (src g) org (alt_label c)) M) (St X1 F false (at_label (src g) org (entry_label c)) M) /\
    (forall i, X1 i = match c with
                      | GRegister => upd (upd X EAX (le_dec (rd M s 4))) ESP (s + 4)
                      | _ => upd (upd X EAX (le_dec (rd M (s + 4) 4))) ESP (s + 8)
                      end i).
Proof.
  intros Ho Ho2. revert k X M. destruct c; unfold alt_label, entry_label; cfg_cases g; intros k X M Hk HS HS0 HS1; cbn [g_cet] in Hk; rn.
  all: destruct k; [try (specialize (Hk eq_refl); discriminate Hk)|clear Hk].
  all: eexists; split; [runto org ltac:(rewrite ?HS, ?Z.add_0_r)|].
  all: intros i; reflexivity.
Qed.

Lemma mem_ok_wr M a d : mem_ok M -> bytes_ok d -> mem_ok (wr M a d).
Proof.
  intros HM HD x. unfold wr. destruct ((a <=? x) && (x <? a + zlen d)) eqn:E; [|apply HM].
  unfold bytes_ok in HD. rewrite Forall_forall in HD. apply HD. apply nth_In. unfold zlen in E. lia.
Qed.

(** A slot of the trampoline table at [slot]: the words of its data are TRAMP_MAP bytes above. *)
Lemma tramp_slot g e slot X F k M s data code :
  0 <= slot -> slot + TRAMP_MAP + 8 <= 2 ^ 32 -> (k = true -> g_cet g = true) -> X ESP = s + 8 -> 4 <= s -> s + 8 < 2 ^ 32 ->
  s + 8 <= slot + TRAMP_MAP \/ slot + TRAMP_MAP + 8 <= s - 4 ->
  le_dec (rd M (slot + TRAMP_MAP) 4) = data -> le_dec (rd M (slot + TRAMP_MAP + 4) 4) = code -> 0 <= data < 2 ^ 32 -> 0 <= code < 2 ^ 32 -> 0 <= X EAX < 2 ^ 32 ->
  exists X1 M1,
    reach e (tramp_text g) slot (St X F k slot M) (St X1 F (e_ibt e) code M1) /\
    (forall i, X1 i = upd (upd X EAX code) ESP s i) /\
    rd M1 s 4 = le_enc 4 (X EAX) /\ rd M1 (s + 4) 4 = le_enc 4 data /\
    (forall x, ~ (s - 4 <= x < s + 8) -> M1 x = M x) /\ (mem_ok M -> mem_ok M1).
Proof.
  intros Ho Ho2 Hk HS HS0 HS1 HD W0 W1 RD RC RA. replace (St X F k slot M) with (St X F k (slot + 0) M) by (f_equal; lia).
  unfold TRAMP_MAP in *. replace (slot + 4096 + 4) with (slot + 4100) in * by lia.
  destruct g as [cet pc og]. destruct cet; destruct k; cbn [g_cet] in Hk; try (specialize (Hk eq_refl); discriminate Hk); rn.
  all: eexists; eexists; split; [repeat (step2 slot ltac:(rewrite ?HS, ?Z.add_0_r; try replace (s + 8 - 8) with s by lia; rds; rdo; try match goal with |- context [rd _ ?a 4] => first [replace a with (slot + 4096) by lia; rewrite W0|replace a with (slot + 4100) by lia; rewrite W1] end)); apply reach_refl|].
  all: split; [intros i; unfold upd, EAX, ESP; destruct (Z.eqb_spec i 0); [subst i; reflexivity|]; destruct (Z.eqb_spec i 4); [lia|reflexivity]|].
  all: split; [rds0; reflexivity|]; split; [rds0; reflexivity|].
  all: split; [intros x N; rewrite !wr_out by (rewrite le_enc_zlen; lia); reflexivity|].
  all: intros HM0; repeat (apply mem_ok_wr; [|apply le_enc_ok]); exact HM0.
Qed.

(** ** The code in a closure *)

Lemma app_inj_len (a b c d : list Z) : a ++ b = c ++ d -> length a = length c -> a = c /\ b = d.
Proof.
  revert c. induction a as [|x a IH]; intros [|y c] E L; try discriminate L; [split; [reflexivity|exact E]|].
  cbn [app] in E. injection E as -> E. destruct (IH c E ltac:(injection L as L; exact L)) as [-> ->]. split; reflexivity.
Qed.

Lemma dyn_endbr X F k a M : rd M a 4 = le_enc 4 4213444595 -> 0 <= a -> a + 4 < 2 ^ 32 ->
  dyn_step (St X F k a M) = Some (St X F false (a + 4) M).
Proof.
  intros R A B. unfold dyn_step. cbn [sm spc sx sf sk]. rewrite R. change (le_dec (le_enc 4 4213444595) =? 4213444595) with true.
  rewrite wrap32_small by lia. reflexivity.
Qed.

(** An instruction of one byte and a word. *)
Lemma dyn_other X F a M b w : rd M a 5 = b :: le_enc 4 w -> 0 <= b < 243 -> 0 <= a -> a + 5 < 2 ^ 32 -> 0 <= w < 2 ^ 32 ->
  dyn_step (St X F false a M) =
  (if b =? 184 then Some (St (upd X EAX w) F false (a + 5) M)
   else if b =? 104 then
     if fits (wrap32 (X ESP - 4)) 4 then Some (St (upd X ESP (wrap32 (X ESP - 4))) F false (a + 5) (wr M (wrap32 (X ESP - 4)) (le_enc 4 w))) else None
   else if b =? 233 then Some (St X F false (wrap32 (a + 5 + w)) M) else None).
Proof.
  intros R Hb A B W. change (rd M a 5) with (M a :: rd M (a + 1) 4) in R.
  assert (E0 : M a = b) by (apply (f_equal (hd 0)) in R; exact R). assert (E1 : rd M (a + 1) 4 = le_enc 4 w) by (apply (f_equal (@tl Z)) in R; exact R).
  unfold dyn_step. cbn [sm spc sx sf sk]. rewrite E0, E1, word_back by exact W. rewrite !(wrap32_small (a + 5)) by lia.
  replace (le_dec (rd M a 4) =? 4213444595) with false; [reflexivity|].
  symmetry. apply Z.eqb_neq. change (rd M a 4) with (M a :: rd M (a + 1) 3). rewrite E0. cbn [le_dec]. intros Q.
  apply (f_equal (fun z => z mod 256)) in Q. change (4213444595 mod 256) with 243 in Q.
  rewrite Z.add_comm, Z.mul_comm, Z.add_comm, Z_mod_plus_full, Z.mod_small in Q by lia. lia.
Qed.

(** The trampoline of ffi_prep_closure_loc, from its first byte to the entry code. *)
Lemma dyn_run push dest clo X F k M sp :
  rd M clo 14 = dyn_tramp push dest clo -> 0 <= clo -> clo + 14 < 2 ^ 32 -> 0 <= dest < 2 ^ 32 ->
  (push = true -> X ESP = sp + 4 /\ 0 <= sp /\ sp + 4 < 2 ^ 32 /\ (sp + 4 <= clo \/ clo + 14 <= sp)) ->
  dyn_steps 3 (St X F k clo M) =
    Some (if push then St (upd X ESP sp) F false dest (wr M sp (le_enc 4 clo)) else St (upd X EAX clo) F false dest M).
Proof.
  intros R C0 C1 HD HP. pose (w := wrap32 (dest - wrap32 (clo + 14))).
  assert (W : 0 <= w < 2 ^ 32) by (apply Z.mod_pos_bound; reflexivity).
  assert (WE : wrap32 (clo + 4 + 5 + 5 + w) = dest).
  { unfold w. rewrite (wrap32_small (clo + 14)) by lia. unfold wrap32, wrap. rewrite Zplus_mod_idemp_r. replace (clo + 4 + 5 + 5 + (dest - (clo + 14))) with dest by lia. apply Z.mod_small, HD. }
  change 14%nat with (4 + (5 + 5))%nat in R. rewrite !rd_app in R. change (Z.of_nat 4) with 4 in R. change (Z.of_nat 5) with 5 in R.
  unfold dyn_tramp in R. fold w in R. apply app_inj_len in R; [|reflexivity]. destruct R as [R1 R].
  change ([if push then 104 else 184] ++ le_enc 4 clo ++ [233] ++ le_enc 4 w) with (((if push then 104 else 184) :: le_enc 4 clo) ++ (233 :: le_enc 4 w)) in R.
  apply app_inj_len in R; [|reflexivity]. destruct R as [R2 R3].
  cbn [dyn_steps]. rewrite dyn_endbr by first [exact R1|lia].
  destruct push.
  - destruct (HP eq_refl) as (HS & S0 & S1 & DJ).
    rewrite (dyn_other _ _ (clo + 4) _ 104 clo) by first [exact R2|lia]. change (104 =? 184) with false. change (104 =? 104) with true. cbv iota.
    rewrite HS. replace (sp + 4 - 4) with sp by lia. rewrite (wrap32_small sp), fits_ok by lia.
    rewrite (dyn_other _ _ (clo + 4 + 5) _ 233 w) by first [rewrite rd_wr_other by (rewrite le_enc_zlen; lia); exact R3|lia].
    change (233 =? 184) with false. change (233 =? 104) with false. change (233 =? 233) with true. cbv iota. rewrite WE. reflexivity.
  - rewrite (dyn_other _ _ (clo + 4) _ 184 clo) by first [exact R2|lia]. change (184 =? 184) with true. cbv iota.
    rewrite (dyn_other _ _ (clo + 4 + 5) _ 233 w) by first [exact R3|lia].
    change (233 =? 184) with false. change (233 =? 104) with false. change (233 =? 233) with true. cbv iota. rewrite WE. reflexivity.
Qed.

(** The trampoline of ffi_prep_raw_closure_loc. *)
Lemma raw_run dest clo X F M :
  rd M clo 10 = raw_tramp dest clo -> 0 <= clo -> clo + 10 < 2 ^ 32 -> 0 <= dest < 2 ^ 32 ->
  dyn_steps 2 (St X F false clo M) = Some (St (upd X EAX clo) F false dest M).
Proof.
  intros R C0 C1 HD. pose (w := wrap32 (dest - wrap32 (clo + 10))).
  assert (W : 0 <= w < 2 ^ 32) by (apply Z.mod_pos_bound; reflexivity).
  assert (WE : wrap32 (clo + 5 + 5 + w) = dest).
  { unfold w. rewrite (wrap32_small (clo + 10)) by lia. unfold wrap32, wrap. rewrite Zplus_mod_idemp_r. replace (clo + 5 + 5 + (dest - (clo + 10))) with dest by lia. apply Z.mod_small, HD. }
  change 10%nat with (5 + 5)%nat in R. rewrite !rd_app in R. change (Z.of_nat 5) with 5 in R.
  unfold raw_tramp in R. fold w in R.
  change ([184] ++ le_enc 4 clo ++ [233] ++ le_enc 4 w) with ((184 :: le_enc 4 clo) ++ (233 :: le_enc 4 w)) in R.
  apply app_inj_len in R; [|reflexivity]. destruct R as [R1 R2].
  cbn [dyn_steps]. rewrite (dyn_other _ _ clo _ 184 clo) by first [exact R1|lia]. change (184 =? 184) with true. cbv iota.
  rewrite (dyn_other _ _ (clo + 5) _ 233 w) by first [exact R2|lia].
  change (233 =? 184) with false. change (233 =? 104) with false. change (233 =? 233) with true. cbv iota. rewrite WE. reflexivity.
Qed.

(** It does not begin with ENDBR32. *)
Lemma raw_tracked dest clo X F M : rd M clo 10 = raw_tramp dest clo -> dyn_step (St X F true clo M) = None.
Proof.
  intros R. change 10%nat with (4 + 6)%nat in R. rewrite rd_app in R.
  assert (E : rd M clo 4 = firstn 4 (raw_tramp dest clo)) by (rewrite <- R, firstn_app, rd_length, Nat.sub_diag, firstn_O, app_nil_r, firstn_all2 by (rewrite rd_length; constructor); reflexivity).
  unfold dyn_step. cbn [sm spc sk]. rewrite E. unfold raw_tramp. cbn [firstn app le_dec le_enc].
  replace (_ =? 4213444595) with false; [reflexivity|]. symmetry. apply Z.eqb_neq. intros Q.
  apply (f_equal (fun z => z mod 256)) in Q. change (4213444595 mod 256) with 243 in Q.
  rewrite Z.mul_comm, Z_mod_plus_full in Q. discriminate Q.
Qed.
