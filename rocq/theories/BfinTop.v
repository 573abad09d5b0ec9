(** Calls on Blackfin as a whole: ffi_prep_cif_machdep, ffi_prep_args and ffi_call_SYSV. *)
From Coq Require Import ZifyBool ZifyNat.
From Verif Require Import Base BaseFacts Types ByteMem S390Facts ArmModel BfinModel BfinSpec BfinFacts BfinAsm.
Local Open Scope Z_scope.
Local Arguments Z.mul : simpl never.
Local Arguments Z.add : simpl never.
Local Arguments Z.sub : simpl never.
Local Arguments Z.pow : simpl never.
Local Arguments Z.div : simpl never.
Local Arguments Z.modulo : simpl never.
Local Arguments Z.of_nat : simpl never.
Local Arguments le_enc : simpl never.
Local Arguments le_dec : simpl never.
Local Arguments rd : simpl never.

(** [n] bytes at [a] lie in the address space and outside the part of the stack from [bot] to the
    three words at [sp] that belong to ffi_call_SYSV. *)
Definition away (bot sp a n : Z) : Prop := 0 <= a /\ a + n <= 2 ^ 32 /\ (a + n <= bot \/ sp + 12 <= a).
(** The state in which ffi_call (src/bfin/ffi.c:117-142) enters ffi_call_SYSV at [org]: cif->bytes in
    R0, the address of the extended cif in R1, the flags, the address [rv] for the result and the
    address [fd] of the function's descriptor on the stack; [ga] is the slot of the global offset
    table with the address [D] of the descriptor of ffi_prep_args, [ta] that of .rettable.  The
    stack may be used down to [bot]. *)
Record setup (c : cfg) (org : Z) (rt : ftype) (ts : list ftype) (args : list Z) (vs : list (list Z)) (X M : Z -> Z)
  (sp bot flags rv fd ga D ta : Z) : Prop := {
  su_org : 0 <= org /\ org + 288 <= 2 ^ 32;
  su_regs : words_in X;
  su_mem : bytes_in M;
  su_rt : rtype_ok rt;
  su_small : 4 + slots ts < 2 ^ 32;
  su_sp : X 14 = sp;
  su_bytes : X 0 = cif_bytes rt ts;
  su_bot : 0 <= bot /\ bot + cif_bytes rt ts + 32 <= sp;
  su_top : sp + 28 <= 2 ^ 32;
  su_flags : ret_flags rt = Some flags;
  su_fl : ld M (sp + 12) = flags;
  su_rv : ld M (sp + 16) = rv;
  su_fd : ld M (sp + 20) = fd;
  su_fda : away bot sp fd 8;
  su_ga : wrap32 (X 11 + g_prep c) = ga /\ away bot sp ga 4 /\ ld M ga = D;
  su_D : away bot sp D 8;
  su_ta : wrap32 (X 11 + g_tab c) = ta /\ away bot sp ta 4 /\ ld M ta = org + 188;
  su_tab : table_in org M /\ away bot sp (org + 188) 20;
  su_obj : objects M bot (sp + 12) ts args vs }.

(** [X], [M]: how ffi_prep_args, entered with registers [X1] and leaving [m] as memory of its own
    stores, returns to ffi_call_SYSV: registers that belong to the caller are kept, memory below its
    stack pointer may have been used. *)
Definition prep_back (bot : Z) (X1 m X M : Z -> Z) : Prop :=
  (forall r, saved r -> X r = X1 r) /\ bytes_in M /\ (forall x, ~ (bot <= x < X1 14) -> M x = m x).
(** [X], [M]: how a function entered with registers [X3] and memory [M3] returns: it keeps the
    registers of its caller, and what lies in memory at and above the frame of ffi_call_SYSV down to
    the arguments' end, the table and its slot. *)
Definition fn_back (org sp ta : Z) (X3 M3 X M : Z -> Z) : Prop :=
  (forall r, saved r -> X r = X3 r) /\ words_in X /\ bytes_in M /\
  (forall x, sp - 28 <= x < sp + 20 \/ ta <= x < ta + 4 \/ org + 188 <= x < org + 208 -> M x = M3 x).

Lemma laid_ext m M stack : (forall x, stack <= x -> M x = m x) -> forall ts vs p, Forall btype ts -> Forall2 is_value ts vs -> stack <= p -> laid m p ts vs -> laid M p ts vs.
Proof.
  intros E. induction ts as [|t ts IH]; intros [|v vs] p FT FV Hp L; cbn [laid] in *; try contradiction; auto.
  inversion FT as [|? ? T FT']; subst. inversion FV as [|? ? ? ? V FV']; subst. destruct L as (L1 & L2). pose proof (adv_pos t T). split.
  - rewrite <- L1 at 2. apply rd_ext. intros x Hx. apply E. lia.
  - apply IH; auto. lia.
Qed.

(** ffi_call_SYSV up to ffi_prep_args, what that does, and on to the function. *)
Lemma to_function c org rt ts args vs X M sp bot flags rv fd ga D ta :
  setup c org rt ts args vs X M sp bot flags rv fd ga D ta ->
  let stack := sp - 32 - cif_bytes rt ts in
  exists X1 M1 m,
    reach c org (St X org M) (St X1 (ld M D) M1) /\ X1 0 = stack /\ X1 1 = X 1 /\ X1 11 = ld M (D + 4) /\ X1 14 = stack /\ X1 16 = org + 76 /\
    prep_args ts args M1 stack = Some m /\ (forall x, ~ (stack <= x < stack + cif_bytes rt ts) -> m x = M1 x) /\ (forall x, ~ (sp - 28 <= x < sp + 12) -> M1 x = M x) /\
    forall X2 M2, prep_back bot X1 m X2 M2 -> exists X3,
      reach c org (St X2 (X1 16) M2) (St X3 (ld M fd) M2) /\ X3 16 = org + 120 /\ X3 8 = rv /\ X3 14 = stack /\ X3 15 = sp - 8 /\ X3 11 = ld M (sp + 24) /\
      (forall r, 4 <= r <= 7 \/ 12 <= r <= 13 -> X3 r = X r) /\ frame X M2 sp stack /\ (forall x, ~ (bot <= x < sp + 12) -> M2 x = M x) /\
      (tidy ts = true -> passed X3 M2 0 ts vs).
Proof.
  intros S stack. destruct S as [So Sr Sm Srt Ss Ssp Sb Sbot Stop Sf Sfl Srv Sfd Sfda (Sg1 & Sg2 & Sg3) SD St1 Stab Sobj].
  destruct (objects_types _ _ _ _ _ _ Sobj) as (FT & FV). pose proof (bytes_enough rt ts FT Ss) as BE. pose proof (total_nonneg ts FT) as TN.
  unfold away in *.
  destruct (run_enter c org X M sp ga D) as (X1 & M1 & R1 & A0 & A1 & A11 & A14 & A15 & A16 & AS & FR & MO & MB); try assumption; try lia.
  rewrite Sb in *. fold stack in A0, A14, FR.
  destruct (prep_args_inv bot (sp + 12) ts args vs M1 stack) as (m & PA & PO & PL & PB).
  { eapply objects_ext; [|exact Sobj]. intros x Hx. apply MO. lia. }
  { lia. } { lia. }
  exists X1, M1, m. split; [exact R1|]. split; [exact A0|]. split; [exact A1|]. split; [exact A11|]. split; [exact A14|]. split; [exact A16|].
  split; [exact PA|]. split; [intros x Hx; apply PO; lia|]. split; [exact MO|].
  intros X2 M2 (B1 & B2 & B3). rewrite A14 in B3.
  assert (F2 : frame X M2 sp stack) by (eapply frame_ext; [|exact FR]; intros x Hx; rewrite B3, PO by lia; reflexivity).
  assert (M2M : forall x, ~ (bot <= x < sp + 12) -> M2 x = M x) by (intros x Hx; rewrite B3, PO, MO by lia; reflexivity).
  assert (LM : forall a, a + 4 <= bot \/ sp + 12 <= a -> ld M2 a = ld M a) by (intros a Ha; apply ld_ext; intros x Hx; apply M2M; lia).
  destruct (run_call c org X2 M2 sp stack fd) as (X3 & R3 & C0 & C8 & C11 & C14 & C15 & C16 & CS); try lia.
  { rewrite B1, A15 by (unfold saved; lia). reflexivity. }
  { apply F2. }
  { rewrite LM by lia. exact Sfd. }
  exists X3. rewrite A16. split; [rewrite LM in R3 by lia; exact R3|]. split; [exact C16|]. split; [rewrite C8, LM by lia; exact Srv|]. split; [exact C14|]. split; [exact C15|].
  split; [rewrite C11, LM by lia; reflexivity|]. split; [intros r Hr; rewrite CS, B1, AS by (unfold saved; lia); reflexivity|]. split; [exact F2|]. split; [exact M2M|].
  intros TD. apply (laid_passed X3 M2 stack); auto; [lia|]. rewrite Z.add_0_r.
  apply (laid_ext m M2 stack); auto; [intros x Hx; apply B3; lia|lia].
Qed.

(** ffi_call_SYSV after the function. *)
Lemma from_function c org rt ts args vs X M sp bot flags rv fd ga D ta :
  setup c org rt ts args vs X M sp bot flags rv fd ga D ta ->
  (flags <> 0 -> away bot sp rv (if flags =? 3 then 8 else 4)) ->
  forall X3 M3 X4 M4, X3 15 = sp - 8 -> (forall r, 4 <= r <= 7 \/ 12 <= r <= 13 -> X3 r = X r) -> frame X M3 sp (sp - 32 - cif_bytes rt ts) -> (forall x, ~ (bot <= x < sp + 12) -> M3 x = M x) ->
  fn_back org sp ta X3 M3 X4 M4 ->
  exists X5, reach c org (St X4 (org + 120) M4) (St X5 (X 16) (store_result c flags rv sp X4 M4)) /\ X5 11 = X 11 /\ (forall r, saved r -> X5 r = X r).
Proof.
  intros S Hrv X3 M3 X4 M4 H15 HS F3 M3M (B1 & B2 & B3 & B4).
  destruct S as [So Sr Sm Srt Ss Ssp Sb Sbot Stop Sf Sfl Srv Sfd Sfda Sg SD (St1 & St2 & St3) (Stab1 & Stab2) Sobj].
  destruct (objects_types _ _ _ _ _ _ Sobj) as (FT & FV). pose proof (bytes_enough rt ts FT Ss) as BE. pose proof (total_nonneg ts FT) as TN.
  unfold away in *.
  assert (Fl : 0 <= flags <= 4) by (unfold ret_flags in Sf; destruct (ty_code rt); try discriminate; injection Sf as <-; repeat (destruct (_ <=? _) || destruct (_ =? _)); lia).
  assert (K : forall a, sp - 28 <= a -> a + 4 <= sp + 20 -> ld M4 a = ld M3 a) by (intros a H1 H2; apply ld_ext; intros x Hx; apply B4; lia).
  assert (K3 : forall a, sp + 12 <= a -> ld M3 a = ld M a) by (intros a H1; apply ld_ext; intros x Hx; apply M3M; lia).
  destruct (run_leave c org X4 M4 X sp (sp - 32 - cif_bytes rt ts) flags rv ta) as (X5 & R & E11 & E14 & E15 & ES); try assumption; try lia.
  { rewrite B1 by (unfold saved; lia). exact H15. }
  { eapply frame_ext; [|exact F3]. intros x Hx. apply B4. lia. }
  { rewrite K, K3 by lia. exact Sfl. }
  { rewrite K, K3 by lia. exact Srv. }
  { rewrite <- St3. apply ld_ext. intros x Hx. rewrite B4, M3M by lia. reflexivity. }
  { intros k w Hk. rewrite <- (Stab1 k w Hk). assert (Kb : 47 <= Z.of_nat k <= 51).
    { assert (L : (k < length text)%nat) by (apply nth_error_Some; congruence). change (length text) with 72%nat in L.
      do 72 (destruct k as [|k]; [first [vm_compute in Hk; discriminate Hk|split; vm_compute; discriminate]|]). lia. }
    apply ld_ext. intros x Hx. rewrite B4, M3M by lia. reflexivity. }
  exists X5. split; [exact R|]. split; [exact E11|]. intros r [Hr|Hr].
  - rewrite ES, B1, HS by (unfold saved; lia). reflexivity.
  - assert (D4 : 12 <= r <= 13 \/ r = 14 \/ r = 15) by lia. destruct D4 as [D4|[-> | ->]]; [|congruence|exact E15].
    rewrite ES, B1, HS by (unfold saved; lia). reflexivity.
Qed.

(** ffi_prep_args and ffi_call_SYSV hand over the arguments. *)
Lemma call_args c org rt ts args vs X M sp bot flags rv fd ga D ta :
  setup c org rt ts args vs X M sp bot flags rv fd ga D ta -> tidy ts = true ->
  exists X1 M1 m,
    reach c org (St X org M) (St X1 (ld M D) M1) /\ X1 1 = X 1 /\ X1 11 = ld M (D + 4) /\ prep_args ts args M1 (X1 0) = Some m /\
    forall X2 M2, prep_back bot X1 m X2 M2 -> exists X3,
      reach c org (St X2 (X1 16) M2) (St X3 (ld M fd) M2) /\ passed X3 M2 0 ts vs /\ X3 8 = rv /\ (forall x, ~ (bot <= x < sp + 12) -> M2 x = M x).
Proof.
  intros S TD. destruct (to_function _ _ _ _ _ _ _ _ _ _ _ _ _ _ _ _ S) as (X1 & M1 & m & R1 & A0 & A1 & A11 & A14 & A16 & PA & PO & MO & T).
  exists X1, M1, m. rewrite A0. repeat (split; [assumption|]). intros X2 M2 B. destruct (T X2 M2 B) as (X3 & R3 & C16 & C8 & C14 & C15 & C11 & CS & F & MM & P). exists X3. auto.
Qed.
(** ffi_prep_args stays in the space made for it, whatever the arguments. *)
Lemma call_room c org rt ts args vs X M sp bot flags rv fd ga D ta :
  setup c org rt ts args vs X M sp bot flags rv fd ga D ta ->
  exists X1 M1 m,
    reach c org (St X org M) (St X1 (ld M D) M1) /\ prep_args ts args M1 (X1 0) = Some m /\ X1 14 = X1 0 /\ X1 0 + X 0 <= sp - 28 /\
    (forall x, m x <> M1 x -> X1 0 <= x < X1 0 + X 0) /\ (forall x, M1 x <> M x -> sp - 28 <= x < sp + 12).
Proof.
  intros S. pose proof (su_bytes _ _ _ _ _ _ _ _ _ _ _ _ _ _ _ _ S) as SB.
  destruct (to_function _ _ _ _ _ _ _ _ _ _ _ _ _ _ _ _ S) as (X1 & M1 & m & R1 & A0 & A1 & A11 & A14 & A16 & PA & PO & MO & T).
  exists X1, M1, m. rewrite A0, SB. split; [exact R1|]. split; [exact PA|]. split; [exact A14|]. split; [lia|]. split; intros x Hx.
  - destruct (Z_lt_dec x (sp - 32 - cif_bytes rt ts)); [exfalso; apply Hx, PO; lia|]. destruct (Z_lt_dec x (sp - 32 - cif_bytes rt ts + cif_bytes rt ts)); [lia|exfalso; apply Hx, PO; lia].
  - destruct (Z_lt_dec x (sp - 28)); [exfalso; apply Hx, MO; lia|]. destruct (Z_lt_dec x (sp + 12)); [lia|exfalso; apply Hx, MO; lia].
Qed.

Lemma flags_room rt flags : rtype_ok rt -> ret_flags rt = Some flags -> flags <> 0 -> ty_code rt <> T_VOID /\ (if flags =? 3 then 8 else 4) <= result_room rt.
Proof.
  intros T E N. unfold ret_flags in E. unfold result_room. destruct T as [(T1 & T2)|(_ & T)]; [rewrite T1 in E; injection E as <-; lia|].
  destruct (ty_code rt); try contradiction; try discriminate; injection E as <-; split; try discriminate; try (rewrite T; cbn; lia).
  destruct (ty_size rt <=? 4) eqn:E1; [cbn; lia|]. destruct (ty_size rt =? 8) eqn:E2; cbn in *; lia.
Qed.
Lemma away_le bot sp a n k : k <= n -> away bot sp a n -> away bot sp a k.
Proof. unfold away. lia. Qed.

(** The whole call. *)
Lemma call_whole c org rt ts args vs X M sp bot flags rv fd ga D ta :
  setup c org rt ts args vs X M sp bot flags rv fd ga D ta -> (ty_code rt <> T_VOID -> away bot sp rv (result_room rt)) ->
  exists X1 M1 m,
    reach c org (St X org M) (St X1 (ld M D) M1) /\ prep_args ts args M1 (X1 0) = Some m /\
    forall X2 M2, prep_back bot X1 m X2 M2 -> exists X3,
      reach c org (St X2 (X1 16) M2) (St X3 (ld M fd) M2) /\ X3 11 = ld M (sp + 24) /\
      forall X4 M4, fn_back org sp ta X3 M2 X4 M4 -> exists X5,
        reach c org (St X4 (X3 16) M4) (St X5 (X 16) (store_result c flags rv sp X4 M4)) /\ X5 11 = X 11 /\ (forall r, saved r -> X5 r = X r).
Proof.
  intros S AW. destruct (to_function _ _ _ _ _ _ _ _ _ _ _ _ _ _ _ _ S) as (X1 & M1 & m & R1 & A0 & A1 & A11 & A14 & A16 & PA & PO & MO & T).
  exists X1, M1, m. rewrite A0. split; [exact R1|]. split; [exact PA|]. intros X2 M2 B. destruct (T X2 M2 B) as (X3 & R3 & C16 & C8 & C14 & C15 & C11 & CS & F & MM & P).
  exists X3. split; [exact R3|]. split; [exact C11|]. intros X4 M4 FB. rewrite C16.
  apply (from_function c org rt ts args vs X M sp bot flags rv fd ga D ta S) with (X3 := X3) (M3 := M2); auto.
  intros N. destruct (flags_room rt flags (su_rt _ _ _ _ _ _ _ _ _ _ _ _ _ _ _ _ S) (su_flags _ _ _ _ _ _ _ _ _ _ _ _ _ _ _ _ S) N) as (NV & L). exact (away_le _ _ _ _ _ L (AW NV)).
Qed.
(** ffi_call_SYSV returns to its caller with its registers. *)
Lemma call_return c org rt ts args vs X M sp bot flags rv fd ga D ta :
  setup c org rt ts args vs X M sp bot flags rv fd ga D ta -> (ty_code rt <> T_VOID -> away bot sp rv (result_room rt)) ->
  exists X1 M1 m,
    reach c org (St X org M) (St X1 (ld M D) M1) /\ prep_args ts args M1 (X1 0) = Some m /\
    forall X2 M2, prep_back bot X1 m X2 M2 -> exists X3,
      reach c org (St X2 (X1 16) M2) (St X3 (ld M fd) M2) /\
      forall X4 M4, fn_back org sp ta X3 M2 X4 M4 -> exists X5 M5,
        reach c org (St X4 (X3 16) M4) (St X5 (X 16) M5) /\ X5 11 = X 11 /\ (forall r, saved r -> X5 r = X r).
Proof.
  intros S AW. destruct (call_whole _ _ _ _ _ _ _ _ _ _ _ _ _ _ _ _ S AW) as (X1 & M1 & m & R1 & PA & T). exists X1, M1, m. split; [exact R1|]. split; [exact PA|].
  intros X2 M2 B. destruct (T X2 M2 B) as (X3 & R3 & _ & T3). exists X3. split; [exact R3|]. intros X4 M4 FB. destruct (T3 X4 M4 FB) as (X5 & Q). eauto.
Qed.
(** The function is entered with what the caller's stack has four bytes above the descriptor's
    address as its global offset table. *)
Lemma call_got c org rt ts args vs X M sp bot flags rv fd ga D ta :
  setup c org rt ts args vs X M sp bot flags rv fd ga D ta -> ld M (sp + 24) = ld M (fd + 4) ->
  exists X1 M1 m,
    reach c org (St X org M) (St X1 (ld M D) M1) /\ prep_args ts args M1 (X1 0) = Some m /\
    forall X2 M2, prep_back bot X1 m X2 M2 -> exists X3,
      reach c org (St X2 (X1 16) M2) (St X3 (ld M fd) M2) /\ X3 11 = ld M (fd + 4).
Proof.
  intros S E. destruct (to_function _ _ _ _ _ _ _ _ _ _ _ _ _ _ _ _ S) as (X1 & M1 & m & R1 & A0 & A1 & A11 & A14 & A16 & PA & PO & MO & T).
  exists X1, M1, m. rewrite A0. split; [exact R1|]. split; [exact PA|]. intros X2 M2 B. destruct (T X2 M2 B) as (X3 & R3 & C16 & C8 & C14 & C15 & C11 & CS & F & MM & P).
  exists X3. split; [exact R3|]. congruence.
Qed.

(** What is stored for a result. *)
Lemma rd_stw m a x : rd (stw m a x) a 4 = word_bytes x.
Proof. rewrite word_enc. unfold stw. apply rd_wr_same. rewrite le_enc_length. reflexivity. Qed.
Lemma word_bytes_mod x y : x mod 2 ^ 32 = y mod 2 ^ 32 -> word_bytes x = word_bytes y.
Proof.
  intros H. rewrite !word_enc. assert (K : forall z, le_enc 4 (z mod 2 ^ 32) = le_enc 4 z).
  { intros z. rewrite <- (enc4 (le_enc 4 z)) by (apply le_enc_ok || apply le_enc_length). rewrite le_dec_enc. reflexivity. }
  rewrite <- (K x), <- (K y), H. reflexivity.
Qed.
Lemma stored_ok c rt flags rv sp X M v bot : rtype_ok rt -> ret_flags rt = Some flags -> plain_result (g_sign c) rt = true -> words_in X ->
  (ty_code rt <> T_VOID -> is_value rt v /\ away bot sp rv (result_room rt)) -> bot <= sp - 28 -> returned rt v X ->
  let M' := store_result c flags rv sp X M in
  bytes_at M' rv (zlen (stored rt v)) = stored rt v /\ (forall x, ~ (rv <= x < rv + zlen (stored rt v)) -> ~ (sp - 28 <= x < sp) -> M' x = M x).
Proof.
  intros T E PR W V Hb RT M'. unfold M', store_result. set (M1 := stw (stw M (sp - 16) (X 0)) (sp - 12) (X 1)). clear M'.
  assert (O1 : forall x, ~ (sp - 28 <= x < sp) -> M1 x = M x) by (intros x Hx; unfold M1; rewrite !stw_out by lia; reflexivity).
  assert (One4 : forall y w, word_bytes y = w -> bytes_at (stw M1 rv y) rv (zlen w) = w /\ (forall x, ~ (rv <= x < rv + zlen w) -> ~ (sp - 28 <= x < sp) -> stw M1 rv y x = M x)).
  { intros y w <-. assert (L : zlen (word_bytes y) = 4) by (rewrite word_enc; apply le_enc_zlen). rewrite L, bytes_at_rd. split; [apply rd_stw|]. intros x H1 H2. rewrite stw_out by lia. apply O1, H2. }
  assert (Two8 : forall w, word_bytes (X 0) ++ word_bytes (X 1) = w -> bytes_at (stw (stw M1 rv (X 0)) (rv + 4) (X 1)) rv (zlen w) = w /\ (forall x, ~ (rv <= x < rv + zlen w) -> ~ (sp - 28 <= x < sp) -> stw (stw M1 rv (X 0)) (rv + 4) (X 1) x = M x)).
  { intros w <-. assert (L : zlen (word_bytes (X 0) ++ word_bytes (X 1)) = 8) by (rewrite !word_enc; unfold zlen; rewrite app_length, !le_enc_length; reflexivity).
    rewrite L, bytes_at_rd. split.
    - change (Z.to_nat 8) with (4 + 4)%nat. rewrite rd_app. change (Z.of_nat 4) with 4. f_equal; [|apply rd_stw].
      unfold stw at 1. rewrite rd_wr_other by (rewrite le_enc_zlen; lia). apply rd_stw.
    - intros x H1 H2. rewrite !stw_out by lia. apply O1, H2. }
  assert (None0 : bytes_at M1 rv (zlen (@nil Z)) = [] /\ (forall x, ~ (rv <= x < rv + zlen (@nil Z)) -> ~ (sp - 28 <= x < sp) -> M1 x = M x)) by (split; [reflexivity|intros x _; apply O1]).
  assert (MW : forall y, X 0 mod 2 ^ 32 = y mod 2 ^ 32 -> word_bytes (X 0) = word_bytes y) by (intros y; apply word_bytes_mod).
  unfold ret_flags in E. unfold stored, returned, home_of, aggregate, plain_result, extended in *.
  destruct T as [(T1 & T2)|(_ & T)]; [rewrite T1 in *; injection E as <-; exact None0|].
  destruct (ty_code rt) eqn:TC; try contradiction; try discriminate; injection E as <-; destruct V as ((LV & BV) & _); try discriminate; rewrite ?T in *.
  all: cbn [Z.leb Z.compare Pos.compare Pos.compare_cont Z.eqb Pos.eqb] in RT |- *.
  all: try (apply One4, MW, RT).
  all: try (apply Two8; rewrite firstn_all2 in RT by (rewrite !word_enc, app_length, !le_enc_length; unfold zlen in LV; lia); exact RT).
  all: pose proof (le_dec_bound v BV) as DB; rewrite LV in DB; change value with le_dec in *; pose proof (W 0) as W0.
  - change (8 * 1) with 8 in DB. rewrite (Z.mod_small (X 0)), (Z.mod_small (le_dec v)) in RT by lia. apply One4. f_equal. rewrite RT. apply Z.mod_small. lia.
  - change (8 * 2) with 16 in DB. rewrite (Z.mod_small (X 0)), (Z.mod_small (le_dec v)) in RT by lia. apply One4. apply negb_true_iff in PR. rewrite PR. rewrite RT.
    rewrite (Z.mod_small _ 65536), wrap32_small by lia. reflexivity.
  - change (8 * 2) with 16 in *. change (16 - 1) with 15 in *. rewrite (Z.mod_small (X 0)) in RT by lia. apply One4. rewrite PR, RT. apply word_bytes_mod. unfold wrap32, wrap. rewrite Z.mod_mod by lia.
    f_equal. unfold to_signed. change (16 - 1) with 15. change 65536 with (2 ^ 16). rewrite Z.mod_mod by lia.
    destruct (le_dec v <? 2 ^ 15) eqn:E1.
    + rewrite (Z.mod_small (le_dec v) (2 ^ 32)), (Z.mod_small (le_dec v) (2 ^ 16)), E1 by lia. reflexivity.
    + replace ((le_dec v - 2 ^ 16) mod 2 ^ 32) with (le_dec v + (2 ^ 16 - 1) * 2 ^ 16) by (apply (Z.mod_unique _ _ (-1)); lia). rewrite Z.mod_add, (Z.mod_small (le_dec v)), E1 by lia. reflexivity.
  - apply orb_prop in PR. destruct (ty_size rt <=? 4) eqn:E4.
    + apply One4. rewrite firstn_all2 in RT by (rewrite word_enc, le_enc_length; unfold zlen in LV; lia). exact RT.
    + destruct (ty_size rt =? 8) eqn:E8.
      * replace (ty_size rt <=? 8) with true in * by lia. apply Two8. rewrite firstn_all2 in RT by (rewrite !word_enc, app_length, !le_enc_length; unfold zlen in LV; lia). exact RT.
      * replace (ty_size rt <=? 8) with false in * by lia. exact None0.
Qed.

(** ffi_call_SYSV stores the result. *)
Lemma call_result c org rt ts args vs X M sp bot flags rv fd ga D ta :
  setup c org rt ts args vs X M sp bot flags rv fd ga D ta -> (ty_code rt <> T_VOID -> away bot sp rv (result_room rt)) -> plain_result (g_sign c) rt = true ->
  exists X1 M1 m,
    reach c org (St X org M) (St X1 (ld M D) M1) /\ prep_args ts args M1 (X1 0) = Some m /\
    forall X2 M2, prep_back bot X1 m X2 M2 -> exists X3,
      reach c org (St X2 (X1 16) M2) (St X3 (ld M fd) M2) /\ (home_of rt = Memory -> X3 8 = rv) /\
      forall X4 M4 v, fn_back org sp ta X3 M2 X4 M4 -> (ty_code rt <> T_VOID -> is_value rt v) -> returned rt v X4 -> exists X5 M5,
        reach c org (St X4 (X3 16) M4) (St X5 (X 16) M5) /\ bytes_at M5 rv (zlen (stored rt v)) = stored rt v /\
        (forall x, ~ (rv <= x < rv + zlen (stored rt v)) -> ~ (sp - 28 <= x < sp) -> M5 x = M4 x).
Proof.
  intros S AW PR. destruct (to_function _ _ _ _ _ _ _ _ _ _ _ _ _ _ _ _ S) as (X1 & M1 & m & R1 & A0 & A1 & A11 & A14 & A16 & PA & PO & MO & T).
  exists X1, M1, m. rewrite A0. split; [exact R1|]. split; [exact PA|]. intros X2 M2 B. destruct (T X2 M2 B) as (X3 & R3 & C16 & C8 & C14 & C15 & C11 & CS & F & MM & P).
  exists X3. split; [exact R3|]. split; [auto|]. intros X4 M4 v FB V RT. rewrite C16.
  destruct (from_function c org rt ts args vs X M sp bot flags rv fd ga D ta S) with (X3 := X3) (M3 := M2) (X4 := X4) (M4 := M4) as (X5 & R5 & _); auto.
  { intros N. destruct (flags_room rt flags (su_rt _ _ _ _ _ _ _ _ _ _ _ _ _ _ _ _ S) (su_flags _ _ _ _ _ _ _ _ _ _ _ _ _ _ _ _ S) N) as (NV & L). exact (away_le _ _ _ _ _ L (AW NV)). }
  exists X5, (store_result c flags rv sp X4 M4). split; [exact R5|].
  pose proof (su_bot _ _ _ _ _ _ _ _ _ _ _ _ _ _ _ _ S) as SB. destruct (objects_types _ _ _ _ _ _ (su_obj _ _ _ _ _ _ _ _ _ _ _ _ _ _ _ _ S)) as (FT & _).
  pose proof (bytes_enough rt ts FT (su_small _ _ _ _ _ _ _ _ _ _ _ _ _ _ _ _ S)) as BE. pose proof (total_nonneg ts FT) as TN.
  destruct FB as (_ & W4 & _). apply (stored_ok c rt flags rv sp X4 M4 v bot); auto; [exact (su_rt _ _ _ _ _ _ _ _ _ _ _ _ _ _ _ _ S)|exact (su_flags _ _ _ _ _ _ _ _ _ _ _ _ _ _ _ _ S)|lia].
Qed.
