(** The code of src/x86/win64.S joined with src/x86/ffiw64.c. *)
From Coq Require Import ZifyBool ZifyNat.
From Verif Require Import Base BaseFacts ByteMem Types LayoutSpec NaturalTypes NaturalFacts Unix64Model Unix64Spec Unix64Link
  Win64Model Win64Spec Win64Link Win64Facts Win64Main PropsUnix64Lemmas PropsWin64Lemmas X64AsmWhole.
From Verif Require Import W64AsmModel W64AsmFacts W64AsmSpec W64AsmRun W64AsmClo.
Local Open Scope Z_scope.
Local Arguments Z.mul : simpl never.
Local Arguments Z.add : simpl never.
Local Arguments Z.sub : simpl never.
Local Arguments Z.pow : simpl never.
Local Arguments Z.of_nat : simpl never.
Local Arguments le_enc : simpl never.

Lemma rd_get M a off n k : 0 <= off -> 0 <= k -> off + k <= Z.of_nat n -> get_range (rd M a n) off k = Some (rd M (a + off) (Z.to_nat k)).
Proof.
  intros H1 H2 H3. destruct (get_range (rd M a n) off k) as [b|] eqn:E.
  - f_equal. symmetry. apply (get_rd _ _ _ _ _ _ E).
  - exfalso. unfold get_range in E. rewrite rd_zlen in E.
    replace ((0 <=? off) && (0 <=? k) && (off + k <=? Z.of_nat n)) with true in E by lia. discriminate E.
Qed.

(** The frame in memory. *)
Lemma frame_parts M a fn fl rv : rd M (a + 16) 24 = frame_bytes fn fl rv ->
  rd M (a + 16) 8 = le_enc 8 fn /\ rd M (a + 24) 8 = le_enc 8 fl /\ rd M (a + 32) 8 = le_enc 8 rv.
Proof.
  intros H. unfold frame_bytes in H.
  apply (rd_split _ _ _ 8) in H; [|apply le_enc_length|lia]. destruct H as [H0 H].
  apply (rd_split _ _ _ 8) in H; [|apply le_enc_length|lia]. destruct H as [H1 H].
  change (24 - 8 - 8)%nat with 8%nat in H. change (Z.of_nat 8) with 8 in *.
  replace (a + 16 + 8 + 8) with (a + 32) in H by lia. replace (a + 16 + 8) with (a + 24) in H1 by lia. auto.
Qed.

Lemma pair_parts M a x y : rd M a 16 = le_enc 8 x ++ le_enc 8 y -> rd M a 8 = le_enc 8 x /\ rd M (a + 8) 8 = le_enc 8 y.
Proof.
  intros H. apply (rd_split _ _ _ 8) in H; [|apply le_enc_length|lia]. exact H.
Qed.

Lemma dec_enc8 x : 0 <= x < 2 ^ 64 -> le_dec (le_enc 8 x) = x.
Proof. intros H. rewrite le_dec_enc. apply Z.mod_small. exact H. Qed.

Lemma dec8_range M a : (forall x, byte_ok (M x)) -> 0 <= le_dec (rd M a 8) < 2 ^ 64.
Proof.
  intros H. assert (B : bytes_ok (rd M a 8)) by (cbn [rd]; repeat constructor; apply H).
  pose proof (le_dec_bound _ B) as R. rewrite rd_zlen in R. exact R.
Qed.

Lemma has_kept M M1 m lo hi lo2 hi2 : memory_has M m -> outside m lo hi -> outside m lo2 hi2 ->
  (forall x, ~ (lo <= x < hi) -> ~ (lo2 <= x < hi2) -> M1 x = M x) -> memory_has M1 m.
Proof.
  intros H O1 O2 E. unfold memory_has, outside, apart in *. rewrite Forall_forall in *. intros b Ib.
  specialize (H b Ib). specialize (O1 b Ib). specialize (O2 b Ib). cbn [fst snd] in *. unfold zlen in *.
  rewrite <- H at 2. apply rd_ext. intros x Hx. apply E; lia.
Qed.

Lemma has_read M m p n d : memory_has M m -> mread m p n = Some d -> rd M p (Z.to_nat n) = d.
Proof.
  intros H R. apply mread_inv in R as (b & Ib & G). unfold memory_has in H. rewrite Forall_forall in H. specialize (H b Ib).
  rewrite <- H in G. apply get_rd in G. rewrite <- G. f_equal. lia.
Qed.

(** The call. *)
Lemma enter_state g ib inner org X V cf zf k M base n s fn fl rv ra :
  text_ok g ib org -> machine_ok X V M -> (k = true -> g_cet g = true) ->
  regs_of (w_stack s) s -> w_sp s = base -> 32 <= zlen (w_stack s) -> zlen (w_stack s) = n -> 0 <= fn < 2 ^ 64 ->
  called g base (base + n) (w_r10 s) (w_stack s) fn fl rv ra X M ->
  exists X1 V1 M1,
    reach ib inner (text g) org (St X V cf zf k (at_label (src g) org 1) M) (St X1 V1 cf zf ib fn M1) /\
    wstate_of X1 V1 M1 base (Z.to_nat n) = s /\
    X1 RSP = base - 8 /\ rd M1 (base - 8) 8 = le_enc 8 (at_label (src g) org 5) /\
    X1 RBP = base + n /\ frame_at M1 (base + n) (X RBP) ra fl rv /\
    (forall i, i = 3 \/ i = RSI \/ i = RDI \/ 12 <= i -> X1 i = X i) /\ (forall i, 4 <= i -> V1 i = V i) /\
    (forall x, ~ (base + n <= x < base + n + 16) -> ~ (base - 8 <= x < base) -> M1 x = M x).
Proof.
  intros (T1 & T2 & T3) (HX & HV & HM) Hk Rg Sp S32 Sn Fn (C1 & C2 & C3 & C4 & C5 & C6 & C7 & C8 & C9 & C10).
  apply frame_parts in C10. destruct C10 as (F1 & F2 & F3).
  pose proof (HX RSP) as B4.
  destruct (run_enter g ib inner org X V cf zf k M base (base + n) ra fn) as
    (X1 & V1 & M1 & Rr & G1 & G2 & G8 & G9 & G10 & Gsp & Gbp & Gk & W0 & W1 & W2 & W3 & Wk & Fr & Rt & Mk); auto; try lia.
  { rewrite F1. apply dec_enc8, Fn. }
  exists X1, V1, M1. split; [exact Rr|].
  assert (Ea : rd M1 base (Z.to_nat n) = w_stack s).
  { rewrite <- C9. replace (length (w_stack s)) with (Z.to_nat n) by (unfold zlen in Sn; lia).
    apply rd_ext. intros x Hx. apply Mk; lia. }
  split.
  { unfold wstate_of. rewrite Ea. destruct Rg as (s0 & s1 & s2 & s3 & E0 & E1 & E2 & E3 & Eg & Ex & _).
    rewrite <- C9 in E0, E1, E2, E3. apply get_rd in E0. apply get_rd in E1. apply get_rd in E2. apply get_rd in E3.
    change (Z.to_nat 8) with 8%nat in *. rewrite Z.add_0_r in E0.
    rewrite G1, G2, G8, G9, W0, W1, W2, W3, G10, C3, E0, E1, E2, E3, <- Eg, <- Ex, <- Sp. destruct s; reflexivity. }
  split; [exact Gsp|]. split; [exact Rt|]. split; [exact Gbp|]. split.
  { split; [exact Fr|]. rewrite (rd_app _ 8 8). change (Z.of_nat 8) with 8.
    replace (base + n + 24 + 8) with (base + n + 32) by lia. rewrite <- F2, <- F3. f_equal; apply rd_ext; intros x Hx; apply Mk; lia. }
  split; [intros i Hi; apply Gk; rn; lia|]. split; [exact Wk|]. exact Mk.
Qed.

Lemma znth0 {A} (l : list A) x y r : l = y :: r -> znth l 0 = Some x -> y = x.
Proof. intros -> H. unfold znth in H. cbn in H. congruence. Qed.

Lemma area_len s n : wstate_ok s n -> 32 <= zlen (w_stack s).
Proof. intros (_ & _ & _ & H & _). exact H. Qed.

Lemma set_range_zlen {A} (m : list A) off d m' : set_range m off d = Some m' -> zlen m' = zlen m.
Proof. intros H. apply set_range_inv in H. tauto. Qed.

Lemma win_slots_len m : forall ts av j a a', win_slots m ts av j a = Ok a' -> zlen a' = zlen a.
Proof.
  induction ts as [|t ts IH]; intros [|p av] j a a' H; cbn [win_slots] in H; try discriminate H; try (injection H as <-; reflexivity).
  match type of H with bind ?e _ = _ => destruct e as [w| |] end; cbn [bind] in H; try discriminate H.
  destruct (set_range a (8 * j) (le_enc 8 w)) as [a2|] eqn:S; cbn [of_option bind] in H; [|discriminate H].
  rewrite (IH _ _ _ _ H). apply (set_range_zlen _ _ _ _ S).
Qed.

Lemma call_win_shape c rv tmp av stk closure base g_area m s fl rv' av' m' :
  call_win c rv tmp av stk closure base g_area m = Ok (s, fl, rv', av', m') -> w_r10 s = closure /\ zlen (w_stack s) = zlen g_area.
Proof.
  unfold call_win. destruct (copy_structs 8 (c_args c) av stk m) as [[[av2 st2] m2]| |]; cbn [bind]; try discriminate.
  match goal with |- context [let '(_, _) := ?e in _] => destruct e as [flags rvalue] end.
  match goal with |- context [bind ?e _] => destruct e as [a0| |] eqn:E0 end; cbn [bind]; try discriminate.
  assert (L0 : zlen a0 = zlen g_area).
  { destruct (flags =? tcode_num T_STRUCT); [|injection E0 as <-; reflexivity].
    destruct (set_range g_area 0 _) as [a|] eqn:S; cbn [of_option] in E0; [|discriminate E0]. injection E0 as <-. apply (set_range_zlen _ _ _ _ S). }
  destruct (win_slots _ _ _ _ a0) as [a1| |] eqn:E1; cbn [bind]; try discriminate. apply win_slots_len in E1.
  destruct (win_reg a1 0); cbn [bind]; try discriminate. destruct (win_reg a1 1); cbn [bind]; try discriminate.
  destruct (win_reg a1 2); cbn [bind]; try discriminate. destruct (win_reg a1 3); cbn [bind]; try discriminate.
  intros H. injection H as <- _ _ _ _. cbn [w_r10 w_stack]. split; [reflexivity|lia].
Qed.

Lemma call_entered abi ts rt vs ps b f c rv tmp stk base g_gpr g_sse g_area g_xmm frame m :
  win_abi abi -> rt_ok rt -> win_ret_ok abi rt -> zlen ts < 2 ^ 28 -> Forall natural ts ->
  Forall (fun t => ty_size t < 2 ^ 31) ts ->
  machdep_x86 (TCif abi ts rt b f) = Ok (FFI_OK, c) ->
  args_at m ts ps vs -> allocas_ok (live m) (requests abi ts) stk -> zlen g_area = c_bytes c ->
  0 <= tmp < 2 ^ 64 -> (forall p, rv = Some p -> 0 <= p < 2 ^ 64) ->
  exists s fl rv' av m', ffi_call_x86 c rv tmp ps stk base g_gpr g_sse g_area g_xmm frame m = Ok (EnterWin s, fl, rv', av, m') /\
    forall g ib inner org X V cf zf k M fn ra,
      text_ok g ib org -> machine_ok X V M -> (k = true -> g_cet g = true) -> 0 <= fn < 2 ^ 64 ->
      called g base (base + c_bytes c) 0 (w_stack s) fn fl rv' ra X M ->
      memory_has M m' -> outside m' (base - 8) base -> outside m' (base + c_bytes c) (base + c_bytes c + 16) ->
      exists X1 V1 M1,
        reach ib inner (text g) org (St X V cf zf k (at_label (src g) org 1) M) (St X1 V1 cf zf ib fn M1) /\
        entry_done g org base (c_bytes c) 0 rt ts vs m' fl rv' (match rv with Some q => q | None => tmp end) ra X V M X1 V1 M1.
Proof.
  intros A R Ho L N Sz P At F La Ht Hr.
  destruct (ffi_call_win abi ts rt vs ps b f c rv tmp stk base g_gpr g_sse g_area g_xmm frame m A R Ho L N Sz P At F La Ht Hr)
    as (s & fl & rv' & av & m' & E & W & Sp & H1 & H2 & Hh & Hr' & Hf & K & Nr & (av1 & m1 & _ & _ & _ & Rg & _ & _)).
  exists s, fl, rv', av, m'. split; [exact E|].
  assert (Sh : w_r10 s = 0 /\ zlen (w_stack s) = c_bytes c).
  { rewrite <- La. unfold ffi_call_x86 in E.
    pose proof (machdep_x86_win _ _ _ _ _ _ A R Ho L P) as Ec. rewrite Ec in E. cbn [c_abi] in E.
    assert (Eb : (abi =? FFI_WIN64) || (abi =? FFI_GNUW64) = true) by (destruct A as [-> | ->]; reflexivity). rewrite Eb in E.
    destruct (copy_structs _ _ ps stk m) as [[[a2 s2] m2]| |]; cbn [bind] in E; try discriminate E.
    match type of E with bind ?e _ = _ => destruct e as [[[[[q1 q2] q3] q4] q5]| |] eqn:Q end; cbn [bind] in E; try discriminate E.
    injection E as E1 E2 E3 E4 E5. subst. apply (call_win_shape _ _ _ _ _ _ _ _ _ _ _ _ _ _ Q). }
  destruct Sh as [S10 Sn]. pose proof (area_len _ _ W) as S32.
  intros g ib inner org X V cf zf k M fn ra Tx Mo Hk Fn Cl Hm O1 O2.
  destruct (enter_state g ib inner org X V cf zf k M base (c_bytes c) s fn fl rv' ra) as
    (X1 & V1 & M1 & Rr & Es & G1 & G2 & G3 & G4 & G5 & G6 & G7); auto. { rewrite S10. exact Cl. }
  exists X1, V1, M1. split; [exact Rr|]. unfold entry_done. rewrite Es.
  split; [exact H1|]. split; [exact H2|].
  split; [eapply has_kept; [exact Hm|exact O1|exact O2|]; intros x N1 N2; apply G7; assumption|].
  split. { intros Hd. destruct (Hh Hd) as (p & _ & Z0 & ->). apply (znth0 _ _ (X1 RCX) [X1 RDX; X1 R8; X1 R9]) in Z0; [exact Z0|]. rewrite <- Es. reflexivity. }
  split. { rewrite <- S10. rewrite <- Es. reflexivity. }
  split; [lia|]. split; [exact G1|]. split; [exact G2|]. split; [exact G3|]. split; [exact G4|]. split; [exact G5|]. split; [intros i Hi; apply G6; lia|exact G7].
Qed.

Lemma go_call_entered abi ts rt vs ps b f c rv tmp stk closure base g_area m :
  win_abi abi -> rt_ok rt -> win_ret_ok abi rt -> zlen ts < 2 ^ 28 -> Forall natural ts ->
  Forall (fun t => ty_size t < 2 ^ 31) ts ->
  machdep_x86 (TCif abi ts rt b f) = Ok (FFI_OK, c) ->
  args_at m ts ps vs -> allocas_ok (live m) (big 8 ts) stk -> zlen g_area = c_bytes c ->
  0 <= tmp < 2 ^ 64 -> (forall p, rv = Some p -> 0 <= p < 2 ^ 64) ->
  exists s fl rv' av m', call_win c rv tmp ps stk closure base g_area m = Ok (s, fl, rv', av, m') /\
    forall g ib inner org X V cf zf k M fn ra,
      text_ok g ib org -> machine_ok X V M -> (k = true -> g_cet g = true) -> 0 <= fn < 2 ^ 64 ->
      called g base (base + c_bytes c) closure (w_stack s) fn fl rv' ra X M ->
      memory_has M m' -> outside m' (base - 8) base -> outside m' (base + c_bytes c) (base + c_bytes c + 16) ->
      exists X1 V1 M1,
        reach ib inner (text g) org (St X V cf zf k (at_label (src g) org 1) M) (St X1 V1 cf zf ib fn M1) /\
        entry_done g org base (c_bytes c) closure rt ts vs m' fl rv' (match rv with Some q => q | None => tmp end) ra X V M X1 V1 M1.
Proof.
  intros A R Ho L N Sz P At F La Ht Hr.
  pose proof (machdep_x86_win _ _ _ _ _ _ A R Ho L P) as Ec. pose proof (natural_sizes _ N Sz) as Hs.
  rewrite <- (app_nil_r (big 8 ts)) in F.
  destruct (call_win_ok abi ts vs ps rt _ c rv tmp stk closure base g_area m [] R Ho Hs Ec eq_refl At F) as
    (s & fl & rv' & av & m' & E & W & Sp & R10 & H1 & H2 & Rg & Wd & Hh & Hrv' & Hfl & _); auto.
  { rewrite La, Ec. reflexivity. }
  exists s, fl, rv', av, m'. split; [exact E|].
  destruct (call_win_shape _ _ _ _ _ _ _ _ _ _ _ _ _ _ E) as [S10 Sn]. rewrite La in Sn. pose proof (area_len _ _ W) as S32.
  intros g ib inner org X V cf zf k M fn ra Tx Mo Hk Fn Cl Hm O1 O2.
  destruct (enter_state g ib inner org X V cf zf k M base (c_bytes c) s fn fl rv' ra) as
    (X1 & V1 & M1 & Rr & Es & G1 & G2 & G3 & G4 & G5 & G6 & G7); auto. { rewrite S10. exact Cl. }
  exists X1, V1, M1. split; [exact Rr|]. unfold entry_done. rewrite Es.
  split; [exact H1|]. split; [exact H2|].
  split; [eapply has_kept; [exact Hm|exact O1|exact O2|]; intros x N1 N2; apply G7; assumption|].
  split. { intros Hd. destruct (Hh Hd) as (p & _ & Z0 & ->). apply (znth0 _ _ (X1 RCX) [X1 RDX; X1 R8; X1 R9]) in Z0; [exact Z0|]. rewrite <- Es. reflexivity. }
  split. { rewrite <- S10. rewrite <- Es. reflexivity. }
  split; [lia|]. split; [exact G1|]. split; [exact G2|]. split; [exact G3|]. split; [exact G4|]. split; [exact G5|]. split; [intros i Hi; apply G6; lia|exact G7].
Qed.
