(** Discarded results, and long doubles left on the x87 stack. *)
From Coq Require Import ZifyBool ZifyNat.
From Verif Require Import Base BaseFacts ByteMem Types LayoutSpec NaturalTypes NaturalFacts Unix64Model Unix64Spec Unix64Link Unix64Main Unix64Ret Unix64Ret2 PropsUnix64Lemmas
  X64AsmModel X64AsmFacts X64AsmCall X64AsmRet X64AsmBlock X64AsmSpec X64AsmWhole X64AsmEnter X64AsmLeave X64AsmClo X64AsmExit X64AsmClosure.
Local Open Scope Z_scope.
Local Arguments Z.mul : simpl never.
Local Arguments Z.add : simpl never.
Local Arguments Z.sub : simpl never.
Local Arguments Z.pow : simpl never.
Local Arguments Z.of_nat : simpl never.
Local Arguments le_enc : simpl never.

Lemma call_unstored rt ts b f c k inner org X0 ra P X V F cf zf M :
  rt_ok rt -> Forall natural ts -> stack_used rt ts + 64 < 2 ^ 32 ->
  machdep64 (TCif FFI_UNIX64 ts rt b f) = Ok (FFI_OK, c) -> hidden_pointer rt = true \/ ty_code rt = T_VOID ->
  0 <= org -> org + 2048 <= 2 ^ 64 -> (forall i, 0 <= X0 i < 2 ^ 64) -> 0 <= ra < 2 ^ 64 ->
  X0 RDX mod 2 ^ 32 = c_flags c mod 2 ^ 32 -> X0 RCX <= P \/ P + 32 <= X0 RCX ->
  machine_ok X V F M -> X RBP = P -> P + 32 < 2 ^ 64 -> rd M P 32 = saved X0 ra ->
  exists X1 c1 z1 M1,
    reach inner (text k) org (St X V F cf zf (at_label (src k) org 8) M) (St X1 V F c1 z1 ra M1) /\
    X1 RSP = P + 32 /\ X1 RBP = X0 RBP /\ (forall i, i = 3 \/ 12 <= i -> X1 i = X i) /\
    (forall x, ~ (P + 4 <= x < P + 20) -> M1 x = M x).
Proof. intros R N S Pp H. intros. eapply call_nothing; eauto. eapply silent_flags; eauto. Qed.

Lemma call_discarded rt ts vs b f c tmp closure base g_gpr g_sse g_area :
  rt_ok rt -> Forall natural ts -> objects_ok ts vs -> stack_used rt ts + 64 < 2 ^ 32 ->
  machdep64 (TCif FFI_UNIX64 ts rt b f) = Ok (FFI_OK, c) ->
  (16 | base) -> 0 <= base -> base + c_bytes c + 64 < 2 ^ 64 ->
  zlen g_gpr = 6 -> zlen g_sse = 8 -> Forall (fun b => zlen b = 16) g_sse -> zlen g_area = c_bytes c + 32 ->
  0 <= closure < 2 ^ 64 ->
  exists blk fl rv', call_int c None tmp vs closure base g_gpr g_sse g_area = Ok (blk, fl, rv') /\
    forall k inner org X0 ra P X V F res cf zf M,
      0 <= org -> org + 2048 <= 2 ^ 64 -> (forall i, 0 <= X0 i < 2 ^ 64) -> 0 <= ra < 2 ^ 64 ->
      X0 RDX mod 2 ^ 32 = fl mod 2 ^ 32 -> X0 RCX = match rv' with Some p => p | None => 0 end -> X0 RCX <= P \/ P + 32 <= X0 RCX ->
      machine_ok X V (res ++ F) M -> zlen res = x87_results rt -> X RBP = P -> P + 32 < 2 ^ 64 -> rd M P 32 = saved X0 ra ->
      exists X1 c1 z1 M1,
        reach inner (text k) org (St X V (res ++ F) cf zf (at_label (src k) org 8) M) (St X1 V (res ++ F) c1 z1 ra M1) /\
        X1 RSP = P + 32 /\ X1 RBP = X0 RBP /\ (forall i, i = 3 \/ 12 <= i -> X1 i = X i) /\
        (forall x, ~ (P + 4 <= x < P + 20) -> M1 x = M x).
Proof.
  intros R N O S P E1 E2 E3 E4 E5 E6 E7 Hcl.
  destruct (call_shape rt ts vs b f c None tmp closure base g_gpr g_sse g_area) as
    (gpr & sse & sc & area & fl & rv' & Ci & _); auto.
  exists (block_bytes gpr sse sc closure area), fl, rv'. split; [exact Ci|].
  assert (Z0 : fl mod 256 = 0).
  { pose proof (flags_in_mem _ _ _ (prepared_flags _ _ _ _ _ R N S P)) as IM. unfold call_int in Ci. rewrite IM in Ci.
    destruct (hidden_pointer rt) eqn:Hh.
    - rewrite IM in Ci. destruct (Unix64Model.upd g_gpr 0 tmp) as [q| |]; cbn [bind] in Ci; [|discriminate|discriminate].
      destruct (fill_args _ _ _ _) as [q'| |] in Ci; cbn [bind] in Ci; [|discriminate|discriminate].
      pose proof (silent_flags _ _ _ _ _ R N S P (or_introl Hh)) as Sf. apply (f_equal (fun r => match r with Ok (_, q, _) => q | _ => 0 end)) in Ci. cbn in Ci. congruence.
    - change (negb (Z.land RET_VOID FLAG_RET_IN_MEM =? 0)) with false in Ci. cbn [bind] in Ci.
      destruct (fill_args _ _ _ _) as [q'| |] in Ci; cbn [bind] in Ci; [|discriminate|discriminate].
      apply (f_equal (fun r => match r with Ok (_, q, _) => q | _ => 0 end)) in Ci. cbn in Ci. subst fl. reflexivity. }
  intros k inner org X0 ra P' X V F res cf zf M H1 H2 H3 H4 H5 H6 H7 H8 H9 H10 H11 H12.
  eapply call_nothing; eauto.
Qed.

(** With nothing returned on the x87 stack. *)
Lemma call_discarded_plain rt ts vs b f c tmp closure base g_gpr g_sse g_area :
  rt_ok rt -> x87_results rt = 0 -> Forall natural ts -> objects_ok ts vs -> stack_used rt ts + 64 < 2 ^ 32 ->
  machdep64 (TCif FFI_UNIX64 ts rt b f) = Ok (FFI_OK, c) ->
  (16 | base) -> 0 <= base -> base + c_bytes c + 64 < 2 ^ 64 ->
  zlen g_gpr = 6 -> zlen g_sse = 8 -> Forall (fun b => zlen b = 16) g_sse -> zlen g_area = c_bytes c + 32 ->
  0 <= closure < 2 ^ 64 ->
  exists blk fl rv', call_int c None tmp vs closure base g_gpr g_sse g_area = Ok (blk, fl, rv') /\
    forall k inner org X0 ra P X V F res cf zf M,
      0 <= org -> org + 2048 <= 2 ^ 64 -> (forall i, 0 <= X0 i < 2 ^ 64) -> 0 <= ra < 2 ^ 64 ->
      X0 RDX mod 2 ^ 32 = fl mod 2 ^ 32 -> X0 RCX = match rv' with Some p => p | None => 0 end -> X0 RCX <= P \/ P + 32 <= X0 RCX ->
      machine_ok X V (res ++ F) M -> zlen res = x87_results rt -> X RBP = P -> P + 32 < 2 ^ 64 -> rd M P 32 = saved X0 ra ->
      exists X1 c1 z1 M1,
        reach inner (text k) org (St X V (res ++ F) cf zf (at_label (src k) org 8) M) (St X1 V F c1 z1 ra M1) /\
        X1 RSP = P + 32 /\ X1 RBP = X0 RBP /\ (forall i, i = 3 \/ 12 <= i -> X1 i = X i) /\
        (forall x, ~ (P + 4 <= x < P + 20) -> M1 x = M x).
Proof.
  intros R X N O S P E1 E2 E3 E4 E5 E6 E7 Hcl.
  destruct (call_discarded rt ts vs b f c tmp closure base g_gpr g_sse g_area) as (blk & fl & rv' & Ci & H); auto.
  exists blk, fl, rv'. split; [exact Ci|]. intros k inner org X0 ra P' X' V F res cf zf M H1 H2 H3 H4 H5 H6 H7 H8 H9 H10 H11 H12.
  rewrite X in H9. assert (res = []) as -> by (destruct res; [reflexivity|exfalso; unfold zlen in H9; cbn [length] in H9; lia]).
  exact (H k inner org X0 ra P' X' V F [] cf zf M H1 H2 H3 H4 H5 H6 H7 H8 (eq_sym X) H10 H11 H12).
Qed.

(** Sample machine: stack frame at 65536, all other memory 0. *)
Definition t_x0 : Z -> Z := fun i => if i =? RBP then 70000 else if i =? RCX then 8192 else 0.
Definition t_regs : Z -> Z := fun i => if i =? RBP then 65536 else if i =? RSP then 65400 else 5.
Definition t_vecs : Z -> list Z := fun _ => repeat 9 16.

Lemma wr_byte (l : list Z) m a : (forall x, byte_ok (m x)) -> bytes_ok l -> forall x, byte_ok (wr m a l x).
Proof.
  intros Hm Hl x. destruct (Z_lt_dec x a); [rewrite wr_out by lia; apply Hm|].
  destruct (Z_lt_dec x (a + zlen l)); [|rewrite wr_out by lia; apply Hm].
  pose proof (rd_wr_same m a l (length l) eq_refl) as E. assert (Hi : (Z.to_nat (x - a) < length l)%nat) by (unfold zlen in *; lia).
  pose proof (rd_nth (wr m a l) (length l) a (Z.to_nat (x - a)) Hi) as Q. rewrite E in Q. replace (a + Z.of_nat (Z.to_nat (x - a))) with x in Q by lia.
  rewrite <- Q. apply (proj1 (Forall_forall _ _) Hl). apply nth_In. exact Hi.
Qed.

Lemma saved_bytes X ra : bytes_ok (saved X ra).
Proof. unfold saved, bytes_ok. repeat (apply Forall_app; split); apply le_enc_ok. Qed.

(** Code that left for an address outside the text has left once and for all. *)
Lemma steps_add e t org n : forall m s, steps e t org (n + m) s = match steps e t org n s with Some s' => steps e t org m s' | None => None end.
Proof. induction n as [|n IH]; intros m s; cbn [steps Nat.add]; [reflexivity|]. destruct (step e t org s); [apply IH|reflexivity]. Qed.

Lemma reach_once e t org s a b ra : reach e t org s a -> reach e t org s b -> at_off t (ra - org) = None -> spc a = ra -> spc b = ra -> b = a.
Proof.
  intros (n & En) (m & Em) Ha <- Hb.
  assert (St : forall q x, at_off t (spc x - org) = None -> steps e t org (S q) x = None).
  { intros q x H. cbn [steps]. unfold step. rewrite H. reflexivity. }
  destruct (Nat.lt_trichotomy n m) as [L|[->|L]]; [| congruence |].
  - replace m with (n + S (m - n - 1))%nat in Em by lia. rewrite steps_add, En, St in Em by exact Ha. discriminate.
  - replace n with (m + S (n - m - 1))%nat in En by lia. rewrite steps_add, Em, St in En by (rewrite Hb; exact Ha). discriminate.
Qed.


(** Registers at the call of ffi_call_unix64 and at the return of the function; memory. *)
Definition t_call (fl rv : Z) : Z -> Z := fun i => if i =? RDX then fl else if i =? RCX then rv else if i =? RBP then 70000 else 0.
Definition t_mem (fl rv : Z) : Z -> Z := wr (fun _ => 0) 65536 (saved (t_call fl rv) 40000).

Lemma t_machine F fl rv : Forall (fun r => zlen r = 10) F -> zlen F <= 8 -> machine_ok t_regs t_vecs F (t_mem fl rv).
Proof.
  intros H1 H2. split; [intros i; unfold t_regs, RBP, RSP; repeat destruct (_ =? _); lia|]. split; [intros i; reflexivity|]. split; [exact H1|]. split; [exact H2|].
  apply wr_byte; [intros x; unfold byte_ok; lia|apply saved_bytes].
Qed.

Lemma t_call_ok fl rv : 0 <= fl < 2 ^ 64 -> 0 <= rv < 2 ^ 64 -> forall i, 0 <= t_call fl rv i < 2 ^ 64.
Proof. intros A B i. unfold t_call, RDX, RCX, RBP. repeat destruct (_ =? _); lia. Qed.

Lemma t_outside k : at_off (text k) (40000 - 0) = None.
Proof. destruct k; vm_compute; reflexivity. Qed.

Definition t_ldcif : tcif :=
  match machdep64 (TCif FFI_UNIX64 [] ty_longdouble 0 0) with Ok (_, c) => c | _ => TCif 0 [] ty_void 0 0 end.
Definition t_blk : list Z :=
  match call_int t_ldcif None 0 [] 0 4096 (repeat 0 6) (repeat (repeat 0 16) 8) (repeat 0 32) with Ok (b, _, _) => b | _ => [] end.

(** A long double nobody wants stays on the x87 stack. *)
Lemma discarded_long_double :
  exists rt c blk X0 ra P X V F res M v,
    natural rt /\ machdep64 (TCif FFI_UNIX64 [] rt 0 0) = Ok (FFI_OK, c) /\
    call_int c None 0 [] 0 4096 (repeat 0 6) (repeat (repeat 0 16) 8) (repeat 0 32) = Ok (blk, RET_VOID, None) /\
    (forall i, 0 <= X0 i < 2 ^ 64) /\ 0 <= ra < 2 ^ 64 /\ X0 RDX mod 2 ^ 32 = RET_VOID mod 2 ^ 32 /\ X0 RCX = 0 /\ X0 RCX <= P /\
    machine_ok X V (res ++ F) M /\ zlen res = x87_results rt /\ zlen v = ty_size rt /\ returns rt (result_regs X V (res ++ F)) v /\
    X RBP = P /\ P + 32 < 2 ^ 64 /\ rd M P 32 = saved X0 ra /\
    forall k inner cf zf, (exists s, reach inner (text k) 0 (St X V (res ++ F) cf zf (at_label (src k) 0 8) M) s /\ spc s = ra) /\
      (forall s, reach inner (text k) 0 (St X V (res ++ F) cf zf (at_label (src k) 0 8) M) s -> spc s = ra -> sf s <> F).
Proof.
  exists ty_longdouble, t_ldcif, t_blk, (t_call 0 0), 40000, 65536, t_regs, t_vecs, [], [repeat 3 10], (t_mem 0 0), (repeat 3 16).
  split; [natural_tac|]. split; [vm_compute; reflexivity|]. split; [vm_compute; reflexivity|].
  split; [apply t_call_ok; lia|]. split; [lia|]. split; [reflexivity|]. split; [reflexivity|]. split; [vm_compute; discriminate|].
  assert (Mk : machine_ok t_regs t_vecs ([repeat 3 10] ++ []) (t_mem 0 0)) by (apply t_machine; [repeat constructor|vm_compute; discriminate]).
  split; [exact Mk|]. split; [reflexivity|]. split; [reflexivity|]. split; [reflexivity|]. split; [reflexivity|]. split; [lia|].
  assert (Rd : rd (t_mem 0 0) 65536 32 = saved (t_call 0 0) 40000) by (apply rd_wr_same; reflexivity).
  split; [exact Rd|]. intros k inner cf zf.
  destruct (call_nothing 0 k inner 0 (t_call 0 0) 40000 65536 t_regs t_vecs ([repeat 3 10] ++ []) cf zf (t_mem 0 0)) as (X1 & c1 & z1 & M1 & R1 & _);
    [reflexivity|lia|lia|apply t_call_ok; lia|lia|reflexivity|left; unfold t_call; cbn; lia|exact Mk|reflexivity|lia|exact Rd|].
  split; [eexists; split; [exact R1|reflexivity]|].
  intros s R2 E. rewrite (reach_once _ _ _ _ _ _ _ R1 R2 (t_outside k) eq_refl E). discriminate.
Qed.

(** The result of a function returning a struct of one long double neither gets to the caller's
    memory nor off the x87 stack. *)
Lemma struct_long_double_kept :
  exists rt c X0 ra P p X V F res M v,
    natural rt /\ machdep64 (TCif FFI_UNIX64 [] rt 0 0) = Ok (FFI_OK, c) /\ hidden_pointer rt = false /\ zlen v = ty_size rt /\ bytes_ok v /\
    (forall i, 0 <= X0 i < 2 ^ 64) /\ 0 <= ra < 2 ^ 64 /\ X0 RDX mod 2 ^ 32 = c_flags c mod 2 ^ 32 /\ X0 RCX = p /\
    machine_ok X V (res ++ F) M /\ zlen res = x87_results rt /\ returns rt (result_regs X V (res ++ F)) v /\
    X RBP = P /\ P + 32 < 2 ^ 64 /\ rd M P 32 = saved X0 ra /\ p + result_width rt <= P /\
    forall k inner cf zf, (exists s, reach inner (text k) 0 (St X V (res ++ F) cf zf (at_label (src k) 0 8) M) s /\ spc s = ra) /\
      (forall s, reach inner (text k) 0 (St X V (res ++ F) cf zf (at_label (src k) 0 8) M) s -> spc s = ra ->
         sf s <> F /\ ~ result_holds rt v (rd (sm s) p (Z.to_nat (result_width rt)))).
Proof.
  exists ld_struct, ld_cif, (t_call (c_flags ld_cif) 8192), 40000, 65536, 8192, t_regs, t_vecs, [], [repeat 3 10], (t_mem (c_flags ld_cif) 8192), (repeat 3 16).
  split; [unfold ld_struct; natural_tac|]. split; [vm_compute; reflexivity|]. split; [reflexivity|]. split; [reflexivity|].
  split; [repeat constructor; unfold byte_ok; lia|].
  assert (Bf : 0 <= c_flags ld_cif < 2 ^ 64) by (split; [vm_compute; discriminate|vm_compute; reflexivity]).
  split; [apply t_call_ok; lia|]. split; [lia|]. split; [reflexivity|]. split; [reflexivity|].
  assert (Mk : machine_ok t_regs t_vecs ([repeat 3 10] ++ []) (t_mem (c_flags ld_cif) 8192)) by (apply t_machine; [repeat constructor|vm_compute; discriminate]).
  split; [exact Mk|]. split; [reflexivity|]. split; [vm_compute; reflexivity|]. split; [reflexivity|]. split; [lia|].
  assert (Rd : rd (t_mem (c_flags ld_cif) 8192) 65536 32 = saved (t_call (c_flags ld_cif) 8192) 40000) by (apply rd_wr_same; reflexivity).
  split; [exact Rd|]. split; [vm_compute; discriminate|]. intros k inner cf zf.
  assert (Z16 : rd (t_mem (c_flags ld_cif) 8192) 8192 16 = repeat 0 16).
  { unfold t_mem. rewrite rd_wr_other by (left; change (Z.of_nat 16) with 16; lia). reflexivity. }
  set (bb := match store_ret (c_flags ld_cif) (result_regs t_regs t_vecs ([repeat 3 10] ++ [])) (repeat 0 16) with Ok b => b | _ => [] end).
  destruct (call_back k inner 0 t_regs t_vecs ([repeat 3 10] ++ []) cf zf (t_mem (c_flags ld_cif) 8192) 65536 (t_call (c_flags ld_cif) 8192) 40000 8192 16 bb (c_flags ld_cif))
    as (X1 & c1 & z1 & M1 & R1 & A1 & A2 & A3 & A4 & A5);
    [lia|lia|apply t_call_ok; lia|lia|reflexivity|lia|lia|exact Rd|reflexivity|vm_compute; discriminate|reflexivity|lia|change (Z.of_nat 16) with 16; lia
     |left; change (Z.of_nat 16) with 16; lia|reflexivity|reflexivity|vm_compute; discriminate|repeat constructor|rewrite Z16; vm_compute; reflexivity|].
  change (skipn (Z.to_nat (x87_used (c_flags ld_cif mod 256))) ([repeat 3 10] ++ [])) with [repeat 3 10] in R1.
  split; [eexists; split; [exact R1|reflexivity]|].
  intros s R2 E. rewrite (reach_once _ _ _ _ _ _ _ R1 R2 (t_outside k) eq_refl E). split; [discriminate|].
  cbn [sm]. change (Z.to_nat (result_width ld_struct)) with 16%nat. rewrite A4.
  unfold result_holds. change (integral ld_struct) with false. cbn iota. intros (w & G & _ & SV).
  destruct (SV 0 16 KX87 (or_introl eq_refl)) as (d & D1 & D2).
  vm_compute in G. injection G as <-. vm_compute in D1, D2. congruence.
Qed.

(** A closure returning one puts nothing on the x87 stack. *)
Lemma struct_long_double_unreturned :
  exists rt c X V F M f ra v,
    natural rt /\ machdep64 (TCif FFI_UNIX64 [] rt 0 0) = Ok (FFI_OK, c) /\ hidden_pointer rt = false /\ zlen v = ty_size rt /\ bytes_ok v /\
    machine_ok X V F M /\ x87_results rt + zlen F <= 8 /\ X RSP = f /\ f + 224 < 2 ^ 64 /\ le_dec (rd M (f + 216) 8) = ra /\
    X RAX mod 2 ^ 32 = c_flags c mod 2 ^ 32 /\ result_holds rt v (rd M (f + 176) 32) /\
    forall k inner cf zf, (exists s, reach inner (text k) 0 (St X V F cf zf (at_label (src k) 0 19) M) s /\ spc s = ra) /\
      (forall s, reach inner (text k) 0 (St X V F cf zf (at_label (src k) 0 19) M) s -> spc s = ra -> sf s = F /\ ~ returns rt (result_regs (sx s) (sv s) (sf s)) v).
Proof.
  set (X := fun i => if i =? RAX then c_flags ld_cif else if i =? RSP then 65536 else 5).
  set (M := wr (wr (fun _ => 0) (65536 + 176) (repeat 3 32)) (65536 + 216) (le_enc 8 40000)).
  exists ld_struct, ld_cif, X, t_vecs, [], M, 65536, 40000, (repeat 3 16).
  split; [unfold ld_struct; natural_tac|]. split; [vm_compute; reflexivity|]. split; [reflexivity|]. split; [reflexivity|].
  split; [repeat constructor; unfold byte_ok; lia|].
  assert (Mk : machine_ok X t_vecs [] M).
  { split; [intros i; unfold X, RAX, RSP; destruct (i =? 0); [split; [vm_compute; discriminate|vm_compute; reflexivity]|]; destruct (_ =? _); lia|].
    split; [intros i; reflexivity|]. split; [constructor|]. split; [vm_compute; discriminate|].
    apply wr_byte; [apply wr_byte; [intros x; unfold byte_ok; lia|repeat constructor; unfold byte_ok; lia]|apply le_enc_ok]. }
  split; [exact Mk|]. split; [vm_compute; discriminate|]. split; [reflexivity|]. split; [lia|].
  assert (Ra : le_dec (rd M (65536 + 216) 8) = 40000) by (unfold M; rewrite rd_wr_same by reflexivity; vm_compute; reflexivity).
  split; [exact Ra|]. split; [reflexivity|].
  assert (Sl : rd M (65536 + 176) 32 = repeat 3 32).
  { unfold M. rewrite rd_wr_other by (left; change (Z.of_nat 32) with 32; lia). apply rd_wr_same. reflexivity. }
  split. { rewrite Sl. exists (repeat 3 16). split; [vm_compute; reflexivity|]. split; [reflexivity|]. intros o n k [I|[]]. injection I as <- <- <-.
    exists (repeat 3 10). split; vm_compute; reflexivity. }
  intros k inner cf zf.
  set (rr := match load_ret (c_flags ld_cif mod 256) (repeat 3 32) (result_regs X t_vecs []) with Ok r => r | _ => result_regs X t_vecs [] end).
  destruct (clo_exit k inner 0 X t_vecs [] cf zf M 65536 40000 rr (c_flags ld_cif mod 256)) as (X1 & V1 & F1 & c1 & z1 & R1 & A1 & A2 & A3 & A4 & A5);
    [lia|lia|reflexivity|lia|lia|exact Ra|apply Mk|reflexivity|vm_compute; discriminate|vm_compute; discriminate|rewrite Sl; vm_compute; reflexivity|].
  change (x87_used (c_flags ld_cif mod 256)) with 0 in A1. destruct F1; [|exfalso; unfold zlen in A1; cbn [length] in A1; lia].
  split; [eexists; split; [exact R1|reflexivity]|].
  intros s R2 E. rewrite (reach_once _ _ _ _ _ _ _ R1 R2 (t_outside k) eq_refl E). cbn [sf sx sv]. split; [reflexivity|]. rewrite A3.
  unfold returns, returned. change (passing_of ld_struct) with PX87. vm_compute. discriminate.
Qed.
