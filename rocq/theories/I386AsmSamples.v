(** Sample states for the statements about the 32-bit x86 assembly code, and counterexamples. *)
From Coq Require Import ZifyBool ZifyNat.
From Verif Require Import Base Types LayoutSpec BaseFacts ByteMem NaturalTypes NaturalFacts X87Model X87Facts I386Model I386Spec I386RetSpec I386RawSpec I386Facts I386Call I386CallOk I386Closure I386Ret I386Raw I386Lemmas.
From Verif Require Import I386AsmModel I386AsmFacts I386AsmCall I386AsmClo I386AsmTramp I386AsmRet I386AsmRaw I386AsmEnter I386AsmBack I386AsmTop I386AsmExit I386AsmRawTop I386AsmWhole.
Local Open Scope Z_scope.
Local Arguments Z.mul : simpl never.
Local Arguments Z.add : simpl never.
Local Arguments Z.sub : simpl never.
Local Arguments Z.pow : simpl never.
Local Arguments Z.of_nat : simpl never.

(** Memory holding some pieces, zero elsewhere; registers with some values, zero elsewhere. *)
Fixpoint put (l : list (Z * list Z)) : Z -> Z := match l with [] => fun _ => 0 | (a, d) :: r => wr (put r) a d end.
Fixpoint rg (l : list (Z * Z)) : Z -> Z := match l with [] => fun _ => 0 | (r, v) :: t => upd (rg t) r v end.

Lemma put_ok l : forallb (fun q => forallb (fun b => (0 <=? b) && (b <? 256)) (snd q)) l = true -> mem_ok (put l).
Proof.
  induction l as [|[a d] l IH]; cbn [forallb put snd]; intros H; [intros x; lia|]. apply Bool.andb_true_iff in H as [H1 H2].
  apply mem_ok_wr; [apply IH, H2|]. apply Forall_forall. intros x Hx. rewrite forallb_forall in H1. specialize (H1 x Hx). unfold byte_ok. lia.
Qed.
Lemma rg_ok l : forallb (fun q => (0 <=? snd q) && (snd q <? 2 ^ 32)) l = true -> regs_ok (rg l).
Proof.
  induction l as [|[r v] l IH]; cbn [forallb rg snd]; intros H; [intros x; lia|]. apply Bool.andb_true_iff in H as [H1 H2].
  apply upd_ok; [apply IH, H2|]. change (2 ^ 32) with 4294967296 in *. lia.
Qed.

(** The code at 8 MiB, assembled with CET for position-independent code. *)
Definition s_g : cfg := Cfg true Plt true.
Definition s_e : env := Env 9437184 10485760 true.
Definition s_org : Z := 8388608.

(** ffi_call of a closure at 4096: seven arguments, FASTCALL, a double to be stored at 8192; the
    block at 65536, the stack of ffi_call_int at 32768. *)
Definition s_cif : cif := cif_of Linux FASTCALL (ty_dbl Linux) x_flat.
Definition s_objs : list (list Z) := x_objs 1 x_flat.
Definition s_blk : list Z := match call s_cif (Some 8192) s_objs 4096 7 65536 (blk_of s_cif (Some 8192)) 33000 40000 with Ok (_, b) => b | _ => [] end.
Definition s_clo (a : abi) : list Z :=
  dyn_tramp (pushes (group_of a)) (at_label (src s_g) s_org (entry_label (group_of a))) 4096 ++ [0; 0] ++ le_enc 4 12288 ++ le_enc 4 45056 ++ le_enc 4 99.
Definition s_regs : Z -> Z := rg [(ECX, 65536 + stack_align (k_bytes s_cif)); (EDX, 65536); (ESP, 32768); (EBP, 33000); (EBX, 3); (6, 66); (7, 77)].
Definition s_mem : Z -> Z := put [(4096, s_clo FASTCALL); (32768, le_enc 4 40000); (65536, s_blk)].

Lemma s_call :
  Forall (ctype32 Linux) x_flat /\ Forall passable x_flat /\ Forall (flat Linux FASTCALL) x_flat /\ ctype32 Linux (ty_dbl Linux) /\ x87_struct Linux (ty_dbl Linux) /\
  objects_ok x_flat s_objs /\ total x_flat < 2 ^ 27 /\ prep Linux FASTCALL (ty_dbl Linux) x_flat = Some s_cif /\ (16 | 65536) /\
  zlen (blk_of s_cif (Some 8192)) = call_size s_cif (Some 8192) /\ block_end 65536 (blk_of s_cif (Some 8192)) < 2 ^ 32 /\
  (exists m, call s_cif (Some 8192) s_objs 4096 7 65536 (blk_of s_cif (Some 8192)) 33000 40000 = Ok (m, s_blk)) /\
  tracked s_e s_g /\ regs_ok s_regs /\ mem_ok s_mem /\ given 65536 (65536 + stack_align (k_bytes s_cif)) s_blk 40000 s_regs s_mem /\
  rd s_mem 4096 14 = dyn_tramp (pushes (group_of FASTCALL)) (at_label (src s_g) s_org (entry_label (group_of FASTCALL))) 4096 /\
  places Linux FASTCALL (ty_dbl Linux) x_flat = [Reg 2; Reg 1; Stk 0; Stk 4; Stk 8; Stk 16; Stk 28].
Proof.
  split; [exact x_flat_ok|]. split; [exact x_flat_pass|]. split; [apply x_flat_flat|]. split; [c32_tac|]. split; [intros H; discriminate H|].
  split; [apply (x_objects Linux), x_flat_ok|]. split; [vm_compute; reflexivity|]. split; [vm_compute; reflexivity|]. split; [exists 4096; reflexivity|].
  split; [vm_compute; reflexivity|]. split; [vm_compute; reflexivity|]. split.
  - unfold s_blk. destruct (call s_cif (Some 8192) s_objs 4096 7 65536 (blk_of s_cif (Some 8192)) 33000 40000) as [[m b]| |] eqn:E; [exists m; reflexivity| |].
    + exfalso. assert (W : match call s_cif (Some 8192) s_objs 4096 7 65536 (blk_of s_cif (Some 8192)) 33000 40000 with Ok _ => true | _ => false end = true) by (vm_compute; reflexivity).
      rewrite E in W. discriminate W.
    + exfalso. assert (W : match call s_cif (Some 8192) s_objs 4096 7 65536 (blk_of s_cif (Some 8192)) 33000 40000 with Ok _ => true | _ => false end = true) by (vm_compute; reflexivity).
      rewrite E in W. discriminate W.
  - split; [intros _; reflexivity|]. split; [apply rg_ok; vm_compute; reflexivity|]. split; [apply put_ok; vm_compute; reflexivity|].
    split; [|split; vm_compute; reflexivity].
    split; [reflexivity|]. split; [reflexivity|]. split; [vm_compute; discriminate|]. split; [vm_compute; reflexivity|].
    intros i Hi _. unfold s_mem. cbn [put].
    assert (L : zlen s_blk < 1000) by (vm_compute; reflexivity).
    rewrite wr_out by (change (zlen (s_clo FASTCALL)) with 28; lia). rewrite wr_out by (rewrite le_enc_zlen; lia).
    rewrite wr_in by lia. f_equal. lia.
Qed.

(** What ffi_closure_inner may do: store 2.5 and return. *)
Definition two_half : list Z := [0; 0; 0; 0; 0; 0; 4; 64].
Lemma s_inner X2 M2 n hp : regs_ok X2 -> mem_ok M2 ->
  exists X3 M3, inner_done Linux (ty_dbl Linux) s_cif n 65536 (65536 + stack_align (k_bytes s_cif)) two_half hp X2 M2 X3 M3.
Proof.
  intros HX HM. exists (upd (upd X2 ESP 65488) EAX (inner_value s_cif n)), (wr M2 65488 two_half).
  assert (KB : stack_align (k_bytes s_cif) = 48) by (vm_compute; reflexivity). rewrite KB.
  split; [apply upd_ok; [apply upd_ok; [exact HX|vm_compute; split; [discriminate|reflexivity]]|]|].
  - exact (proj2 (proj2 (inner_split s_cif n))).
  - split; [apply mem_ok_wr; [exact HM|repeat constructor; unfold byte_ok; lia]|]. split; [reflexivity|].
    split; [intros i Hi; rewrite !upd_other by (rn; lia); reflexivity|]. split; [reflexivity|].
    split; [apply rd_wr_other; right; change (zlen two_half) with 8; lia|]. split; [apply rd_wr_other; right; change (zlen two_half) with 8; lia|].
    split; [intros Q; discriminate Q|]. intros _ _. split; [reflexivity|]. split; [repeat constructor; unfold byte_ok; lia|].
    split; [apply rd_wr_same; reflexivity|]. intros k Q. injection Q as <-. vm_compute. reflexivity.
Qed.

(** ** The return of ffi_call *)

(** The function has returned 2.5; one value of the caller is on the x87 stack. *)
Definition b_regs : Z -> Z := rg [(EBP, 65584); (ESP, 65572); (EBX, 3); (EAX, 11); (EDX, 12)].
Definition b_mem : Z -> Z := put [(65584, le_enc 4 33000 ++ le_enc 4 40000 ++ le_enc 4 0 ++ le_enc 4 (ret_num (call_flags s_cif (Some 8192))) ++ le_enc 4 8192)].
Lemma s_back :
  regs_ok b_regs /\ mem_ok b_mem /\ b_regs EBP = 65536 + stack_align (k_bytes s_cif) /\ b_regs ESP <= b_regs EBP /\
  frame_at b_mem (65536 + stack_align (k_bytes s_cif)) 33000 40000 (ret_num (call_flags s_cif (Some 8192))) (result_place s_cif (Some 8192) 65536) /\
  in_memory Linux (ty_dbl Linux) = false /\ in_x87 Linux (ty_dbl Linux) = Some 8 /\ returned Linux (ty_dbl Linux) two_half (b_regs EAX) (b_regs EDX) (fld 8 two_half) /\
  result_size (ty_dbl Linux) = 8.
Proof.
  split; [apply rg_ok; vm_compute; reflexivity|]. split; [apply put_ok; vm_compute; reflexivity|]. split; [vm_compute; reflexivity|]. split; [vm_compute; discriminate|].
  split; [unfold frame_at; repeat split; vm_compute; reflexivity|]. repeat split; vm_compute; reflexivity.
Qed.

(** Struct (float) on Darwin: eax is stored and the value stays on the x87 stack. *)
Definition f_cif : cif := cif_of Darwin SYSV s_f [].
Definition f_regs : Z -> Z := rg [(EBP, 65536); (ESP, 65536)].
Definition f_mem : Z -> Z := put [(65536, le_enc 4 33000 ++ le_enc 4 40000 ++ le_enc 4 0 ++ le_enc 4 (ret_num (call_flags f_cif (Some 8192))) ++ le_enc 4 8192)].
Lemma struct_float_kept :
  exists o a rt ts c p base d ebp ra X F st0 M,
    let P := base + stack_align (k_bytes c) in
    ctype32 o rt /\ prep o a rt ts = Some c /\ in_memory o rt = false /\ in_x87 o rt = Some 4 /\ regs_ok X /\ mem_ok M /\
    X EBP = P /\ 4 <= X ESP <= P /\ P + 32 + call_rsize c (Some p) <= 2 ^ 32 /\ 0 <= ebp < 2 ^ 32 /\ 0 <= ra < 2 ^ 32 /\
    frame_at M P ebp ra (ret_num (call_flags c (Some p))) (result_place c (Some p) base) /\
    zlen d = ty_size rt /\ returned o rt d (X EAX) (X EDX) st0 /\ 0 <= p /\ p + result_size rt <= X ESP - 4 /\
    forall g e, tracked e g ->
      exists X1 F1 M1, reach e (text g) s_org (St X (st0 :: F) false (at_label (src g) s_org 5) M) (St X1 F1 false ra M1) /\
        F1 <> F /\ ~ result_in rt d (rd M1 p (Z.to_nat (result_size rt))).
Proof.
  exists Darwin, SYSV, s_f, [], f_cif, 8192, 65536, [0; 0; 128; 63], 33000, 40000, f_regs, [], (fld 4 [0; 0; 128; 63]), f_mem. cbv zeta.
  assert (HX : regs_ok f_regs) by (apply rg_ok; vm_compute; reflexivity).
  assert (HM : mem_ok f_mem) by (apply put_ok; vm_compute; reflexivity).
  split; [unfold s_f; c32_tac|]. split; [vm_compute; reflexivity|]. split; [reflexivity|]. split; [reflexivity|]. split; [exact HX|]. split; [exact HM|].
  split; [reflexivity|]. split; [vm_compute; split; discriminate|]. split; [vm_compute; discriminate|]. split; [lia|]. split; [lia|].
  split; [unfold frame_at; repeat split; vm_compute; reflexivity|]. split; [reflexivity|]. split; [vm_compute; reflexivity|]. split; [lia|]. split; [vm_compute; discriminate|].
  intros g e HT.
  destruct (call_leave g e s_org f_regs [fld 4 [0; 0; 128; 63]] f_mem 65536 40000 33000 8192 (ret_num (call_flags f_cif (Some 8192))) [0; 0; 0; 0] [fld 4 [0; 0; 128; 63]])
    as (X1 & M1 & R1 & _ & _ & _ & D1 & _);
    [vm_compute; discriminate|vm_compute; discriminate|exact HT|exact HX|exact HM|vm_compute; reflexivity|vm_compute; discriminate|vm_compute; discriminate|vm_compute; discriminate
    |vm_compute; reflexivity|vm_compute; reflexivity|vm_compute; reflexivity|vm_compute; reflexivity|vm_compute; split; [discriminate|reflexivity]
    |vm_compute; reflexivity|vm_compute; discriminate|right; left; vm_compute; discriminate|].
  - exists X1, [fld 4 [0; 0; 128; 63]], M1. split; [exact R1|]. split; [discriminate|].
    change (Z.to_nat (result_size s_f)) with 4%nat. change (length [0; 0; 0; 0]) with 4%nat in D1. rewrite D1. intros [H _]. vm_compute in H. discriminate H.
Qed.

(** ** Closures *)

(** A THISCALL closure called with a pointer in ecx, a float and a char on the stack. *)
Definition c_ts : list ftype := [ty_ptr; ty_float; ty_sint8].
Definition c_objs : list (list Z) := [le_enc 4 9; [1; 2; 3; 4]; [254]].
Definition c_cif : cif := cif_of Linux THISCALL ty_void c_ts.
Definition c_regs : Z -> Z := rg [(ECX, 9); (ESP, 65532); (EBX, 3)].
Definition c_mem (a : abi) : Z -> Z := put [(4096, s_clo a); (65532, le_enc 4 40000 ++ [1; 2; 3; 4] ++ [254; 255; 255; 255])].
Lemma s_closure :
  last_lowest THISCALL = false /\ Forall (ctype32 Linux) c_ts /\ Forall passable c_ts /\ objects_ok c_ts c_objs /\ total c_ts < 2 ^ 27 /\
  prep Linux THISCALL ty_void c_ts = Some c_cif /\ Forall (flat Linux THISCALL) c_ts /\ (16 | 65488 + 48) /\ regs_ok c_regs /\ mem_ok (c_mem THISCALL) /\ c_regs ESP = 65488 + 44 /\
  rd (c_mem THISCALL) 4096 14 = dyn_tramp (pushes (group_of THISCALL)) (at_label (src s_g) s_org (entry_label (group_of THISCALL))) 4096 /\
  held (arg_regs c_regs) 65536 (reader (c_mem THISCALL)) c_ts (places Linux THISCALL ty_void c_ts) c_objs /\ pops Linux THISCALL ty_void c_ts = 8.
Proof.
  split; [reflexivity|]. split; [unfold c_ts; c32_tac|]. split; [repeat (apply Forall_cons || apply Forall_nil); intros H; discriminate H|].
  split; [unfold c_objs; repeat (apply Forall2_cons || apply Forall2_nil); (split; [reflexivity|repeat constructor; vm_compute; first [discriminate|reflexivity]])|]. split; [vm_compute; reflexivity|]. split; [vm_compute; reflexivity|].
  split; [repeat (apply Forall_cons || apply Forall_nil); (split; [left; vm_compute; discriminate|reflexivity])|]. split; [exists 4096; reflexivity|].
  split; [apply rg_ok; vm_compute; reflexivity|]. split; [apply put_ok; vm_compute; reflexivity|]. split; [reflexivity|]. split; [vm_compute; reflexivity|].
  split; [|vm_compute; reflexivity].
  change (places Linux THISCALL ty_void c_ts) with [Reg 2; Stk 0; Stk 4]. unfold c_ts, c_objs. cbn [held at_loc].
  repeat split; try (intros H; discriminate H); vm_compute; reflexivity.
Qed.

(** The same closure with a static trampoline: slot at 16384, its parameters at 20480. *)
Definition t_mem : Z -> Z := put [(4096, s_clo THISCALL); (65532, le_enc 4 40000 ++ [1; 2; 3; 4] ++ [254; 255; 255; 255]);
  (20480, le_enc 4 4096 ++ le_enc 4 (at_label (src s_g) s_org (alt_label (group_of THISCALL))))].
Lemma s_static :
  mem_ok t_mem /\ rd t_mem (16384 + TRAMP_MAP) 4 = le_enc 4 4096 /\
  rd t_mem (16384 + TRAMP_MAP + 4) 4 = le_enc 4 (at_label (src s_g) s_org (alt_label (group_of THISCALL))) /\
  held (arg_regs c_regs) 65536 (reader t_mem) c_ts (places Linux THISCALL ty_void c_ts) c_objs.
Proof.
  split; [apply put_ok; vm_compute; reflexivity|]. split; [vm_compute; reflexivity|]. split; [vm_compute; reflexivity|].
  change (places Linux THISCALL ty_void c_ts) with [Reg 2; Stk 0; Stk 4]. unfold c_ts, c_objs. cbn [held at_loc].
  repeat split; try (intros H; discriminate H); vm_compute; reflexivity.
Qed.

(** REGISTER: the closure is taken from the return address, and the code returns to the
    closure. *)
Lemma register_dynamic g e org clo ra sp X F k M :
  0 <= org -> org + 2048 <= 2 ^ 32 -> 0 <= e_got e < 2 ^ 32 -> mem_ok M ->
  0 <= clo -> clo + 28 <= 2 ^ 32 -> X ESP = sp + 44 -> 4 <= sp -> sp + 48 < 2 ^ 32 -> clo + 28 <= sp - 4 \/ sp + 48 <= clo ->
  le_dec (rd M (sp + 44) 4) = ra -> ra + 28 <= 2 ^ 32 -> ra + 28 <= sp + 16 \/ sp + 48 <= ra + 16 ->
  rd M clo 14 = dyn_tramp (pushes (group_of REGISTER)) (at_label (src g) org (entry_label (group_of REGISTER))) clo ->
  exists s X1 M1, dyn_steps 3 (St X F k clo M) = Some s /\ reach e (text g) org s (St X1 F false (e_inner e) M1) /\
    rd M1 (sp + 28) 4 = rd M (ra + 16) 4 /\ rd M1 (sp + 32) 4 = rd M (ra + 20) 4 /\ rd M1 (sp + 36) 4 = rd M (ra + 24) 4 /\ rd M1 (sp + 44) 4 = le_enc 4 clo.
Proof.
  intros Ho Ho2 HG HM C0 C28 HS S4 S1 DJ HR R28 DR HT.
  destruct (entry_range g org GRegister Ho Ho2) as [ER _].
  assert (R0 : 0 <= ra < 2 ^ 32) by (rewrite <- HR; apply word_range, HM).
  assert (DP : dyn_steps 3 (St X F k clo M) = Some (St (upd X ESP (sp + 40)) F false (at_label (src g) org 21) (wr M (sp + 40) (le_enc 4 clo)))).
  { apply (dyn_run true _ clo X F k M (sp + 40) HT C0 ltac:(lia) ER). intros _. lia. }
  set (N := wr M (sp + 40) (le_enc 4 clo)) in *.
  assert (N40 : le_dec (rd N (sp + 40) 4) = clo) by (unfold N; rewrite rd_wr_same by reflexivity; apply word_back; lia).
  assert (NO : forall x n, x + Z.of_nat n <= sp + 40 \/ sp + 44 <= x -> rd N x n = rd M x n).
  { intros x n H. unfold N. apply rd_wr_other. rewrite le_enc_zlen. lia. }
  assert (N44 : le_dec (rd N (sp + 44) 4) = ra) by (rewrite NO by lia; exact HR).
  destruct (register_entry g e org (upd X ESP (sp + 40)) F false N clo ra sp Ho Ho2 ltac:(intros Q; discriminate Q) eq_refl ltac:(lia) S1 N40 N44 ltac:(lia) R28 DR)
    as (X1 & M1 & R1 & P1 & K1 & O1).
  destruct (do_inner false g e org X1 F M1 (wr N (sp + 44) (le_enc 4 clo)) sp _ _ _ _ _ _ Ho Ho2 HG P1 S4 S1 O1) as (X2 & M2 & R2 & IR & _).
  destruct IR as (_ & _ & _ & _ & _ & _ & _ & I28 & I32 & I36 & IO).
  assert (HN : mem_ok N) by (apply mem_ok_wr; [exact HM|apply le_enc_ok]).
  exists (St (upd X ESP (sp + 40)) F false (at_label (src g) org 21) N), X2, M2. split; [exact DP|].
  split; [exact (reach_trans _ _ _ _ _ _ R1 R2)|].
  split; [rewrite I28, rd_back4 by exact HN; apply NO; lia|]. split; [rewrite I32, rd_back4 by exact HN; apply NO; lia|]. split; [rewrite I36, rd_back4 by exact HN; apply NO; lia|].
  rewrite <- (rd_wr_same N (sp + 44) (le_enc 4 clo) 4 eq_refl). apply rd_ext. intros x Hx. apply IO. lia.
Qed.

Lemma register_swapped :
  exists o rt ts c objs g e org clo sp X F k M,
    Forall (ctype32 o) ts /\ Forall passable ts /\ ty_code rt = T_VOID /\ objects_ok ts objs /\ total ts < 2 ^ 28 /\ prep o REGISTER rt ts = Some c /\
    (16 | sp + 48) /\ 4 <= sp /\ sp + 48 + stack_align (k_bytes c) < 2 ^ 32 /\ 0 <= org /\ org + 2048 <= 2 ^ 32 /\ 0 <= e_got e < 2 ^ 32 /\ regs_ok X /\ mem_ok M /\
    0 <= clo /\ clo + 28 <= 2 ^ 32 /\ X ESP = sp + 44 /\ (clo + 28 <= sp - 4 \/ sp + 48 <= clo) /\
    rd M clo 14 = dyn_tramp (pushes (group_of REGISTER)) (at_label (src g) org (entry_label (group_of REGISTER))) clo /\
    held (arg_regs X) (sp + 48) (reader M) ts (places o REGISTER rt ts) objs /\
    exists s X1 M1, dyn_steps 3 (St X F k clo M) = Some s /\ reach e (text g) org s (St X1 F false (e_inner e) M1) /\
      rd M1 (sp + 28) 4 <> rd M (clo + 16) 4 /\ rd M1 (sp + 32) 4 <> rd M (clo + 20) 4 /\ rd M1 (sp + 44) 4 <> rd M (sp + 44) 4.
Proof.
  exists Linux, ty_void, [ty_sint32], (cif_of Linux REGISTER ty_void [ty_sint32]), [le_enc 4 9], s_g, s_e, s_org, 4096, 65488,
    (rg [(EAX, 9); (ESP, 65532)]), [], false, (c_mem REGISTER).
  assert (HX : regs_ok (rg [(EAX, 9); (ESP, 65532)])) by (apply rg_ok; vm_compute; reflexivity).
  assert (HM : mem_ok (c_mem REGISTER)) by (apply put_ok; vm_compute; reflexivity).
  assert (HT : rd (c_mem REGISTER) 4096 14 = dyn_tramp (pushes (group_of REGISTER)) (at_label (src s_g) s_org (entry_label (group_of REGISTER))) 4096) by (vm_compute; reflexivity).
  split; [c32_tac|]. split; [repeat (apply Forall_cons || apply Forall_nil); intros H; discriminate H|]. split; [reflexivity|].
  split; [repeat (apply Forall2_cons || apply Forall2_nil); (split; [reflexivity|repeat constructor; vm_compute; first [discriminate|reflexivity]])|].
  split; [vm_compute; reflexivity|]. split; [vm_compute; reflexivity|]. split; [exists 4096; reflexivity|]. split; [lia|]. split; [vm_compute; reflexivity|].
  split; [vm_compute; discriminate|]. split; [vm_compute; discriminate|]. split; [vm_compute; split; [discriminate|reflexivity]|]. split; [exact HX|]. split; [exact HM|].
  split; [lia|]. split; [lia|]. split; [reflexivity|]. split; [lia|]. split; [exact HT|]. split.
  - change (places Linux REGISTER ty_void [ty_sint32]) with [Reg 0]. cbn [held at_loc]. repeat split; try (intros H; discriminate H); vm_compute; reflexivity.
  - destruct (register_dynamic s_g s_e s_org 4096 40000 65488 (rg [(EAX, 9); (ESP, 65532)]) [] false (c_mem REGISTER))
      as (s & X1 & M1 & D & R & E1 & E2 & E3 & E4);
      [vm_compute; discriminate|vm_compute; discriminate|vm_compute; split; [discriminate|reflexivity]|exact HM|lia|lia|reflexivity|lia|lia|lia|vm_compute; reflexivity|lia|lia|exact HT|].
    exists s, X1, M1. split; [exact D|]. split; [exact R|]. rewrite E1, E2, E4. split; [vm_compute; discriminate|]. split; vm_compute; discriminate.
Qed.

(** The return of the closure of [s_call]: ffi_closure_inner has stored 2.5. *)
Definition x_regs : Z -> Z := rg [(EAX, inner_value s_cif 2); (ESP, 65488); (EBX, 10485760); (EBP, 65584)].
Definition x_mem : Z -> Z := put [(65488, two_half); (65528, le_enc 4 3 ++ le_enc 4 40000)].
Lemma s_exit :
  (exists vs, closure_args s_cif (fun r => r) 65536 (fun _ _ => None) = Ok (vs, 2, RTemp)) /\
  mem_ok x_mem /\ x_regs ESP = 65488 /\ x_regs EAX = inner_value s_cif 2 /\ x_regs EBX = e_got s_e /\
  result_left Linux (ty_dbl Linux) two_half 0 x_mem 65488 /\ rd x_mem (65488 + 44) 4 = le_enc 4 40000 /\ pops Linux FASTCALL (ty_dbl Linux) x_flat = 32.
Proof.
  split; [eexists; vm_compute; reflexivity|]. split; [apply put_ok; vm_compute; reflexivity|]. split; [reflexivity|]. split; [reflexivity|]. split; [reflexivity|].
  split; [|split; vm_compute; reflexivity].
  split; [intros Q; discriminate Q|]. intros _ _. split; [reflexivity|]. split; [repeat constructor; unfold byte_ok; lia|].
  split; [vm_compute; reflexivity|]. intros k Q. injection Q as <-. vm_compute. reflexivity.
Qed.

(** ** Go closures *)

(** A STDCALL Go closure at 4096: the same three arguments, all on the stack. *)
Definition g_cif : cif := cif_of Linux STDCALL ty_void c_ts.
Definition g_regs : Z -> Z := rg [(ECX, 4096); (ESP, 65532)].
Definition g_mem : Z -> Z := put [(4096, le_enc 4 5 ++ le_enc 4 12288 ++ le_enc 4 45056); (65532, le_enc 4 40000 ++ le_enc 4 9 ++ [1; 2; 3; 4] ++ [254; 255; 255; 255])].
Lemma s_go :
  go_plain STDCALL = Some false /\ Forall (flat Linux STDCALL) c_ts /\ prep Linux STDCALL ty_void c_ts = Some g_cif /\ regs_ok g_regs /\ mem_ok g_mem /\
  arg_regs g_regs (go_reg STDCALL) = 4096 /\ held (arg_regs g_regs) 65536 (reader g_mem) c_ts (places Linux STDCALL ty_void c_ts) c_objs /\
  pops Linux STDCALL ty_void c_ts = 12.
Proof.
  split; [reflexivity|]. split; [repeat (apply Forall_cons || apply Forall_nil); (split; [left; vm_compute; discriminate|reflexivity])|]. split; [vm_compute; reflexivity|].
  split; [apply rg_ok; vm_compute; reflexivity|]. split; [apply put_ok; vm_compute; reflexivity|]. split; [reflexivity|]. split; [|vm_compute; reflexivity].
  change (places Linux STDCALL ty_void c_ts) with [Stk 0; Stk 4; Stk 8]. unfold c_ts, c_objs. cbn [held at_loc].
  repeat split; try (intros H; discriminate H); vm_compute; reflexivity.
Qed.

(** ** Raw closures *)

(** Raw closures at 4096 with the same three arguments; the processor does not track branches. *)
Definition r_e : env := Env 9437184 10485760 false.
Definition r_clo (this : bool) : list Z :=
  raw_tramp (at_label (src s_g) s_org (raw_label this)) 4096 ++ [0; 0; 0; 0; 0; 0] ++ le_enc 4 12288 ++ le_enc 4 45056 ++ le_enc 4 99.
Definition rs_mem : Z -> Z := put [(4096, r_clo false); (65532, le_enc 4 40000 ++ le_enc 4 9 ++ [1; 2; 3; 4] ++ [254; 255; 255; 255])].
Definition rt_mem : Z -> Z := put [(4096, r_clo true); (65532, le_enc 4 40000 ++ [1; 2; 3; 4] ++ [254; 255; 255; 255])].
Lemma s_raw :
  Forall no_struct c_ts /\ in_memory Linux (ty_dbl Linux) = false /\ mem_ok rs_mem /\ mem_ok rt_mem /\
  rd rs_mem 4096 10 = raw_tramp (at_label (src s_g) s_org (raw_label false)) 4096 /\ rd rt_mem 4096 10 = raw_tramp (at_label (src s_g) s_org (raw_label true)) 4096 /\
  held (arg_regs g_regs) 65536 (reader rs_mem) c_ts (places Linux SYSV (ty_dbl Linux) c_ts) c_objs /\
  small_int (ty_code ty_ptr) = true /\ held (arg_regs c_regs) 65536 (reader rt_mem) c_ts (places Linux THISCALL (ty_dbl Linux) c_ts) c_objs.
Proof.
  split; [repeat (apply Forall_cons || apply Forall_nil); intros H; discriminate H|]. split; [reflexivity|].
  split; [apply put_ok; vm_compute; reflexivity|]. split; [apply put_ok; vm_compute; reflexivity|]. split; [vm_compute; reflexivity|]. split; [vm_compute; reflexivity|].
  change (places Linux SYSV (ty_dbl Linux) c_ts) with [Stk 0; Stk 4; Stk 8]. change (places Linux THISCALL (ty_dbl Linux) c_ts) with [Reg 2; Stk 0; Stk 4].
  unfold c_ts, c_objs. cbn [held at_loc]. split; [|split]; repeat split; try (intros H; discriminate H); vm_compute; reflexivity.
Qed.

(** The handler has stored 2.5 for its caller; the cif is at 12288. *)
Definition r_cif (a : abi) : cif := cif_of Linux a (ty_dbl Linux) c_ts.
Definition rx_regs : Z -> Z := rg [(ESP, 65488); (EBX, 12288)].
Definition rx_mem (a : abi) : Z -> Z :=
  put [(12308, le_enc 4 (ret_num (k_flags (r_cif a)))); (65504, two_half); (if is_this a then 65524 else 65528, le_enc 4 3 ++ le_enc 4 40000)].
Lemma s_raw_exit a : a = SYSV \/ a = THISCALL ->
  prep Linux a (ty_dbl Linux) c_ts = Some (r_cif a) /\ mem_ok (rx_mem a) /\ rx_regs ESP = 65488 /\ rx_regs EBX = 12288 /\
  rd (rx_mem a) (12288 + 20) 4 = le_enc 4 (ret_num (k_flags (r_cif a))) /\ result_left Linux (ty_dbl Linux) two_half 0 (rx_mem a) (65488 + 16) /\
  rd (rx_mem a) (if is_this a then 65488 + 40 else 65488 + 44) 4 = le_enc 4 40000.
Proof.
  intros [-> | ->]; (split; [vm_compute; reflexivity|split; [apply put_ok; vm_compute; reflexivity|split; [reflexivity|split; [reflexivity|split; [vm_compute; reflexivity|split; [|vm_compute; reflexivity]]]]]]).
  all: split; [intros Q; discriminate Q|]; intros _ _; split; [reflexivity|]; split; [repeat constructor; unfold byte_ok; lia|];
    split; [vm_compute; reflexivity|]; intros k Q; injection Q as <-; vm_compute; reflexivity.
Qed.

Lemma raw_untracked :
  exists o a rt ts c d g e org sp cf X F M,
    a = SYSV /\ ctype32 o rt /\ prep o a rt ts = Some c /\ 0 <= org /\ org + 2048 <= 2 ^ 32 /\ g_cet g = true /\ e_ibt e = true /\ mem_ok M /\
    X ESP = sp /\ 4 <= sp /\ sp + 60 < 2 ^ 32 /\ X EBX = cf /\ 0 <= cf /\ cf + 24 <= 2 ^ 32 /\ rd M (cf + 20) 4 = le_enc 4 (ret_num (k_flags c)) /\ zlen F < 8 /\
    result_left o rt d 0 M (sp + 16) /\
    exists s, reach e (text g) org (St X F false (at_label (src g) org (raw_back false)) M) s /\ step e (text g) org s = None.
Proof.
  exists Linux, SYSV, (ty_dbl Linux), c_ts, (r_cif SYSV), two_half, s_g, s_e, s_org, 65488, 12288, rx_regs, [], (rx_mem SYSV).
  destruct (s_raw_exit SYSV (or_introl eq_refl)) as (PR & HM & E1 & E2 & E3 & RL & _).
  split; [reflexivity|]. split; [c32_tac|]. split; [exact PR|]. split; [vm_compute; discriminate|]. split; [vm_compute; discriminate|]. split; [reflexivity|]. split; [reflexivity|].
  split; [exact HM|]. split; [exact E1|]. split; [lia|]. split; [lia|]. split; [exact E2|]. split; [lia|]. split; [lia|]. split; [exact E3|]. split; [reflexivity|]. split; [exact RL|].
  apply (raw_faults false s_g s_e s_org 65488 12288 rx_regs [] (rx_mem SYSV) (ret_num (k_flags (r_cif SYSV)))); try assumption; try lia.
  all: vm_compute; first [discriminate|reflexivity|split; [discriminate|reflexivity]].
Qed.

Lemma raw_no_endbr :
  exists g org clo X F M, g_cet g = true /\ mem_ok M /\ rd M clo 10 = raw_tramp (at_label (src g) org (raw_label false)) clo /\
    dyn_steps 2 (St X F false clo M) <> None /\ dyn_steps 2 (St X F true clo M) = None.
Proof.
  exists s_g, s_org, 4096, g_regs, [], rs_mem. destruct s_raw as (_ & _ & HM & _ & HT & _).
  split; [reflexivity|]. split; [exact HM|]. split; [exact HT|]. split.
  - rewrite (raw_run _ 4096 g_regs [] rs_mem HT ltac:(lia) ltac:(lia) (raw_range s_g s_org false ltac:(vm_compute; discriminate) ltac:(vm_compute; discriminate))). discriminate.
  - cbn [dyn_steps]. rewrite (raw_tracked _ 4096 g_regs [] rs_mem HT). reflexivity.
Qed.
