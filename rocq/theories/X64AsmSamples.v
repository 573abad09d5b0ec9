(** Sample states for the statements about the x86-64 assembly code. *)
From Coq Require Import ZifyBool ZifyNat.
From Verif Require Import Base BaseFacts ByteMem Types LayoutSpec NaturalTypes NaturalFacts Unix64Model Unix64Spec Unix64Link Unix64Main Unix64Ret Unix64Ret2 PropsUnix64Lemmas
  X64AsmModel X64AsmFacts X64AsmCall X64AsmRet X64AsmBlock X64AsmSpec X64AsmWhole X64AsmEnter X64AsmLeave X64AsmClo X64AsmExit X64AsmClosure X64AsmTop.
Local Open Scope Z_scope.
Local Arguments Z.mul : simpl never.
Local Arguments Z.add : simpl never.
Local Arguments Z.sub : simpl never.
Local Arguments Z.pow : simpl never.
Local Arguments Z.of_nat : simpl never.
Local Arguments le_enc : simpl never.

(** The nine-argument call of PropsUnix64Lemmas, its block at 65536 - 192, called from a stack
    at 32768. *)
Definition s_blk : list Z :=
  match call_int ex_cif (Some 8192) 0 ex_vals 7 65536 (repeat 77 6) (repeat (repeat 99 16) 8) (repeat 55 80) with Ok (b, _, _) => b | _ => [] end.
Definition s_regs : Z -> Z := fun i =>
  if i =? RDI then 65536 - 192 else if i =? RSI then 48 + 192 else if i =? RDX then c_flags ex_cif else if i =? RCX then 8192
  else if i =? R8 then 50000 else if i =? RSP then 32768 else if i =? RBP then 33000 else 5.
Definition s_mem : Z -> Z := wr (wr (fun _ => 0) 32768 (le_enc 8 40000)) (65536 - 192) s_blk.

Lemma bytes_okb l : forallb (fun b => (0 <=? b) && (b <? 256)) l = true -> bytes_ok l.
Proof. intros H. apply Forall_forall. intros x Hx. rewrite forallb_forall in H. specialize (H x Hx). unfold byte_ok. lia. Qed.

Lemma s_flags : 0 <= c_flags ex_cif < 2 ^ 32.
Proof. split; [vm_compute; discriminate|vm_compute; reflexivity]. Qed.

Lemma s_call :
  rt_ok ex_ret /\ Forall natural ex_args /\ objects_ok ex_args ex_vals /\ stack_used ex_ret ex_args + 64 < 2 ^ 32 /\
  machdep64 (TCif FFI_UNIX64 ex_args ex_ret 0 0) = Ok (FFI_OK, ex_cif) /\
  (16 | 65536) /\ c_bytes ex_cif = 48 /\
  call_int ex_cif (Some 8192) 0 ex_vals 7 65536 (repeat 77 6) (repeat (repeat 99 16) 8) (repeat 55 80) = Ok (s_blk, c_flags ex_cif, Some 8192) /\
  zlen s_blk = 192 + 80 /\ vectors_used ex_ret ex_args = 5 /\
  machine_ok s_regs t_vecs [] s_mem /\ called 48 65536 (c_flags ex_cif mod 2 ^ 32) (Some 8192) s_blk 50000 40000 s_regs s_mem.
Proof.
  destruct ex_natural as [N1 N2]. destruct ex_prepared as (P & B & S & V & _).
  split; [left; exact N1|]. split; [exact N2|]. split; [exact ex_objects|]. split; [rewrite S; lia|]. split; [exact P|].
  split; [exists 4096; reflexivity|]. split; [exact B|]. split; [vm_compute; reflexivity|]. split; [vm_compute; reflexivity|]. split; [exact V|].
  pose proof s_flags as Bf.
  split.
  - split. { intros i. unfold s_regs, RDI, RSI, RDX, RCX, R8, RSP, RBP. repeat destruct (_ =? _); lia. }
    split; [intros i; reflexivity|]. split; [constructor|]. split; [vm_compute; discriminate|].
    apply wr_byte; [apply wr_byte; [intros x; unfold byte_ok; lia|apply le_enc_ok]|]. apply bytes_okb. vm_compute. reflexivity.
  - assert (Lb : length s_blk = 272%nat) by (vm_compute; reflexivity).
    split; [reflexivity|]. split; [reflexivity|]. split; [reflexivity|]. split; [reflexivity|]. split; [reflexivity|]. split; [lia|].
    split; [unfold s_regs, RDI, RSI, RDX, RCX, R8, RSP, RBP; cbn; lia|]. split.
    + change (s_regs RSP) with 32768. unfold s_mem. rewrite rd_wr_other by (left; change (Z.of_nat 8) with 8; lia).
      rewrite rd_wr_same by reflexivity. vm_compute. reflexivity.
    + unfold s_mem. apply rd_wr_same. reflexivity.
Qed.

(** The function has returned a struct of an integer and a double. *)
Definition s_ret : Z -> Z := fun i => if i =? RBP then 65536 else if i =? RSP then 65400 else if i =? RAX then 5 else 0.
Lemma s_result :
  natural ex_ret /\ struct_x87 ex_ret = false /\ hidden_pointer ex_ret = false /\ result_width ex_ret = 16 /\
  (forall i, 0 <= t_call (c_flags ex_cif) 8192 i < 2 ^ 64) /\
  machine_ok s_ret t_vecs ([] ++ [repeat 1 10]) (t_mem (c_flags ex_cif) 8192) /\ zlen ([] : list (list Z)) = x87_results ex_ret /\
  returns ex_ret (result_regs s_ret t_vecs ([] ++ [repeat 1 10])) ([5; 0; 0; 0; 0; 0; 0; 0] ++ repeat 9 8) /\
  rd (t_mem (c_flags ex_cif) 8192) 65536 32 = saved (t_call (c_flags ex_cif) 8192) 40000 /\
  t_call (c_flags ex_cif) 8192 RDX mod 2 ^ 32 = c_flags ex_cif mod 2 ^ 32 /\ t_call (c_flags ex_cif) 8192 RCX = 8192.
Proof.
  pose proof s_flags as Bf. destruct ex_results as (A & B & _).
  split; [apply ex_natural|]. split; [exact A|]. split; [reflexivity|]. split; [reflexivity|]. split; [apply t_call_ok; lia|]. split.
  { split; [intros i; unfold s_ret, RBP, RSP, RAX; repeat destruct (_ =? _); lia|]. split; [intros i; reflexivity|]. split; [repeat constructor|].
    split; [vm_compute; discriminate|]. refine (proj2 (proj2 (proj2 (proj2 (t_machine [] _ _ _ _))))); [constructor|vm_compute; discriminate]. }
  split; [reflexivity|]. split.
  { unfold returns, returned in *. change (passing_of ex_ret) with (PRegs [EInt; ESse]) in *. cbn [rs_rax rs_rdx rs_xmm0 rs_xmm1 rs_st0 rs_st1] in B.
    destruct B as (w & W1 & W2). exists w. split; [exact W1|]. vm_compute in W2. vm_compute. exact W2. }
  split; [apply rd_wr_same; reflexivity|]. split; reflexivity.
Qed.

(** A closure of that signature entered with those arguments: frame at 65536, closure at 4096
    (fields 1, 2 and 3 at offset 32), return address 40000. *)
Definition s_m : mstate :=
  match call64 ex_cif (Some 8192) 0 ex_vals 7 4096 (repeat 77 6) (repeat (repeat 99 16) 8) (repeat 55 80) (repeat (repeat 11 16) 8) (repeat 0 32) with
  | Ok (m, _, _) => m | _ => MState [] [] 0 0 0 [] end.
Definition s_clo : Z -> Z := fun i =>
  if i =? RDI then nth 0 (m_gpr s_m) 0 else if i =? RSI then nth 1 (m_gpr s_m) 0 else if i =? RDX then nth 2 (m_gpr s_m) 0
  else if i =? RCX then nth 3 (m_gpr s_m) 0 else if i =? R8 then nth 4 (m_gpr s_m) 0 else if i =? R9 then nth 5 (m_gpr s_m) 0
  else if i =? RSP then 65536 + 216 else if i =? R10 then 4096 else if i =? RAX then 5 else 0.
Definition s_vec : Z -> list Z := fun i => nth (Z.to_nat i) (m_xmm s_m) (repeat 0 16).
Definition s_cmem : Z -> Z :=
  wr (wr (fun _ => 0) (4096 + 32) (le_enc 8 1 ++ le_enc 8 2 ++ le_enc 8 3)) (65536 + 216) (le_enc 8 40000 ++ m_stack s_m).

Lemma s_gpr_args : gpr_args s_clo = m_gpr s_m. Proof. vm_compute. reflexivity. Qed.
Lemma s_xmm_args : xmm_args s_vec = m_xmm s_m. Proof. vm_compute. reflexivity. Qed.
Lemma s_stack : rd s_cmem (65536 + 224) (length (m_stack s_m)) = m_stack s_m.
Proof.
  replace (m_stack s_m) with (rd s_cmem (65536 + 224) (length (m_stack s_m))) at 2; [reflexivity|].
  unfold s_cmem. rewrite rd_wr_sub.
  - change (Z.to_nat (65536 + 224 - (65536 + 216))) with 8%nat. rewrite skipn_app, skipn_all2 by reflexivity. cbn [app]. change (8 - length (le_enc 8 40000))%nat with 0%nat.
    cbn [skipn]. apply firstn_all.
  - lia.
  - rewrite zlen_app, zlen_enc. unfold zlen. lia.
Qed.

Lemma s_entered :
  saves_vectors ex_cif = true /\ zlen (repeat 0 16) = 16 /\ machine_ok s_clo s_vec [] s_cmem /\ s_clo RSP = 65536 + 216 /\ 65536 mod 16 = 0 /\
  65536 + 224 + stack_used ex_ret ex_args + 16 < 2 ^ 64 /\ s_clo R10 = 4096 /\
  closure_words false s_cmem 4096 = (1, 2, 3) /\
  args_passed ex_ret ex_args ex_vals (gpr_args s_clo) (xmm_args s_vec) (rd s_cmem (65536 + 224) (length (m_stack s_m))).
Proof.
  split; [vm_compute; reflexivity|]. split; [reflexivity|].
  assert (Bg : forallb (fun x => (0 <=? x) && (x <? 2 ^ 64)) (m_gpr s_m) = true) by (vm_compute; reflexivity).
  assert (Lg : length (m_gpr s_m) = 6%nat) by (vm_compute; reflexivity).
  rewrite forallb_forall in Bg.
  assert (Hn : forall j, (j < 6)%nat -> 0 <= nth j (m_gpr s_m) 0 < 2 ^ 64).
  { intros j Hj. assert (Hi : In (nth j (m_gpr s_m) 0) (m_gpr s_m)) by (apply nth_In; rewrite Lg; exact Hj). specialize (Bg _ Hi). lia. }
  split.
  { split.
    { intros i. clear Bg Lg. unfold s_clo, RDI, RSI, RDX, RCX, R8, R9, RSP, R10, RAX.
      repeat (match goal with |- context[if i =? ?k then _ else _] => destruct (i =? k) end; [match goal with |- context[nth ?j _ _] => apply (Hn j); repeat constructor | _ => lia end|]). lia. }
    split.
    { intros i. unfold s_vec. destruct (lt_dec (Z.to_nat i) (length (m_xmm s_m))) as [L|L].
      - assert (Bx : forallb (fun x => zlen x =? 16) (m_xmm s_m) = true) by (vm_compute; reflexivity). rewrite forallb_forall in Bx.
        specialize (Bx _ (nth_In _ (repeat 0 16) L)). lia.
      - rewrite nth_overflow by lia. reflexivity. }
    split; [constructor|]. split; [vm_compute; discriminate|].
    apply wr_byte; [apply wr_byte; [intros x; unfold byte_ok; lia|]|].
    - unfold bytes_ok. repeat (apply Forall_app; split); apply le_enc_ok.
    - unfold bytes_ok. apply Forall_app. split; [apply le_enc_ok|]. apply bytes_okb. vm_compute. reflexivity. }
  split; [reflexivity|]. split; [reflexivity|]. split; [vm_compute; reflexivity|]. split; [reflexivity|]. split.
  { unfold closure_words, s_cmem. rewrite !(rd_wr_other _ (65536 + 216)) by (change (Z.of_nat 8) with 8; lia).
    unfold wr. vm_compute. reflexivity. }
  rewrite s_gpr_args, s_xmm_args, s_stack.
  destruct ex_natural as [N1 N2]. destruct ex_prepared as (P & B & S & V & _).
  assert (S' : stack_used ex_ret ex_args + 64 < 2 ^ 32) by (rewrite S; lia).
  destruct (call_places _ _ _ _ _ _ 8192 0 7 _ _ _ _ _ _ (or_introl N1) N2 ex_objects S' P ex_env) as (m & fl & rv' & C & A & _).
  unfold s_m. rewrite C. exact A.
Qed.

(** The handler has left a struct of an integer and a double in the slot at 65536 + 176. *)
Definition s_done : Z -> Z := fun i => if i =? RAX then c_flags ex_cif else if i =? RSP then 65536 else 5.
Definition s_dmem (slot : list Z) : Z -> Z := wr (wr (fun _ => 0) (65536 + 176) slot) (65536 + 216) (le_enc 8 40000).

Lemma s_dmem_ok slot : zlen slot = 32 -> bytes_ok slot ->
  (forall x, byte_ok (s_dmem slot x)) /\ rd (s_dmem slot) (65536 + 176) 32 = slot /\ le_dec (rd (s_dmem slot) (65536 + 216) 8) = 40000.
Proof.
  intros L B. split; [apply wr_byte; [apply wr_byte; [intros x; unfold byte_ok; lia|exact B]|apply le_enc_ok]|]. split.
  - unfold s_dmem. rewrite rd_wr_other by (left; change (Z.of_nat 32) with 32; lia). apply rd_wr_same. unfold zlen in L. lia.
  - unfold s_dmem. rewrite rd_wr_same by reflexivity. vm_compute. reflexivity.
Qed.

Lemma s_left :
  let v := [5; 0; 0; 0; 0; 0; 0; 0] ++ repeat 9 8 in let M := s_dmem (v ++ repeat 1 16) in
  natural ex_ret /\ struct_x87 ex_ret = false /\ hidden_pointer ex_ret = false /\ zlen v = ty_size ex_ret /\ bytes_ok v /\
  machine_ok s_done t_vecs [repeat 2 10] M /\ x87_results ex_ret + zlen [repeat 2 10] <= 8 /\
  s_done RSP = 65536 /\ le_dec (rd M (65536 + 216) 8) = 40000 /\ s_done RAX mod 2 ^ 32 = c_flags ex_cif mod 2 ^ 32 /\
  result_holds ex_ret v (rd M (65536 + 176) 32).
Proof.
  intros v M. pose proof s_flags as Bf. destruct ex_results as (A & _ & _ & H).
  destruct (s_dmem_ok (v ++ repeat 1 16)) as (D1 & D2 & D3); [reflexivity|apply bytes_okb; reflexivity|]. fold M in D1, D2, D3.
  split; [apply ex_natural|]. split; [exact A|]. split; [reflexivity|]. split; [reflexivity|]. split; [apply bytes_okb; reflexivity|]. split.
  { split; [intros i; unfold s_done, RAX, RSP; repeat destruct (_ =? _); lia|]. split; [intros i; reflexivity|]. split; [repeat constructor|].
    split; [vm_compute; discriminate|exact D1]. }
  split; [vm_compute; discriminate|]. split; [reflexivity|]. split; [exact D3|]. split; [reflexivity|]. rewrite D2. exact H.
Qed.

Lemma s_go :
  closure_words true s_cmem 4096 = (0, 0, 4096) /\ closure_words true (wr s_cmem 4104 (le_enc 8 11 ++ le_enc 8 12)) 4096 = (11, 12, 4096) /\
  entry_label true (saves_vectors ex_cif) = 21.
Proof.
  split; [|split; [|reflexivity]]; unfold closure_words, s_cmem.
  - rewrite !(rd_wr_other _ (65536 + 216)) by (change (Z.of_nat 8) with 8; lia). unfold wr. vm_compute. reflexivity.
  - rewrite !rd_wr_sub by (rewrite ?zlen_app, ?zlen_enc; change (Z.of_nat 8) with 8; lia). vm_compute. reflexivity.
Qed.
