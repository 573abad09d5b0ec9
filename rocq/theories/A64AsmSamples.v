(** Concrete machine states for the theorems on the code of src/aarch64/sysv.S. *)
From Coq Require Import ZifyBool ZifyNat.
From Verif Require Import Base BaseFacts ByteMem Types LayoutSpec NaturalTypes NaturalFacts A64Spec A64AsmModel A64ClosureModel A64AsmFacts
  A64AsmCall A64AsmCallAll A64AsmClo A64AsmEnd A64AsmTop.
From Verif Require A64Model A64Hfa A64Main A64Ret A64Call A64Closure A64Lemmas.
Local Open Scope Z_scope.

(** A call: registers as ffi_call_int passes them. *)
Definition s_cif := A64Lemmas.cif_of A64Model.Linux None A64Model.A_SYSV A64Lemmas.s_hfa [ty_double; ty_sint32].
Definition s_objs := A64Lemmas.x_objs [ty_double; ty_sint32].
Definition s_x : Z -> Z := fun r =>
  if r =? 0 then 65536 else if r =? 1 then 65536 + 192 + A64Model.k_bytes s_cif else if r =? 2 then 12288 else if r =? 3 then 8192
  else if r =? 4 then A64Model.k_flags s_cif else if r =? LR then 4096 else if r =? SP then 131072 else 0.
Definition s_v : Z -> list Z := fun _ => repeat 0 16.
Definition s_blk : list Z :=
  match A64Model.put_args A64Model.Linux (A64Model.win_variadic s_cif) (A64Model.k_nfixed s_cif) 65536 0 (A64Model.k_args s_cif) s_objs (repeat 0 264)
    (A64Model.arg_init (A64Model.k_bytes s_cif)) with Ok (b, _) => b | _ => [] end.

Lemma s_word i : word (s_x i).
Proof. unfold s_x, word. change (A64Model.k_flags s_cif) with 137. change (A64Model.k_bytes s_cif) with 32. repeat destruct (_ =? _); lia. Qed.

Lemma bytes_map l : bytes_ok (repeat 0 l).
Proof. induction l; constructor; auto. unfold byte_ok. lia. Qed.

Lemma call_sample :
  exists s m fl r, let c := s_cif in
    A64Main.signature_ok A64Model.Linux A64Model.A_SYSV None A64Lemmas.s_hfa [ty_double; ty_sint32] /\
    A64Model.prep A64Model.Linux A64Model.A_SYSV None A64Lemmas.s_hfa [ty_double; ty_sint32] = Ok c /\
    objects_ok [ty_double; ty_sint32] s_objs /\ A64Model.call_size c (Some 8192) = 264 /\ (16 | 65536) /\
    A64Main.fits A64Model.Linux None c /\ pointer_slots_ok false None 0 [ty_double; ty_sint32] (places false None [ty_double; ty_sint32]) /\
    A64Model.put_args A64Model.Linux (A64Model.win_variadic c) (A64Model.k_nfixed c) 65536 0 (A64Model.k_args c) s_objs (repeat 0 264)
      (A64Model.arg_init (A64Model.k_bytes c)) = Ok (s_blk, s) /\ zlen s_blk = 264 /\
    A64Model.call A64Model.Linux c (Some 8192) s_objs 0 65536 (repeat 0 264) (vbytes s_v) (saved_frame (LinuxPac 0) toy s_x) = Ok (m, fl, r) /\
    16384 + 4 * zlen (call_text (LinuxPac 0) true) <= 2 ^ 64 /\ pac_ok toy (s_x LR) (s_x 1) /\ (forall i, word (s_x i)) /\ wide8 s_v /\
    (forall x, byte_ok (wr (fun _ => 0) 65536 s_blk x)) /\ rd (wr (fun _ => 0) 65536 s_blk) 65536 (length s_blk) = s_blk /\
    s_x 3 = match r with Some a => a | None => 0 end /\ s_x 4 = fl /\ Z.land fl A64Model.A_NEED_COPY = 0 /\
    natural A64Lemmas.s_hfa /\ in_memory A64Lemmas.s_hfa = false /\ A64Ret.room A64Lemmas.s_hfa = 12.
Proof.
  assert (N : natural A64Lemmas.s_hfa) by (unfold A64Lemmas.s_hfa; natural_tac).
  assert (Q : match A64Model.call A64Model.Linux s_cif (Some 8192) s_objs 0 65536 (repeat 0 264) (vbytes s_v) (saved_frame (LinuxPac 0) toy s_x) with
              | Ok (_, fl, r) => fl = 137 /\ r = Some 8192 | _ => False end) by (vm_compute; auto).
  destruct (A64Model.call A64Model.Linux s_cif (Some 8192) s_objs 0 65536 (repeat 0 264) (vbytes s_v) (saved_frame (LinuxPac 0) toy s_x)) as [[[m fl] r]| |] eqn:E; try contradiction.
  destruct Q as [-> ->].
  eexists _, m, 137, (Some 8192). cbv zeta.
  split. { split; [natural_tac|]. split; [repeat (apply Forall_cons || apply Forall_nil); left; reflexivity|].
    split; [right; split; [exact N|left; reflexivity]|]. split; discriminate. }
  split; [vm_compute; reflexivity|].
  split. { unfold s_objs. repeat (apply Forall2_cons || apply Forall2_nil); (split; [reflexivity|]); repeat (apply Forall_cons || apply Forall_nil); split; vm_compute; congruence. }
  split; [vm_compute; reflexivity|]. split; [exists 4096; reflexivity|]. split; [vm_compute; congruence|]. split; [vm_compute; auto|].
  split; [vm_compute; reflexivity|]. split; [vm_compute; reflexivity|]. split; [exact E|]. split; [vm_compute; congruence|].
  split; [split; [split; vm_compute; congruence|]; intros k; split; [split; vm_compute; congruence|reflexivity]|].
  split; [exact s_word|]. split; [intros i _; reflexivity|].
  split; [intros x; apply wr_bytes; [intros; unfold byte_ok; lia|]; vm_compute s_blk; repeat (apply Forall_cons || apply Forall_nil); split; vm_compute; congruence|].
  split; [apply rd_wr_same; reflexivity|]. split; [reflexivity|]. split; [vm_compute; reflexivity|]. split; [reflexivity|]. split; [exact N|]. split; reflexivity.
Qed.

(** Closures: the caller, and memory after the closure was prepared. *)
Definition c_x : Z -> Z := fun r =>
  if r =? 0 then 7 else if r =? LR then 4096 else if r =? SP then 65536 + 272 else if r =? 18 then 32768 else 0.
Definition c_dyn (p : pac) : Z -> Z :=
  snd (prep_closure_loc (at_label (closure_src p false true true) 16384) Dynamic A64Model.A_SYSV 129 32768 512 1024 2048 49152 (fun _ => 0)).

Lemma c_law : pac_ok toy (c_x LR) (c_x SP).
Proof. split; [split; vm_compute; congruence|]; intros k; split; [split; vm_compute; congruence|reflexivity]. Qed.

Lemma dynamic_sample :
  exists m1 M, 16384 + 4 * zlen (closure_text (LinuxPac 1) false true true) <= 2 ^ 64 /\ pac_ok toy (c_x LR) (c_x SP) /\ wide8 s_v /\
    c_x SP = 65536 + 272 /\ 49152 + 48 <= 65536 /\
    prep_closure_loc (at_label (closure_src (LinuxPac 1) false true true) 16384) Dynamic A64Model.A_SYSV 129 32768 512 1024 2048 49152 (fun _ => 0) = (FFI_OK, m1) /\
    (forall k, 0 <= k < 48 -> M (49152 + k) = m1 (32768 + k)) /\
    held (xbytes c_x) (vbytes s_v) (c_x SP) (caller_read M 65536) [ty_sint32] (places false None [ty_sint32]) [[7; 0; 0; 0]] [].
Proof.
  exists (c_dyn (LinuxPac 1)), (fun x => c_dyn (LinuxPac 1) (x - 49152 + 32768)).
  split; [vm_compute; congruence|]. split; [exact c_law|]. split; [intros i _; reflexivity|]. split; [reflexivity|]. split; [lia|].
  split; [reflexivity|]. split; [intros k _; cbv beta; replace (49152 + k - 49152 + 32768) with (32768 + k) by lia; reflexivity|]. vm_compute. auto.
Qed.

Lemma static_sample :
  exists m1, 16384 + 4 * zlen (closure_text Arm64e false true false) <= 2 ^ 64 /\ pac_ok toy (c_x LR) (c_x SP) /\ wide8 s_v /\
    c_x SP = 65536 + 272 /\ 32768 + 48 <= 65536 /\ (forall a, byte_ok (m1 a)) /\
    prep_closure_loc (at_label (closure_src Arm64e false true false) 16384) (Static (131072 + 16384 + 32 * 5)) A64Model.A_SYSV 129 32768 512 1024 2048 (131072 + 32 * 5) (fun _ => 0) = (FFI_OK, m1) /\
    le_dec (rd m1 (131072 + 16384 + 160) 8) = 32768 /\
    le_dec (rd m1 (131072 + 16384 + 168) 8) = at_label (closure_src Arm64e false true false) 16384 203.
Proof.
  eexists (snd (prep_closure_loc (at_label (closure_src Arm64e false true false) 16384) (Static (131072 + 16384 + 32 * 5)) A64Model.A_SYSV 129 32768 512 1024 2048 (131072 + 32 * 5) (fun _ => 0))).
  split; [vm_compute; congruence|]. split; [exact c_law|]. split; [intros i _; reflexivity|]. split; [reflexivity|]. split; [lia|].
  split; [|split; [reflexivity|split; vm_compute; reflexivity]].
  intros a. unfold prep_closure_loc. cbn [A64Model.A_SYSV Z.eqb Pos.eqb negb andb snd]. repeat (apply wr_bytes; [intros ?|apply le_enc_ok]). unfold byte_ok. lia.
Qed.

Lemma mach_sample :
  exists m1, 16384 + 4 * zlen (closure_text NoPac true false false) <= 2 ^ 64 /\ pac_ok toy (c_x LR) (c_x SP) /\ wide8 s_v /\
    c_x SP = 65536 + 272 /\ (16 | 16384) /\ 5 < 16384 / 16 /\
    prep_closure_loc (at_label (closure_src NoPac true false false) 16384) (MachTable 16384) A64Model.A_SYSV 1 32768 512 1024 2048 (131072 + 16 * 5) (fun _ => 0) = (FFI_OK, m1) /\
    le_dec (rd m1 (131072 + 80 - 16384) 8) = 32768 /\ le_dec (rd m1 (32768 + 24) 8) = 1024.
Proof.
  eexists. split; [vm_compute; congruence|]. split; [exact c_law|]. split; [intros i _; reflexivity|]. split; [reflexivity|].
  split; [exists 1024; reflexivity|]. split; [reflexivity|]. split; [reflexivity|]. split; vm_compute; reflexivity.
Qed.

Lemma go_sample :
  exists m1, 16384 + 4 * zlen (closure_text (LinuxPac 0) false false true) <= 2 ^ 64 /\ pac_ok toy (c_x LR) (c_x SP) /\ wide8 s_v /\
    c_x SP = 65536 + 272 /\ c_x 18 = 32768 /\ Z.land 1 A64Model.A_ARG_V = 0 /\
    prep_go_closure (at_label (closure_src (LinuxPac 0) false false true) 16384) A64Model.A_SYSV 1 32768 512 1024 (fun _ => 0) = (FFI_OK, m1) /\
    le_dec (rd m1 32768 8) = at_label (closure_src (LinuxPac 0) false false true) 16384 206.
Proof.
  eexists. split; [vm_compute; congruence|]. split; [exact c_law|]. split; [intros i _; reflexivity|]. split; [reflexivity|].
  split; [reflexivity|]. split; [reflexivity|]. split; [reflexivity|]. vm_compute. reflexivity.
Qed.
