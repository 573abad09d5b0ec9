(** Concrete machine states for the theorems on the code of src/riscv/sysv.S. *)
From Coq Require Import ZifyBool ZifyNat.
From Verif Require Import Base BaseFacts ByteMem Types LayoutSpec NaturalTypes NaturalFacts RiscAsmModel RiscAsmFacts RiscAsmTop
  RvModel RvSpec RvFlat RvCall RvMain RvWhole RvClosure RvRet RvLemmas RvAsm.
From Verif Require A64Fits A64Ret A64AsmCallAll.
Local Open Scope Z_scope.
Local Arguments Z.mul : simpl never.
Local Arguments Z.add : simpl never.
Local Arguments Z.sub : simpl never.
Local Arguments Z.pow : simpl never.
Local Arguments Z.of_nat : simpl never.

(** Memory that holds the block of a call. *)
Lemma sample_mem fl c rv objs gr chain base blk frame m r ref b :
  call fl c rv objs gr chain base blk frame = Ok (m, r, ref) -> s_read m base (zlen blk) = Some b ->
  forall p n d, s_read m p n = Some d -> rd (wr (fun _ => 0) base b) p (Z.to_nat n) = d.
Proof.
  intros C R p n d H. destruct (call_block _ _ _ _ _ _ _ _ _ _ _ _ C) as (b' & L & E & _). rewrite E in R, H. cbv beta in R, H.
  rewrite Z.sub_diag in R. rewrite <- L in R. rewrite get_range_all in R. injection R as ->.
  assert (Q : rd (wr (fun _ => 0) base b) base (length b) = b) by (apply rd_wr_same; reflexivity).
  rewrite <- Q in H. apply get_rd in H. rewrite <- H. f_equal. lia.
Qed.

(** A call. *)
Definition z_args : list ftype := [ty_sint32; s_dd; s_big].
Definition z_cif : rcif := prep None s_fi z_args.
Definition z_x : Z -> Z := fun r =>
  if r =? 10 then 65536 else if r =? 11 then 65536 + ctx_at z_cif None else if r =? 12 then 12288 else if r =? 1 then 4096
  else if r =? 2 then 131072 else 0.
Definition z_blk : list Z := repeat 0 (Z.to_nat (alloc_size 8 z_cif None)).
Definition z_frame : list Z := le_enc 8 (z_x (FP RV)) ++ le_enc 8 (z_x (RA RV)).
Definition z_b : list Z :=
  match call 8 z_cif None (x_objs z_args) z16 0 65536 z_blk z_frame with
  | Ok (m, _, _) => match s_read m 65536 (zlen z_blk) with Some b => b | None => [] end
  | _ => []
  end.
Definition z_run : bool :=
  match call 8 z_cif None (x_objs z_args) z16 0 65536 z_blk z_frame with
  | Ok (m, None, ref) => negb ref && match s_read m 65536 (zlen z_blk) with Some b => list_eqb b z_b && forallb (fun z => (0 <=? z) && (z <? 256)) b | None => false end
  | _ => false
  end.
Lemma z_run_true : z_run = true.
Proof. vm_compute. reflexivity. Qed.

Lemma z_signature : signature_ok s_fi z_args.
Proof.
  split; [unfold z_args, s_dd, s_big; natural_tac|]. split; [unfold z_args; repeat (apply Forall_cons || apply Forall_nil); unfold no_complex; vm_compute fields; repeat constructor; discriminate|].
  right. split; [unfold s_fi; natural_tac|]. unfold no_complex. vm_compute fields. repeat constructor; discriminate.
Qed.
Lemma z_objects : objects_ok z_args (x_objs z_args).
Proof. apply x_objects; [apply z_signature|]. unfold z_args. repeat (apply Forall_cons || apply Forall_nil); vm_compute; discriminate. Qed.
Lemma z_places : places 8 None s_fi z_args = [Words [XR 0]; InFF 0 8 8 8; Ref (XR 1)].
Proof. vm_compute. reflexivity. Qed.
Lemma z_lone : lone_reals_ok 8 None 0 z_args (places 8 None s_fi z_args).
Proof.
  rewrite z_places; cbn [lone_reals_ok z_args]; repeat split; intros V S n H;
    try discriminate V; vm_compute in S; try discriminate S; vm_compute in H; try discriminate H; injection H as <-; eauto.
Qed.

Lemma call_sample :
  exists m M,
    fl_ok 8 /\ signature_ok s_fi z_args /\ objects_ok z_args (x_objs z_args) /\ A64Fits.total_size z_args < 2 ^ 31 /\
    lone_reals_ok 8 None 0 z_args (places 8 None s_fi z_args) /\
    zlen z_blk = alloc_size 8 z_cif None /\ (forall i, zlen (z16 i) = 16 /\ bytes_ok (z16 i)) /\ (16 | 65536) /\
    call 8 z_cif None (x_objs z_args) z16 0 65536 z_blk (le_enc 8 (z_x (FP RV)) ++ le_enc 8 (z_x (RA RV))) = Ok (m, None, in_memory 8 s_fi) /\
    16384 + 4 * zlen (call_text RV 8) <= 2 ^ 64 /\ (forall x, byte_ok (M x)) /\
    (forall p n d, s_read m p n = Some d -> rd M p (Z.to_nat n) = d) /\
    z_x (AR RV 0) = 65536 /\ z_x (AR RV 1) = 65536 + ctx_at z_cif None /\ z_x (AR RV 3) = 0 /\
    0 <= z_x (FP RV) < 2 ^ 64 /\ code_addr RV (z_x (RA RV)) /\ code_addr RV (z_x (AR RV 2)) /\
    natural s_fi /\ in_memory 8 s_fi = false /\ places 8 None s_fi z_args = [Words [XR 0]; InFF 0 8 8 8; Ref (XR 1)].
Proof.
  pose proof z_run_true as Q. unfold z_run in Q.
  destruct (call 8 z_cif None (x_objs z_args) z16 0 65536 z_blk z_frame) as [[[m r] ref]| |] eqn:C; try discriminate.
  destruct r; [discriminate|]. destruct ref; [discriminate|]. cbn [negb andb] in Q.
  destruct (s_read m 65536 (zlen z_blk)) as [b|] eqn:R; [|discriminate]. apply andb_prop in Q as [_ Q].
  exists m, (wr (fun _ => 0) 65536 b).
  split; [right; right; reflexivity|]. split; [exact z_signature|]. split; [exact z_objects|]. split; [vm_compute; reflexivity|].
  split; [exact z_lone|]. split; [vm_compute; reflexivity|].
  split; [intros i; split; [reflexivity|unfold z16; cbn [repeat]; repeat constructor; unfold byte_ok; lia]|].
  split; [exists 4096; reflexivity|]. split; [exact C|]. split; [vm_compute; discriminate|].
  split. { intros x. apply A64AsmCallAll.wr_bytes; [intros; unfold byte_ok; lia|]. apply Forall_forall. intros z I. rewrite forallb_forall in Q. specialize (Q z I). unfold byte_ok. lia. }
  split; [exact (sample_mem _ _ _ _ _ _ _ _ _ _ _ _ _ C R)|].
  split; [reflexivity|]. split; [reflexivity|]. split; [reflexivity|]. split; [vm_compute; split; congruence|].
  split; [split; [vm_compute; split; congruence|reflexivity]|]. split; [split; [vm_compute; split; congruence|reflexivity]|].
  split; [apply z_signature || (unfold s_fi; natural_tac)|]. split; [reflexivity|exact z_places].
Qed.

(** Closures: the caller passes 7 in a0, -1 in a1 and 1.0 in fa0. *)
Definition c_x : Z -> Z := fun r =>
  if r =? 10 then 7 else if r =? 11 then 2 ^ 64 - 1 else if r =? 1 then 4096 else if r =? 2 then 65536 + 144 else if r =? 7 then 32768 else 0.
Definition c_v : Z -> list Z := fun r => if r =? 10 then le_enc 8 0x3ff0000000000000 else repeat 0 8.
Definition c_args : list ftype := [ty_sint32; ty_double; ty_sint8].
Definition c_objs : list (list Z) := [[7; 0; 0; 0]; [0; 0; 0; 0; 0; 0; 240; 63]; [255]].
Definition c_dyn : Z -> Z := snd (prep_closure_loc RV 16384 None 1 32768 512 1024 2048 (fun _ => 0)).

Lemma c_held M : held 8 (abytes RV c_x) (fbytes RV 8 c_v) (c_x (SP RV)) (caller_read 8 M 65536) c_args (places 8 None s_fi c_args) c_objs [].
Proof.
  change (places 8 None s_fi c_args) with [Words [XR 0]; InF 0 8; Words [XR 1]].
  unfold c_args, c_objs. cbn [held]. split; [|split; [|split; [|reflexivity]]]; cbn [at_place].
  - exists [7; 0; 0; 0; 0; 0; 0; 0]. split; [reflexivity|]. split; [repeat constructor; unfold byte_ok; lia|]. split; reflexivity.
  - split; vm_compute; congruence.
  - exists (repeat 255 8). split; [reflexivity|]. split; [repeat constructor; unfold byte_ok; lia|]. split; reflexivity.
Qed.

Lemma dynamic_sample :
  exists m1 M, 16384 + 4 * zlen (closure_text RV 8) <= 2 ^ 64 /\ code_addr RV 16384 /\ wide c_v /\
    c_x (SP RV) = 65536 + FRAME_LEN 8 /\ (16 | c_x (SP RV)) /\ code_addr RV (c_x (RA RV)) /\ 49152 + 48 <= 65536 /\
    prep_closure_loc RV 16384 None 1 32768 512 1024 2048 (fun _ => 0) = (FFI_OK, m1) /\
    (forall k, 0 <= k < 48 -> M (49152 + k) = m1 (32768 + k)) /\ signature_ok s_fi c_args /\
    held 8 (abytes RV c_x) (fbytes RV 8 c_v) (c_x (SP RV)) (caller_read 8 M 65536) c_args (places 8 None s_fi c_args) c_objs [].
Proof.
  exists c_dyn, (fun x => c_dyn (x - 49152 + 32768)).
  split; [vm_compute; congruence|]. split; [split; [lia|reflexivity]|]. split; [intros i; unfold c_v; destruct (_ =? _); reflexivity|].
  split; [reflexivity|]. split; [exists 4105; reflexivity|]. split; [split; [vm_compute; split; congruence|reflexivity]|]. split; [lia|].
  split; [reflexivity|]. split; [intros k _; cbv beta; replace (49152 + k - 49152 + 32768) with (32768 + k) by lia; reflexivity|].
  split; [|apply c_held].
  split; [unfold c_args; natural_tac|]. split; [unfold c_args; repeat (apply Forall_cons || apply Forall_nil); unfold no_complex; vm_compute fields; repeat constructor; discriminate|].
  right. split; [unfold s_fi; natural_tac|]. unfold no_complex. vm_compute fields. repeat constructor; discriminate.
Qed.

Lemma go_sample :
  exists m1, 16384 + 4 * zlen (go_text RV 4) <= 2 ^ 64 /\ code_addr RV 16384 /\ wide c_v /\
    c_x (SP RV) = 65568 + FRAME_LEN 4 /\ c_x (T2 RV) = 32768 /\
    prep_go_closure RV 16384 1 32768 512 1024 (fun _ => 0) = (FFI_OK, m1) /\
    le_dec (rd m1 32768 8) = 16384 /\ le_dec (rd m1 (32768 + 8) 8) = 512 /\ le_dec (rd m1 (32768 + 16) 8) = 1024.
Proof.
  eexists. split; [vm_compute; congruence|]. split; [split; [lia|reflexivity]|]. split; [intros i; unfold c_v; destruct (_ =? _); reflexivity|].
  split; [reflexivity|]. split; [reflexivity|]. split; [reflexivity|]. repeat split; vm_compute; reflexivity.
Qed.
