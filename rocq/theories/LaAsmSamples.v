(** Concrete machine states for the theorems on the code of src/loongarch64/sysv.S. *)
From Coq Require Import ZifyBool ZifyNat.
From Verif Require Import Base BaseFacts ByteMem Types LayoutSpec NaturalTypes NaturalFacts RiscAsmModel RiscAsmFacts RiscAsmTop
  RvSpec RvFlat RvMain RvRet RvLemmas LaModel LaSpec LaFlat LaCall LaMain LaWhole LaClosure LaRet LaLemmas LaAsm.
From Verif Require A64Fits A64Ret A64AsmCallAll.
Local Open Scope Z_scope.
Local Arguments Z.mul : simpl never.
Local Arguments Z.add : simpl never.
Local Arguments Z.sub : simpl never.
Local Arguments Z.pow : simpl never.
Local Arguments Z.of_nat : simpl never.

(** Memory that holds the block of a call. *)
Lemma sample_mem fl c rv objs gr chain base blk frame m r ref b :
  call fl c rv objs gr chain base blk frame = Ok (m, r, ref) -> s_read m base (zlen blk) = Some b ->
  forall p n d, s_read m p n = Some d -> rd (wr (fun _ => 0) base b) p (Z.to_nat n) = d.
Proof.
  intros C R p n d H. destruct (call_block _ _ _ _ _ _ _ _ _ _ _ _ C) as (b' & L & E & _). rewrite E in R, H. cbv beta in R, H.
  rewrite Z.sub_diag in R. rewrite <- L in R. rewrite get_range_all in R. injection R as ->.
  assert (Q : rd (wr (fun _ => 0) base b) base (length b) = b) by (apply rd_wr_same; reflexivity).
  rewrite <- Q in H. apply get_rd in H. rewrite <- H. f_equal. lia.
Qed.

(** A call. *)
Definition z_args : list ftype := [ty_sint32; s_dd; s_big].
Definition z_cif : rcif := prep None s_fi z_args.
Definition z_x : Z -> Z := fun r =>
  if r =? 4 then 65536 else if r =? 5 then 65536 + ctx_at z_cif None else if r =? 6 then 12288 else if r =? 1 then 4096
  else if r =? 3 then 131072 else 0.
Definition z_blk : list Z := repeat 0 (Z.to_nat (alloc_size 8 z_cif None)).
Definition z_frame : list Z := le_enc 8 (z_x (FP LA)) ++ le_enc 8 (z_x (RA LA)).
Definition z_b : list Z :=
  match call 8 z_cif None (x_objs z_args) z16 0 65536 z_blk z_frame with
  | Ok (m, _, _) => match s_read m 65536 (zlen z_blk) with Some b => b | None => [] end
  | _ => []
  end.
Definition z_run : bool :=
  match call 8 z_cif None (x_objs z_args) z16 0 65536 z_blk z_frame with
  | Ok (m, None, ref) => negb ref && match s_read m 65536 (zlen z_blk) with Some b => list_eqb b z_b && forallb (fun z => (0 <=? z) && (z <? 256)) b | None => false end
  | _ => false
  end.
Lemma z_run_true : z_run = true.
Proof. vm_compute. reflexivity. Qed.

Lemma z_signature : signature_ok s_fi z_args.
Proof.
  split; [unfold z_args, s_dd, s_big; natural_tac|]. split; [unfold z_args; repeat (apply Forall_cons || apply Forall_nil); unfold no_complex; vm_compute fields; repeat constructor; discriminate|].
  right. split; [unfold s_fi; natural_tac|]. unfold no_complex. vm_compute fields. repeat constructor; discriminate.
Qed.
Lemma z_objects : objects_ok z_args (x_objs z_args).
Proof. apply x_objects; [apply z_signature|]. unfold z_args. repeat (apply Forall_cons || apply Forall_nil); vm_compute; discriminate. Qed.
Lemma z_places : places 8 None s_fi z_args = [Words [XR 0]; InFF 0 8 8 8; Ref (XR 1)].
Proof. vm_compute. reflexivity. Qed.
Lemma z_lone : lone_reals_ok 8 None 0 z_args (places 8 None s_fi z_args).
Proof.
  rewrite z_places; cbn [lone_reals_ok z_args]; repeat split; intros V S n H;
    try discriminate V; vm_compute in S; try discriminate S; vm_compute in H; try discriminate H; injection H as <-; eauto.
Qed.

Lemma z_ok : exists m b, call 8 z_cif None (x_objs z_args) z16 0 65536 z_blk z_frame = Ok (m, None, false) /\ s_read m 65536 (zlen z_blk) = Some b /\
  forallb (fun z => (0 <=? z) && (z <? 256)) b = true.
Proof.
  pose proof z_run_true as Q. unfold z_run in Q.
  destruct (call 8 z_cif None (x_objs z_args) z16 0 65536 z_blk z_frame) as [[[m r] ref]| |] eqn:C; try discriminate Q.
  destruct r; [discriminate Q|]. destruct ref; [discriminate Q|]. cbn [negb andb] in Q.
  destruct (s_read m 65536 (zlen z_blk)) as [b|] eqn:R; [|discriminate Q]. apply andb_prop in Q as [_ Q]. exists m, b. auto.
Qed.

Lemma call_sample :
  exists m M,
    la_fl 8 /\ signature_ok s_fi z_args /\ promoted None 0 z_args /\ objects_ok z_args (x_objs z_args) /\ A64Fits.total_size z_args < 2 ^ 31 /\
    lone_reals_ok 8 None 0 z_args (places 8 None s_fi z_args) /\
    stack_used 8 None s_fi z_args <= copies_end z_args (places 8 None s_fi z_args) (arg_bytes z_cif) /\
    zlen z_blk = alloc_size 8 z_cif None /\ (forall i, zlen (z16 i) = 16 /\ bytes_ok (z16 i)) /\ (16 | 65536) /\
    call 8 z_cif None (x_objs z_args) z16 0 65536 z_blk (le_enc 8 (z_x (FP LA)) ++ le_enc 8 (z_x (RA LA))) = Ok (m, None, in_memory 8 s_fi) /\
    16384 + 4 * zlen (call_text LA 8) <= 2 ^ 64 /\ (forall x, byte_ok (M x)) /\
    (forall p n d, s_read m p n = Some d -> rd M p (Z.to_nat n) = d) /\
    z_x (AR LA 0) = 65536 /\ z_x (AR LA 1) = 65536 + ctx_at z_cif None /\ z_x (AR LA 3) = 0 /\
    0 <= z_x (FP LA) < 2 ^ 64 /\ code_addr LA (z_x (RA LA)) /\ code_addr LA (z_x (AR LA 2)) /\
    natural s_fi /\ in_memory 8 s_fi = false /\ places 8 None s_fi z_args = [Words [XR 0]; InFF 0 8 8 8; Ref (XR 1)].
Proof.
  destruct z_ok as (m & b & C & R & Q).
  exists m, (wr (fun _ => 0) 65536 b).
  split; [right; reflexivity|]. split; [exact z_signature|]. split; [cbn [promoted z_args]; repeat split; intros _; vm_compute; discriminate|]. split; [exact z_objects|]. split; [vm_compute; reflexivity|].
  split; [exact z_lone|]. split; [vm_compute; discriminate|]. split; [vm_compute; reflexivity|].
  split; [intros i; split; [reflexivity|unfold z16; cbn [repeat]; repeat constructor; unfold byte_ok; lia]|].
  split; [exists 4096; reflexivity|]. split; [exact C|]. split; [vm_compute; discriminate|].
  split. { intros x. apply A64AsmCallAll.wr_bytes; [intros; unfold byte_ok; lia|]. apply Forall_forall. intros z I. rewrite forallb_forall in Q. specialize (Q z I). unfold byte_ok. lia. }
  split; [exact (sample_mem _ _ _ _ _ _ _ _ _ _ _ _ _ C R)|].
  split; [reflexivity|]. split; [reflexivity|]. split; [reflexivity|]. split; [vm_compute; split; congruence|].
  split; [split; [vm_compute; split; congruence|reflexivity]|]. split; [split; [vm_compute; split; congruence|reflexivity]|].
  split; [apply z_signature || (unfold s_fi; natural_tac)|]. split; [reflexivity|exact z_places].
Qed.

(** Closures: the caller passes 7 in a0, -1 in a1 and 1.0 in fa0. *)
Definition c_x : Z -> Z := fun r =>
  if r =? 4 then 7 else if r =? 5 then 2 ^ 64 - 1 else if r =? 1 then 4096 else if r =? 3 then 65536 + 144 else if r =? 14 then 32768 else 0.
Definition c_v : Z -> list Z := fun r => if r =? 0 then le_enc 8 0x3ff0000000000000 else repeat 0 8.
Definition c_args : list ftype := [ty_sint32; ty_double; ty_sint8].
Definition c_objs : list (list Z) := [[7; 0; 0; 0]; [0; 0; 0; 0; 0; 0; 240; 63]; [255]].
Definition c_dyn : Z -> Z := snd (prep_closure_loc LA 16384 None 1 32768 512 1024 2048 (fun _ => 0)).

Lemma c_held M : held 8 (abytes LA c_x) (fbytes LA 8 c_v) (c_x (SP LA)) (caller_read 8 M 65536) c_args (places 8 None s_fi c_args) c_objs [].
Proof.
  change (places 8 None s_fi c_args) with [Words [XR 0]; InF 0 8; Words [XR 1]].
  unfold c_args, c_objs. cbn [held]. split; [|split; [|split; [|reflexivity]]]; cbn [at_place].
  - exists [7; 0; 0; 0; 0; 0; 0; 0]. split; [reflexivity|]. split; [repeat constructor; unfold byte_ok; lia|]. split; reflexivity.
  - split; vm_compute; congruence.
  - exists (repeat 255 8). split; [reflexivity|]. split; [repeat constructor; unfold byte_ok; lia|]. split; reflexivity.
Qed.

Lemma dynamic_sample :
  exists m1 M, 16384 + 4 * zlen (closure_text LA 8) <= 2 ^ 64 /\ code_addr LA 16384 /\ wide c_v /\
    c_x (SP LA) = 65536 + FRAME_LEN 8 /\ (16 | c_x (SP LA)) /\ code_addr LA (c_x (RA LA)) /\ 49152 + 48 <= 65536 /\
    prep_closure_loc LA 16384 None 1 32768 512 1024 2048 (fun _ => 0) = (FFI_OK, m1) /\
    (forall k, 0 <= k < 48 -> M (49152 + k) = m1 (32768 + k)) /\ signature_ok s_fi c_args /\
    held 8 (abytes LA c_x) (fbytes LA 8 c_v) (c_x (SP LA)) (caller_read 8 M 65536) c_args (places 8 None s_fi c_args) c_objs [].
Proof.
  exists c_dyn, (fun x => c_dyn (x - 49152 + 32768)).
  split; [vm_compute; congruence|]. split; [split; [lia|reflexivity]|]. split; [intros i; unfold c_v; destruct (_ =? _); reflexivity|].
  split; [reflexivity|]. split; [exists 4105; reflexivity|]. split; [split; [vm_compute; split; congruence|reflexivity]|]. split; [lia|].
  split; [reflexivity|]. split; [intros k _; cbv beta; replace (49152 + k - 49152 + 32768) with (32768 + k) by lia; reflexivity|].
  split; [|apply c_held].
  split; [unfold c_args; natural_tac|]. split; [unfold c_args; repeat (apply Forall_cons || apply Forall_nil); unfold no_complex; vm_compute fields; repeat constructor; discriminate|].
  right. split; [unfold s_fi; natural_tac|]. unfold no_complex. vm_compute fields. repeat constructor; discriminate.
Qed.

Lemma go_sample :
  exists m1, 16384 + 4 * zlen (go_text LA 0) <= 2 ^ 64 /\ code_addr LA 16384 /\ wide c_v /\
    c_x (SP LA) = 65600 + FRAME_LEN 0 /\ c_x (T2 LA) = 32768 /\
    prep_go_closure LA 16384 1 32768 512 1024 (fun _ => 0) = (FFI_OK, m1) /\
    le_dec (rd m1 32768 8) = 16384 /\ le_dec (rd m1 (32768 + 8) 8) = 512 /\ le_dec (rd m1 (32768 + 16) 8) = 1024.
Proof.
  eexists. split; [vm_compute; congruence|]. split; [split; [lia|reflexivity]|]. split; [intros i; unfold c_v; destruct (_ =? _); reflexivity|].
  split; [reflexivity|]. split; [reflexivity|]. split; [reflexivity|]. repeat split; vm_compute; reflexivity.
Qed.

Lemma static_sample :
  exists m1, 16384 + 4 * zlen (closure_text LA 8) <= 2 ^ 64 /\ code_addr LA 16384 /\ wide c_v /\
    c_x (SP LA) = 65536 + FRAME_LEN 8 /\ 32768 + 48 <= 65536 /\
    prep_closure_loc LA 16384 (Some (131072 + 65536 + 16 * 5)) 1 32768 512 1024 2048 (fun _ => 0) = (FFI_OK, m1) /\
    le_dec (rd m1 (131072 + 65536 + 80) 8) = 32768 /\ le_dec (rd m1 (131072 + 65536 + 88) 8) = 16384.
Proof.
  eexists. split; [vm_compute; congruence|]. split; [split; [lia|reflexivity]|]. split; [intros i; unfold c_v; destruct (_ =? _); reflexivity|].
  split; [reflexivity|]. split; [lia|]. split; [reflexivity|]. split; vm_compute; reflexivity.
Qed.

(** The stack pointer after a call. *)
Lemma stack_exact e fl fixed rt ts rv base org X V M :
  let c := prep fixed rt ts in
  la_fl fl -> 0 < ty_size rt < 2 ^ 31 -> (16 | base) -> 0 <= base -> base + alloc_size fl c rv < 2 ^ 64 -> 0 <= k_bytes c ->
  0 <= org -> org + 4 * zlen (call_text LA fl) <= 2 ^ 64 -> (forall x, byte_ok (M x)) ->
  X (AR LA 0) = base -> X (AR LA 1) = base + ctx_at c rv -> 0 <= X (FP LA) < 2 ^ 64 -> code_addr LA (X (RA LA)) -> code_addr LA (X (AR LA 2)) ->
  exists X1 V1 M1,
    reach LA e (call_text LA fl) org (St X V org M) (St X1 V1 (X (AR LA 2)) M1) /\ (16 | X1 (SP LA)) /\
    forall X2 V2 M2,
      (forall i, saved LA i = true -> X2 i = X1 i) -> wide V2 ->
      (forall x, X (AR LA 1) + 8 * fl + 64 <= x < X (AR LA 1) + FRAME_LEN fl -> M2 x = M1 x) ->
      exists X3 M3,
        reach LA e (call_text LA fl) org (St X2 V2 (X1 (RA LA)) M2) (St X3 V2 (X (RA LA)) M3) /\
        ((16 | X3 (SP LA)) <-> (16 | k_bytes c)).
Proof.
  intros c FL TR D B0 BB K0 O1 O2 Hb E0 E1 Wfp Wra Wfn.
  assert (RB : 0 <= rval_bytes c rv /\ (16 | rval_bytes c rv)).
  { unfold rval_bytes. destruct rv as [a|]; [split; [lia|apply Z.divide_0_r]|]. change (k_rtype c) with rt.
    destruct (ty_size rt >? 16) eqn:E; [|split; [lia|apply Z.divide_0_r]].
    assert (Q16 : is_pow2 16) by (exists 4; split; [lia|reflexivity]).
    pose proof (round_up_le (ty_size rt) 16 ltac:(lia)). pose proof (round_up_lt (ty_size rt) 16 ltac:(lia)).
    rewrite ffi_align_round by (auto; lia). split; [lia|apply round_up_divide]. }
  pose proof (flcases fl FL) as F0. unfold alloc_size, ctx_size in BB.
  assert (C0 : 0 <= ctx_at c rv) by (unfold ctx_at, arg_bytes; lia).
  assert (F80 : FRAME_LEN fl = 8 * fl + 80) by reflexivity.
  destruct (call_machine LA e fl org X V M (width_fl fl FL) O1 O2 Hb) as (X1 & V1 & M1 & R & _ & _ & Sp & _ & _ & _ & _ & _ & Bk);
    try assumption; try (rewrite E1; lia).
  exists X1, V1, M1. split; [exact R|]. split; [rewrite Sp, E0; exact D|].
  intros X2 V2 M2 H1 H2 H3. destruct (Bk X2 V2 M2 H1 H2 H3) as (X3 & M3 & R3 & _ & _ & Sp3 & _).
  exists X3, M3. split; [exact R3|]. rewrite Sp3, E1. unfold ctx_at, arg_bytes. destruct RB as [_ [r Hr]]. destruct D as [q Hq]. rewrite Hr, Hq.
  split; intros [k Hk]; [exists (k - q - r)|exists (q + k + r)]; lia.
Qed.

Lemma stack_misaligned :
  exists e m X V M X1 V1 M1,
    let ctx := 65536 + ctx_at z_cif None in
    (16 | 65536) /\ zlen z_blk = alloc_size 8 z_cif None /\
    call 8 z_cif None (x_objs z_args) z16 0 65536 z_blk (le_enc 8 (X (FP LA)) ++ le_enc 8 (X (RA LA))) = Ok (m, None, false) /\
    (forall p n d, s_read m p n = Some d -> rd M p (Z.to_nat n) = d) /\
    X (AR LA 0) = 65536 /\ X (AR LA 1) = ctx /\
    reach LA e (call_text LA 8) 16384 (St X V 16384 M) (St X1 V1 (X (AR LA 2)) M1) /\ (16 | X1 (SP LA)) /\
    forall X2 V2 M2,
      (forall i, saved LA i = true -> X2 i = X1 i) -> wide V2 ->
      (forall x, ctx + 8 * 8 + 64 <= x < ctx + FRAME_LEN 8 -> M2 x = M1 x) ->
      exists X3 M3,
        reach LA e (call_text LA 8) 16384 (St X2 V2 (X1 (RA LA)) M2) (St X3 V2 (X (RA LA)) M3) /\ ~ (16 | X3 (SP LA)).
Proof.
  destruct call_sample as (m & M & FL & So & PR & Ob & T & LO & FITS & ZB & GR & B16 & C & O & BM & SM & E0 & E1 & E3 & F & R & A & _).
  destruct (call_code 8 None s_fi z_args None (x_objs z_args) z16 0 65536 z_blk m None 8192 16384 z_x (fun _ => repeat 0 8) M FL So PR Ob T
    ltac:(vm_compute; reflexivity) LO FITS ZB GR ltac:(lia) B16 ltac:(vm_compute; reflexivity) ltac:(discriminate) C ltac:(lia) O BM
    ltac:(intros; eapply SM; eassumption) E0 E1 E3 F R A)
    as (X1 & V1 & M1 & ptrs & R1 & Sp & _ & _ & _ & _ & _ & _ & _ & Bk).
  exists 8192, m, z_x, (fun _ => repeat 0 8), M, X1, V1, M1. cbv zeta.
  split; [exact B16|]. split; [exact ZB|]. split; [exact C|]. split; [exact SM|]. split; [exact E0|]. split; [exact E1|]. split; [exact R1|].
  split; [rewrite Sp; exact B16|]. intros X2 V2 M2 H1 H2 H3. destruct (Bk X2 V2 M2 H1 H2 H3) as (X3 & M3 & R3 & Sp3 & _).
  exists X3, M3. split; [exact R3|]. rewrite Sp3. change (65536 + ctx_at (prep None s_fi z_args) None) with 65592. intros [k K]. lia.
Qed.
