(** RISC-V: samples, witnesses, results through closures. *)
From Coq Require Import ZifyBool ZifyNat.
From Verif Require Import Base BaseFacts Types LayoutSpec NaturalTypes NaturalFacts RvModel RvSpec RvFlat RvCall RvMain RvWhole RvClosure RvRet.
From Verif Require A64Fits.
Local Arguments Z.mul : simpl never.
Local Arguments Z.add : simpl never.

(** ** Copies *)

(** The alignment of every argument passed by reference is at most that of a word. *)
Definition word_aligned (ts : list ftype) (pls : list place) : Prop :=
  Forall2 (fun t pl => match pl with Ref _ => ty_align t <= 8 | _ => True end) ts pls.

Lemma copies_aligned ts : Forall natural ts -> forall pls ptrs lo hi, word_aligned ts pls ->
  copies_ok (fun _ => 8) ts pls ptrs lo hi -> copies_ok ty_align ts pls ptrs lo hi.
Proof.
  induction 1 as [|t r N F IH]; intros pls ptrs lo hi W C; [auto|]. inversion W as [|? pl ? l W1 W2]; subst. cbn [copies_ok] in *.
  destruct pl; try (apply IH; auto). destruct ptrs as [|p ps]; [auto|]. destruct C as (C1 & C2 & C3 & C4).
  split; [lia|]. split; [lia|]. split; [|auto]. destruct (natural_basic _ N) as (_ & PW & _).
  eapply Z.divide_trans; [|exact C3]. apply is_pow2_divide; auto. exists 3; split; [lia|reflexivity].
Qed.

Theorem call_copies_aligned fl fixed rt ts rv objs gr chain base blk frame :
  let c := prep fixed rt ts in
  fl_ok fl -> signature_ok rt ts -> objects_ok ts objs -> A64Fits.total_size ts < 2 ^ 31 -> ty_size rt < 2 ^ 31 ->
  lone_reals_ok fl fixed 0 ts (places fl fixed rt ts) -> word_aligned ts (places fl fixed rt ts) ->
  zlen blk = alloc_size fl c rv -> zlen frame = 16 -> (forall i, zlen (gr i) = 16 /\ bytes_ok (gr i)) ->
  0 <= base -> (16 | base) -> base + alloc_size fl c rv < 2 ^ 64 -> (forall a, rv = Some a -> 0 <= a < 2 ^ 64) ->
  exists m r ptrs, call fl c rv objs gr chain base blk frame = Ok (m, r, in_memory fl rt) /\
    held fl (s_a m) (s_fa m) (s_sp m) (s_read m) ts (places fl fixed rt ts) objs ptrs /\
    copies_ok ty_align ts (places fl fixed rt ts) ptrs (base + stack_used fl fixed rt ts) (base + ctx_at c rv).
Proof.
  intros c FL SO O T TR LO WA ZB ZF GR B0 B16 BB RV.
  destruct (call_ok fl fixed rt ts rv objs gr chain base blk frame FL SO O T TR LO ZB ZF GR B0 B16 BB RV)
    as (m & r & ptrs & E & M1 & M2 & M3 & M4 & M5 & M6 & M7).
  exists m, r, ptrs. split; [exact E|]. split; [exact M5|]. apply copies_aligned; [apply SO|exact WA|].
  eapply copies_le; [exact M6|].
  assert (0 <= rval_bytes (prep fixed rt ts) rv); [|lia].
  unfold rval_bytes. destruct rv; [lia|]. change (k_rtype (prep fixed rt ts)) with rt. destruct (ty_size rt >? 16) eqn:B; [|lia].
  assert (P16 : is_pow2 16) by (exists 4; split; [lia|reflexivity]).
  pose proof (round_up_le (ty_size rt) 16 ltac:(lia)). pose proof (round_up_lt (ty_size rt) 16 ltac:(lia)).
  rewrite ffi_align_round by (auto; lia). lia.
Qed.

Theorem call_in_block :
  forall fl fixed rt ts rv objs gr chain base blk frame,
    let c := prep fixed rt ts in
    fl_ok fl -> signature_ok rt ts -> objects_ok ts objs -> A64Fits.total_size ts < 2 ^ 31 -> ty_size rt < 2 ^ 31 ->
    lone_reals_ok fl fixed 0 ts (places fl fixed rt ts) ->
    zlen blk = alloc_size fl c rv -> zlen frame = 16 -> (forall i, zlen (gr i) = 16 /\ bytes_ok (gr i)) ->
    0 <= base -> (16 | base) -> base + alloc_size fl c rv < 2 ^ 64 -> (forall a, rv = Some a -> 0 <= a < 2 ^ 64) ->
    call fl c rv objs gr chain base blk frame <> UB.
Proof.
  intros fl fixed rt ts rv objs gr chain base blk frame c FL SO O T TR LO ZB ZF GR B0 B16 BB RV H.
  destruct (call_ok fl fixed rt ts rv objs gr chain base blk frame FL SO O T TR LO ZB ZF GR B0 B16 BB RV) as (m & r & ptrs & E & _).
  unfold c in H. rewrite H in E. discriminate E.
Qed.

(** ** Results *)

Theorem result_round_trip fl fixed rt ts d regs gr rd regs2 b : fl_ok fl -> natural rt -> in_memory fl rt = false -> reads_ok rd ->
  zlen d = ty_size rt -> bytes_ok d -> zlen regs = ctx_size fl -> zlen gr = 16 -> bytes_ok gr -> zlen regs2 = ctx_size fl ->
  ty_size rt <= zlen b -> (narrow (ty_code rt) = true -> 8 <= zlen b) ->
  exists r b', load_ret fl (prep fixed rt ts) regs d gr = Ok r /\ returned fl rt (r_a r) (r_fa r) d /\
    finish fl (prep fixed rt ts) rd r regs2 false (Some b) = Ok (Some b') /\ same_fields rt b' d.
Proof.
  intros FL N IM RD ZD OD ZR ZG OG ZR2 ZB NB.
  destruct (load_ret_ok fl fixed rt ts regs d gr FL N IM ZR ZD OD ZG OG) as (r & E & ZA & ZF & RT).
  destruct (finish_ok fl fixed rt ts rd r regs2 b d FL N IM RD ZR2 ZA ZF ZD ZB NB RT) as (b' & E2 & H).
  exists r, b'. split; [exact E|]. split; [exact RT|]. split; [exact E2|]. destruct (narrow (ty_code rt)) eqn:NW; [|exact H].
  assert (W : whole (ty_code rt) = true) by (destruct (ty_code rt); try discriminate NW; reflexivity).
  assert (CS : ty_size rt = csize (ty_code rt)) by (apply (csize_of fl); auto).
  assert (C8 : 0 < csize (ty_code rt) <= 8) by (destruct (ty_code rt); cbn; lia).
  apply prefix_fields; auto. replace 0 with (0 + 0) by reflexivity. rewrite (get_range_sub b' 0 8 _ 0 (zlen d) H) by lia.
  rewrite get_range_some by (rewrite ?le_enc_zlen; lia). cbn [Z.to_nat skipn]. f_equal.
  unfold zlen. rewrite Nat2Z.id. apply extended_low; auto. unfold zlen in ZD. lia.
Qed.

Theorem narrow_results fl fixed rt ts rd r regs b d : fl_ok fl -> natural rt -> reads_ok rd -> narrow (ty_code rt) = true ->
  zlen regs = ctx_size fl -> zlen (r_a r) = 16 -> zlen (r_fa r) = 2 * fl -> zlen d = ty_size rt -> bytes_ok d -> 8 <= zlen b ->
  (ty_code rt = T_UINT32 -> le_dec d < 2 ^ 31) -> returned fl rt (r_a r) (r_fa r) d ->
  exists b', finish fl (prep fixed rt ts) rd r regs (in_memory fl rt) (Some b) = Ok (Some b') /\
    get_range b' 0 8 = Some (le_enc 8 (widened (ty_code rt) d)).
Proof.
  intros FL N RD NW ZR ZA ZF ZD OD ZB U RT.
  assert (W : whole (ty_code rt) = true) by (destruct (ty_code rt); try discriminate NW; reflexivity).
  assert (CS : ty_size rt = csize (ty_code rt)) by (apply (csize_of fl); auto).
  assert (C8 : 0 < csize (ty_code rt) <= 8) by (destruct (ty_code rt); cbn; lia).
  assert (IM : in_memory fl rt = false).
  { rewrite <- (ref_is_memory fl rt FL (or_intror N)). unfold passed_by_ref. destruct (elements_of fl false 0 0 rt); [reflexivity|lia]. }
  rewrite IM. destruct (finish_ok fl fixed rt ts rd r regs b d FL N IM RD ZR ZA ZF ZD ltac:(lia) ltac:(auto) RT) as (b' & E & H).
  rewrite NW in H. exists b'. split; [exact E|]. rewrite H. do 2 f_equal. apply extended_widened; auto. lia.
Qed.

(** A result of no type. *)
Theorem void_result fl fixed ts rd r regs b : fl_ok fl -> zlen regs = ctx_size fl -> zlen (r_a r) = 16 -> zlen (r_fa r) = 2 * fl -> 1 <= zlen b ->
  exists b', finish fl (prep fixed ty_void ts) rd r regs (in_memory fl ty_void) (Some b) = Ok (Some b') /\ zlen b' = zlen b /\
    forall o n, 1 <= o -> 0 <= n -> get_range b' o n = get_range b o n.
Proof.
  intros FL ZR ZA ZF ZB. pose proof (flcases fl FL) as F0. unfold ctx_size in ZR.
  rewrite <- (ref_is_memory fl ty_void FL (or_introl eq_refl)).
  replace (passed_by_ref fl 0 0 ty_void false) with false by (destruct FL as [-> | [-> | ->]]; reflexivity).
  unfold finish. change (k_rtype (prep fixed ty_void ts)) with ty_void.
  destruct (set_range_ok regs 0 (r_fa r)) as (x & X & ZX); [lia|lia|]. rewrite X. cbn [of_option bind].
  destruct (set_range_ok x (8 * fl) (r_a r)) as (x1 & X1 & ZX1); [lia|lia|]. rewrite X1. cbn [of_option bind].
  change (is_int_code (ty_code ty_void) && (ty_size ty_void <? 8)) with false. cbv iota.
  unfold unmarshal. replace (elements_of fl false (u_int (USt 0 0 0)) (u_flt (USt 0 0 0)) ty_void) with (@None (tcode * option (Z * tcode)))
    by (destruct FL as [-> | [-> | ->]]; reflexivity).
  replace (is_float_code fl (ty_code ty_void)) with false by (destruct FL as [-> | [-> | ->]]; reflexivity). rewrite andb_false_r.
  change (ty_size ty_void) with 1. change (1 >? 16) with false. change (1 >? 0) with true. change (1 >? 8) with false. cbv iota.
  change (is_int_code (ty_code ty_void) || tcode_eqb (ty_code ty_void) T_POINTER) with false. cbv iota.
  change (ualign_pair false ty_void (USt 0 0 0)) with (USt 0 0 0).
  cbn [unmarshal_atom]. unfold take_word. cbn [u_int u_flt u_stk]. change (0 =? NARGREG) with false. cbv iota.
  pose proof (get_set_same _ _ _ _ X1) as G. rewrite ZA in G. replace (8 * fl + 8 * 0) with (8 * fl + 0) by lia.
  rewrite (get_range_sub _ _ _ _ 0 8 G) by lia.
  destruct (get_range (r_a r) 0 8) as [w|] eqn:W; [|rewrite get_range_some in W by lia; discriminate].
  cbn [of_option bind]. rewrite app_nil_r.
  destruct (get_range (le_enc 8 (le_dec w)) 0 1) as [y|] eqn:Y; [|rewrite get_range_some in Y by (rewrite ?le_enc_zlen; lia); discriminate].
  assert (ZY : zlen y = 1) by (apply get_range_inv in Y; lia). cbn [of_option bind].
  destruct (set_range_ok b 0 y) as (b' & B & ZB'); [lia|lia|]. rewrite B. cbn [of_option bind].
  exists b'. split; [reflexivity|]. split; [lia|]. intros o n O N. rewrite (get_set_disjoint _ _ _ _ o n B) by lia. reflexivity.
Qed.

(** Space a handler may write its result to. *)
Definition result_room (t : ftype) : Z := if narrow (ty_code t) then 8 else ty_size t.

(** ** Samples *)

Definition s_big : ftype := c_struct_of [ty_sint64; ty_sint64; ty_sint64].
Definition s_quad : ftype := c_struct_of [ty_longdouble; ty_sint64].
Definition s_fi : ftype := c_struct_of [ty_float; ty_sint32].
Definition s_id : ftype := c_struct_of [c_struct_of [ty_uint8]; ty_double].
Definition s_dd : ftype := c_struct_of [ty_double; c_struct_of [ty_double]].
Definition s_d : ftype := c_struct_of [c_struct_of [ty_double]].
Definition s_mid : ftype := c_struct_of [ty_sint32; ty_sint32; ty_sint8].
Definition x_args : list ftype :=
  [ty_sint32; s_fi; s_big; ty_longdouble; s_dd; s_d; ty_uint8; s_id; ty_sint64; s_mid; ty_longdouble; ty_uint32].
Definition x_objs (ts : list ftype) : list (list Z) :=
  map (fun t => map (fun i => Z.of_nat i + 1) (seq 0 (Z.to_nat (ty_size t)))) ts.

Lemma x_args_natural : Forall natural x_args.
Proof. unfold x_args, s_big, s_fi, s_id, s_dd, s_d, s_mid. natural_tac. Qed.
Ltac no_complex_tac := unfold no_complex; repeat (apply Forall_cons || apply Forall_nil); cbn; discriminate.
Lemma x_signature : signature_ok s_big x_args.
Proof.
  split; [apply x_args_natural|]. split; [unfold x_args; repeat (apply Forall_cons || apply Forall_nil); unfold no_complex; vm_compute fields; repeat constructor; discriminate|].
  right. split; [unfold s_big; natural_tac|]. unfold no_complex. vm_compute fields. repeat constructor; discriminate.
Qed.
Lemma x_objects ts : Forall natural ts -> Forall (fun t => ty_size t <= 200) ts -> objects_ok ts (x_objs ts).
Proof.
  induction 1 as [|t r N F IH]; intros S; [constructor|]. inversion S as [|? ? ST SR]; subst. constructor; [|apply IH; auto].
  pose proof (natural_basic _ N) as (SP & _). split.
  - unfold zlen. rewrite map_length, seq_length. lia.
  - apply Forall_forall. intros z Z1. apply in_map_iff in Z1 as (i & <- & I). apply in_seq in I. unfold byte_ok. lia.
Qed.
Lemma x_args_objects : objects_ok x_args (x_objs x_args).
Proof. apply x_objects; [apply x_args_natural|]. unfold x_args. repeat (apply Forall_cons || apply Forall_nil); vm_compute; discriminate. Qed.

Lemma x_places : places 8 None s_big x_args =
  [Words [XR 1]; InFX 0 2 4 4 4; Ref (XR 3); Words [XR 4; XR 5]; InFF 1 8 8 8; InF 3 8; Words [XR 6]; InXF 7 4 1 8 8;
   Words [ST 0]; Words [ST 8; ST 16]; Words [ST 32; ST 40]; Words [ST 48]].
Proof. vm_compute. reflexivity. Qed.
Lemma x_places_variadic : places 8 (Some 3) s_big x_args =
  [Words [XR 1]; InFX 0 2 4 4 4; Ref (XR 3); Words [XR 4; XR 5]; Words [XR 6; XR 7]; Words [ST 0]; Words [ST 8]; Words [ST 16; ST 24];
   Words [ST 32]; Words [ST 40; ST 48]; Words [ST 64; ST 72]; Words [ST 80]].
Proof. vm_compute. reflexivity. Qed.
Lemma x_lone fixed : fixed = None \/ fixed = Some 3 -> lone_reals_ok 8 fixed 0 x_args (places 8 fixed s_big x_args).
Proof.
  intros [-> | ->]; [rewrite x_places|rewrite x_places_variadic]; cbn [lone_reals_ok x_args]; repeat split; intros V S n H;
    try discriminate V; vm_compute in S; try discriminate S; vm_compute in H; try discriminate H; injection H as <-; eauto.
Qed.

(** ** Witnesses *)

Definition list_eqb (a b : list Z) : bool := if list_eq_dec Z.eq_dec a b then true else false.
Lemma list_eqb_eq a b : list_eqb a b = true <-> a = b.
Proof. unfold list_eqb. destruct (list_eq_dec Z.eq_dec a b); split; auto; discriminate. Qed.

Definition nine : list ftype := ty_sint32 :: repeat s_d 9.
Lemma nine_ok : signature_ok ty_void nine.
Proof.
  split; [unfold nine, s_d; cbn [repeat]; natural_tac|]. split; [|left; reflexivity].
  unfold nine; cbn [repeat]. repeat (apply Forall_cons || apply Forall_nil); unfold no_complex; vm_compute fields; repeat constructor; discriminate.
Qed.
Definition nine_objs : list (list Z) := [9; 0; 0; 0] :: x_objs (repeat s_d 9).
Lemma nine_objects : objects_ok nine nine_objs.
Proof.
  constructor; [split; [reflexivity|repeat constructor; unfold byte_ok; lia]|]. destruct nine_ok as (N & _). inversion N; subst.
  apply x_objects; [auto|]. cbn [repeat]. repeat (apply Forall_cons || apply Forall_nil); vm_compute; discriminate.
Qed.

Definition z16 : Z -> list Z := fun _ => repeat 0 16.
Definition nine_cif : rcif := prep None ty_void nine.
Definition nine_blk : list Z := repeat 0 (Z.to_nat (alloc_size 8 nine_cif None)).
Definition nine_lost : bool :=
  match call 8 nine_cif None nine_objs z16 0 65536 nine_blk (repeat 0 16) with
  | Ok (m, _, rf) =>
    negb rf &&
    match closure 8 nine_cif m (repeat 0 16) z16 (repeat 0 16) with
    | Ok (UData b :: _, _, _) =>
      match get_range b 0 4 with Some x => negb (list_eqb x [9; 0; 0; 0]) | None => false end &&
      match get_range (s_a m) 0 8 with Some x => negb (list_eqb x [9; 0; 0; 0; 0; 0; 0; 0]) | None => false end
    | _ => false
    end
  | _ => false
  end.
Lemma nine_lost_true : nine_lost = true.
Proof. vm_compute. reflexivity. Qed.

Lemma nine_run : exists m r l regs q b x y,
  call 8 nine_cif None nine_objs z16 0 65536 nine_blk (repeat 0 16) = Ok (m, r, false) /\
  closure 8 nine_cif m (repeat 0 16) z16 (repeat 0 16) = Ok (UData b :: l, regs, q) /\
  get_range b 0 4 = Some x /\ x <> [9; 0; 0; 0] /\ get_range (s_a m) 0 8 = Some y /\ y <> [9; 0; 0; 0; 0; 0; 0; 0].
Proof.
  pose proof nine_lost_true as W. unfold nine_lost in W.
  destruct (call 8 nine_cif None nine_objs z16 0 65536 nine_blk (repeat 0 16)) as [[[m r] rf]| |] eqn:C; try discriminate W.
  apply Bool.andb_true_iff in W as [W0 W].
  destruct (closure 8 nine_cif m (repeat 0 16) z16 (repeat 0 16)) as [[[l regs] q]| |] eqn:CL; try discriminate W.
  destruct l as [|[b|p] l]; try discriminate W.
  apply Bool.andb_true_iff in W as [W1 W2].
  destruct (get_range b 0 4) as [x|] eqn:X; [|discriminate W1]. destruct (get_range (s_a m) 0 8) as [y|] eqn:Y; [|discriminate W2].
  apply Bool.negb_true_iff in W0. subst rf. exists m, r, l, regs, q, b, x, y. split; [reflexivity|].
  split; [exact CL|]. split; [exact X|]. split; [intros ->; apply Bool.negb_true_iff in W1; assert (T := proj2 (list_eqb_eq [9;0;0;0] [9;0;0;0]) eq_refl); congruence|].
  split; [exact Y|]. intros ->. apply Bool.negb_true_iff in W2. assert (T := proj2 (list_eqb_eq [9;0;0;0;0;0;0;0] [9;0;0;0;0;0;0;0]) eq_refl). congruence.
Qed.

Lemma nine_objs_head : exists r, nine_objs = [9; 0; 0; 0] :: r.
Proof. eexists. vm_compute. reflexivity. Qed.

Theorem round_trip_refuted : exists ts objs gr base blk frame frame2 sto slot m r,
  signature_ok ty_void ts /\ objects_ok ts objs /\ A64Fits.total_size ts < 2 ^ 31 /\
  zlen blk = alloc_size 8 (prep None ty_void ts) None /\ zlen frame = 16 /\ (forall i, zlen (gr i) = 16 /\ bytes_ok (gr i)) /\
  0 <= base /\ (16 | base) /\ base + alloc_size 8 (prep None ty_void ts) None < 2 ^ 64 /\
  (forall i, zlen (sto i) = 16) /\ zlen slot = 16 /\
  call 8 (prep None ty_void ts) None objs gr 0 base blk frame = Ok (m, r, false) /\
  (forall l regs q, closure 8 (prep None ty_void ts) m frame2 sto slot = Ok (l, regs, q) -> ~ received (s_read m) ts l objs) /\
  (forall ptrs, ~ held 8 (s_a m) (s_fa m) (s_sp m) (s_read m) ts (places 8 None ty_void ts) objs ptrs).
Proof.
  destruct nine_run as (m & r & l & regs & q & b & x & y & C & CL & X & NX & Y & NY).
  exists nine, nine_objs, z16, 65536, nine_blk, (repeat 0 16), (repeat 0 16), z16, (repeat 0 16), m, r.
  split; [exact nine_ok|]. split; [exact nine_objects|]. split; [vm_compute; reflexivity|]. split; [vm_compute; reflexivity|]. split; [reflexivity|].
  split. { intros i. split; [reflexivity|]. unfold z16. apply bytes_ok_repeat0. }
  split; [lia|]. split; [exists 4096; reflexivity|]. split; [vm_compute; reflexivity|]. split; [intros; reflexivity|]. split; [reflexivity|].
  split; [exact C|]. destruct nine_objs_head as (os & OH). split.
  - intros l' regs' q' CL'. change (prep None ty_void nine) with nine_cif in CL'. rewrite CL in CL'. injection CL' as <- <- <-.
    rewrite OH. unfold nine. cbn [received]. intros (R & _). cbn [received1] in R. unfold same_fields in R.
    change (fields ty_sint32 0) with [(T_SINT32, 0, 4)] in R. pose proof (Forall_inv R) as (d & D1 & D2). cbv beta iota in D1.
    rewrite X in D1. change (get_range [9; 0; 0; 0] 0 4) with (Some [9; 0; 0; 0]) in D2. congruence.
  - intros ptrs. rewrite OH. change (places 8 None ty_void nine) with (Words [XR 0] :: tl (places 8 None ty_void nine)).
    unfold nine at 1. cbn [held at_place words_of word_of]. intros ((w & W & _ & _ & E) & _). change (8 * 0) with 0 in W. rewrite Y in W.
    rewrite app_nil_r in W. specialize (E eq_refl). apply NY. transitivity w; [congruence|]. rewrite E. vm_compute. reflexivity.
Qed.

(** Nineteen structs of one double. *)
Definition many : list ftype := repeat s_d 19.
Theorem block_refuted : exists ts objs gr base blk frame,
  signature_ok ty_void ts /\ objects_ok ts objs /\ A64Fits.total_size ts < 2 ^ 31 /\
  zlen blk = alloc_size 8 (prep None ty_void ts) None /\ zlen frame = 16 /\ (forall i, zlen (gr i) = 16 /\ bytes_ok (gr i)) /\
  0 <= base /\ (16 | base) /\ base + alloc_size 8 (prep None ty_void ts) None < 2 ^ 64 /\
  call 8 (prep None ty_void ts) None objs gr 0 base blk frame = UB.
Proof.
  exists many, (x_objs many), z16, 65536, (repeat 0 (Z.to_nat (alloc_size 8 (prep None ty_void many) None))), (repeat 0 16).
  assert (N : Forall natural many) by (unfold many, s_d; cbn [repeat]; natural_tac).
  split. { split; [exact N|]. split; [|left; reflexivity]. apply Forall_forall. intros t H. apply repeat_spec in H. subst.
    unfold no_complex; vm_compute fields; repeat constructor; discriminate. }
  split. { apply x_objects; [exact N|]. apply Forall_forall. intros t H. apply repeat_spec in H. subst. vm_compute. discriminate. }
  split; [vm_compute; reflexivity|]. split; [vm_compute; reflexivity|]. split; [reflexivity|].
  split. { intros i. split; [reflexivity|]. unfold z16. apply bytes_ok_repeat0. }
  split; [lia|]. split; [exists 4096; reflexivity|]. split; [vm_compute; reflexivity|]. vm_compute. reflexivity.
Qed.

(** A copy at a multiple of eight only. *)
Definition two_big : list ftype := [s_big; s_quad].
Definition two_blk : list Z := repeat 0 (Z.to_nat (alloc_size 8 (prep None ty_void two_big) None)).
Lemma two_run : exists m r,
  call 8 (prep None ty_void two_big) None (x_objs two_big) z16 0 65536 two_blk (repeat 0 16) = Ok (m, r, false) /\
  get_range (s_a m) 8 8 = Some (le_enc 8 65560).
Proof.
  assert (W : match call 8 (prep None ty_void two_big) None (x_objs two_big) z16 0 65536 two_blk (repeat 0 16) with
              | Ok (m, _, rf) => negb rf && match get_range (s_a m) 8 8 with Some x => list_eqb x (le_enc 8 65560) | None => false end
              | _ => false end = true) by (vm_compute; reflexivity).
  destruct (call _ _ _ _ _ _ _ _ _) as [[[m r] rf]| |]; try discriminate W. apply Bool.andb_true_iff in W as (W1 & W2).
  exists m, r. apply Bool.negb_true_iff in W1. subst rf. split; [reflexivity|]. destruct (get_range (s_a m) 8 8) as [x|]; [|discriminate].
  apply list_eqb_eq in W2. congruence.
Qed.

Theorem copies_refuted : exists ts objs gr base blk frame m r,
  signature_ok ty_void ts /\ objects_ok ts objs /\ A64Fits.total_size ts < 2 ^ 31 /\
  lone_reals_ok 8 None 0 ts (places 8 None ty_void ts) /\
  zlen blk = alloc_size 8 (prep None ty_void ts) None /\ zlen frame = 16 /\ (forall i, zlen (gr i) = 16 /\ bytes_ok (gr i)) /\
  0 <= base /\ (16 | base) /\ base + alloc_size 8 (prep None ty_void ts) None < 2 ^ 64 /\
  call 8 (prep None ty_void ts) None objs gr 0 base blk frame = Ok (m, r, false) /\
  forall ptrs lo hi, Forall (fun p => 0 <= p < 2 ^ 64) ptrs ->
    held 8 (s_a m) (s_fa m) (s_sp m) (s_read m) ts (places 8 None ty_void ts) objs ptrs ->
    ~ copies_ok ty_align ts (places 8 None ty_void ts) ptrs lo hi.
Proof.
  destruct two_run as (m & r & C & X).
  exists two_big, (x_objs two_big), z16, 65536, two_blk, (repeat 0 16), m, r.
  assert (N : Forall natural two_big) by (unfold two_big, s_big, s_quad; natural_tac).
  split. { split; [exact N|]. split; [|left; reflexivity]. unfold two_big. repeat (apply Forall_cons || apply Forall_nil); unfold no_complex; vm_compute fields; repeat constructor; discriminate. }
  split. { apply x_objects; [exact N|]. unfold two_big. repeat (apply Forall_cons || apply Forall_nil); vm_compute; discriminate. }
  split; [vm_compute; reflexivity|].
  split. { unfold two_big. cbn [lone_reals_ok]. change (places 8 None ty_void [s_big; s_quad]) with [Ref (XR 0); Ref (XR 1)].
    cbn [lone_reals_ok]. repeat split; intros _ _ n H; vm_compute in H; discriminate H. }
  split; [vm_compute; reflexivity|]. split; [reflexivity|].
  split. { intros i. split; [reflexivity|]. unfold z16. apply bytes_ok_repeat0. }
  split; [lia|]. split; [exists 4096; reflexivity|]. split; [vm_compute; reflexivity|]. split; [exact C|].
  intros ptrs lo hi PT. change (places 8 None ty_void two_big) with [Ref (XR 0); Ref (XR 1)]. unfold two_big at 1 3. cbn [held copies_ok].
  destruct (x_objs two_big) as [|o1 os]; [intros []|]. destruct ptrs as [|p1 ps]; [intros []|]. intros (_ & _ & H) (_ & _ & _ & D).
  destruct os as [|o2 os]; [destruct H|]. destruct ps as [|p2 ps]; [destruct H|]. destruct H as (W & _). destruct D as (_ & _ & D & _).
  cbn [word_of] in W. change (8 * 1) with 8 in W. rewrite X in W.
  inversion PT as [|? ? P1 PT1]; subst. inversion PT1 as [|? ? P2 PT2]; subst.
  assert (E : 65560 = p2).
  { apply (f_equal (fun o => match o with Some y => le_dec y | None => 0 end)) in W. rewrite !le_dec_enc in W. change (2 ^ (8 * Z.of_nat 8)) with (2 ^ 64) in W.
    rewrite !Z.mod_small in W by lia. exact W. }
  subst p2. change (ty_align s_quad) with 16 in D. apply Z.mod_divide in D; [|lia]. vm_compute in D. discriminate.
Qed.

(** An unsigned int with its top bit set. *)
Theorem narrow_refuted : exists d r regs b b',
  zlen d = 4 /\ bytes_ok d /\ zlen regs = ctx_size 8 /\ zlen (r_a r) = 16 /\ zlen (r_fa r) = 16 /\ zlen b = 8 /\
  returned 8 ty_uint32 (r_a r) (r_fa r) d /\
  finish 8 (prep None ty_uint32 []) (fun _ _ => None) r regs (in_memory 8 ty_uint32) (Some b) = Ok (Some b') /\
  get_range b' 0 8 <> Some (le_enc 8 (widened T_UINT32 d)).
Proof.
  exists [0; 0; 0; 128], (RRet ([0; 0; 0; 128; 255; 255; 255; 255] ++ repeat 0 8) (repeat 0 16)), (repeat 0 144), (repeat 0 8), [0; 0; 0; 128; 255; 255; 255; 255].
  split; [reflexivity|]. split; [repeat constructor; unfold byte_ok; lia|]. do 4 (split; [reflexivity|]).
  split. { unfold returned. change (place_arg 8 false ty_uint32 0 0 0) with (Words [XR 0], 1, 0, 0). cbv beta iota zeta. cbn [at_place words_of word_of].
    exists [0; 0; 0; 128; 255; 255; 255; 255]. split; [reflexivity|]. split; [repeat constructor; unfold byte_ok; lia|]. split; [reflexivity|].
    intros _. vm_compute. reflexivity. }
  split; [vm_compute; reflexivity|]. vm_compute. discriminate.
Qed.

(** Memory given for a result of type void. *)
Theorem void_refuted : exists r regs b b',
  zlen regs = ctx_size 8 /\ zlen (r_a r) = 16 /\ zlen (r_fa r) = 16 /\ zlen b = 8 /\
  finish 8 (prep None ty_void []) (fun _ _ => None) r regs (in_memory 8 ty_void) (Some b) = Ok (Some b') /\ b' <> b.
Proof.
  exists (RRet (7 :: repeat 0 15) (repeat 0 16)), (repeat 0 144), (repeat 0 8), (7 :: repeat 0 7).
  do 4 (split; [reflexivity|]). split; [vm_compute; reflexivity|]. vm_compute. discriminate.
Qed.

(** The place for a handler's result. *)
Theorem slot_size fl fixed rt ts m frame sto slot l regs n :
  closure fl (prep fixed rt ts) m frame sto slot = Ok (l, regs, RSlot n) -> narrow (ty_code rt) = false -> n = result_room rt.
Proof.
  unfold closure, result_room. change (k_rtype (prep fixed rt ts)) with rt. intros H NW. rewrite NW.
  apply bind_ok in H as ((q & u1) & H1 & H). apply bind_ok in H as ((l' & u2) & _ & H). injection H as _ _ ->.
  destruct (passed_by_ref fl 0 0 rt false).
  - apply bind_ok in H1 as ((v & u3) & _ & H1). destruct v; [|discriminate]. apply bind_ok in H1 as (x & _ & H1). discriminate.
  - injection H1 as <- _. reflexivity.
Qed.

Theorem slot_refuted : exists m frame sto slot l regs n,
  zlen (s_a m) = 64 /\ zlen (s_fa m) = 64 /\ zlen frame = 16 /\ (forall i, zlen (sto i) = 16) /\ zlen slot = 16 /\
  closure 8 (prep None ty_sint8 []) m frame sto slot = Ok (l, regs, RSlot n) /\ n < result_room ty_sint8.
Proof.
  exists (RState (repeat 0 64) (repeat 0 64) 0 65536 (fun _ _ => None)), (repeat 0 16), z16, (repeat 0 16), [], (repeat 0 144), 1.
  do 3 (split; [reflexivity|]). split; [reflexivity|]. split; [reflexivity|]. split; [vm_compute; reflexivity|reflexivity].
Qed.

(** A struct of 4 GiB: [bytes] of the cif has 32 bits. *)
Fixpoint doubled (n : nat) (t : ftype) : ftype := match n with O => t | S k => doubled k (c_struct_of [t; t]) end.
Lemma doubled_natural n : forall t, natural t -> natural (doubled n t).
Proof.
  induction n as [|n IH]; intros t N; [exact N|]. cbn [doubled]. apply IH. apply c_struct_natural; [discriminate|].
  repeat (apply Forall_cons || apply Forall_nil); auto.
Qed.
Theorem areas_refuted : exists ts, Forall natural ts /\ struct_bytes (prep None ty_void ts) < copy_space ts (places 8 None ty_void ts).
Proof.
  exists [doubled 29 ty_sint64]. split; [constructor; [apply doubled_natural, natural_scalar; cbn; tauto|constructor]|].
  assert (P : places 8 None ty_void [doubled 29 ty_sint64] = [Ref (XR 0)]) by (lazy; reflexivity). rewrite P.
  assert (S : ty_size (doubled 29 ty_sint64) = 2 ^ 32) by (vm_compute; reflexivity).
  cbn [copy_space]. rewrite S. vm_compute. reflexivity.
Qed.
