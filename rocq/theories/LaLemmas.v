(** LoongArch: samples, witnesses, results through closures. *)
From Coq Require Import ZifyBool ZifyNat.
From Verif Require Import Base BaseFacts Types LayoutSpec NaturalTypes NaturalFacts RvSpec RvFlat RvMain RvRet RvLemmas
  LaModel LaSpec LaFlat LaCall LaMain LaWhole LaClosure LaRet.
From Verif Require A64Fits.
Local Arguments Z.mul : simpl never.
Local Arguments Z.add : simpl never.

Theorem call_in_block :
  forall fl fixed rt ts rv objs gr chain base blk frame,
    let c := prep fixed rt ts in
    la_fl fl -> signature_ok rt ts -> promoted fixed 0 ts -> objects_ok ts objs -> A64Fits.total_size ts < 2 ^ 31 -> ty_size rt < 2 ^ 31 ->
    lone_reals_ok fl fixed 0 ts (places fl fixed rt ts) -> area_enough fl fixed rt ts ->
    zlen blk = alloc_size fl c rv -> zlen frame = 16 -> (forall i, zlen (gr i) = 16 /\ bytes_ok (gr i)) ->
    0 <= base -> (16 | base) -> base + alloc_size fl c rv < 2 ^ 64 -> (forall a, rv = Some a -> 0 <= a < 2 ^ 64) ->
    call fl c rv objs gr chain base blk frame <> UB.
Proof.
  intros fl fixed rt ts rv objs gr chain base blk frame c FL SO PR O T TR LO AE ZB ZF GR B0 B16 BB RV H.
  destruct (call_ok fl fixed rt ts rv objs gr chain base blk frame FL SO PR O T TR LO (area_fits _ _ _ _ SO T AE) ZB ZF GR B0 B16 BB RV) as (m & r & ptrs & E & _).
  unfold c in H. rewrite H in E. discriminate E.
Qed.

(** ** Results *)

Theorem result_round_trip fl fixed rt ts d regs gr rd regs2 b : la_fl fl -> natural rt -> in_memory fl rt = false -> reads_ok rd ->
  zlen d = ty_size rt -> bytes_ok d -> zlen regs = ctx_size fl -> zlen gr = 16 -> bytes_ok gr -> zlen regs2 = ctx_size fl ->
  ubuf_ok fl rt b ->
  exists r b', load_ret fl (prep fixed rt ts) regs d gr = Ok r /\ returned fl rt (r_a r) (r_fa r) d /\
    finish fl (prep fixed rt ts) rd r regs2 false (Some b) = Ok (Some b') /\ same_fields rt b' d.
Proof.
  intros FL N IM RD ZD OD ZR ZG OG ZR2 ZB.
  destruct (load_ret_ok fl fixed rt ts regs d gr FL N IM ZR ZD OD ZG OG) as (r & E & ZA & ZF & RT).
  destruct (finish_ok fl fixed rt ts rd r regs2 b d FL N IM RD ZR2 ZA ZF ZD ZB RT) as (b' & E2 & H & _).
  exists r, b'. auto.
Qed.

Theorem narrow_results fl fixed rt ts rd r regs b d : la_fl fl -> natural rt -> reads_ok rd -> narrow (ty_code rt) = true ->
  zlen regs = ctx_size fl -> zlen (r_a r) = 16 -> zlen (r_fa r) = 2 * fl -> zlen d = ty_size rt -> bytes_ok d -> 8 <= zlen b ->
  (ty_code rt = T_UINT32 -> le_dec d < 2 ^ 31) -> returned fl rt (r_a r) (r_fa r) d ->
  exists b', finish fl (prep fixed rt ts) rd r regs (in_memory fl rt) (Some b) = Ok (Some b') /\
    get_range b' 0 8 = Some (le_enc 8 (widened (ty_code rt) d)).
Proof.
  intros FL N RD NW ZR ZA ZF ZD OD ZB U RT.
  assert (W : whole (ty_code rt) = true) by (destruct (ty_code rt); try discriminate NW; reflexivity).
  assert (CS : ty_size rt = csize (ty_code rt)) by (apply (csize_of fl); auto).
  assert (C8 : 0 < csize (ty_code rt) <= 8) by (destruct (ty_code rt); cbn; lia).
  assert (IM : in_memory fl rt = false).
  { rewrite <- (ref_is_memory fl rt FL (or_intror N)). unfold passed_by_ref. destruct (elements_of fl false 0 0 rt); [reflexivity|lia]. }
  assert (UB8 : ubuf_ok fl rt b).
  { intros _. split; [lia|]. split; [auto|]. assert (NS : ty_code rt <> T_STRUCT) by (intros E; rewrite E in W; discriminate).
    destruct (leaf_not_struct rt NS) as (_ & FS). unfold shape_of. rewrite FS. destruct (real fl (ty_code rt)); exact Logic.I. }
  rewrite IM. destruct (finish_ok fl fixed rt ts rd r regs b d FL N IM RD ZR ZA ZF ZD UB8 RT) as (b' & E & _ & H).
  specialize (H W). exists b'. split; [exact E|]. rewrite H. do 2 f_equal. apply extended_widened; auto. lia.
Qed.

(** A result of no type. *)
Theorem void_result fl fixed ts rd r regs b : la_fl fl -> zlen regs = ctx_size fl -> zlen (r_a r) = 16 -> zlen (r_fa r) = 2 * fl -> 1 <= zlen b ->
  exists b', finish fl (prep fixed ty_void ts) rd r regs (in_memory fl ty_void) (Some b) = Ok (Some b') /\ zlen b' = zlen b /\
    forall o n, 1 <= o -> 0 <= n -> get_range b' o n = get_range b o n.
Proof.
  intros FL ZR ZA ZF ZB. pose proof (flcases fl FL) as F0. unfold ctx_size in ZR.
  rewrite <- (ref_is_memory fl ty_void FL (or_introl eq_refl)).
  replace (passed_by_ref fl 0 0 ty_void false) with false by (destruct FL as [-> | ->]; reflexivity).
  unfold finish. change (k_rtype (prep fixed ty_void ts)) with ty_void.
  destruct (set_range_ok regs 0 (r_fa r)) as (x & X & ZX); [lia|lia|]. rewrite X. cbn [of_option bind].
  destruct (set_range_ok x (8 * fl) (r_a r)) as (x1 & X1 & ZX1); [lia|lia|]. rewrite X1. cbn [of_option bind].
  unfold unmarshal. replace (elements_of fl false (u_int (USt 0 0 0)) (u_flt (USt 0 0 0)) ty_void) with (@None (tcode * option (Z * tcode)))
    by (destruct FL as [-> | ->]; reflexivity).
  replace (is_float_code fl (ty_code ty_void)) with false by (destruct FL as [-> | ->]; reflexivity). rewrite andb_false_r.
  replace (var_float fl false ty_void) with false by (unfold var_float; rewrite andb_false_r; reflexivity).
  change (ty_size ty_void) with 1. change (1 >? 16) with false. change (1 >? 0) with true. change (1 >? 8) with false. cbv iota.
  change (is_int_code (ty_code ty_void) || tcode_eqb (ty_code ty_void) T_POINTER) with false. cbv iota.
  change (ualign_pair false ty_void (USt 0 0 0)) with (USt 0 0 0).
  cbn [unmarshal_atom]. unfold take_word. cbn [u_int u_flt u_stk]. change (0 =? NARGREG) with false. cbv iota.
  pose proof (get_set_same _ _ _ _ X1) as G. rewrite ZA in G. replace (8 * fl + 8 * 0) with (8 * fl + 0) by lia.
  rewrite (get_range_sub _ _ _ _ 0 8 G) by lia.
  destruct (get_range (r_a r) 0 8) as [w|] eqn:W; [|rewrite get_range_some in W by lia; discriminate].
  cbn [of_option bind]. rewrite app_nil_r.
  destruct (get_range (le_enc 8 (le_dec w)) 0 1) as [y|] eqn:Y; [|rewrite get_range_some in Y by (rewrite ?le_enc_zlen; lia); discriminate].
  assert (ZY : zlen y = 1) by (apply get_range_inv in Y; lia). cbn [of_option bind].
  destruct (set_range_ok b 0 y) as (b' & B & ZB'); [lia|lia|]. rewrite B. cbn [of_option bind].
  exists b'. split; [reflexivity|]. split; [lia|]. intros o n O N. rewrite (get_set_disjoint _ _ _ _ o n B) by lia. reflexivity.
Qed.

(** The place for a handler's result. *)
Theorem slot_size fl fixed rt ts m frame sto slot l regs n :
  closure fl (prep fixed rt ts) m frame sto slot = Ok (l, regs, RSlot n) -> narrow (ty_code rt) = false -> n = result_room rt.
Proof.
  unfold closure, result_room. change (k_rtype (prep fixed rt ts)) with rt. intros H NW. rewrite NW.
  apply bind_ok in H as ((q & u1) & H1 & H). apply bind_ok in H as ((l' & u2) & _ & H). injection H as _ _ ->.
  destruct (passed_by_ref fl 0 0 rt false).
  - apply bind_ok in H1 as ((v & u3) & _ & H1). destruct v; [|discriminate]. apply bind_ok in H1 as (x & _ & H1). discriminate.
  - injection H1 as <- _. reflexivity.
Qed.

(** ** Samples *)

Lemma x_promoted : promoted None 0 x_args /\ promoted (Some 3) 0 x_args.
Proof. unfold x_args. cbn [promoted]. repeat split; intros _; vm_compute; discriminate. Qed.
Lemma x_fits fixed : fixed = None \/ fixed = Some 3 ->
  stack_used 8 fixed s_big x_args <= copies_end x_args (places 8 fixed s_big x_args) (arg_bytes (prep fixed s_big x_args)).
Proof. intros [-> | ->]; vm_compute; discriminate. Qed.

(** Eight 24-byte structs and other things. *)
Definition y_args : list ftype := repeat s_big 8 ++ [ty_sint32; s_fi; ty_double; s_big].
Definition y_less : list ftype := repeat s_big 8 ++ [ty_sint32; s_fi; ty_double; s_mid].
Lemma y_signature : signature_ok ty_sint32 y_less.
Proof.
  split; [unfold y_less, s_big, s_fi, s_mid; cbn [repeat app]; natural_tac|].
  split; [unfold y_less; cbn [repeat app]; repeat (apply Forall_cons || apply Forall_nil); unfold no_complex; vm_compute fields; repeat constructor; discriminate|].
  right. split; [natural_tac|]. unfold no_complex. vm_compute fields. repeat constructor; discriminate.
Qed.
Lemma y_enough : area_enough 8 None ty_sint32 y_less /\ references (places 8 None ty_sint32 y_less) = 8.
Proof.
  assert (R : references (places 8 None ty_sint32 y_less) = 8) by (vm_compute; reflexivity).
  split; [|exact R]. right. split; [|rewrite R; lia]. unfold y_less; cbn [repeat app]. repeat (apply Forall_cons || apply Forall_nil); vm_compute; discriminate.
Qed.

(** ** Witnesses *)

(** An int and nine structs of one double. *)
Definition la_nine : rcif := prep None ty_void nine.
Definition la_nine_blk : list Z := repeat 0 (Z.to_nat (alloc_size 8 la_nine None)).
Definition la_nine_lost : bool :=
  match call 8 la_nine None nine_objs z16 0 65536 la_nine_blk (repeat 0 16) with
  | Ok (m, _, rf) =>
    negb rf &&
    match closure 8 la_nine m (repeat 0 16) z16 (repeat 0 16) with
    | Ok (UData b :: _, _, _) =>
      match get_range b 0 4 with Some x => negb (list_eqb x [9; 0; 0; 0]) | None => false end &&
      match get_range (s_a m) 0 8 with Some x => negb (list_eqb x [9; 0; 0; 0; 0; 0; 0; 0]) | None => false end
    | _ => false
    end
  | _ => false
  end.
Lemma la_nine_lost_true : la_nine_lost = true.
Proof. vm_compute. reflexivity. Qed.

Lemma la_nine_run : exists m r l regs q b x y,
  call 8 la_nine None nine_objs z16 0 65536 la_nine_blk (repeat 0 16) = Ok (m, r, false) /\
  closure 8 la_nine m (repeat 0 16) z16 (repeat 0 16) = Ok (UData b :: l, regs, q) /\
  get_range b 0 4 = Some x /\ x <> [9; 0; 0; 0] /\ get_range (s_a m) 0 8 = Some y /\ y <> [9; 0; 0; 0; 0; 0; 0; 0].
Proof.
  pose proof la_nine_lost_true as W. unfold la_nine_lost in W.
  destruct (call 8 la_nine None nine_objs z16 0 65536 la_nine_blk (repeat 0 16)) as [[[m r] rf]| |] eqn:C; try discriminate W.
  apply Bool.andb_true_iff in W as [W0 W].
  destruct (closure 8 la_nine m (repeat 0 16) z16 (repeat 0 16)) as [[[l regs] q]| |] eqn:CL; try discriminate W.
  destruct l as [|[b|p] l]; try discriminate W.
  apply Bool.andb_true_iff in W as [W1 W2].
  destruct (get_range b 0 4) as [x|] eqn:X; [|discriminate W1]. destruct (get_range (s_a m) 0 8) as [y|] eqn:Y; [|discriminate W2].
  apply Bool.negb_true_iff in W0. subst rf. exists m, r, l, regs, q, b, x, y. split; [reflexivity|].
  split; [exact CL|]. split; [exact X|]. split; [intros ->; apply Bool.negb_true_iff in W1; assert (T := proj2 (list_eqb_eq [9;0;0;0] [9;0;0;0]) eq_refl); congruence|].
  split; [exact Y|]. intros ->. apply Bool.negb_true_iff in W2. assert (T := proj2 (list_eqb_eq [9;0;0;0;0;0;0;0] [9;0;0;0;0;0;0;0]) eq_refl). congruence.
Qed.

Theorem round_trip_refuted : exists ts objs gr base blk frame frame2 sto slot m r,
  signature_ok ty_void ts /\ objects_ok ts objs /\ A64Fits.total_size ts < 2 ^ 31 /\
  references (places 8 None ty_void ts) = 0 /\
  zlen blk = alloc_size 8 (prep None ty_void ts) None /\ zlen frame = 16 /\ (forall i, zlen (gr i) = 16 /\ bytes_ok (gr i)) /\
  0 <= base /\ (16 | base) /\ base + alloc_size 8 (prep None ty_void ts) None < 2 ^ 64 /\
  (forall i, zlen (sto i) = 16) /\ zlen slot = 16 /\
  call 8 (prep None ty_void ts) None objs gr 0 base blk frame = Ok (m, r, false) /\
  (forall l regs q, closure 8 (prep None ty_void ts) m frame2 sto slot = Ok (l, regs, q) -> ~ received (s_read m) ts l objs) /\
  (forall ptrs, ~ held 8 (s_a m) (s_fa m) (s_sp m) (s_read m) ts (places 8 None ty_void ts) objs ptrs).
Proof.
  destruct la_nine_run as (m & r & l & regs & q & b & x & y & C & CL & X & NX & Y & NY).
  exists nine, nine_objs, z16, 65536, la_nine_blk, (repeat 0 16), (repeat 0 16), z16, (repeat 0 16), m, r.
  split; [exact nine_ok|]. split; [exact nine_objects|]. split; [vm_compute; reflexivity|]. split; [vm_compute; reflexivity|]. split; [vm_compute; reflexivity|]. split; [reflexivity|].
  split. { intros i. split; [reflexivity|]. unfold z16. apply bytes_ok_repeat0. }
  split; [lia|]. split; [exists 4096; reflexivity|]. split; [vm_compute; reflexivity|]. split; [intros; reflexivity|]. split; [reflexivity|].
  split; [exact C|]. destruct nine_objs_head as (os & OH). split.
  - intros l' regs' q' CL'. change (prep None ty_void nine) with la_nine in CL'. rewrite CL in CL'. injection CL' as <- <- <-.
    rewrite OH. unfold nine. cbn [received]. intros (R & _). cbn [received1] in R. unfold same_fields in R.
    change (fields ty_sint32 0) with [(T_SINT32, 0, 4)] in R. pose proof (Forall_inv R) as (d & D1 & D2). cbv beta iota in D1.
    rewrite X in D1. change (get_range [9; 0; 0; 0] 0 4) with (Some [9; 0; 0; 0]) in D2. congruence.
  - intros ptrs. rewrite OH. change (places 8 None ty_void nine) with (Words [XR 0] :: tl (places 8 None ty_void nine)).
    unfold nine at 1. cbn [held at_place words_of word_of]. intros ((w & W & _ & _ & E) & _). change (8 * 0) with 0 in W. rewrite Y in W.
    rewrite app_nil_r in W. specialize (E eq_refl). apply NY. transitivity w; [congruence|]. rewrite E. vm_compute. reflexivity.
Qed.

(** Nine structs of three words: the ninth copy is where the pointer to it is stored. *)
Definition nine_big : list ftype := repeat s_big 9.
Definition nine_big_cif : rcif := prep None ty_void nine_big.
Definition nine_big_blk : list Z := repeat 0 (Z.to_nat (alloc_size 8 nine_big_cif None)).
Lemma nine_big_ok : signature_ok ty_void nine_big /\ objects_ok nine_big (x_objs nine_big).
Proof.
  assert (N : Forall natural nine_big) by (unfold nine_big, s_big; cbn [repeat]; natural_tac).
  split.
  - split; [exact N|]. split; [|left; reflexivity]. apply Forall_forall. intros t H. apply repeat_spec in H. subst.
    unfold no_complex; vm_compute fields; repeat constructor; discriminate.
  - apply x_objects; [exact N|]. apply Forall_forall. intros t H. apply repeat_spec in H. subst. vm_compute. discriminate.
Qed.
Lemma nine_big_run : exists m r,
  call 8 nine_big_cif None (x_objs nine_big) z16 0 65536 nine_big_blk (repeat 0 16) = Ok (m, r, false) /\
  s_sp m = 65536 /\ s_read m 65536 8 = Some (le_enc 8 65536).
Proof.
  assert (W : match call 8 nine_big_cif None (x_objs nine_big) z16 0 65536 nine_big_blk (repeat 0 16) with
              | Ok (m, _, rf) => negb rf && (s_sp m =? 65536) && match s_read m 65536 8 with Some x => list_eqb x (le_enc 8 65536) | None => false end
              | _ => false end = true) by (vm_compute; reflexivity).
  destruct (call _ _ _ _ _ _ _ _ _) as [[[m r] rf]| |]; try discriminate W. apply Bool.andb_true_iff in W as (W1 & W2).
  apply Bool.andb_true_iff in W1 as (W1 & W3).
  exists m, r. apply Bool.negb_true_iff in W1. subst rf. split; [reflexivity|]. split; [lia|]. destruct (s_read m 65536 8) as [x|]; [|discriminate].
  apply list_eqb_eq in W2. congruence.
Qed.

Lemma held_last fl a fa sp rd pls1 : forall ts1 objs1 ptrs t w o,
  length ts1 = length pls1 -> length objs1 = length pls1 ->
  held fl a fa sp rd (ts1 ++ [t]) (pls1 ++ [Ref w]) (objs1 ++ [o]) ptrs ->
  exists p, word_of a sp rd w = Some (le_enc 8 p) /\ rd p (ty_size t) = Some o /\ In p ptrs.
Proof.
  induction pls1 as [|pl l IH]; intros [|t1 ts1] [|o1 objs1] ptrs t w o L1 L2; try discriminate; cbn [app held].
  - destruct ptrs as [|p ps]; [contradiction|]. intros (H1 & H2 & _). exists p. cbn; auto.
  - cbn [length] in L1, L2. destruct pl; try (intros (_ & H); eapply IH; [| |exact H]; lia).
    destruct ptrs as [|p ps]; [contradiction|]. intros (_ & _ & H). destruct (IH ts1 objs1 ps t w o ltac:(lia) ltac:(lia) H) as (p' & A & B & C).
    exists p'. cbn; auto.
Qed.

Lemma call_reads fl c rv objs gr chain base blk frame m r f : call fl c rv objs gr chain base blk frame = Ok (m, r, f) ->
  exists b, s_read m = fun p n => get_range b (p - base) n.
Proof.
  unfold call.
  match goal with |- (bind ?X _ = _ -> _) => destruct X as [s1| |]; [cbn [bind]|discriminate|discriminate] end.
  match goal with |- (bind ?X _ = _ -> _) => destruct X as [s2| |]; [cbn [bind]|discriminate|discriminate] end.
  match goal with |- (bind ?X _ = _ -> _) => destruct X as [b| |]; [cbn [bind]|discriminate|discriminate] end.
  match goal with |- (bind ?X _ = _ -> _) => destruct X as [fa| |]; [cbn [bind]|discriminate|discriminate] end.
  match goal with |- (bind ?X _ = _ -> _) => destruct X as [a| |]; [cbn [bind]|discriminate|discriminate] end.
  intros E. exists b. apply (f_equal (fun z => match z with Ok (m0, _, _) => s_read m0 | _ => s_read m end)) in E. cbn [s_read] in E. auto.
Qed.

(** A word on the stack that is a pointer to itself is no pointer to an object beginning with
    another word. *)
Lemma self_pointer fl a fa sp rd blk t o x ts1 pls1 objs1 ptrs :
  rd = (fun p n => get_range blk (p - sp) n) -> 0 <= sp < 2 ^ 64 -> rd sp 8 = Some (le_enc 8 sp) -> 8 <= ty_size t ->
  get_range o 0 8 = Some x -> x <> le_enc 8 sp -> Forall (fun p => 0 <= p < 2 ^ 64) ptrs ->
  length ts1 = length pls1 -> length objs1 = length pls1 ->
  ~ held fl a fa sp rd (ts1 ++ [t]) (pls1 ++ [Ref (ST 0)]) (objs1 ++ [o]) ptrs.
Proof.
  intros RD SP X SZ OX NX PT L1 L2 H. apply held_last in H; auto. destruct H as (p & W & D & I).
  cbn [word_of] in W. rewrite Z.add_0_r, X in W. rewrite Forall_forall in PT. specialize (PT p I).
  assert (E : sp = p).
  { apply (f_equal (fun o => match o with Some y => le_dec y | None => 0 end)) in W. rewrite !le_dec_enc in W.
    change (2 ^ (8 * Z.of_nat 8)) with (2 ^ 64) in W. rewrite (Z.mod_small sp), (Z.mod_small p) in W by lia. exact W. }
  subst p rd. cbv beta in *. pose proof (get_range_sub blk (sp - sp) (ty_size t) o 0 8 D ltac:(lia) ltac:(lia) ltac:(lia)) as G.
  rewrite OX, Z.add_0_r, X in G. congruence.
Qed.

Lemma nine_big_split : nine_big = repeat s_big 8 ++ [s_big] /\
  x_objs nine_big = x_objs (repeat s_big 8) ++ [map (fun i => Z.of_nat i + 1) (seq 0 24)] /\
  places 8 None ty_void nine_big = map (fun i => Ref (XR i)) [0; 1; 2; 3; 4; 5; 6; 7] ++ [Ref (ST 0)].
Proof. split; [vm_compute; reflexivity|]. split; vm_compute; reflexivity. Qed.

Theorem area_refuted : exists ts objs gr base blk frame m r,
  signature_ok ty_void ts /\ objects_ok ts objs /\ A64Fits.total_size ts < 2 ^ 31 /\
  copies_end ts (places 8 None ty_void ts) (arg_bytes (prep None ty_void ts)) < stack_used 8 None ty_void ts /\
  zlen blk = alloc_size 8 (prep None ty_void ts) None /\ zlen frame = 16 /\ (forall i, zlen (gr i) = 16 /\ bytes_ok (gr i)) /\
  0 <= base /\ (16 | base) /\ base + alloc_size 8 (prep None ty_void ts) None < 2 ^ 64 /\
  call 8 (prep None ty_void ts) None objs gr 0 base blk frame = Ok (m, r, false) /\
  forall ptrs, Forall (fun p => 0 <= p < 2 ^ 64) ptrs ->
    ~ held 8 (s_a m) (s_fa m) (s_sp m) (s_read m) ts (places 8 None ty_void ts) objs ptrs.
Proof.
  destruct nine_big_run as (m & r & C & SP & X). destruct (call_reads _ _ _ _ _ _ _ _ _ _ _ _ C) as (b & RB).
  exists nine_big, (x_objs nine_big), z16, 65536, nine_big_blk, (repeat 0 16), m, r.
  split; [apply nine_big_ok|]. split; [apply nine_big_ok|]. split; [vm_compute; reflexivity|]. split; [vm_compute; reflexivity|].
  split; [vm_compute; reflexivity|]. split; [reflexivity|].
  split. { intros i. split; [reflexivity|]. unfold z16. apply bytes_ok_repeat0. }
  split; [lia|]. split; [exists 4096; reflexivity|]. split; [vm_compute; reflexivity|]. split; [exact C|].
  intros ptrs PT. destruct nine_big_split as (E1 & E2 & E3). rewrite E3, E2, E1, SP.
  apply (self_pointer 8 (s_a m) (s_fa m) 65536 (s_read m) b s_big (map (fun i => Z.of_nat i + 1) (seq 0 24)) [1; 2; 3; 4; 5; 6; 7; 8]);
    [exact RB|lia|exact X|vm_compute; discriminate|vm_compute; reflexivity|vm_compute; discriminate|exact PT|reflexivity|reflexivity].
Qed.

(** A struct of two long doubles and one of three words: the copies do not fit the block. *)
Definition two_ld : list ftype := [c_struct_of [ty_longdouble; ty_longdouble]; s_big].
Theorem block_refuted : exists ts objs gr base blk frame,
  signature_ok ty_void ts /\ objects_ok ts objs /\ A64Fits.total_size ts < 2 ^ 31 /\
  lone_reals_ok 8 None 0 ts (places 8 None ty_void ts) /\ stack_used 8 None ty_void ts = 0 /\
  zlen blk = alloc_size 8 (prep None ty_void ts) None /\ zlen frame = 16 /\ (forall i, zlen (gr i) = 16 /\ bytes_ok (gr i)) /\
  0 <= base /\ (16 | base) /\ base + alloc_size 8 (prep None ty_void ts) None < 2 ^ 64 /\
  call 8 (prep None ty_void ts) None objs gr 0 base blk frame = UB.
Proof.
  exists two_ld, (x_objs two_ld), z16, 65536, (repeat 0 (Z.to_nat (alloc_size 8 (prep None ty_void two_ld) None))), (repeat 0 16).
  assert (N : Forall natural two_ld) by (unfold two_ld, s_big; natural_tac).
  split. { split; [exact N|]. split; [|left; reflexivity]. unfold two_ld. repeat (apply Forall_cons || apply Forall_nil); unfold no_complex; vm_compute fields; repeat constructor; discriminate. }
  split. { apply x_objects; [exact N|]. unfold two_ld. repeat (apply Forall_cons || apply Forall_nil); vm_compute; discriminate. }
  split; [vm_compute; reflexivity|].
  split. { change (places 8 None ty_void two_ld) with [Ref (XR 0); Ref (XR 1)]. unfold two_ld.
    cbn [lone_reals_ok]. repeat split; intros _ _ n H; vm_compute in H; discriminate H. }
  split; [vm_compute; reflexivity|]. split; [vm_compute; reflexivity|]. split; [reflexivity|].
  split. { intros i. split; [reflexivity|]. unfold z16. apply bytes_ok_repeat0. }
  split; [lia|]. split; [exists 4096; reflexivity|]. split; [vm_compute; reflexivity|]. vm_compute. reflexivity.
Qed.

(** An unsigned int with its top bit set. *)
Theorem narrow_refuted : exists d r regs b b',
  zlen d = 4 /\ bytes_ok d /\ zlen regs = ctx_size 8 /\ zlen (r_a r) = 16 /\ zlen (r_fa r) = 16 /\ zlen b = 8 /\
  returned 8 ty_uint32 (r_a r) (r_fa r) d /\
  finish 8 (prep None ty_uint32 []) (fun _ _ => None) r regs (in_memory 8 ty_uint32) (Some b) = Ok (Some b') /\
  get_range b' 0 8 <> Some (le_enc 8 (widened T_UINT32 d)).
Proof.
  exists [0; 0; 0; 128], (RRet ([0; 0; 0; 128; 255; 255; 255; 255] ++ repeat 0 8) (repeat 0 16)), (repeat 0 144), (repeat 0 8), [0; 0; 0; 128; 255; 255; 255; 255].
  split; [reflexivity|]. split; [repeat constructor; unfold byte_ok; lia|]. do 4 (split; [reflexivity|]).
  split. { unfold returned. change (place_arg 8 false ty_uint32 0 0 0) with (Words [XR 0], 1, 0, 0). cbv beta iota zeta. cbn [at_place words_of word_of].
    exists [0; 0; 0; 128; 255; 255; 255; 255]. split; [reflexivity|]. split; [repeat constructor; unfold byte_ok; lia|]. split; [reflexivity|].
    intros _. vm_compute. reflexivity. }
  split; [vm_compute; reflexivity|]. vm_compute. discriminate.
Qed.

(** Memory given for a result of type void. *)
Theorem void_refuted : exists r regs b b',
  zlen regs = ctx_size 8 /\ zlen (r_a r) = 16 /\ zlen (r_fa r) = 16 /\ zlen b = 8 /\
  finish 8 (prep None ty_void []) (fun _ _ => None) r regs (in_memory 8 ty_void) (Some b) = Ok (Some b') /\ b' <> b.
Proof.
  exists (RRet (7 :: repeat 0 15) (repeat 0 16)), (repeat 0 144), (repeat 0 8), (7 :: repeat 0 7).
  do 4 (split; [reflexivity|]). split; [vm_compute; reflexivity|]. vm_compute. discriminate.
Qed.

(** A float and an int, returned to eight bytes of memory. *)
Theorem result_refuted : exists d r regs b,
  zlen d = ty_size s_fi /\ bytes_ok d /\ zlen regs = ctx_size 8 /\ zlen (r_a r) = 16 /\ zlen (r_fa r) = 16 /\ zlen b = ty_size s_fi /\
  in_memory 8 s_fi = false /\ returned 8 s_fi (r_a r) (r_fa r) d /\
  finish 8 (prep None s_fi []) (fun _ _ => None) r regs false (Some b) = UB.
Proof.
  exists [1; 2; 3; 4; 5; 6; 7; 8], (RRet ([5; 6; 7; 8] ++ repeat 0 12) ([1; 2; 3; 4] ++ repeat 0 12)), (repeat 0 144), (repeat 0 8).
  split; [reflexivity|]. split; [repeat constructor; unfold byte_ok; lia|]. do 5 (split; [reflexivity|]).
  split. { unfold returned. change (place_arg 8 false s_fi 0 0 0) with (InFX 0 0 4 4 4, 1, 1, 0). cbv beta iota zeta. cbn [at_place].
    exists [1; 2; 3; 4], [5; 6; 7; 8]. split; [reflexivity|]. split; [reflexivity|]. split; [split; [vm_compute; discriminate|reflexivity]|].
    exists [5; 6; 7; 8; 0; 0; 0; 0]. split; [reflexivity|]. split; [repeat constructor; unfold byte_ok; lia|reflexivity]. }
  vm_compute. reflexivity.
Qed.

Theorem slot_refuted : exists m frame sto slot l regs n,
  zlen (s_a m) = 64 /\ zlen (s_fa m) = 64 /\ zlen frame = 16 /\ (forall i, zlen (sto i) = 16) /\ zlen slot = 16 /\
  closure 8 (prep None ty_sint8 []) m frame sto slot = Ok (l, regs, RSlot n) /\ n < result_room ty_sint8.
Proof.
  exists (RState (repeat 0 64) (repeat 0 64) 0 65536 (fun _ _ => None)), (repeat 0 16), z16, (repeat 0 16), [], (repeat 0 144), 1.
  do 3 (split; [reflexivity|]). split; [reflexivity|]. split; [reflexivity|]. split; [vm_compute; reflexivity|reflexivity].
Qed.
