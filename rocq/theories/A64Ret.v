(** Results: stored by calls, loaded by closures. *)
From Coq Require Import ZifyBool ZifyNat.
From Verif Require Import Base BaseFacts Types LayoutSpec NaturalTypes NaturalFacts A64Model A64Spec A64Hfa A64Facts A64Call A64Main A64Closure.
Local Arguments Z.mul : simpl never.
Local Arguments Z.add : simpl never.

Lemma get_range_app (m : list Z) o a b x y : get_range m o a = Some x -> get_range m (o + a) b = Some y ->
  get_range m o (a + b) = Some (x ++ y).
Proof.
  intros A B. pose proof (get_range_inv _ _ _ _ A) as (A1 & A2 & A3 & _ & LA).
  pose proof (get_range_inv _ _ _ _ B) as (B1 & B2 & B3 & _ & LB).
  apply get_range_nth; [lia|lia|lia|rewrite zlen_app; lia|].
  intros i Hi. rewrite app_length in Hi. unfold zlen in *.
  destruct (Nat.lt_ge_cases i (length x)).
  - rewrite nth_error_app1 by lia. symmetry. apply (nth_error_get_range _ _ _ _ i A). lia.
  - rewrite nth_error_app2 by lia. rewrite (nth_error_get_range _ _ _ _ (i - length x) B) by lia. f_equal. lia.
Qed.

Lemma set_range_at0 (b d : list Z) : zlen d <= zlen b ->
  exists b', set_range b 0 d = Some b' /\ zlen b' = zlen b /\ get_range b' 0 (zlen d) = Some d /\
    forall o k, 0 <= k -> zlen d <= o -> get_range b' o k = get_range b o k.
Proof.
  intros L. destruct (set_range_ok b 0 d) as (b' & E & Z'); [lia|lia|]. exists b'. split; [exact E|]. split; [exact Z'|].
  split; [apply (get_set_same _ _ _ _ E)|]. intros o k K O. apply (get_set_disjoint _ _ _ _ o k E). lia.
Qed.

(** Pieces of a value. *)
Lemma pieces (d : list Z) u : 0 < u -> forall n (f : nat -> list Z), zlen d = u * Z.of_nat n ->
  (forall k, (k < n)%nat -> get_range d (u * Z.of_nat k) u = Some (f k)) ->
  concat (map f (seq 0 n)) = d.
Proof.
  intros U n f L H.
  assert (G : forall j, (j <= n)%nat -> get_range d 0 (u * Z.of_nat j) = Some (concat (map f (seq 0 j)))).
  { induction j as [|j IH]; intros J.
    - rewrite Z.mul_0_r. rewrite get_range_some by (pose proof (zlen_nonneg d); lia). reflexivity.
    - rewrite seq_S, map_app, concat_app. cbn [map concat Nat.add]. rewrite app_nil_r.
      replace (u * Z.of_nat (S j)) with (u * Z.of_nat j + u) by nia.
      apply get_range_app; [apply IH; lia|]. rewrite Z.add_0_l. apply H. lia. }
  specialize (G n ltac:(lia)). rewrite <- L, get_range_all in G. injection G as G. symmetry. exact G.
Qed.

(** A vector register's first bytes. *)
Definition vpart (v : list Z) (u : nat) (k : nat) : list Z := firstn u (skipn (16 * k) v).

Lemma vpart_get v u k b : get_range v (16 * Z.of_nat k) (Z.of_nat u) = Some b -> vpart v u k = b.
Proof.
  intros H. apply get_range_inv in H as (_ & _ & _ & -> & _). unfold vpart.
  rewrite Nat2Z.id. f_equal. f_equal. lia.
Qed.

Lemma hfa_value v t c n d : hfa_of t = Some (c, n) -> zlen d = Z.of_nat n * fsize c ->
  in_vregs v 0 (fsize c) n d ->
  concat (map (vpart v (Z.to_nat (fsize c))) (seq 0 n)) = d /\
  (forall k, (k < n)%nat -> zlen (vpart v (Z.to_nat (fsize c)) k) = fsize c).
Proof.
  intros HF L H. pose proof (proj1 (hfa_of_spec _ _ _) HF) as (_ & FC & _).
  assert (U : 0 < fsize c <= 16) by (destruct c; try discriminate FC; cbn; lia).
  assert (P : forall k, (k < n)%nat -> get_range d (fsize c * Z.of_nat k) (fsize c) = Some (vpart v (Z.to_nat (fsize c)) k) /\
     zlen (vpart v (Z.to_nat (fsize c)) k) = fsize c).
  { intros k Hk. destruct (H k Hk) as (b & B1 & B2). rewrite Z.add_0_l in B2.
    assert (vpart v (Z.to_nat (fsize c)) k = b) as -> by (apply vpart_get; rewrite Z2Nat.id by lia; exact B2).
    split; [exact B1|]. apply get_range_inv in B1. lia. }
  split; [|intros; apply P; auto]. apply pieces with (u := fsize c); [lia|lia|]. intros; apply P; auto.
Qed.

(** What a call leaves in the result buffer. *)
Definition result_bytes (t : ftype) (d : list Z) : list Z :=
  if integral (ty_code t) then le_enc 8 (widened (ty_code t) d) else d.

Definition stored (t : ftype) (d buf b : list Z) : Prop :=
  zlen b = zlen buf /\ get_range b 0 (zlen (result_bytes t d)) = Some (result_bytes t d) /\
  forall o k, 0 <= k -> zlen (result_bytes t d) <= o -> get_range b o k = get_range buf o k.

Lemma stored_set t d buf : zlen (result_bytes t d) <= zlen buf ->
  exists b, of_option (set_range buf 0 (result_bytes t d)) = Ok b /\ stored t d buf b.
Proof.
  intros L. destruct (set_range_at0 buf _ L) as (b & E & H). exists b. rewrite E. split; [reflexivity|exact H].
Qed.

Lemma le_dec_firstn l k : bytes_ok l -> (k <= length l)%nat -> le_dec (firstn k l) = le_dec l mod 2 ^ (8 * Z.of_nat k).
Proof.
  intros B L. rewrite <- (firstn_skipn k l) at 2. rewrite le_dec_app.
  assert (ZF : zlen (firstn k l) = Z.of_nat k) by (rewrite zlen_firstn; unfold zlen; lia).
  rewrite ZF, Z.mul_comm, Z_mod_plus_full. symmetry. apply Z.mod_small.
  pose proof (le_dec_bound (firstn k l) (bytes_ok_firstn _ _ B)) as X. rewrite ZF in X. lia.
Qed.

Lemma to_signed_of_mod n x : to_signed n (x mod 2 ^ n) = to_signed n x.
Proof. unfold to_signed. rewrite Zmod_mod. reflexivity. Qed.

(** Storing an integer. *)
Lemma int_value x k d : zlen x = 16 -> bytes_ok x -> get_range x 0 (Z.of_nat k) = Some d -> (k <= 8)%nat ->
  le_dec d = le_dec (firstn 8 x) mod 2 ^ (8 * Z.of_nat k) /\ zlen d = Z.of_nat k.
Proof.
  intros L B H K. pose proof (get_range_inv _ _ _ _ H) as (_ & _ & _ & E & LD). split; [|lia].
  rewrite E. cbn [Z.to_nat skipn]. rewrite Nat2Z.id.
  replace (firstn k x) with (firstn k (firstn 8 x)) by (rewrite firstn_firstn; f_equal; lia).
  apply le_dec_firstn; [apply bytes_ok_firstn; auto|]. rewrite firstn_length. unfold zlen in L. lia.
Qed.

Definition in_fl (rt : ftype) (fl : Z) : Prop :=
  Z.land fl A_RET_MASK = Z.land (spec_flags rt) A_RET_MASK /\
  (Z.land fl A_NEED_COPY =? 0) = (Z.land (spec_flags rt) A_NEED_COPY =? 0).

Lemma store_int rt fl x v buf d : is_int_type rt -> in_fl rt fl -> zlen x = 16 -> bytes_ok x ->
  get_range x 0 (ty_size rt) = Some d -> 8 <= zlen buf ->
  exists b, store_ret fl (ARet x v) buf = Ok b /\ stored rt d buf b.
Proof.
  intros I [FL _] LX BX G LB. unfold store_ret. rewrite FL. cbn [r_x r_v].
  assert (R : forall e, result_bytes rt d = e -> zlen e <= zlen buf ->
            exists b, of_option (set_range buf 0 e) = Ok b /\ stored rt d buf b).
  { intros e <- L. apply stored_set. exact L. }
  assert (LF : length (firstn 8 x) = 8%nat) by (rewrite firstn_length; unfold zlen in LX; lia).
  assert (ZF8 : zlen (firstn 8 x) = 8) by (unfold zlen; lia).
  assert (ID : le_enc 8 (le_dec (firstn 8 x)) = firstn 8 x).
  { rewrite <- LF at 1. apply le_enc_dec. apply bytes_ok_firstn; auto. }
  assert (M64 : forall y, le_enc 8 (y mod 2 ^ 64) = le_enc 8 y) by (intros; apply (le_enc_mod 8)).
  assert (SM : forall n y z, 0 < n -> to_signed n y mod 2 ^ 64 = to_signed n z mod 2 ^ 64 -> le_enc 8 (wrap64 (to_signed n y)) = le_enc 8 (to_signed n z mod 2 ^ 64)).
  { intros n y z _ E. unfold wrap64, wrap. rewrite E. reflexivity. }
  destruct I as [-> | I].
  - destruct (int_value x 8 d LX BX G ltac:(lia)) as [V L].
    apply R; [|rewrite ZF8; lia].
    unfold result_bytes, widened. cbn [ty_pointer ty_code integral signed_code]. rewrite V, !M64. 
    change (8 * Z.of_nat 8) with 64. try rewrite M64. exact ID.
  - cbn in I.
    repeat (destruct I as [<-|I];
      [cbn in G;
       first [ destruct (int_value x 1 d LX BX G ltac:(lia)) as [V L]
             | destruct (int_value x 2 d LX BX G ltac:(lia)) as [V L]
             | destruct (int_value x 4 d LX BX G ltac:(lia)) as [V L]
             | destruct (int_value x 8 d LX BX G ltac:(lia)) as [V L] ];
       apply R;
       [unfold result_bytes, widened; cbn [ty_uint8 ty_sint8 ty_uint16 ty_sint16 ty_uint32 ty_sint32 ty_uint64 ty_sint64 ty_code integral signed_code];
        rewrite V, ?L, ?M64; cbn [Z.of_nat Pos.of_succ_nat Pos.succ];
        try (change (8 * 1) with 8); try (change (8 * 2) with 16); try (change (8 * 4) with 32); try (change (8 * 8) with 64);
        rewrite ?to_signed_of_mod, ?M64; try reflexivity;
        try (unfold wrap64, wrap; rewrite M64; reflexivity); try exact ID;
        try (rewrite <- M64, (to_signed_mod 64), M64 by lia; exact ID)
       |rewrite ?le_enc_zlen, ?ZF8; lia]|]).
    contradiction.
Qed.

Definition agg_code (c : tcode) : Prop :=
  match c with T_FLOAT | T_DOUBLE | T_LONGDOUBLE | T_STRUCT | T_COMPLEX => True | _ => False end.

Lemma agg_result t d : agg_code (ty_code t) -> result_bytes t d = d.
Proof. unfold result_bytes. destruct (ty_code t); cbn; intros; try contradiction; reflexivity. Qed.

Lemma agg_flags t : agg_code (ty_code t) -> spec_flags t =
  match hfa_of t with
  | Some _ => vfp_code t
  | None => if ty_size t >? 16 then 32 else if ty_size t =? 16 then 2 else if ty_size t =? 8 then 1 else 66
  end.
Proof. unfold spec_flags. destruct (ty_code t); cbn; intros; try contradiction; reflexivity. Qed.

Lemma set3 (buf a b c : list Z) : zlen a = 16 -> zlen b = 16 -> zlen c = 16 -> 48 <= zlen buf ->
  exists r, (let* b2 := of_option (set_range buf 32 c) in of_option (set_range b2 0 (a ++ b))) = Ok r /\
    zlen r = zlen buf /\ get_range r 0 48 = Some (a ++ b ++ c) /\
    forall o k, 0 <= k -> 48 <= o -> get_range r o k = get_range buf o k.
Proof.
  intros A B C L. destruct (set_range_ok buf 32 c) as (b1 & E1 & Z1); [lia|lia|]. rewrite E1. cbn [of_option bind].
  destruct (set_range_ok b1 0 (a ++ b)) as (b2 & E2 & Z2); [lia|rewrite zlen_app; lia|]. rewrite E2. exists b2.
  split; [reflexivity|]. split; [lia|]. split.
  - rewrite app_assoc. change 48 with (32 + 16). apply get_range_app.
    + pose proof (get_set_same _ _ _ _ E2) as G. rewrite zlen_app, A, B in G. exact G.
    + rewrite (get_set_disjoint _ _ _ _ (0 + 32) 16 E2) by (rewrite zlen_app; lia).
      pose proof (get_set_same _ _ _ _ E1) as G. rewrite C in G. exact G.
  - intros o k K O. rewrite (get_set_disjoint _ _ _ _ o k E2) by (rewrite zlen_app; lia).
    apply (get_set_disjoint _ _ _ _ o k E1). lia.
Qed.

Lemma set4 (buf a b c e : list Z) : zlen a = 16 -> zlen b = 16 -> zlen c = 16 -> zlen e = 16 -> 64 <= zlen buf ->
  exists r, (let* b3 := of_option (set_range buf 48 e) in
             let* b2 := of_option (set_range b3 32 c) in of_option (set_range b2 0 (a ++ b))) = Ok r /\
    zlen r = zlen buf /\ get_range r 0 64 = Some (a ++ b ++ c ++ e) /\
    forall o k, 0 <= k -> 64 <= o -> get_range r o k = get_range buf o k.
Proof.
  intros A B C E L. destruct (set_range_ok buf 48 e) as (b1 & E1 & Z1); [lia|lia|]. rewrite E1. cbn [of_option bind].
  destruct (set3 b1 a b c A B C ltac:(lia)) as (r & E2 & Z2 & G2 & K2). exists r. split; [exact E2|]. split; [lia|]. split.
  - replace (a ++ b ++ c ++ e) with ((a ++ b ++ c) ++ e) by (rewrite <- !app_assoc; reflexivity).
    change 64 with (48 + 16). apply get_range_app; [exact G2|].
    rewrite K2 by lia. pose proof (get_set_same _ _ _ _ E1) as G. rewrite E in G. exact G.
  - intros o k K O. rewrite K2 by lia. apply (get_set_disjoint _ _ _ _ o k E1). lia.
Qed.

Lemma store_hfa t fl x v buf c n d : natural t -> hfa_of t = Some (c, n) ->
  Z.land fl A_RET_MASK = Z.land (vfp_code t) A_RET_MASK -> zlen d = ty_size t ->
  in_vregs v 0 (fsize c) n d -> ty_size t <= zlen buf ->
  exists b, store_ret fl (ARet x v) buf = Ok b /\ zlen b = zlen buf /\ get_range b 0 (zlen d) = Some d /\
    forall o k, 0 <= k -> zlen d <= o -> get_range b o k = get_range buf o k.
Proof.
  intros N HF FL LD IV LB. pose proof (proj1 (hfa_of_spec _ _ _) HF) as (MM & FC & LN).
  destruct (homogeneous_size t N c n FC MM) as [HS HA].
  destruct (hfa_value v t c n d HF ltac:(lia) IV) as [VAL LV].
  destruct (vfp_code_pos t c n HF) as (V & _).
  assert (R : forall e, concat (map (vpart v (Z.to_nat (fsize c))) (seq 0 n)) = e ->
      exists b, of_option (set_range buf 0 e) = Ok b /\ zlen b = zlen buf /\ get_range b 0 (zlen d) = Some d /\
        forall o k, 0 <= k -> zlen d <= o -> get_range b o k = get_range buf o k).
  { intros e <-. rewrite VAL. destruct (set_range_at0 buf d ltac:(lia)) as (b & E & H). exists b. rewrite E. auto. }
  unfold store_ret. rewrite FL, V. cbn [r_x r_v].
  assert (CN : n = 1%nat \/ n = 2%nat \/ n = 3%nat \/ n = 4%nat) by lia.
  destruct c; try discriminate FC; destruct CN as [-> | [-> | [-> | ->]]];
    try (apply R; cbn [seq map concat fsize]; rewrite ?app_nil_r; reflexivity).
  - assert (L0 := LV 0%nat ltac:(lia)). assert (L1 := LV 1%nat ltac:(lia)). assert (L2 := LV 2%nat ltac:(lia)).
    cbn [seq map concat] in VAL. rewrite app_nil_r in VAL. cbn [fsize] in *. change (Z.of_nat 3 * 16) with 48 in HS.
    destruct (set3 buf _ _ _ L0 L1 L2 ltac:(lia)) as (b & E & ZB & G & K). exists b. split; [exact E|].
    split; [exact ZB|]. rewrite VAL in G. rewrite LD, HS. auto.
  - assert (L0 := LV 0%nat ltac:(lia)). assert (L1 := LV 1%nat ltac:(lia)). assert (L2 := LV 2%nat ltac:(lia)). assert (L3 := LV 3%nat ltac:(lia)).
    cbn [seq map concat] in VAL. rewrite app_nil_r in VAL. cbn [fsize] in *. change (Z.of_nat 4 * 16) with 64 in HS.
    destruct (set4 buf _ _ _ _ L0 L1 L2 L3 ltac:(lia)) as (b & E & ZB & G & K). exists b. split; [exact E|].
    split; [exact ZB|]. rewrite VAL in G. rewrite LD, HS. auto.
Qed.

(** Bytes the caller must provide for a result: libffi widens integers. *)
Definition room (t : ftype) : Z := if integral (ty_code t) then 8 else ty_size t.

Lemma finish_ok p c fl rt x v tmp buf d : natural rt -> quads_ok p rt -> k_rtype c = rt -> in_fl rt fl ->
  in_memory rt = false -> zlen x = 16 -> bytes_ok x -> zlen v = 64 -> zlen tmp = 16 ->
  zlen d = ty_size rt -> returned rt x v d -> room rt <= zlen buf ->
  exists b, finish c fl (ARet x v) tmp buf = Ok b /\ stored rt d buf b.
Proof.
  intros N Q RT FL IM LX BX LV LT LD RET RM. pose proof FL as [F1 F2]. unfold finish. rewrite F2, RT.
  destruct (natural_int_or rt N) as [I|C].
  - assert (NC : (Z.land (spec_flags rt) A_NEED_COPY =? 0) = true).
    { destruct I as [-> | I]; [reflexivity|]. cbn in I. repeat (destruct I as [<-|I]; [reflexivity|]). contradiction. }
    rewrite NC. destruct (int_type_facts rt I) as (HN & _ & SZ & IT & _). unfold room in RM. rewrite IT in RM.
    unfold returned in RET. rewrite HN, LD in RET. apply (store_int rt fl x v buf d I FL LX BX RET RM).
  - change (agg_code (ty_code rt)) in C. pose proof (agg_flags rt C) as SF.
    assert (RR : room rt = ty_size rt) by (unfold room; destruct (ty_code rt); cbn in *; try contradiction; reflexivity).
    unfold stored. rewrite (agg_result rt d C). unfold returned in RET. unfold in_memory, by_ref in IM.
    destruct (hfa_of rt) as [[cc n]|] eqn:HF.
    + destruct (vfp_code_pos rt cc n HF) as (V & _).
      pose proof (proj1 (hfa_of_spec _ _ _) HF) as (_ & FC & LN).
      assert (NC : (Z.land (spec_flags rt) A_NEED_COPY =? 0) = true).
      { rewrite SF, V. assert (CN : n = 1%nat \/ n = 2%nat \/ n = 3%nat \/ n = 4%nat) by lia.
        destruct cc; try discriminate FC; destruct CN as [-> | [-> | [-> | ->]]]; reflexivity. }
      rewrite NC. rewrite SF in F1. apply (store_hfa rt fl x v buf cc n d N HF F1 LD RET). lia.
    + rewrite IM in SF. pose proof (natural_basic _ N) as (SP & _).
      assert (DX : forall k, zlen d <= Z.of_nat k -> (k <= 16)%nat -> get_range (firstn k x) 0 (zlen d) = Some d).
      { intros k Hk Hk2. pose proof (get_range_inv _ _ _ _ RET) as (_ & _ & _ & E & _).
        rewrite get_range_some; [|lia|apply zlen_nonneg|rewrite zlen_firstn; lia]. f_equal. rewrite E at 2.
        cbn [Z.to_nat skipn]. rewrite firstn_firstn. f_equal. lia. }
      destruct (ty_size rt =? 16) eqn:S16; [|destruct (ty_size rt =? 8) eqn:S8].
      * rewrite SF in *. change (Z.land 2 A_NEED_COPY =? 0) with true. cbv iota. unfold store_ret. rewrite F1.
        assert (E : firstn 16 x = d).
        { specialize (DX 16%nat ltac:(lia) ltac:(lia)).
          assert (zlen (firstn 16 x) = zlen d) as Hz by (rewrite zlen_firstn; lia).
          rewrite <- Hz, get_range_all in DX. congruence. }
        change (exists b, of_option (set_range buf 0 (firstn 16 x)) = Ok b /\ zlen b = zlen buf /\ get_range b 0 (zlen d) = Some d /\ (forall o k, 0 <= k -> zlen d <= o -> get_range b o k = get_range buf o k)).
        rewrite E. destruct (set_range_at0 buf d ltac:(lia)) as (b & EB & H). exists b. rewrite EB. auto.
      * rewrite SF in *. change (Z.land 1 A_NEED_COPY =? 0) with true. cbv iota. unfold store_ret. rewrite F1.
        assert (E : firstn 8 x = d).
        { specialize (DX 8%nat ltac:(lia) ltac:(lia)).
          assert (zlen (firstn 8 x) = zlen d) as Hz by (rewrite zlen_firstn; lia).
          rewrite <- Hz, get_range_all in DX. congruence. }
        change (exists b, of_option (set_range buf 0 (firstn 8 x)) = Ok b /\ zlen b = zlen buf /\ get_range b 0 (zlen d) = Some d /\ (forall o k, 0 <= k -> zlen d <= o -> get_range b o k = get_range buf o k)).
        rewrite E. destruct (set_range_at0 buf d ltac:(lia)) as (b & EB & H). exists b. rewrite EB. auto.
      * rewrite SF in *. change (Z.land 66 A_NEED_COPY =? 0) with false. cbv iota. unfold store_ret. rewrite F1.
        assert (LF : zlen (firstn 16 x) = 16) by (rewrite zlen_firstn; lia).
        destruct (set_range_at0 tmp (firstn 16 x) ltac:(lia)) as (t & ET & ZT & GT & _).
        change (exists b, (let* t := of_option (set_range tmp 0 (firstn 16 x)) in let* d := of_option (get_range t 0 (ty_size rt)) in of_option (set_range buf 0 d)) = Ok b /\ zlen b = zlen buf /\ get_range b 0 (zlen d) = Some d /\ (forall o k, 0 <= k -> zlen d <= o -> get_range b o k = get_range buf o k)).
        rewrite ET. cbn [of_option bind].
        assert (G : get_range t 0 (ty_size rt) = Some d).
        { rewrite <- LD. rewrite <- (Z.add_0_l 0). rewrite (get_range_sub _ _ _ _ 0 (zlen d) GT) by lia. apply DX; lia. }
        rewrite G. cbn [of_option bind]. destruct (set_range_at0 buf d ltac:(lia)) as (b & EB & H). exists b. rewrite EB. auto.
Qed.

(** Flags a call works with. *)
Lemma call_flags p abi fixed rt ts c rv objs chain base g_blk g_v frame m fl r :
  signature_ok p abi fixed rt ts -> prep p abi fixed rt ts = Ok c ->
  call p c rv objs chain base g_blk g_v frame = Ok (m, fl, r) ->
  k_rtype c = rt /\
  (rv <> None -> in_fl rt fl) /\
  (rv = None -> Z.land fl A_RET_MASK = 0 /\ (Z.land fl A_NEED_COPY =? 0) = true).
Proof.
  intros SO PR CA. pose proof SO as (N & Q & RT & FX & W).
  rewrite (prep_ok _ _ _ _ _ SO) in PR. injection PR as PR.
  assert (ER : k_rtype c = rt) by (rewrite <- PR; reflexivity).
  assert (EF : k_flags c = all_flags p fixed rt ts) by (rewrite <- PR; reflexivity).
  clear PR. pose proof (flags_bits p fixed rt ts RT) as FB. cbv zeta in FB. rewrite <- EF in FB.
  destruct FB as (F1 & F2 & F3 & F4 & F5 & F6 & F7 & F8 & F9 & F10).
  unfold call in CA. revert CA F2 F4 F5 F6 F8 F10. generalize (if Z.land (k_flags c) A_VARARG =? 0 then k_flags c else k_flags c - A_VARARG).
  intros f0 CA F2 F4 F5 F6 F8 F10.
  apply bind_ok in CA as ([blk st] & _ & CA). apply bind_ok in CA as (b1 & _ & CA).
  apply bind_ok in CA as (v & _ & CA). apply bind_ok in CA as (x & _ & CA). 
  assert (FE : fl = match rv with None => if negb (Z.land f0 A_IN_MEM =? 0) then f0 else Z.land f0 A_ARG_V | Some _ => f0 end) by congruence.
  split; [exact ER|]. split.
  - intros NN. destruct rv; [|congruence]. subst fl. split; auto.
  - intros ->. rewrite F6 in FE. destruct (ret_flags_ok p rt RT) as [_ IB].
    subst fl. destruct (Z.land (spec_flags rt) A_IN_MEM =? 0) eqn:IM; cbn [negb].
    + clear. split.
      * rewrite <- Z.land_assoc. change (Z.land A_ARG_V A_RET_MASK) with 0. apply Z.land_0_r.
      * rewrite <- Z.land_assoc. change (Z.land A_ARG_V A_NEED_COPY) with 0. rewrite Z.land_0_r. reflexivity.
    + rewrite F8, F10. revert IB IM. clear. generalize (spec_flags rt). intros z IB IM. cbn in IB.
      repeat (destruct IB as [<-|IB]; [try discriminate IM; split; reflexivity|]). contradiction.
Qed.

Theorem call_result p abi fixed rt ts c a objs chain base g_blk g_v frame m fl r :
  signature_ok p abi fixed rt ts -> prep p abi fixed rt ts = Ok c ->
  call p c (Some a) objs chain base g_blk g_v frame = Ok (m, fl, r) ->
  natural rt -> in_memory rt = false ->
  forall x v tmp buf d, zlen x = 16 -> bytes_ok x -> zlen v = 64 -> zlen tmp = 16 ->
  zlen d = ty_size rt -> returned rt x v d -> room rt <= zlen buf ->
  exists b, finish c fl (ARet x v) tmp buf = Ok b /\ stored rt d buf b.
Proof.
  intros SO PR CA NR IM x v tmp buf d LX BX LV LT LD RET RM.
  destruct (call_flags _ _ _ _ _ _ _ _ _ _ _ _ _ _ _ _ SO PR CA) as (ER & FL & _).
  pose proof SO as (_ & _ & RT & _). destruct RT as [-> | [_ Q]]; [|].
  - exfalso. destruct (natural_int_or _ NR) as [[I|I]|C]; [discriminate I| |exact C].
    cbn in I. repeat (destruct I as [I|I]; [discriminate I|]). exact I.
  - apply (finish_ok p c fl rt x v tmp buf d); auto. apply FL. discriminate.
Qed.

Theorem call_no_store p abi fixed rt ts c rv objs chain base g_blk g_v frame m fl r :
  signature_ok p abi fixed rt ts -> prep p abi fixed rt ts = Ok c ->
  call p c rv objs chain base g_blk g_v frame = Ok (m, fl, r) ->
  rv = None \/ rt = ty_void \/ in_memory rt = true ->
  forall x tmp buf, finish c fl x tmp buf = Ok buf.
Proof.
  intros SO PR CA CASES x tmp buf.
  destruct (call_flags _ _ _ _ _ _ _ _ _ _ _ _ _ _ _ _ SO PR CA) as (ER & FL & FN).
  assert (Z0 : Z.land fl A_RET_MASK = 0 /\ (Z.land fl A_NEED_COPY =? 0) = true).
  { destruct rv as [a|]; [|auto]. destruct (FL ltac:(discriminate)) as [F1 F2]. rewrite F1, F2.
    destruct CASES as [E|[-> | IM]]; [discriminate|split; reflexivity|].
    pose proof SO as (_ & _ & RT & _). pose proof (in_mem_bit p rt RT) as B. unfold in_memory in IM. rewrite IM in B. cbn [negb] in B.
    destruct (ret_flags_ok p rt RT) as [_ IB]. revert IB B. clear. generalize (spec_flags rt). intros z IB B. cbn in IB.
    repeat (destruct IB as [<-|IB]; [try discriminate B; split; reflexivity|]). contradiction. }
  destruct Z0 as [Z1 Z2]. unfold finish. rewrite Z2. unfold store_ret. rewrite Z1. reflexivity.
Qed.

(** Closures. *)
Lemma load_vs_ok slot u : 0 < u <= 16 -> forall n, u * Z.of_nat n <= zlen slot ->
  exists l, load_vs slot u n = Ok l /\ zlen l = 16 * Z.of_nat n /\
    forall k, (k < n)%nat -> get_range l (16 * Z.of_nat k) u = get_range slot (u * Z.of_nat k) u.
Proof.
  intros U. induction n as [|n IH]; intros L.
  - exists []. split; [reflexivity|]. split; [reflexivity|]. intros; lia.
  - destruct IH as (l & E & ZL & H); [lia|]. cbn [load_vs]. rewrite E. cbn [bind].
    destruct (get_range_ok slot (u * Z.of_nat n) u) as (d & G & LD); [nia|lia|nia|]. rewrite G. cbn [of_option bind].
    eexists. split; [reflexivity|].
    assert (ZR : zlen (d ++ repeat 0 (16 - length d)) = 16) by (rewrite zlen_app, zlen_repeat; unfold zlen in *; lia).
    split; [rewrite zlen_app; lia|].
    intros k Hk. destruct (Nat.lt_ge_cases k n) as [K|K].
    + rewrite <- (H k K). rewrite get_range_some; [|lia|lia|rewrite zlen_app; lia]. rewrite get_range_some by lia. f_equal.
      rewrite skipn_app. rewrite firstn_app.
      assert (16 * Z.of_nat k + u <= 16 * Z.of_nat n) by lia.
      replace (Z.to_nat u - length (skipn (Z.to_nat (16 * Z.of_nat k)) l))%nat with 0%nat
        by (rewrite skipn_length; unfold zlen in ZL; lia).
      cbn [firstn]. apply app_nil_r.
    + assert (k = n) by lia. subst k. rewrite G. rewrite get_range_some; [|lia|lia|rewrite zlen_app; lia]. f_equal.
      rewrite skipn_app. rewrite skipn_all2 by (unfold zlen in ZL; lia). cbn [app].
      replace (Z.to_nat (16 * Z.of_nat n) - length l)%nat with 0%nat by (unfold zlen in ZL; lia). cbn [skipn].
      replace (Z.to_nat u) with (length d) by (unfold zlen in LD; lia).
      rewrite firstn_app, Nat.sub_diag, firstn_all. cbn [firstn]. apply app_nil_r.
Qed.

Lemma get_range_prefix (l r : list Z) o k : 0 <= o -> 0 <= k -> o + k <= zlen l -> get_range (l ++ r) o k = get_range l o k.
Proof.
  intros O K L. pose proof (zlen_nonneg r). rewrite get_range_some by (rewrite ?zlen_app; lia). rewrite get_range_some by lia. f_equal.
  rewrite skipn_app, firstn_app.
  replace (Z.to_nat k - length (skipn (Z.to_nat o) l))%nat with 0%nat by (rewrite skipn_length; unfold zlen in L; lia).
  cbn [firstn]. apply app_nil_r.
Qed.

Theorem load_result rt fl slot x v d p : natural rt -> quads_ok p rt -> in_memory rt = false ->
  Z.land fl A_RET_MASK = Z.land (spec_flags rt) A_RET_MASK ->
  zlen slot = 64 -> bytes_ok slot -> zlen x = 16 -> bytes_ok x -> zlen v = 64 ->
  get_range slot 0 (ty_size rt) = Some d ->
  exists x' v', load_ret fl slot (ARet x v) = Ok (ARet x' v') /\ zlen x' = 16 /\ bytes_ok x' /\ zlen v' = 64 /\ returned rt x' v' d /\
    (integral (ty_code rt) = true -> get_range x' 0 8 = Some (le_enc 8 (widened (ty_code rt) d))).
Proof.
  intros N Q IM FL LS BS LX BX LV G. pose proof (natural_basic _ N) as (SP & _).
  pose proof (get_range_inv _ _ _ _ G) as (_ & _ & _ & _ & LD).
  assert (BD : bytes_ok d) by apply (bytes_ok_get_range _ _ _ _ BS G).
  unfold load_ret. rewrite FL. cbn [r_x r_v]. unfold returned.
  assert (X8 : forall w, zlen (le_enc 8 w ++ skipn 8 x) = 16) by (intros; rewrite zlen_app, le_enc_zlen, zlen_skipn; lia).
  assert (G8 : forall w, get_range (le_enc 8 w ++ skipn 8 x) 0 8 = Some (le_enc 8 w)).
  { intros w. rewrite get_range_prefix by (rewrite ?le_enc_zlen; lia).
    pose proof (get_range_all (le_enc 8 w)) as GA. rewrite le_enc_zlen in GA. exact GA. }
  destruct (natural_int_or rt N) as [I|C].
  - destruct (int_type_facts rt I) as (HN & _ & SZ & IT & _). rewrite HN.
    assert (W8 : forall w, le_enc 8 w = le_enc 8 (widened (ty_code rt) d) ->
      exists x' v', Ok (ARet (le_enc 8 w ++ skipn 8 x) v) = Ok (ARet x' v') /\ zlen x' = 16 /\ bytes_ok x' /\ zlen v' = 64 /\ get_range x' 0 (zlen d) = Some d /\
        (integral (ty_code rt) = true -> get_range x' 0 8 = Some (le_enc 8 (widened (ty_code rt) d)))).
    { intros w E. eexists _, _. split; [reflexivity|]. split; [apply X8|]. split; [apply bytes_ok_app; split; [apply le_enc_ok|apply bytes_ok_skipn; auto]|]. split; [exact LV|]. split.
      - destruct (extend_integer_ok rt d I LD BD) as (_ & r & EA).
        rewrite E, EA, <- app_assoc. rewrite get_range_prefix by (pose proof (zlen_nonneg d); lia). apply get_range_all.
      - intros _. rewrite <- E. apply G8. }
    assert (M64 : forall y, le_enc 8 (y mod 2 ^ 64) = le_enc 8 y) by (intros; apply (le_enc_mod 8)).
    destruct I as [-> | I].
    + cbn in G. change (get_range slot 0 8 = Some d) in G. rewrite G.
      assert (DE : d = le_enc 8 (le_dec d)) by (rewrite <- (le_enc_dec d BD) at 1; f_equal; cbn in LD; unfold zlen in LD; lia).
      change (exists x' v', Ok (ARet (d ++ skipn 8 x) v) = Ok (ARet x' v') /\ zlen x' = 16 /\ bytes_ok x' /\ zlen v' = 64 /\ get_range x' 0 (zlen d) = Some d /\
        (integral (ty_code ty_pointer) = true -> get_range x' 0 8 = Some (le_enc 8 (widened (ty_code ty_pointer) d)))).
      replace (d ++ skipn 8 x) with (le_enc 8 (le_dec d) ++ skipn 8 x) by (rewrite <- DE; reflexivity). apply W8. unfold widened. rewrite M64. reflexivity.
    + cbn in I.
      repeat (destruct I as [<-|I];
        [cbn in G; rewrite G; cbn [of_option bind];
         first [ apply W8; unfold widened, wrap64, wrap; cbn in LD; rewrite ?LD, ?M64; reflexivity
               | assert (DE : d = le_enc 8 (le_dec d)) by (rewrite <- (le_enc_dec d BD) at 1; f_equal; cbn in LD; unfold zlen in LD; lia);
                 match goal with |- exists x' v', ?e = _ /\ ?R => change e with (Ok (ARet (d ++ skipn 8 x) v)) end;
                 replace (d ++ skipn 8 x) with (le_enc 8 (le_dec d) ++ skipn 8 x) by (rewrite <- DE; reflexivity); apply W8; unfold widened; cbn in LD; rewrite ?LD, M64; cbn [ty_uint64 ty_sint64 ty_code signed_code];
                 try reflexivity;
                 change (8 * 8) with 64; rewrite <- (M64 (to_signed 64 _)), (to_signed_mod 64), M64 by lia; reflexivity ]|]).
      contradiction.
  - change (agg_code (ty_code rt)) in C. pose proof (agg_flags rt C) as SF.
    assert (NI : integral (ty_code rt) = false) by (destruct (ty_code rt); cbn in *; try contradiction; reflexivity).
    rewrite NI. rewrite SF. unfold in_memory, by_ref in IM.
    destruct (hfa_of rt) as [[c n]|] eqn:HF.
    + pose proof (proj1 (hfa_of_spec _ _ _) HF) as (MM & FC & LN).
      destruct (homogeneous_size rt N c n FC MM) as [HS HA]. destruct (vfp_code_pos rt c n HF) as (V & _). rewrite V.
      assert (U : 0 < fsize c <= 16) by (destruct c; try discriminate FC; cbn; lia).
      destruct (load_vs_ok slot (fsize c) U n ltac:(nia)) as (l & E & ZL & GL).
      assert (R : exists x' v', (let* l := load_vs slot (fsize c) n in Ok (ARet x (l ++ skipn (16 * n) v))) = Ok (ARet x' v') /\
         zlen x' = 16 /\ bytes_ok x' /\ zlen v' = 64 /\ in_vregs v' 0 (fsize c) n d /\ (false = true -> get_range x' 0 8 = Some (le_enc 8 (widened (ty_code rt) d)))).
      { rewrite E. cbn [bind]. eexists _, _. split; [reflexivity|]. split; [exact LX|]. split; [exact BX|].
        split; [rewrite zlen_app, zlen_skipn; lia|]. split; [|discriminate].
        intros k Hk. destruct (get_range_ok d (fsize c * Z.of_nat k) (fsize c)) as (b & GB & _); [nia|lia|nia|].
        exists b. split; [exact GB|]. rewrite Z.add_0_l, get_range_prefix by nia. rewrite (GL k Hk).
        rewrite <- (Z.add_0_l (fsize c * Z.of_nat k)). rewrite (get_range_sub _ _ _ _ (fsize c * Z.of_nat k) (fsize c) G) by nia. exact GB. }
      assert (CN : n = 1%nat \/ n = 2%nat \/ n = 3%nat \/ n = 4%nat) by lia.
      destruct c; try discriminate FC; destruct CN as [-> | [-> | [-> | ->]]]; exact R.
    + rewrite IM. destruct (get_range_ok slot 0 16 ltac:(lia) ltac:(lia) ltac:(lia)) as (d16 & G16 & L16).
      destruct (get_range_ok slot 0 8 ltac:(lia) ltac:(lia) ltac:(lia)) as (d8 & G8' & L8).
      assert (P16 : get_range d16 0 (ty_size rt) = Some d).
      { rewrite <- (get_range_sub _ _ _ _ 0 (ty_size rt) G16) by lia. exact G. }
      rewrite LD.
      assert (R : exists x' v', (let* d := of_option (get_range slot 0 16) in Ok (ARet d v)) = Ok (ARet x' v') /\
         zlen x' = 16 /\ bytes_ok x' /\ zlen v' = 64 /\ get_range x' 0 (ty_size rt) = Some d /\ (false = true -> get_range x' 0 8 = Some (le_enc 8 (widened (ty_code rt) d)))).
      { rewrite G16. cbn [of_option bind]. eexists _, _. split; [reflexivity|]. split; [lia|].
        split; [apply (bytes_ok_get_range _ _ _ _ BS G16)|]. split; [exact LV|]. split; [exact P16|discriminate]. }
      destruct (ty_size rt =? 16) eqn:S16; [exact R|]. destruct (ty_size rt =? 8) eqn:S8; [|exact R].
      assert (d8 = d) by (replace (ty_size rt) with 8 in G by lia; congruence). subst d8.
      match goal with |- exists x' v', ?e = _ /\ ?R => change e with (let* d := of_option (get_range slot 0 8) in Ok (ARet (d ++ skipn 8 x) v)) end.
      rewrite G8'. cbn [of_option bind]. eexists _, _. split; [reflexivity|].
      split; [rewrite zlen_app, zlen_skipn; lia|]. split; [apply bytes_ok_app; split; [auto|apply bytes_ok_skipn; auto]|].
      split; [exact LV|]. split; [|discriminate].
      rewrite get_range_prefix by lia. rewrite <- LD. apply get_range_all.
Qed.
