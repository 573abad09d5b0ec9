(** Facts about the Win64 model. *)
From Coq Require Import ZifyBool ZifyNat Znumtheory.
From Verif Require Import Base BaseFacts Types LayoutSpec NaturalTypes NaturalFacts Unix64Model Unix64Spec Unix64Link
  Win64Model Win64Spec Win64Link.
Local Arguments Z.mul : simpl never.
Local Arguments Z.add : simpl never.
Local Arguments Z.sub : simpl never.
Local Arguments Z.pow : simpl never.
Local Arguments le_enc : simpl never.

(** ** Memory *)

Lemma mread_inv m p n d : mread m p n = Some d ->
  exists b, In b m /\ get_range (b_bytes b) (p - b_addr b) n = Some d.
Proof.
  induction m as [|b m IH]; cbn [mread]; [discriminate|].
  destruct (get_range (b_bytes b) (p - b_addr b) n) eqn:G.
  - intros [= <-]. exists b. split; [left; reflexivity|exact G].
  - intros H. destruct (IH H) as (b' & I & E). exists b'. split; [right; exact I|exact E].
Qed.

Lemma mread_live m p n d : mread m p n = Some d -> 0 < n ->
  exists a l, In (a, l) (live m) /\ a <= p /\ p + n <= a + l.
Proof.
  intros H Hn. apply mread_inv in H as (b & I & G). apply get_range_inv in G as (G1 & G2 & G3 & _).
  exists (b_addr b), (zlen (b_bytes b)). split; [apply in_map_iff; exists b; auto|]. lia.
Qed.

Lemma mread_len m p n d : mread m p n = Some d -> zlen d = n.
Proof. intros H. apply mread_inv in H as (b & I & G). apply get_range_inv in G. tauto. Qed.

Lemma get_range_0 {A} (m : list A) o d : get_range m o 0 = Some d -> d = [].
Proof. intros H. apply get_range_inv in H as (_ & _ & _ & _ & L). apply zlen_0. exact L. Qed.

Lemma mread_0 m p d : mread m p 0 = Some d -> d = [].
Proof. intros H. apply mread_len in H. apply zlen_0. exact H. Qed.

(** A new block apart from the live ones hides nothing. *)
Lemma keeps_cons b m : (forall r, In r (live m) -> apart (b_addr b, zlen (b_bytes b)) r) -> keeps m (b :: m).
Proof.
  intros F p n d H. cbn [mread]. destruct (get_range (b_bytes b) (p - b_addr b) n) as [e|] eqn:G; [|exact H].
  pose proof (get_range_inv _ _ _ _ G) as (G1 & G2 & G3 & _).
  destruct (Z.eq_dec n 0) as [->|Hn].
  - apply get_range_0 in G. apply mread_0 in H. congruence.
  - destruct (mread_live _ _ _ _ H ltac:(lia)) as (a & l & I & L1 & L2).
    apply F in I. unfold apart in I. cbn in I. lia.
Qed.

Lemma keeps_refl m : keeps m m.
Proof. intros p n d H; exact H. Qed.
Lemma keeps_trans a b c : keeps a b -> keeps b c -> keeps a c.
Proof. unfold keeps; eauto. Qed.

Lemma args_at_keeps m m' ts ps vs : keeps m m' -> args_at m ts ps vs -> args_at m' ts ps vs.
Proof. intros K H. induction H; constructor; auto. Qed.

Lemma args_at_length m ts ps vs : args_at m ts ps vs -> length ts = length ps /\ length ts = length vs.
Proof. intros H. induction H; cbn; intuition lia. Qed.

(** ** Copying *)

Definition struct_code (t : ftype) : bool := match ty_code t with T_STRUCT => true | _ => false end.

Lemma struct_code_eqb t : tcode_eqb (ty_code t) T_STRUCT = struct_code t.
Proof. unfold struct_code. destruct (ty_code t); reflexivity. Qed.

Lemma to_signed_small x : 0 <= x < 2 ^ 31 -> to_signed 32 x = x.
Proof.
  intros H. unfold to_signed. rewrite Z.mod_small by lia. change (2 ^ (32 - 1)) with (2 ^ 31).
  destruct (Z.ltb_spec x (2 ^ 31)); lia.
Qed.

Lemma big_cons max t ts : big max (t :: ts) =
  if struct_code t && (max <? ty_size t) then ty_size t :: big max ts else big max ts.
Proof.
  unfold big, struct_code. cbn [filter]. destruct (ty_code t); cbn [filter map andb]; try reflexivity.
  all: destruct (max <? ty_size t); reflexivity.
Qed.

Lemma allocas_ok_app used ns ms stk : allocas_ok used (ns ++ ms) stk ->
  allocas_ok used ns stk.
Proof.
  revert used stk; induction ns as [|n ns IH]; intros used stk; cbn [app allocas_ok]; [auto|].
  destruct stk; [auto|]. intuition eauto.
Qed.

(** The copies that a loop makes: for each copied argument a fresh block. *)
Fixpoint copied (max : Z) (ts : list ftype) (ps ps' : list Z) (m : mem) : Prop :=
  match ts, ps, ps' with
  | [], _, _ => True
  | t :: ts', p :: r, p' :: r' =>
    (if struct_code t && (max <? ty_size t)
     then forall a l, In (a, l) (live m) -> apart (p', ty_size t) (a, l) else p' = p) /\ copied max ts' r r' m
  | _, _, _ => True
  end.

Lemma copied_sub max ts : forall ps ps' m m', (forall r, In r (live m) -> In r (live m')) ->
  copied max ts ps ps' m' -> copied max ts ps ps' m.
Proof.
  induction ts as [|t ts IH]; intros ps ps' m m' S; cbn [copied]; [auto|].
  destruct ps, ps'; auto. intros [A B]. split; [|eapply IH; eauto].
  destruct (struct_code t && (max <? ty_size t)); auto.
Qed.

Lemma copy_structs_ok max ts : 0 <= max -> Forall (fun t => 0 <= ty_size t < 2 ^ 31) ts ->
  forall ps vs stk m more, args_at m ts ps vs -> allocas_ok (live m) (big max ts ++ more) stk ->
  exists ps' stk' m', copy_structs max ts ps stk m = Ok (ps', stk', m') /\
    args_at m' ts ps' vs /\ keeps m m' /\ allocas_ok (live m') more stk' /\
    (forall r, In r (live m) -> In r (live m')) /\ copied max ts ps ps' m /\
    (big max ts = [] -> ps' = ps /\ m' = m).
Proof.
  intros Hm. induction ts as [|t ts IH]; intros Hs ps vs stk m more A F.
  - exists ps, stk, m. cbn [copy_structs copied]. inversion A; subst. repeat split; auto using keeps_refl.
  - inversion A as [|? p v ? ps0 vs0 P0 R B A']; subst. inversion Hs as [|? ? Ht Hs']; subst.
    cbn [copy_structs]. cbv zeta. rewrite struct_code_eqb, (to_signed_small (ty_size t)) by lia.
    rewrite big_cons in *. replace (ty_size t >? max) with (max <? ty_size t) by lia.
    cbn [copied]. destruct (struct_code t && (max <? ty_size t)) eqn:C.
    + cbn [app allocas_ok] in F. destruct stk as [|a stk]; [contradiction|]. destruct F as (Fa & Fd & F).
      rewrite R. cbn [of_option bind].
      pose proof (mread_len _ _ _ _ R) as Lv.
      assert (K : keeps m (Block a v :: m)).
      { apply keeps_cons. cbn [b_addr b_bytes]. rewrite Lv. exact Fd. }
      assert (Lm : live (Block a v :: m) = (a, ty_size t) :: live m).
      { unfold live. cbn [map b_addr b_bytes]. rewrite Lv. reflexivity. }
      destruct (IH Hs' ps0 vs0 stk (Block a v :: m) more) as (ps' & stk' & m' & E & A2 & K2 & F2 & S2 & C2 & _).
      { eapply args_at_keeps; eauto. } { rewrite Lm. exact F. }
      rewrite E. cbn [bind]. exists (a :: ps'), stk', m'. split; [reflexivity|].
      split. { constructor; auto. apply K2. cbn [mread b_addr b_bytes]. rewrite Z.sub_diag.
        pose proof (get_range_all v) as G. rewrite Lv in G. rewrite G. reflexivity. }
      split; [eapply keeps_trans; eauto|]. split; [auto|].
      split; [intros r I; apply S2; rewrite Lm; right; exact I|].
      split; [split; [intros x l I; exact (Fd _ I)|]|discriminate].
      eapply copied_sub; [|exact C2]. intros r I. rewrite Lm. right. exact I.
    + destruct (IH Hs' ps0 vs0 stk m more A' F) as (ps' & stk' & m' & E & A2 & K2 & F2 & S2 & C2 & N2).
      rewrite E. cbn [bind]. exists (p :: ps'), stk', m'. split; [reflexivity|].
      split; [constructor; auto|]. split; [auto|]. split; [auto|]. split; [auto|]. split; [auto|].
      intros Hb. destruct (N2 Hb) as [-> ->]. auto.
Qed.

(** ** Filling slots *)

Definition fits (n : Z) : bool := (n =? 8) || (n =? 4) || (n =? 2) || (n =? 1).
Lemma fits_iff n : fits n = true <-> fits_slot n.
Proof. unfold fits, fits_slot. lia. Qed.
Lemma fits_alt n : (n =? 1) || (n =? 2) || (n =? 4) || (n =? 8) = fits n.
Proof. unfold fits. destruct (n =? 1), (n =? 2), (n =? 4), (n =? 8); reflexivity. Qed.

(** The word of an argument. *)
Definition slot_value (t : ftype) (p : Z) (v : list Z) : Z := if fits (ty_size t) then le_dec v else p.

Lemma le_dec_small v n : bytes_ok v -> zlen v = n -> n <= 8 -> 0 <= le_dec v < 2 ^ 64.
Proof.
  intros B L H. pose proof (le_dec_bound v B) as Bd. rewrite L in Bd.
  assert (2 ^ (8 * n) <= 2 ^ 64) by (apply Z.pow_le_mono_r; lia). lia.
Qed.

Lemma slot_value_range m t p v : mread m p (ty_size t) = Some v -> bytes_ok v -> 0 <= p < 2 ^ 64 ->
  0 <= slot_value t p v < 2 ^ 64.
Proof.
  intros R B P. unfold slot_value. destruct (fits (ty_size t)) eqn:F; [|auto].
  apply mread_len in R. apply (le_dec_small v (ty_size t)); auto. apply fits_iff in F. unfold fits_slot in F. lia.
Qed.

Fixpoint words_at (area : list Z) (ts : list ftype) (ps : list Z) (vs : list (list Z)) (j : Z) : Prop :=
  match ts, ps, vs with
  | [], [], [] => True
  | t :: ts', p :: ps', v :: vs' =>
    get_range area (8 * j) 8 = Some (le_enc 8 (slot_value t p v)) /\ words_at area ts' ps' vs' (j + 1)
  | _, _, _ => False
  end.

Lemma win_slots_ok m ts : forall ps vs j area, args_at m ts ps vs -> 0 <= j -> 8 * (j + zlen ts) <= zlen area ->
  exists area', win_slots m ts ps j area = Ok area' /\ zlen area' = zlen area /\
    (forall o n, o + n <= 8 * j -> get_range area' o n = get_range area o n) /\ words_at area' ts ps vs j.
Proof.
  induction ts as [|t ts IH]; intros ps vs j area A Hj L.
  - inversion A; subst. exists area. cbn [win_slots words_at]. auto.
  - inversion A as [|? p v ? ps0 vs0 P0 R B A']; subst. rewrite zlen_cons in L. pose proof (zlen_nonneg ts).
    cbn [win_slots]. cbv zeta.
    assert (W : (if (ty_size t =? 8) || (ty_size t =? 4) || (ty_size t =? 2) || (ty_size t =? 1)
      then let* d := of_option (mread m p (ty_size t)) in Ok (le_dec d) else Ok p) = Ok (slot_value t p v)).
    { fold (fits (ty_size t)). unfold slot_value. destruct (fits (ty_size t)); [rewrite R|]; reflexivity. }
    rewrite W. cbn [bind].
    destruct (set_range_ok area (8 * j) (le_enc 8 (slot_value t p v))) as (area1 & S & L1); [lia|rewrite le_enc_zlen; lia|].
    rewrite S. cbn [of_option bind].
    destruct (IH ps0 vs0 (j + 1) area1 A' ltac:(lia) ltac:(lia)) as (area' & E & L2 & K & Wd).
    exists area'. split; [exact E|]. split; [lia|]. split.
    + intros o n Ho. rewrite K by lia. eapply get_set_disjoint; eauto.
    + cbn [words_at]. split; [|exact Wd]. rewrite K by lia.
      pose proof (get_set_same _ _ _ _ S) as G. rewrite le_enc_zlen in G. exact G.
Qed.

(** ** Registers *)

Definition regs_of (area : list Z) (s : wstate) : Prop :=
  exists s0 s1 s2 s3, get_range area 0 8 = Some s0 /\ get_range area 8 8 = Some s1 /\ get_range area 16 8 = Some s2 /\
    get_range area 24 8 = Some s3 /\ w_gpr s = [le_dec s0; le_dec s1; le_dec s2; le_dec s3] /\
    w_xmm s = [s0 ++ repeat 0 8; s1 ++ repeat 0 8; s2 ++ repeat 0 8; s3 ++ repeat 0 8] /\ w_stack s = area.

Lemma regs_of_slot area s j w : regs_of area s -> 0 <= j < 4 -> get_range area (8 * j) 8 = Some w ->
  znth (w_gpr s) j = Some (le_dec w) /\ znth (w_xmm s) j = Some (w ++ repeat 0 8).
Proof.
  intros (s0 & s1 & s2 & s3 & E0 & E1 & E2 & E3 & G & X & _) Hj Hw. rewrite G, X.
  assert (C : j = 0 \/ j = 1 \/ j = 2 \/ j = 3) by lia.
  destruct C as [-> | [-> | [-> | ->]]].
  - change (8 * 0) with 0 in Hw. rewrite E0 in Hw. injection Hw as ->. split; reflexivity.
  - change (8 * 1) with 8 in Hw. rewrite E1 in Hw. injection Hw as ->. split; reflexivity.
  - change (8 * 2) with 16 in Hw. rewrite E2 in Hw. injection Hw as ->. split; reflexivity.
  - change (8 * 3) with 24 in Hw. rewrite E3 in Hw. injection Hw as ->. split; reflexivity.
Qed.

Lemma slot_word_ok area s j w : regs_of area s -> 0 <= j -> 0 <= w < 2 ^ 64 ->
  get_range area (8 * j) 8 = Some (le_enc 8 w) -> slot_word (w_gpr s) (w_stack s) j = Some (le_enc 8 w).
Proof.
  intros R Hj Hw G. unfold slot_word. destruct (Z.ltb_spec j 4).
  - destruct (regs_of_slot area s j (le_enc 8 w) R ltac:(lia) G) as [-> _]. rewrite le_dec_enc. f_equal. f_equal.
    apply Z.mod_small. exact Hw.
  - destruct R as (? & ? & ? & ? & _ & _ & _ & _ & _ & _ & ->). exact G.
Qed.

Lemma le_enc_low v n : bytes_ok v -> zlen v = n -> n <= 8 -> firstn (Z.to_nat n) (le_enc 8 (le_dec v)) = v.
Proof.
  intros B L H. pose proof (zlen_nonneg v). rewrite le_enc_firstn by lia.
  replace (Z.to_nat n) with (length v) by (unfold zlen in L; lia). apply le_enc_dec. exact B.
Qed.

Lemma words_hold m area s : regs_of area s -> forall ts ps vs j, args_at m ts ps vs -> 0 <= j ->
  words_at area ts ps vs j ->
  win_all (win_holds s m) ts vs j /\ win_all (win_both (w_gpr s) (w_xmm s)) ts vs j.
Proof.
  intros R. induction ts as [|t ts IH]; intros ps vs j A Hj W.
  - inversion A; subst. split; exact I.
  - inversion A as [|? p v ? ps0 vs0 P0 Rd B A']; subst. cbn [words_at] in W. destruct W as [W1 W2].
    destruct (IH ps0 vs0 (j + 1) A' ltac:(lia) W2) as [I1 I2].
    pose proof (slot_value_range _ _ _ _ Rd B P0) as Rg.
    pose proof (slot_word_ok _ _ _ _ R Hj Rg W1) as Sw. pose proof (mread_len _ _ _ _ Rd) as Lv.
    cbn [win_all]. split; (split; [|assumption]).
    + split.
      * intros F. assert (F8 : ty_size t <= 8) by (unfold fits_slot in F; lia). apply fits_iff in F.
        unfold slot_value in *. rewrite F in *.
        destruct (is_fp t && (j <? 4)) eqn:Fp.
        -- assert (Hj4 : 0 <= j < 4) by lia. destruct (regs_of_slot _ _ _ _ R Hj4 W1) as [_ X].
           eexists. split; [exact X|]. rewrite firstn_app.
           replace (Z.to_nat (ty_size t) - length (le_enc 8 (le_dec v)))%nat with 0%nat by (rewrite le_enc_length; lia).
           cbn [firstn]. rewrite app_nil_r. apply le_enc_low; auto.
        -- eexists. split; [exact Sw|]. apply le_enc_low; auto.
      * intros F. assert (Fb : fits (ty_size t) = false).
        { destruct (fits (ty_size t)) eqn:E; [|reflexivity]. apply fits_iff in E. contradiction. }
        unfold slot_value in *. rewrite Fb in *. eexists. split; [exact Sw|].
        rewrite le_dec_enc. change (2 ^ (8 * Z.of_nat 8)) with (2 ^ 64). rewrite Z.mod_small by lia. exact Rd.
    + intros F Hj4. assert (F8 : ty_size t <= 8) by (unfold fits_slot in F; lia). apply fits_iff in F.
      unfold slot_value in *. rewrite F in *. destruct (regs_of_slot area s j _ R ltac:(lia) W1) as [Gp X].
      split; eexists; (split; [eassumption|]).
      * rewrite firstn_app.
        replace (Z.to_nat (ty_size t) - length (le_enc 8 (le_dec v)))%nat with 0%nat by (rewrite le_enc_length; lia).
        cbn [firstn]. rewrite app_nil_r. apply le_enc_low; auto.
      * rewrite le_dec_enc. change (2 ^ (8 * Z.of_nat 8)) with (2 ^ 64). rewrite Z.mod_small by lia.
        replace (Z.to_nat (ty_size t)) with (length v) by (unfold zlen in Lv; lia). apply le_enc_dec. exact B.
Qed.
