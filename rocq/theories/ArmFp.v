(** layout_vfp_args assigns the floating point registers of the procedure call standard. *)
From Coq Require Import ZifyBool ZifyNat.
From Verif Require Import Base BaseFacts Types LayoutSpec NaturalTypes NaturalFacts ByteMem ArmModel ArmSpec ArmHfa.
Local Arguments Z.mul : simpl never.
Local Arguments Z.add : simpl never.

(** ** Ranges *)

Lemma range_cons r n : 0 < n -> range r n = r :: range (r + 1) (n - 1).
Proof.
  intros P. unfold range. replace (Z.to_nat n) with (S (Z.to_nat (n - 1))) by lia.
  cbn [seq map]. f_equal; [lia|]. rewrite <- seq_shift, map_map. apply map_ext. intros k. lia.
Qed.
Lemma range_nil r : range r 0 = [].
Proof. reflexivity. Qed.
Lemma range_in x r n : In x (range r n) <-> r <= x < r + n.
Proof.
  unfold range. rewrite in_map_iff. split.
  - intros (k & <- & K). apply in_seq in K. lia.
  - intros H. exists (Z.to_nat (x - r)). split; [lia|]. apply in_seq. lia.
Qed.
Lemma range_length r n : length (range r n) = Z.to_nat n.
Proof. unfold range. rewrite map_length, seq_length. reflexivity. Qed.
Lemma range_nodup r n : NoDup (range r n).
Proof.
  unfold range. generalize (seq_NoDup (Z.to_nat n) 0). generalize (seq 0 (Z.to_nat n)).
  induction l as [|x l IH]; cbn [map]; intros H; constructor; inversion H as [|? ? H1 H2]; subst; auto.
  rewrite in_map_iff. intros (y & E & Y). assert (y = x) by lia. congruence.
Qed.

Definition inu (u : list Z) (r : Z) : bool := existsb (Z.eqb r) u.
Lemma inu_in u r : inu u r = true <-> In r u.
Proof. unfold inu. rewrite existsb_exists. split; [intros (x & X & E); apply Z.eqb_eq in E; subst; auto|intros H; exists r; split; [auto|apply Z.eqb_refl]]. Qed.
Lemma inu_not u r : inu u r = false <-> ~ In r u.
Proof. rewrite <- inu_in. destruct (inu u r); split; congruence. Qed.
Lemma inu_app u v r : inu (u ++ v) r = inu u r || inu v r.
Proof. apply existsb_app. Qed.
Lemma inu_range r f k : inu (range f k) r = (f <=? r) && (r <? f + k).
Proof.
  destruct (inu (range f k) r) eqn:E.
  - apply inu_in, range_in in E. lia.
  - apply inu_not in E. rewrite range_in in E. lia.
Qed.

Lemma find_range (p : Z -> bool) n : forall a,
  match find p (range a (Z.of_nat n)) with
  | Some f => a <= f < a + Z.of_nat n /\ p f = true /\ forall r, a <= r < f -> p r = false
  | None => forall r, a <= r < a + Z.of_nat n -> p r = false
  end.
Proof.
  induction n as [|n IH]; intros a.
  - cbn. intros r H. lia.
  - rewrite range_cons by lia. replace (Z.of_nat (S n) - 1) with (Z.of_nat n) by lia. cbn [find].
    destruct (p a) eqn:P.
    + split; [lia|]. split; [auto|]. intros r H. lia.
    + specialize (IH (a + 1)). destruct (find p _) as [f|].
      * destruct IH as (A & B & C). split; [lia|]. split; [auto|]. intros r H.
        destruct (Z.eq_dec r a) as [-> |N]; [auto|]. apply C. lia.
      * intros r H. destruct (Z.eq_dec r a) as [-> |N]; [auto|]. apply IH. lia.
Qed.
Lemma find_fp_inv u n al : match find_fp u n al with
  | Some f => 0 <= f < 16 /\ free_at u f n al = true /\ forall r, 0 <= r < f -> free_at u r n al = false
  | None => forall r, 0 <= r < 16 -> free_at u r n al = false
  end.
Proof. exact (find_range (fun r => free_at u r n al) 16 0). Qed.
Lemma find_fp_some u n al f : 0 <= f < 16 -> free_at u f n al = true -> (forall r, 0 <= r < f -> free_at u r n al = false) ->
  find_fp u n al = Some f.
Proof.
  intros B F L. pose proof (find_fp_inv u n al) as X. destruct (find_fp u n al) as [g|].
  - destruct X as (Bg & Fg & Lg). f_equal. destruct (Z.lt_trichotomy g f) as [H|[H|H]]; auto.
    + rewrite L in Fg by lia. discriminate Fg.
    + rewrite Lg in F by lia. discriminate F.
  - rewrite X in F by lia. discriminate F.
Qed.
Lemma find_fp_none u n al : (forall r, 0 <= r < 16 -> free_at u r n al = false) -> find_fp u n al = None.
Proof.
  intros L. pose proof (find_fp_inv u n al) as X. destruct (find_fp u n al) as [g|]; [|reflexivity].
  destruct X as (Bg & Fg & Lg). rewrite L in Fg by lia. discriminate Fg.
Qed.
Lemma free_at_spec u r n al : free_at u r n al = true <-> r mod al = 0 /\ r + n <= 16 /\ forall k, r <= k < r + n -> ~ In k u.
Proof.
  unfold free_at. rewrite !andb_true_iff, Z.eqb_eq, Z.leb_le, forallb_forall. split.
  - intros ((A & B) & C). repeat split; auto. intros k K I. apply inu_in in I. specialize (C k (proj2 (range_in k r n) K)).
    unfold inu in I. rewrite I in C. discriminate C.
  - intros (A & B & C). repeat split; auto. intros k K. apply range_in in K. specialize (C k K). apply inu_not in C. unfold inu in C. rewrite C. reflexivity.
Qed.

(** ** Bits *)

Lemma bit_test x s : 0 <= s -> (Z.land x (Z.shiftl 1 s) =? 0) = negb (Z.testbit x s).
Proof.
  intros P. rewrite Z.shiftl_1_l. destruct (Z.testbit x s) eqn:B; cbn [negb].
  - apply Z.eqb_neq. intros E. assert (T : Z.testbit (Z.land x (2 ^ s)) s = true).
    { rewrite Z.land_spec, B, Z.pow2_bits_true by auto. reflexivity. }
    rewrite E, Z.bits_0 in T. discriminate T.
  - apply Z.eqb_eq. apply Z.bits_inj'. intros i I. rewrite Z.land_spec, Z.bits_0, Z.pow2_bits_eqb by auto.
    destruct (Z.eqb_spec s i) as [<-|N]; [rewrite B|rewrite andb_false_r]; reflexivity.
Qed.

Lemma probe_spec used n : forall s acc, 0 <= s ->
  match probe used s n acc with
  | Some bits => (forall k, s <= k < s + Z.of_nat n -> Z.testbit used k = false) /\
                 forall i, 0 <= i -> Z.testbit bits i = Z.testbit acc i || ((s <=? i) && (i <? s + Z.of_nat n))
  | None => exists k, s <= k < s + Z.of_nat n /\ Z.testbit used k = true
  end.
Proof.
  induction n as [|n IH]; intros s acc P; cbn [probe].
  - split; [intros; lia|]. intros i I. replace ((s <=? i) && (i <? s + Z.of_nat 0)) with false by lia. rewrite orb_false_r. reflexivity.
  - rewrite bit_test, negb_involutive by auto. destruct (Z.testbit used s) eqn:B.
    + exists s. split; [lia|auto].
    + specialize (IH (s + 1) (Z.lor acc (Z.shiftl 1 s)) ltac:(lia)). destruct (probe _ _ _ _) as [bits|].
      * destruct IH as [F T]. split.
        -- intros k K. destruct (Z.eq_dec k s) as [-> |N]; [auto|]. apply F. lia.
        -- intros i I. rewrite T by auto. rewrite Z.lor_spec, Z.shiftl_1_l, Z.pow2_bits_eqb by auto.
           destruct (Z.testbit acc i); [reflexivity|]. cbn [orb].
           destruct (Z.eqb_spec s i) as [<-|N]; lia.
      * destruct IH as (k & K & T). exists k. split; [lia|auto].
Qed.

(** The bits of [x] are the elements of [u]. *)
Definition same (x : Z) (u : list Z) : Prop := forall r, 0 <= r -> Z.testbit x r = inu u r.

Lemma search_find fuel used u n al : same used u -> 1 <= n -> al = 1 \/ al = 2 -> forall reg,
  reg mod al = 0 -> 0 <= reg <= 17 -> Z.of_nat fuel + reg >= 18 ->
  (forall r, 0 <= r < reg -> free_at u r n al = false) ->
  match search fuel used reg n al with
  | Ok (Some (f, bits)) => find_fp u n al = Some f /\ reg <= f /\ (forall i, 0 <= i -> Z.testbit bits i = inu (range f n) i)
  | Ok None => find_fp u n al = None
  | _ => False
  end.
Proof.
  intros S N AL. induction fuel as [|fuel IH]; intros reg M B FU L; [lia|].
  cbn [search]. destruct (reg + n <=? 16) eqn:E.
  - pose proof (probe_spec used (Z.to_nat n) reg 0 ltac:(lia)) as P. destruct (probe used reg (Z.to_nat n) 0) as [bits|].
    + destruct P as [F T]. split; [|split; [lia|]].
      * apply find_fp_some; [lia| |auto]. apply free_at_spec. split; [auto|]. split; [lia|]. intros k K.
        apply inu_not. rewrite <- S by lia. apply F. lia.
      * intros i I. rewrite T by auto. rewrite Z.bits_0, inu_range. cbn [orb]. rewrite Z2Nat.id by lia. reflexivity.
    + destruct P as (k & K & T). assert (W : wrap 16 (reg + al) = reg + al) by (unfold wrap; apply Z.mod_small; lia).
      rewrite W.
      assert (X : match search fuel used (reg + al) n al with
        | Ok (Some (f, bits)) => find_fp u n al = Some f /\ reg + al <= f /\ (forall i, 0 <= i -> Z.testbit bits i = inu (range f n) i)
        | Ok None => find_fp u n al = None
        | _ => False
        end).
      { apply IH; [|lia|lia|].
        - clear -AL M. destruct AL as [E|E]; rewrite E in *; [apply Z.mod_1_r|]. pose proof (Z.div_mod reg 2 ltac:(lia)). replace (reg + 2) with (0 + (reg / 2 + 1) * 2) by lia. rewrite Z.mod_add by lia. reflexivity.
        - intros r R. destruct (Z.lt_ge_cases r reg) as [H|H]; [apply L; lia|].
          destruct (free_at u r n al) eqn:Q; [|reflexivity]. exfalso. apply free_at_spec in Q. destruct Q as (Q1 & Q2 & Q3).
          assert (r = reg). { destruct AL as [-> | ->]; [lia|]. destruct (Z.eq_dec r (reg + 1)) as [-> |]; [|lia]. exfalso. clear -M Q1. pose proof (Z.div_mod reg 2 ltac:(lia)). pose proof (Z.div_mod (reg + 1) 2 ltac:(lia)). lia. }
          subst r. apply (Q3 k); [lia|]. apply inu_in. rewrite <- S by lia. exact T. }
      destruct (search fuel used (reg + al) n al) as [[[f bits]|]| |]; auto. destruct X as (X1 & X2 & X3). split; [auto|]. split; [lia|auto].
  - apply find_fp_none. intros r R. destruct (Z.lt_ge_cases r reg) as [H|H]; [apply L; lia|].
    unfold free_at. replace (r + n <=? 16) with false by lia. rewrite andb_false_r. reflexivity.
Qed.

Lemma skip_spec fuel used u : same used u -> (forall r, In r u -> 0 <= r < 16) -> forall reg,
  0 <= reg <= 16 -> Z.of_nat fuel + reg >= 17 -> (forall r, 0 <= r < reg -> In r u) ->
  exists f, skip_used fuel used reg = Ok f /\ 0 <= f <= 16 /\ (forall r, 0 <= r < f -> In r u) /\ ~ In f u.
Proof.
  intros S BU. induction fuel as [|fuel IH]; intros reg B FU L; [lia|].
  cbn [skip_used]. rewrite bit_test by lia. destruct (Z.testbit used reg) eqn:T; cbn [negb].
  - assert (I : In reg u) by (apply inu_in; rewrite <- S by lia; auto). pose proof (BU _ I).
    assert (W : wrap 16 (reg + 1) = reg + 1) by (unfold wrap; apply Z.mod_small; lia). rewrite W.
    apply IH; try lia. intros r R. destruct (Z.eq_dec r reg) as [-> |]; [auto|]. apply L. lia.
  - exists reg. split; [reflexivity|]. split; [lia|]. split; [auto|]. apply inu_not. rewrite <- S by lia. exact T.
Qed.

(** ** The state of the allocation *)

Record rel (u : list Z) (v : vst) : Prop := Rel {
  rel_bits : same (v_used v) u;
  rel_dup : NoDup u;
  rel_in : forall r, In r u -> 0 <= r < 16;
  rel_args : zlen (v_args v) <= zlen u;
  rel_free : 0 <= v_free v <= 16;
  rel_low : forall r, 0 <= r < v_free v -> In r u;
  rel_not : ~ In (v_free v) u
}.

Lemma rel_start : rel [] (VSt 0 0 []).
Proof.
  constructor; cbn.
  - intros r R. rewrite Z.bits_0. reflexivity.
  - constructor.
  - intros r H. contradiction.
  - lia.
  - lia.
  - intros r H. lia.
  - auto.
Qed.

(** The fields of the code of an aggregate. *)
Lemma code_fields t k al : ctype t -> fp_need t = Some (k, al) ->
  let h := vfp_code t in h <> 0 /\ (Z.land h 255 =? 3) = (al =? 2) /\ (if Z.land h 255 =? 3 then 2 * Z.shiftr h 8 else Z.shiftr h 8) = k /\
  (al = 1 \/ al = 2) /\ 1 <= k <= 8.
Proof.
  intros C N. cbv zeta. pose proof (fp_need_size t k al C N) as (_ & _ & K & _). revert N. unfold fp_need. destruct (hfa_of t) as [[c n]|] eqn:E; [|discriminate].
  destruct (vfp_code_some t c n E) as [V NZ]. rewrite V in *. apply hfa_of_spec in E. destruct E as (_ & F & L).
  assert (Q : n = 1%nat \/ n = 2%nat \/ n = 3%nat \/ n = 4%nat) by lia.
  destruct c; try discriminate F; intros X; injection X as <- <-; destruct Q as [-> |[-> |[-> | ->]]]; cbn; repeat split; auto; lia.
Qed.

Lemma place_spec t k al u v : ctype t -> fp_need t = Some (k, al) -> rel u v ->
  match find_fp u k al with
  | Some f => exists v', place_vfp_arg (vfp_code t) v = Ok (false, v') /\ rel (u ++ range f k) v' /\ v_args v' = v_args v ++ [f]
  | None => place_vfp_arg (vfp_code t) v = Ok (true, VSt 65535 16 (v_args v))
  end.
Proof.
  intros C N R. destruct (code_fields t k al C N) as (_ & D & K & AL & KB). destruct R as [RB RD RI RA RF RL RN].
  unfold place_vfp_arg. rewrite K, D. cbv zeta.
  assert (EQ : (if if al =? 2 then true else false then 2 else 1) = al) by (destruct AL; subst al; reflexivity).
  assert (A2 : (if al =? 2 then 2 else 1) = al) by (destruct AL; subst al; reflexivity). rewrite A2.
  set (reg := if negb (Z.land (v_free v) 1 =? 0) && (al =? 2) then wrap 16 (v_free v + 1) else v_free v).
  assert (REG : reg mod al = 0 /\ 0 <= reg <= 17 /\ v_free v <= reg /\ (forall r, 0 <= r < reg -> free_at u r k al = false)).
  { assert (OLD : forall r, 0 <= r < v_free v -> free_at u r k al = false).
    { intros r Hr. destruct (free_at u r k al) eqn:Q; [|reflexivity]. exfalso. apply free_at_spec in Q.
      destruct Q as (_ & _ & Q). apply (Q r); [lia|]. auto. }
    subst reg. assert (L1 : Z.land (v_free v) 1 = v_free v mod 2) by (change 1 with (Z.ones 1); rewrite Z.land_ones by lia; reflexivity).
    rewrite L1. pose proof (Z.mod_pos_bound (v_free v) 2 ltac:(lia)) as MB. pose proof (Z.div_mod (v_free v) 2 ltac:(lia)) as DM.
    destruct AL as [-> | ->]; cbn [andb Z.eqb Pos.eqb].
    - rewrite andb_false_r. split; [apply Z.mod_1_r|]. repeat split; try lia. auto.
    - rewrite andb_true_r. destruct (v_free v mod 2 =? 0) eqn:Q; cbn [negb].
      + split; [lia|]. repeat split; try lia. auto.
      + assert (W : wrap 16 (v_free v + 1) = v_free v + 1) by (unfold wrap; apply Z.mod_small; lia). rewrite W.
        split; [replace (v_free v + 1) with (0 + (v_free v / 2 + 1) * 2) by lia; rewrite Z.mod_add by lia; reflexivity|]. repeat split; try lia.
        intros r Hr. destruct (Z.eq_dec r (v_free v)) as [-> |]; [|apply OLD; lia].
        unfold free_at. replace (v_free v mod 2 =? 0) with false by lia. reflexivity. }
  destruct REG as (R1 & R2 & R3 & R4).
  pose proof (search_find 20 (v_used v) u k al RB ltac:(lia) AL reg R1 R2 ltac:(lia) R4) as S.
  destruct (search 20 (v_used v) reg k al) as [[[f bits]|]| |]; [| |contradiction|contradiction].
  - destruct S as (S1 & S2 & S3). rewrite S1. cbn [bind].
    pose proof (find_fp_inv u k al) as FI. rewrite S1 in FI. destruct FI as (FB & FF & _). apply free_at_spec in FF. destruct FF as (_ & F2 & F3).
    assert (ND : NoDup (u ++ range f k)).
    { clear -RD F3. induction u as [|x u IH]; cbn [app].
      - apply range_nodup.
      - inversion RD as [|? ? X1 X2]; subst. constructor.
        + rewrite in_app_iff. intros [H|H]; [contradiction|]. apply range_in in H. apply (F3 x H). left. reflexivity.
        + apply IH; auto. intros r Hr H. apply (F3 r Hr). right. exact H. }
    assert (IN : forall r, In r (u ++ range f k) -> 0 <= r < 16).
    { intros r H. apply in_app_iff in H. destruct H as [H|H]; [auto|]. apply range_in in H. lia. }
    assert (LEN : zlen (u ++ range f k) <= 16).
    { assert (X : (length (u ++ range f k) <= length all_fp)%nat).
      { apply NoDup_incl_length; auto. intros r H. apply range_in. apply IN in H. lia. }
      unfold all_fp in X. rewrite range_length in X. unfold zlen. lia. }
    rewrite zlen_app in LEN. assert (LK : zlen (range f k) = k) by (unfold zlen; rewrite range_length; lia).
    assert (SM : same (Z.lor (v_used v) bits) (u ++ range f k)).
    { intros r Hr. rewrite Z.lor_spec, RB, S3, inu_app by auto. reflexivity. }
    replace (16 <=? zlen (v_args v)) with false by lia.
    rewrite bit_test by lia. rewrite negb_involutive, SM by lia.
    assert (AR : zlen (v_args v ++ [f]) <= zlen (u ++ range f k)) by (rewrite !zlen_app, LK; change (zlen [f]) with 1; lia).
    destruct (inu (u ++ range f k) (v_free v)) eqn:Q.
    + apply inu_in in Q. assert (f = v_free v).
      { apply in_app_iff in Q. destruct Q as [Q|Q]; [contradiction|]. apply range_in in Q. lia. }
      assert (W : wrap 16 (f + k) = f + k) by (unfold wrap; apply Z.mod_small; lia). rewrite W.
      destruct (skip_spec 20 (Z.lor (v_used v) bits) (u ++ range f k) SM IN (f + k)) as (g & G1 & G2 & G3 & G4); try lia.
      { intros r Hr. apply in_app_iff. destruct (Z.lt_ge_cases r f); [left; apply RL; lia|right; apply range_in; lia]. }
      rewrite G1. cbn [bind]. eexists. split; [reflexivity|]. split; [|reflexivity]. constructor; cbn; auto.
    + cbn [bind]. eexists. split; [reflexivity|]. split; [|reflexivity]. apply inu_not in Q. constructor; cbn; auto.
      intros r Hr. apply in_app_iff. left. auto.
  - rewrite S. reflexivity.
Qed.

(** ** The registers of all arguments *)

(** First registers of the arguments in floating point registers. *)
Fixpoint fps (u : list Z) (ts : list ftype) : list Z :=
  match ts with
  | [] => []
  | t :: r =>
    match fp_need t with
    | Some (k, al) => match find_fp u k al with Some f => f :: fps (u ++ range f k) r | None => [] end
    | None => fps u r
    end
  end.
(** All registers in use after them. *)
Fixpoint fpu (u : list Z) (ts : list ftype) : list Z :=
  match ts with
  | [] => u
  | t :: r =>
    match fp_need t with
    | Some (k, al) => match find_fp u k al with Some f => fpu (u ++ range f k) r | None => u end
    | None => fpu u r
    end
  end.

Lemma fp_need_code t : ctype t -> (vfp_code t =? 0) = match fp_need t with Some _ => false | None => true end.
Proof. intros C. rewrite vfp_code_zero. unfold fp_need. destruct (hfa_of t) as [[[] n]|]; reflexivity. Qed.

Theorem layout_spec ts : Forall ctype ts -> forall u v, rel u v ->
  exists v', layout_args ts v = Ok v' /\ v_args v' = v_args v ++ fps u ts /\
    (forall r, In r (fpu u ts) -> 0 <= r < 16 /\ Z.testbit (v_used v') r = true) /\ 0 <= v_used v' < 65536.
Proof.
  induction 1 as [|t ts C F IH]; intros u v R; cbn [layout_args fps fpu].
  - exists v. split; [reflexivity|]. split; [symmetry; apply app_nil_r|]. destruct R as [RB RD RI RA RF RL RN]. split.
    + intros r H. split; [auto|]. specialize (RI r H). rewrite RB by lia. apply inu_in. auto.
    + assert (W : v_used v = v_used v mod 2 ^ 16).
      { apply Z.bits_inj'. intros i I. destruct (Z.lt_ge_cases i 16) as [H|H].
        - rewrite Z.mod_pow2_bits_low by auto. reflexivity.
        - rewrite Z.mod_pow2_bits_high by lia. rewrite RB by auto. apply inu_not. intros X. specialize (RI i X). lia. }
      rewrite W. apply Z.mod_pos_bound. lia.
  - rewrite (vfp_type_exact t C). cbn [bind]. rewrite (fp_need_code t C).
    destruct (fp_need t) as [[k al]|] eqn:N.
    + pose proof (place_spec t k al u v C N R) as P. destruct (find_fp u k al) as [f|].
      * destruct P as (v' & P1 & P2 & P3). rewrite P1. cbn [bind].
        destruct (IH _ _ P2) as (w & W1 & W2 & W3 & W4). exists w. split; [auto|]. split; [|auto].
        rewrite W2, P3, <- app_assoc. reflexivity.
      * rewrite P. cbn [bind]. eexists. split; [reflexivity|]. cbn [v_args v_used]. split; [symmetry; apply app_nil_r|]. split; [|lia].
        intros r H. destruct R as [RB RD RI RA RF RL RN]. specialize (RI r H). split; [auto|].
        change 65535 with (Z.ones 16). apply Z.ones_spec_low. lia.
    + apply IH. auto.
Qed.

(** ** No register is used twice, and the registers are filled from below *)

(** All even registers below the highest one in use are in use. *)
Definition packed (u : list Z) : Prop :=
  NoDup u /\ (forall r, In r u -> 0 <= r < 16) /\
  exists top, 0 <= top <= 16 /\ (forall r, In r u -> r < top) /\ (forall r, 0 <= r < top -> r mod 2 = 0 -> In r u).

Lemma packed_nil : packed [].
Proof. split; [constructor|]. split; [intros r []|]. exists 0. split; [lia|]. split; [intros r []|]. intros. lia. Qed.

Lemma nodup_app_range u f k : NoDup u -> (forall r, f <= r < f + k -> ~ In r u) -> NoDup (u ++ range f k).
Proof.
  intros RD F3. induction u as [|x u IH]; cbn [app].
  - apply range_nodup.
  - inversion RD as [|? ? X1 X2]; subst. constructor.
    + rewrite in_app_iff. intros [H|H]; [contradiction|]. apply range_in in H. apply (F3 x H). left. reflexivity.
    + apply IH; auto. intros r Hr H. apply (F3 r Hr). right. exact H.
Qed.

Lemma packed_step t k al u f : ctype t -> fp_need t = Some (k, al) -> packed u -> find_fp u k al = Some f ->
  packed (u ++ range f k) /\ 0 <= f /\ f + k <= 16 /\ (forall r, f <= r < f + k -> ~ In r u).
Proof.
  intros C N (ND & IN & top & TB & TU & TE) FF. destruct (fp_need_size t k al C N) as (_ & _ & KB & AL).
  pose proof (find_fp_inv u k al) as X. rewrite FF in X. destruct X as (B & Fr & Lo). apply free_at_spec in Fr. destruct Fr as (F1 & F2 & F3).
  split; [|split; [lia|split; [lia|auto]]]. split; [apply nodup_app_range; auto|]. split.
  { intros r H. apply in_app_iff in H. destruct H as [H|H]; [auto|]. apply range_in in H. lia. }
  exists (Z.max top (f + k)). split; [lia|]. split.
  { intros r H. apply in_app_iff in H. destruct H as [H|H]; [specialize (TU r H); lia|]. apply range_in in H. lia. }
  intros r H E. apply in_app_iff. destruct (Z.lt_ge_cases r top) as [Q|Q]; [left; apply TE; lia|].
  destruct (Z.lt_ge_cases r f) as [P|P]; [|right; apply range_in; lia].
  exfalso. assert (G : free_at u r k al = true).
  { apply free_at_spec. split; [|split; [lia|]].
    - destruct AL as [[-> _]|[-> _]]; [apply Z.mod_1_r|exact E].
    - intros j J I. specialize (TU j I). lia. }
  rewrite Lo in G by lia. discriminate G.
Qed.

(** If there is no room, at least four registers are in use. *)
Lemma packed_full t k al u : ctype t -> fp_need t = Some (k, al) -> packed u -> find_fp u k al = None -> 4 <= zlen u.
Proof.
  intros C N (ND & IN & top & TB & TU & TE) FF. destruct (fp_need_size t k al C N) as (_ & _ & KB & AL).
  pose proof (find_fp_inv u k al) as X. rewrite FF in X.
  assert (T : 8 <= top).
  { destruct (Z.lt_ge_cases top 8) as [L|L]; [|auto]. exfalso.
    assert (G : free_at u 8 k al = true).
    { apply free_at_spec. split; [|split; [lia|]].
      - destruct AL as [[-> _]|[-> _]]; reflexivity.
      - intros j J I. specialize (TU j I). lia. }
    rewrite X in G by lia. discriminate G. }
  assert (L : (length [0%Z; 2%Z; 4%Z; 6%Z] <= length u)%nat).
  { apply NoDup_incl_length.
    - repeat constructor; cbn; lia.
    - intros r H. apply TE; cbn in H; destruct H as [<-|[<-|[<-|[<-|[]]]]]; try lia; reflexivity. }
  unfold zlen. cbn [length] in L. lia.
Qed.
