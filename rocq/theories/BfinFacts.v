(** ffi_prep_args of src/bfin/ffi.c against the ABI. *)
From Coq Require Import ZifyBool ZifyNat.
From Verif Require Import Base BaseFacts Types ByteMem S390Facts ArmModel BfinModel BfinSpec.
Local Open Scope Z_scope.
Local Arguments Z.mul : simpl never.
Local Arguments Z.add : simpl never.
Local Arguments Z.sub : simpl never.
Local Arguments Z.pow : simpl never.
Local Arguments Z.div : simpl never.
Local Arguments Z.modulo : simpl never.
Local Arguments Z.of_nat : simpl never.
Local Arguments le_enc : simpl never.
Local Arguments le_dec : simpl never.
Local Arguments rd : simpl never.

Lemma value_dec l : value l = le_dec l.
Proof. induction l as [|b l IH]; [reflexivity|]. cbn [value]. rewrite IH. reflexivity. Qed.
Lemma bytes_at_rd M p n : bytes_at M p n = rd M p (Z.to_nat n).
Proof. apply seq_rd. Qed.
Lemma word_enc w : word_bytes w = le_enc 4 w.
Proof.
  unfold word_bytes, le_enc. cbn [seq map]. rewrite !Z.div_div by lia. change (2 ^ (8 * Z.of_nat 0)) with 1. rewrite Z.div_1_r. reflexivity.
Qed.
Lemma rd_ok m a n : bytes_in m -> bytes_ok (rd m a n).
Proof. intros B. apply rd_bytes, B. Qed.
Lemma ld_bound m a : bytes_in m -> 0 <= ld m a < 2 ^ 32.
Proof. intros B. pose proof (le_dec_bound _ (rd_ok m a 4 B)) as H. rewrite rd_zlen in H. exact H. Qed.
Lemma ld_enc m a : bytes_in m -> le_enc 4 (ld m a) = rd m a 4.
Proof. intros B. change 4%nat with (length (rd m a 4)) at 1. apply le_enc_dec, rd_ok, B. Qed.
Lemma stw_bytes m a x : bytes_in m -> bytes_in (stw m a x).
Proof. intros B. apply wr_bytes; [exact B|apply le_enc_ok]. Qed.

(** What is stored for an argument, and how far it goes. *)
Definition image (t : ftype) (v : list Z) : list Z := if negb (aggregate t) && (ty_size t <? 4) then le_enc 4 (extended t v) else v.
Definition adv (t : ftype) : Z := if ty_size t <? 4 then 4 else ty_size t.
Fixpoint total (ts : list ftype) : Z := match ts with [] => 0 | t :: r => adv t + total r end.

Lemma size_pos t : btype t -> 0 < ty_size t.
Proof. intros (_ & H). destruct (ty_code t); lia || contradiction. Qed.
Lemma image_len t v : btype t -> is_value t v -> 0 < zlen (image t v) <= adv t /\ (ty_size t <= zlen (image t v)).
Proof.
  intros T (L & _). pose proof (size_pos t T). unfold image, adv. destruct (negb (aggregate t)) eqn:Ag; cbn [andb].
  - destruct (ty_size t <? 4) eqn:E; [rewrite le_enc_zlen|]; lia.
  - destruct (ty_size t <? 4) eqn:E; lia.
Qed.
Lemma image_ok t v : is_value t v -> bytes_ok (image t v).
Proof. intros (_ & B). unfold image. destruct (_ && _); [apply le_enc_ok|exact B]. Qed.

Lemma small_dec t v : is_value t v -> 0 <= le_dec v < 2 ^ (8 * ty_size t).
Proof. intros (L & B). rewrite <- L. apply le_dec_bound, B. Qed.
Lemma enc4 v : bytes_ok v -> length v = 4%nat -> le_enc 4 (le_dec v) = v.
Proof. intros B L. rewrite <- L. apply le_enc_dec, B. Qed.
Lemma prep_arg_eq t arg v m p : btype t -> is_value t v -> rd m arg (Z.to_nat (ty_size t)) = v ->
  prep_arg t arg m p = Some (wr m p (image t v), p + adv t).
Proof.
  intros (_ & T) V R. pose proof (small_dec t v V) as SD. unfold prep_arg, image, adv, aggregate, extended. change value with le_dec. unfold to_signed.
  destruct (ty_code t); try contradiction; rewrite ?T in *; cbn [negb andb Z.ltb Z.eqb Z.compare Pos.compare Pos.compare_cont Pos.eqb];
    change (Z.to_nat 1) with 1%nat in R; change (Z.to_nat 2) with 2%nat in R; change (Z.to_nat 4) with 4%nat in R.
  all: try (rewrite R; change (8 * 1) with 8 in *; change (8 * 2) with 16 in *; rewrite ?Z.mod_small by lia; reflexivity).
  all: try (rewrite R, (enc4 v) by (destruct V as (L & B); first [exact B|unfold zlen in L; lia]); reflexivity).
  destruct (ty_size t <? 4) eqn:E; [rewrite R; reflexivity|]. destruct (ty_size t =? 4) eqn:E4; [|rewrite R; reflexivity].
  apply Z.eqb_eq in E4. rewrite E4 in R |- *. change (Z.to_nat 4) with 4%nat in R. rewrite R, (enc4 v) by (destruct V as (L & B); first [exact B|unfold zlen in L; lia]). reflexivity.
Qed.

(** Argument after argument. *)
Fixpoint laid (m : Z -> Z) (p : Z) (ts : list ftype) (vs : list (list Z)) : Prop :=
  match ts, vs with
  | [], [] => True
  | t :: ts', v :: vs' => rd m p (length (image t v)) = image t v /\ laid m (p + adv t) ts' vs'
  | _, _ => False
  end.
Lemma adv_pos t : btype t -> 0 < adv t.
Proof. intros T. pose proof (size_pos t T). unfold adv. destruct (_ <? _) eqn:?; lia. Qed.
Lemma objects_types M lo hi ts : forall args vs, objects M lo hi ts args vs -> Forall btype ts /\ Forall2 is_value ts vs.
Proof.
  induction ts as [|t ts IH]; intros [|a args] [|v vs] H; cbn [objects] in H; try contradiction; [auto|].
  destruct H as (O & V & _ & _ & H). destruct (IH _ _ H) as (I1 & I2). split; constructor; auto.
Qed.
Lemma total_nonneg ts : Forall btype ts -> 0 <= total ts.
Proof. induction 1 as [|t ts T _ IH]; cbn [total]; [lia|]. pose proof (adv_pos t T). lia. Qed.
Lemma objects_ext M M' lo hi ts : forall args vs, (forall x, ~ (lo <= x < hi) -> M' x = M x) -> objects M lo hi ts args vs -> objects M' lo hi ts args vs.
Proof.
  induction ts as [|t ts IH]; intros [|a args] [|v vs] E H; cbn [objects] in *; try contradiction; auto.
  destruct H as (O & V & R & D & H). pose proof (size_pos t O). split; [exact O|]. split; [exact V|]. split; [|split; [exact D|apply IH; auto]].
  rewrite <- R, !bytes_at_rd. apply rd_ext. intros x Hx. apply E. lia.
Qed.
Lemma objects_sub M lo hi lo' hi' ts : forall args vs, lo <= lo' -> hi' <= hi -> objects M lo hi ts args vs -> objects M lo' hi' ts args vs.
Proof.
  induction ts as [|t ts IH]; intros [|a args] [|v vs] H1 H2 H; cbn [objects] in *; try contradiction; auto.
  destruct H as (O & V & R & D & H). split; [exact O|]. split; [exact V|]. split; [exact R|]. split; [lia|apply IH; auto].
Qed.
Lemma prep_args_inv lo hi ts : forall args vs m p, objects m lo hi ts args vs -> lo <= p -> p + total ts <= hi ->
  exists m', prep_args ts args m p = Some m' /\ (forall x, ~ (p <= x < p + total ts) -> m' x = m x) /\ laid m' p ts vs /\ (bytes_in m -> bytes_in m').
Proof.
  induction ts as [|t ts IH]; intros [|a args] [|v vs] m p OB L H; cbn [objects] in OB; try contradiction.
  { exists m. cbn [prep_args laid]. auto. }
  cbn [total] in *. destruct OB as (T & V & R & D & OB). rewrite bytes_at_rd in R. destruct (objects_types _ _ _ _ _ _ OB) as (FT & _). pose proof (total_nonneg ts FT) as TN. pose proof (adv_pos t T) as AP.
  destruct (image_len t v T V) as (IL & _).
  set (m1 := wr m p (image t v)).
  assert (O1 : forall x, ~ (p <= x < p + adv t) -> m1 x = m x) by (intros x Hx; unfold m1; apply wr_out; lia).
  destruct (IH args vs m1 (p + adv t)) as (m' & PA & PO & PL & PB); [eapply objects_ext; [|exact OB]; intros x Hx; apply O1; lia|lia|lia|].
  exists m'. split; [|split; [|split]].
  - cbn [prep_args]. rewrite (prep_arg_eq t a v m p T V R). exact PA.
  - intros x Hx. rewrite PO by lia. apply O1. lia.
  - cbn [laid]. split; [|exact PL]. rewrite (rd_ext m1). { unfold m1. apply rd_wr_same. reflexivity. }
    intros x Hx. apply PO. unfold zlen in IL. lia.
  - intros B. apply PB. unfold m1. apply wr_bytes; [exact B|apply image_ok, V].
Qed.

(** The registers and the stack of the called function. *)
Lemma arg_byte_mem X M stack j : bytes_in M -> (forall r, 0 <= r <= 2 -> X r = ld M (stack + 4 * r)) -> X 14 = stack -> 0 <= j -> arg_byte X M j = M (stack + j).
Proof.
  intros B XR X14 J. unfold arg_byte. destruct (j <? 12) eqn:E; [|congruence].
  assert (Hr : 0 <= j / 4 <= 2) by (split; [apply Z.div_pos; lia|assert (j / 4 < 3) by (apply Z.div_lt_upper_bound; lia); lia]).
  rewrite XR by exact Hr. pose proof (ld_enc M (stack + 4 * (j / 4)) B) as H. rewrite <- word_enc in H.
  pose proof (Z.mod_pos_bound j 4 ltac:(lia)) as Hm.
  assert (K : nth (Z.to_nat (j mod 4)) (word_bytes (ld M (stack + 4 * (j / 4)))) 0 = nth (Z.to_nat (j mod 4)) (rd M (stack + 4 * (j / 4)) 4) 0) by (rewrite H; reflexivity).
  rewrite rd_nth in K by lia. rewrite Z2Nat.id in K by lia. replace (stack + 4 * (j / 4) + j mod 4) with (stack + j) in K by (pose proof (Z.div_mod j 4); lia).
  rewrite <- K. unfold word_bytes.
  set (f := fun k : nat => ld M (stack + 4 * (j / 4)) / 2 ^ (8 * Z.of_nat k) mod 256).
  rewrite (nth_indep (map f (seq 0 4)) 0 (f 0%nat)) by (rewrite map_length, seq_length; lia).
  rewrite map_nth, seq_nth by lia. unfold f. rewrite Nat.add_0_l, Z2Nat.id by lia. reflexivity.
Qed.
Lemma arg_bytes_rd X M stack o n : bytes_in M -> (forall r, 0 <= r <= 2 -> X r = ld M (stack + 4 * r)) -> X 14 = stack -> 0 <= o -> arg_bytes X M o n = rd M (stack + o) (Z.to_nat n).
Proof.
  intros B XR X14 O. unfold arg_bytes. rewrite <- seq_rd. apply map_ext. intros k. rewrite (arg_byte_mem X M stack) by (auto; lia). f_equal. lia.
Qed.
Lemma laid_passed X M stack ts : forall vs o, bytes_in M -> (forall r, 0 <= r <= 2 -> X r = ld M (stack + 4 * r)) -> X 14 = stack -> 0 <= o ->
  Forall btype ts -> Forall2 is_value ts vs -> laid M (stack + o) ts vs -> tidy ts = true -> passed X M o ts vs.
Proof.
  induction ts as [|t ts IH]; intros [|v vs] o B XR X14 O FT FV L TD; cbn [laid passed] in *; try contradiction; auto.
  inversion FT as [|? ? T FT']; subst. inversion FV as [|? ? ? ? V FV']; subst. destruct L as (L1 & L2). pose proof (size_pos t T) as SP. split.
  - unfold carries. rewrite !(arg_bytes_rd X M (X 14)) by auto. unfold image in L1. destruct (_ && _).
    + rewrite le_enc_length in L1. change (Z.to_nat 4) with 4%nat. rewrite L1, value_dec, le_dec_enc. reflexivity.
    + destruct V as (LV & _). unfold zlen in LV. rewrite <- LV, Nat2Z.id. exact L1.
  - destruct ts as [|t2 ts]. { destruct vs; [exact I|inversion FV']. }
    cbn [tidy] in TD. apply andb_prop in TD as [TD1 TD2].
    assert (E : adv t = slot t).
    { unfold adv, slot. destruct (ty_size t <? 4) eqn:E.
      - replace ((ty_size t + 3) / 4) with 1; [lia|]. apply (Z.div_unique _ _ _ (ty_size t - 1)); lia.
      - destruct (Z.eq_dec (ty_size t) 4) as [->|N]; [reflexivity|]. assert (M4 : ty_size t mod 4 = 0) by lia.
        pose proof (Z.div_mod (ty_size t) 4 ltac:(lia)) as DM. rewrite M4 in DM. replace ((ty_size t + 3) / 4) with (ty_size t / 4); [lia|]. apply (Z.div_unique _ _ _ 3); lia. }
    apply IH; auto; try (unfold slot; pose proof (Z.div_pos (ty_size t + 3) 4); lia). rewrite <- E, Z.add_assoc. exact L2.
Qed.

(** Space. *)
Lemma slot_round t : slot t = round_up (ty_size t) 4.
Proof. unfold slot, round_up. replace (ty_size t + 4 - 1) with (ty_size t + 3) by lia. lia. Qed.
Lemma adv_slot t : btype t -> adv t <= slot t.
Proof.
  intros T. pose proof (size_pos t T). pose proof (round_up_le (ty_size t) 4). rewrite <- slot_round in *. unfold adv. destruct (_ <? _) eqn:?; [|lia].
  unfold slot in *. lia.
Qed.
Lemma total_slots ts : Forall btype ts -> total ts <= slots ts.
Proof. induction 1 as [|t ts T _ IH]; cbn [total slots fold_right]; [lia|]. fold (slots ts). pose proof (adv_slot t T). lia. Qed.
Lemma slots_nonneg ts : Forall btype ts -> 0 <= slots ts.
Proof. intros F. pose proof (total_nonneg ts F). pose proof (total_slots ts F). lia. Qed.
Lemma core_slots ts : Forall btype ts -> forall b, 0 <= b -> b mod 4 = 0 -> b + slots ts < 2 ^ 32 -> core_bytes_args ts b = b + slots ts.
Proof.
  induction 1 as [|t ts T F IH]; intros b P D L; cbn [core_bytes_args slots fold_right] in *; [lia|]. fold (slots ts) in *.
  pose proof (slots_nonneg ts F). pose proof (size_pos t T) as SP. pose proof (adv_slot t T). pose proof (adv_pos t T).
  assert (E : Z.land (ty_align t - 1) b = 0).
  { assert (K : exists k, 0 <= k <= 2 /\ ty_align t = 2 ^ k) by (destruct T as ([E|[E|E]] & _); rewrite E; [exists 0|exists 1|exists 2]; split; (lia || reflexivity)).
    destruct K as (k & Hk & E). rewrite E, Z.land_comm. replace (2 ^ k - 1) with (Z.ones k) by (rewrite Z.ones_equiv; lia). rewrite Z.land_ones by lia.
    apply Z.mod_divide; [apply Z.pow_nonzero; lia|]. apply Z.divide_trans with 4; [|apply Z.mod_divide; lia]. exists (2 ^ (2 - k)). rewrite <- Z.pow_add_r by lia. replace (2 - k + k) with 2 by lia. reflexivity. }
  rewrite E. cbn [Z.eqb]. unfold stack_arg_size. rewrite ffi_align_w_round; [|lia|exists 2; split; [lia|reflexivity]|lia|rewrite <- slot_round; lia].
  rewrite <- slot_round. unfold wrap32, wrap. rewrite Z.mod_small by lia. rewrite IH; try lia.
  rewrite Z.add_mod, D by lia. unfold slot. rewrite Z.mul_comm, Z.mod_mul by lia. reflexivity.
Qed.
Lemma bytes_enough rt ts : Forall btype ts -> 4 + slots ts < 2 ^ 32 -> total ts <= cif_bytes rt ts < 2 ^ 32.
Proof.
  intros F L. pose proof (total_slots ts F). pose proof (total_nonneg ts F). unfold cif_bytes, core_bytes. change (stack_arg_size 4) with 4.
  assert (K : forall b, b = 0 \/ b = 4 -> total ts <= core_bytes_args ts b < 2 ^ 32) by (intros b [-> | ->]; rewrite core_slots by (auto; lia || reflexivity); lia).
  destruct (ty_code rt); apply K; auto.
Qed.
