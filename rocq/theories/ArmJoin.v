(** Memory of libffi and the registers the standard speaks of, for ARM. *)
From Coq Require Import ZifyBool ZifyNat.
From Verif Require Import Base BaseFacts Types LayoutSpec NaturalTypes NaturalFacts ByteMem ArmModel ArmSpec ArmHfa ArmFp ArmPlan ArmCall ArmPrep ArmCallMem ArmClosure ArmAsmModel.
From Verif Require ArmAsmFacts.
Local Open Scope Z_scope.
Local Arguments Z.mul : simpl never.
Local Arguments Z.add : simpl never.
Local Arguments Z.sub : simpl never.

Lemma rd_shift m m' n : forall a b, (forall k, 0 <= k < Z.of_nat n -> m (a + k) = m' (b + k)) -> rd m a n = rd m' b n.
Proof.
  induction n as [|n IH]; intros a b H; cbn [rd]; [reflexivity|]. f_equal.
  - specialize (H 0 ltac:(lia)). rewrite !Z.add_0_r in H. exact H.
  - apply IH. intros k K. specialize (H (k + 1) ltac:(lia)). replace (a + 1 + k) with (a + (k + 1)) by lia. replace (b + 1 + k) with (b + (k + 1)) by lia. exact H.
Qed.
Lemma rd_firstn m a n k : (k <= n)%nat -> firstn k (rd m a n) = rd m a k.
Proof.
  intros L. replace n with (k + (n - k))%nat by lia. rewrite rd_app, firstn_app, rd_length, Nat.sub_diag, firstn_O, app_nil_r.
  rewrite <- (rd_length m a k) at 1. apply firstn_all.
Qed.
Lemma bytes_rd m a n : (forall x, byte_ok (m x)) -> bytes_ok (rd m a n).
Proof. intros H. revert a. induction n as [|n IH]; intros a; cbn [rd]; constructor; auto. apply IH. Qed.
Lemma enc_dec_rd m a : (forall x, byte_ok (m x)) -> le_enc 4 (le_dec (rd m a 4)) = rd m a 4.
Proof. intros H. replace 4%nat with (length (rd m a 4)) at 1 by apply rd_length. apply le_enc_dec. apply bytes_rd, H. Qed.
Lemma wr_bytes m a d x : (forall x, byte_ok (m x)) -> bytes_ok d -> byte_ok (wr m a d x).
Proof.
  intros M D. destruct (Z_lt_ge_dec x a); [rewrite wr_out by lia; auto|]. destruct (Z_lt_ge_dec x (a + zlen d)).
  - rewrite wr_in by lia. unfold bytes_ok in D. rewrite Forall_forall in D. apply D. apply nth_In. unfold zlen in *. lia.
  - rewrite wr_out by lia. auto.
Qed.
Lemma enc_bytes n x : bytes_ok (le_enc n x).
Proof. apply le_enc_ok. Qed.

(** ** Memory keeps consisting of bytes *)

Definition bmem (m : Z -> Z) : Prop := forall x, byte_ok (m x).
Lemma store_bytes lo hi m a d m' : bmem m -> bytes_ok d -> store lo hi m a d = Ok m' -> bmem m'.
Proof. intros B D. unfold store. destruct (_ && _); [|discriminate]. intros [= <-] x. apply wr_bytes; auto. Qed.
Lemma put_bytes lo hi t o m p m' n : bmem m -> bytes_ok o -> put_arg lo hi t o m p = Ok (m', n) -> bmem m'.
Proof.
  intros B O. unfold put_arg.
  assert (G : forall k (F : list Z -> list Z), (forall x, bytes_ok x -> bytes_ok (F x)) ->
    (let* x := of_option (get_range o 0 k) in let* m1 := store lo hi m p (F x) in Ok (m1, ffi_align_w 32 (ty_size t) 4)) = Ok (m', n) -> bmem m').
  { intros k F HF. destruct (get_range o 0 k) as [x|] eqn:E; cbn [of_option bind]; [|discriminate].
    destruct (store lo hi m p (F x)) as [m1| |] eqn:E1; cbn [bind]; try discriminate. intros [= <- _].
    eapply store_bytes; [exact B| |exact E1]. apply HF. eapply bytes_ok_get_range; eauto. }
  destruct (ty_code t); try discriminate;
    first [ apply (G _ (fun x => x)); auto
          | apply (G _ (fun x => le_enc 4 (le_dec x))); intros; apply enc_bytes
          | apply (G _ (fun x => le_enc 4 (wrap32 (to_signed 8 (le_dec x))))); intros; apply enc_bytes
          | apply (G _ (fun x => le_enc 4 (wrap32 (to_signed 16 (le_dec x))))); intros; apply enc_bytes ].
Qed.
Lemma sysv_bytes lo hi ts : forall objs m p m', bmem m -> Forall bytes_ok objs -> args_sysv lo hi ts objs m p = Ok m' -> bmem m'.
Proof.
  induction ts as [|t ts IH]; intros objs m p m' B O; cbn [args_sysv]; [intros [= <-]; auto|].
  destruct objs as [|o os]; [discriminate|]. inversion O as [|? ? O1 O2]; subst.
  destruct (put_arg lo hi t o m (align_ptr t p)) as [[m1 n]| |] eqn:E; cbn [bind]; try discriminate.
  apply IH; auto. eapply put_bytes; eauto.
Qed.
Lemma on_stack_bytes lo hi t o s s' : bmem (p_mem s) -> bytes_ok o -> on_stack lo hi t o s = Ok s' -> bmem (p_mem s').
Proof.
  intros B O. unfold on_stack. destruct (put_arg lo hi t o (p_mem s) _) as [[m1 n]| |] eqn:E; cbn [bind]; try discriminate.
  intros [= <-]. cbn [p_mem]. eapply put_bytes; eauto.
Qed.
Lemma vfp1_bytes lo hi stk vfp t o s s' : bmem (p_mem s) -> bytes_ok o -> put_vfp1 lo hi stk vfp t o s = Ok s' -> bmem (p_mem s').
Proof.
  intros B O. unfold put_vfp1. destruct (vfp_type t) as [h| |]; cbn [bind]; try discriminate.
  assert (G : forall p F, (forall m n, p_mem (F m n) = m) -> (let* (m, n) := put_arg lo hi t o (p_mem s) p in Ok (F m n)) = Ok s' -> bmem (p_mem s')).
  { intros p F HF. destruct (put_arg lo hi t o (p_mem s) p) as [[m1 n]| |] eqn:E; cbn [bind]; try discriminate.
    intros [= <-]. rewrite HF. eapply put_bytes; eauto. }
  destruct (in_vfp h (p_left s)) as [[r l]|].
  - apply (G _ (fun m _ => PSt m (p_regp s) (p_argp s) (p_used s) (p_done s) l)). reflexivity.
  - destruct (_ && _); [|apply on_stack_bytes; auto].
    destruct (_ <=? _); [apply (G _ (fun m n => PSt m (align_ptr t (p_regp s) + n) (p_argp s) (p_used s) (align_ptr t (p_regp s) + n =? p_argp s) (p_left s))); reflexivity|].
    destruct (negb _); [apply (G _ (fun m n => PSt m (p_regp s) (align_ptr t (p_regp s) + n) true true (p_left s))); reflexivity|].
    apply on_stack_bytes; auto.
Qed.
Lemma vfp_bytes lo hi stk vfp ts : forall objs s s', bmem (p_mem s) -> Forall bytes_ok objs -> args_vfp lo hi stk vfp ts objs s = Ok s' -> bmem (p_mem s').
Proof.
  induction ts as [|t ts IH]; intros objs s s' B O; cbn [args_vfp]; [intros [= <-]; auto|].
  destruct objs as [|o os]; [discriminate|]. inversion O as [|? ? O1 O2]; subst.
  destruct (put_vfp1 lo hi stk vfp t o s) as [s1| |] eqn:E; cbn [bind]; try discriminate.
  apply IH; auto. eapply vfp1_bytes; eauto.
Qed.
Theorem call_bytes c rv objs closure base m m' : bmem m -> Forall bytes_ok objs -> call c rv objs closure base m = Ok m' -> bmem m'.
Proof.
  intros B O. unfold call.
  destruct (store _ _ m _ _) as [m1| |] eqn:E1; cbn [bind]; try discriminate. apply store_bytes in E1; [|auto|apply enc_bytes].
  destruct (store _ _ m1 _ _) as [m2| |] eqn:E2; cbn [bind]; try discriminate. apply store_bytes in E2; [|auto|apply enc_bytes].
  destruct (store _ _ m2 _ _) as [m3| |] eqn:E3; cbn [bind]; try discriminate. apply store_bytes in E3; [|auto|apply enc_bytes].
  destruct (use_vfp c).
  - unfold prep_args_vfp. destruct (_ =? _).
    + destruct (store _ _ m3 _ _) as [m4| |] eqn:E4; cbn [bind]; try discriminate. apply store_bytes in E4; [|auto|apply enc_bytes].
      match goal with |- context [args_vfp ?a ?b ?c ?d ?e ?f ?g] => destruct (args_vfp a b c d e f g) as [s| |] eqn:E5 end; cbn [bind]; try discriminate.
      intros [= <-]. eapply vfp_bytes; [| |exact E5]; auto.
    + cbn [bind]. match goal with |- context [args_vfp ?a ?b ?c ?d ?e ?f ?g] => destruct (args_vfp a b c d e f g) as [s| |] eqn:E5 end; cbn [bind]; try discriminate.
      intros [= <-]. eapply vfp_bytes; [| |exact E5]; auto.
  - unfold prep_args_sysv. destruct (_ =? _); [|apply sysv_bytes; auto].
    destruct (store _ _ m3 _ _) as [m4| |] eqn:E4; cbn [bind]; try discriminate. apply store_bytes in E4; [|auto|apply enc_bytes].
    apply sysv_bytes; auto.
Qed.

Lemma objects_bytes ts objs : objects_ok ts objs -> Forall bytes_ok objs.
Proof. induction 1 as [|t d ts ds [H1 H2] H IH]; constructor; auto. Qed.

(** ** From memory to registers *)

(** Registers of arguments are in [F]. *)
Definition fp_in (F : list Z) (t : ftype) (l : loc) : Prop :=
  match l with Fp f => forall j, f <= j -> 4 * j < 4 * f + ty_size t -> In j F | _ => True end.
Lemma plan_all_fp ts : Forall ctype ts -> forall F n s, Forall2 (fp_in F) ts (plan true ts n all_fp s).
Proof.
  induction 1 as [|t ts C H IH]; intros F n s; cbn [plan need]; [constructor|].
  destruct (fp_need t) as [[k a]|] eqn:E.
  - destruct (fp_need_size t k a C E) as (_ & _ & K & _). rewrite find_all by lia. constructor; [exact Logic.I|auto].
  - destruct (code_arg t n s) as [[p n'] s'] eqn:CA. constructor; [|auto].
    unfold code_arg in CA. repeat match type of CA with context [if ?b then _ else _] => destruct b end; injection CA as <- _ _; exact Logic.I.
Qed.
Lemma plan_fp_in ts : Forall ctype ts -> forall n u s, Forall2 (fp_in (fpu u ts)) ts (plan true ts n u s).
Proof.
  induction 1 as [|t ts C H IH]; intros n u s; cbn [plan need fpu]; [constructor|].
  destruct (fp_need t) as [[k a]|] eqn:E.
  - destruct (fp_need_size t k a C E) as (SZ & _ & K & _). destruct (find_fp u k a) as [f|] eqn:FF.
    + constructor; [|auto]. cbn [fp_in]. intros j J1 J2. apply fpu_incl, in_app_iff. right. apply range_in. lia.
    + constructor; [exact Logic.I|apply plan_all_fp; auto].
  - destruct (code_arg t n s) as [[p n'] s'] eqn:CA. constructor; [|auto].
    unfold code_arg in CA. repeat match type of CA with context [if ?b then _ else _] => destruct b end; injection CA as <- _ _; exact Logic.I.
Qed.
Lemma plan_soft_fp ts : forall F n u s, Forall2 (fp_in F) ts (plan false ts n u s).
Proof.
  induction ts as [|t ts IH]; intros F n u s; cbn [plan need]; [constructor|].
  destruct (code_arg t n s) as [[p n'] s'] eqn:CA. constructor; [|auto].
  unfold code_arg in CA. repeat match type of CA with context [if ?b then _ else _] => destruct b end; injection CA as <- _ _; exact Logic.I.
Qed.

Lemma area_at core sp M k : core = rd M (sp - 16) 16 -> 0 <= k -> area core sp M k = M (sp - 16 + k).
Proof.
  intros -> K. unfold area. destruct (k <? 16) eqn:E.
  - rewrite rd_nth by lia. f_equal. lia.
  - f_equal. lia.
Qed.

Lemma word_image t o : ctype t -> small_int (ty_code t) = true -> image t o = le_enc 4 (word_value (ty_code t) o).
Proof. intros C S. unfold image. rewrite S. reflexivity. Qed.

(** What is stored is where the standard expects it. *)
Lemma held_stored (F : list Z) core fp stk vfp M : core = rd M stk 16 ->
  (forall j k, In j F -> 4 * j <= k < 4 * j + 4 -> fp k = M (vfp + k)) ->
  forall ts ls objs, Forall ctype ts -> objects_ok ts objs -> Forall2 good_loc ts ls -> Forall2 (fp_in F) ts ls ->
  stored M stk vfp ts ls objs -> held core fp (stk + 16) M ts ls objs.
Proof.
  intros CO FP. induction ts as [|t ts IH]; intros [|l ls] [|o objs] TS OB GL FI S; cbn [stored held] in *; auto.
  destruct S as [S1 S2]. inversion TS as [|? ? C TS']; subst. inversion OB as [|? ? ? ? [O1 O2] OB']; subst.
  inversion GL as [|? ? ? ? G1 GL']; subst. inversion FI as [|? ? ? ? F1 FI']; subst. split; [|auto].
  assert (OBJ : rd M (pos stk vfp l) (Z.to_nat (ty_size t)) = o).
  { pose proof (image_len t o C O1) as IL. transitivity (firstn (Z.to_nat (ty_size t)) (image t o)); [|apply image_object; auto]. rewrite <- S1. symmetry. apply rd_firstn. unfold zlen in *. lia. }
  assert (WRD : small_int (ty_code t) = true -> rd M (pos stk vfp l) 4 = le_enc 4 (word_value (ty_code t) o)).
  { intros SM. rewrite (word_image t o C SM) in S1. rewrite le_enc_length in S1. exact S1. }
  assert (AR : forall k, 0 <= k -> area (rd M stk 16) (stk + 16) M k = M (stk + k)).
  { intros k K. rewrite area_at; [f_equal; lia| |auto]. f_equal. lia. }
  destruct l as [i|i|off]; cbn [at_loc pos good_loc fp_in] in *.
  - assert (SH : forall n, rd (area (rd M stk 16) (stk + 16) M) (4 * i) n = rd M (stk + 4 * i) n).
    { intros n. apply rd_shift. intros k K. rewrite AR by lia. f_equal. lia. }
    rewrite !SH. auto.
  - destruct G1 as (G1 & G2 & G3). rewrite <- OBJ. apply rd_shift. intros k K.
    rewrite (FP ((4 * i + k) / 4)).
    + f_equal. lia.
    + assert (0 <= ty_size t) by (unfold zlen in *; lia). apply F1; lia.
    + lia.
  - auto.
Qed.
