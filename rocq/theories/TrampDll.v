(** Doubly linked lists, and reasoning about programs of the trampoline allocator. *)
From Coq Require Import ZifyBool ZifyNat Permutation.
From Verif Require Import Base TrampModel.

Lemma val_eqb_spec u v : reflect (u = v) (val_eqb u v).
Proof.
  destruct u, v; cbn; try (constructor; congruence);
    try (destruct (Z.eqb_spec z z0); constructor; congruence);
    try (destruct (Z.eqb_spec id id0); constructor; congruence);
    try (destruct (Z.eqb_spec a a0); constructor; congruence).
  destruct (Z.eqb_spec arr arr0), (Z.eqb_spec i i0); cbn; constructor; congruence.
Qed.

Section Dll.
Context (ptr : Z -> val) (ptr_inj : forall x y, ptr x = ptr y -> x = y) (ptr_null : forall x, ptr x <> Null).

Definition hdp (l : list Z) : val := match l with [] => Null | x :: _ => ptr x end.
Fixpoint dll (nx pv : Z -> val) (p : val) (l : list Z) : Prop :=
  match l with [] => True | x :: r => pv x = p /\ nx x = hdp r /\ dll nx pv (ptr x) r end.

Lemma dll_ext nx pv nx' pv' l : forall p, (forall y, In y l -> nx' y = nx y /\ pv' y = pv y) -> dll nx pv p l -> dll nx' pv' p l.
Proof.
  induction l as [|x l IH]; intros p H D; [exact I|]. destruct D as (D1 & D2 & D3). destruct (H x (or_introl eq_refl)) as [H1 H2].
  cbn. rewrite H1, H2. repeat split; auto. apply IH; auto. intros y Hy. apply H. right. exact Hy.
Qed.

Lemma dll_push nx pv nx' pv' x l : dll nx pv Null l -> NoDup (x :: l) -> nx' x = hdp l -> pv' x = Null ->
  (forall y, In y l -> nx' y = nx y) -> (forall y, In y l -> pv' y = if val_eqb (ptr y) (hdp l) then ptr x else pv y) ->
  dll nx' pv' Null (x :: l).
Proof.
  intros D N H1 H2 H3 H4. cbn. split; [exact H2|]. split; [exact H1|]. destruct l as [|h r]; [exact I|].
  destruct D as (D1 & D2 & D3). cbn [hdp] in H4. split.
  - rewrite H4 by (left; reflexivity). destruct (val_eqb_spec (ptr h) (ptr h)); congruence.
  - split; [rewrite H3 by (left; reflexivity); exact D2|]. eapply dll_ext; [|exact D3]. intros y Hy.
    split; [apply H3; right; exact Hy|]. rewrite H4 by (right; exact Hy).
    destruct (val_eqb_spec (ptr y) (ptr h)) as [E|]; [|reflexivity]. apply ptr_inj in E. subst.
    inversion N; subst. inversion H6; subst. contradiction.
Qed.

Lemma dll_mid nx pv x b : forall a p, dll nx pv p (a ++ x :: b) ->
  nx x = hdp b /\ pv x = match rev a with [] => p | y :: _ => ptr y end.
Proof.
  induction a as [|z a IH]; intros p D; cbn in D.
  - destruct D as (D1 & D2 & _). split; [exact D2|exact D1].
  - destruct D as (_ & _ & D). destruct (IH _ D) as [H1 H2]. split; [exact H1|]. rewrite H2. cbn [rev].
    destruct (rev a); reflexivity.
Qed.

Lemma dll_del nx pv nx' pv' x b : forall a p, dll nx pv p (a ++ x :: b) -> NoDup (a ++ x :: b) ->
  (forall y, In y (a ++ x :: b) -> p <> ptr y) ->
  (forall y, In y (a ++ b) -> nx' y = if val_eqb (ptr y) (pv x) then nx x else nx y) ->
  (forall y, In y (a ++ b) -> pv' y = if val_eqb (ptr y) (nx x) then pv x else pv y) ->
  dll nx' pv' p (a ++ b).
Proof.
  induction a as [|z a IH]; intros p D N P Hn Hp.
  - cbn in *. destruct D as (D1 & D2 & D3). destruct b as [|y r]; [exact I|]. destruct D3 as (D3 & D4 & D5).
    cbn [hdp] in D2. cbn.
    inversion N as [|? ? N1 N2]; subst. inversion N2 as [|? ? N3 N4]; subst.
    split; [|split].
    + rewrite Hp by (left; reflexivity). rewrite D2. destruct (val_eqb_spec (ptr y) (ptr y)); congruence.
    + rewrite Hn by (left; reflexivity). destruct (val_eqb_spec (ptr y) (pv x)) as [E|]; [|exact D4].
      destruct (P y); [right; left; reflexivity|congruence].
    + eapply dll_ext; [|exact D5]. intros w Hw. split.
      * rewrite Hn by (right; exact Hw). destruct (val_eqb_spec (ptr w) (pv x)) as [E|]; [|reflexivity].
        destruct (P w); [right; right; exact Hw|congruence].
      * rewrite Hp by (right; exact Hw). rewrite D2. destruct (val_eqb_spec (ptr w) (ptr y)) as [E|]; [|reflexivity].
        apply ptr_inj in E. subst. contradiction.
  - cbn [app] in *. destruct (dll_mid nx pv x b (z :: a) p D) as [M1 M2]. destruct D as (D1 & D2 & D3). cbn [dll].
    inversion N as [|? ? N1 N2]; subst.
    assert (Nz : ~ In z (a ++ b)).
    { intros H. apply N1. apply in_app_or in H. apply in_or_app. destruct H; [left|right; right]; assumption. }
    assert (Nx : x <> z) by (intros ->; apply N1, in_or_app; right; left; reflexivity).
    split; [|split].
    + rewrite Hp by (left; reflexivity). rewrite M1. destruct (val_eqb_spec (ptr z) (hdp b)) as [E|]; [|reflexivity].
      destruct b as [|w r]; cbn in E; [destruct (ptr_null z E)|]. apply ptr_inj in E. subst.
      destruct Nz. apply in_or_app. right. left. reflexivity.
    + rewrite Hn by (left; reflexivity). rewrite M1, M2. destruct a as [|w a'].
      * cbn. destruct (val_eqb_spec (ptr z) (ptr z)); congruence.
      * cbn [rev]. rewrite <- app_assoc. cbn [app].
        assert (L : exists u q, rev a' ++ [w; z] = u :: q /\ In u (w :: a')).
        { assert (R : rev a' ++ [w; z] = (rev a' ++ [w]) ++ [z]) by (rewrite <- app_assoc; reflexivity). rewrite R.
          destruct (rev a' ++ [w]) as [|u q] eqn:E; [destruct (rev a'); discriminate|]. exists u, (q ++ [z]). split; [reflexivity|].
          apply (in_rev (w :: a')). cbn [rev]. rewrite E. left. reflexivity. }
        destruct L as (u & q & L & Iu). rewrite L. destruct (val_eqb_spec (ptr z) (ptr u)) as [E|]; [|exact D2].
        apply ptr_inj in E. subst. destruct Nz. apply in_or_app. left. exact Iu.
    + apply IH.
      * exact D3.
      * exact N2.
      * intros y Hy E. apply ptr_inj in E. subst. contradiction.
      * intros y Hy. apply Hn. right. exact Hy.
      * intros y Hy. apply Hp. right. exact Hy.
Qed.
End Dll.

(** ** Programs *)
Section Wp.
Context (c : tcfg).

Fixpoint wp (I : st -> Prop) (p : prog) (Q : val -> st -> Prop) (s : st) : Prop :=
  match p with
  | Ret v => Q v s
  | Do Lock _ | Do Unlock _ => False
  | Do o k => ~ bad s o /\ (exists v s', does c s o v s') /\ forall v s', does c s o v s' -> I s' /\ wp I (k v) Q s'
  end.

(** A program inside the critical section: it ends by releasing the mutex and returning. *)
Fixpoint safe (I : st -> Prop) (p : prog) (Q : val -> st -> Prop) (s : st) : Prop :=
  match p with
  | Ret _ => False
  | Do Lock _ => False
  | Do Unlock k => match k Null with Ret v => Q v s | _ => False end
  | Do o k => ~ bad s o /\ (exists v s', does c s o v s') /\ forall v s', does c s o v s' -> I s' /\ safe I (k v) Q s'
  end.

Lemma wp_bind I k Q : forall p s, wp I p (fun v s' => wp I (k v) Q s') s -> wp I (p >>= k) Q s.
Proof.
  induction p as [v|o k' IH]; intros s H; [exact H|]. cbn [bind].
  destruct o; cbn in *; try (exact H); destruct H as (H1 & H2 & H3); split; auto; split; auto;
    intros v' s' D; destruct (H3 _ _ D); split; auto.
Qed.

Lemma safe_bind I k Q : forall p s, wp I p (fun v s' => safe I (k v) Q s') s -> safe I (p >>= k) Q s.
Proof.
  induction p as [v|o k' IH]; intros s H; [exact H|]. cbn [bind].
  destruct o; cbn in *; try contradiction; destruct H as (H1 & H2 & H3); split; auto; split; auto;
    intros v' s' D; destruct (H3 _ _ D); split; auto.
Qed.

Lemma wp_mono (I : st -> Prop) (Q Q' : val -> st -> Prop) : forall p s, (forall v s', I s' \/ s' = s -> Q v s' -> Q' v s') -> wp I p Q s -> wp I p Q' s.
Proof.
  induction p as [v|o k IH]; intros s HQ H; [apply HQ; auto|].
  destruct o; cbn in *; try exact H; destruct H as (H1 & H2 & H3); split; auto; split; auto;
    intros v' s' D; destruct (H3 _ _ D) as [H4 H5]; split; auto;
    (apply IH; [intros w s2 [X|X] Y; apply HQ; auto; subst; left; exact H4|exact H5]).
Qed.
End Wp.
