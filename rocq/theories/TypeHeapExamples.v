(** A concrete memory of type objects used to show that hypotheses are met:
    struct A { char; double; } and struct B { struct A; char; struct A; }. *)
From Coq Require Import ZifyBool ZifyNat.
From Verif Require Import Base BaseFacts Types TypeHeapModel LayoutSpec TypeHeapSpec TypeHeapProofs TypeHeapProofs2.

(** Objects 0 char, 1 double, 2 struct A, 3 struct B, 4 float, 5 int. *)
Definition ex_heap : theap := fun p =>
  match p with
  | 0%nat => Some (TObj 1 1 T_SINT8 None)
  | 1%nat => Some (TObj 8 8 T_DOUBLE None)
  | 2%nat => Some (TObj 0 0 T_STRUCT (Some [0; 1]%nat))
  | 3%nat => Some (TObj 0 0 T_STRUCT (Some [2; 0; 2]%nat))
  | 4%nat => Some (TObj 4 4 T_FLOAT None)
  | 5%nat => Some (TObj 4 4 T_SINT32 None)
  | _ => None
  end.

(** Members are below their struct. *)
Definition ex_rank (p : tptr) : nat := match p with 2%nat => 1 | 3%nat => 2 | _ => 0 end%nat.

Lemma p2 (k a : Z) : 0 <= k < 16 -> a = 2 ^ k -> is_pow2 a.
Proof. intros; exists k; auto. Qed.

Lemma ex_wf : wf_theap ex_rank ex_heap.
Proof.
  intros p o G.
  do 6 (destruct p as [|p]; [cbn in G; injection G as <-; cbn; (split; [lia|]); split;
    [intros; first [apply (p2 0); [lia|reflexivity] | apply (p2 2); [lia|reflexivity]
       | apply (p2 3); [lia|reflexivity] | lia]
    | intros es e E I; try discriminate; injection E as <-; cbn in I;
      repeat (destruct I as [<-|I]; [cbn; split; [discriminate|lia]|]); contradiction]|]).
  discriminate.
Qed.

Lemma lm (a v m k : Z) : 0 < a -> m = k * a -> v <= m < v + a -> least_multiple a v m.
Proof.
  intros Ha -> H. split; [exists k; auto|]. split; [lia|].
  intros m' [k' ->] H'. assert (k * a < (k' + 1) * a) by lia. apply Z.mul_lt_mono_pos_r in H0; [|lia]. apply Z.mul_le_mono_nonneg_r; lia.
Qed.

Lemma ex_members2 : struct_layout [(1, 1); (8, 8)] [0; 8] 16 8.
Proof.
  exists 16. split; [|split; [reflexivity|apply (lm 8 16 16 2); lia]].
  constructor; [apply (lm 1 0 0 0); lia|]. constructor; [apply (lm 8 1 8 1); lia|]. constructor.
Qed.

Lemma ex_members3 : struct_layout [(16, 8); (1, 1); (16, 8)] [0; 16; 24] 40 8.
Proof.
  exists 40. split; [|split; [reflexivity|apply (lm 8 40 40 5); lia]].
  constructor; [apply (lm 8 0 0 0); lia|]. constructor; [apply (lm 1 16 16 16); lia|].
  constructor; [apply (lm 8 17 24 3); lia|]. constructor.
Qed.

Lemma ex_eff0 : eff ex_heap 0%nat 1 1.
Proof. refine (eff_known ex_heap 0%nat (TObj 1 1 T_SINT8 None) eq_refl _). discriminate. Qed.
Lemma ex_eff1 : eff ex_heap 1%nat 8 8.
Proof. refine (eff_known ex_heap 1%nat (TObj 8 8 T_DOUBLE None) eq_refl _). discriminate. Qed.
Lemma ex_eff4 : eff ex_heap 4%nat 4 4.
Proof. refine (eff_known ex_heap 4%nat (TObj 4 4 T_FLOAT None) eq_refl _). discriminate. Qed.
Lemma ex_eff5 : eff ex_heap 5%nat 4 4.
Proof. refine (eff_known ex_heap 5%nat (TObj 4 4 T_SINT32 None) eq_refl _). discriminate. Qed.
Lemma ex_eff2 : eff ex_heap 2%nat 16 8.
Proof.
  refine (eff_struct ex_heap 2%nat (TObj 0 0 T_STRUCT (Some [0; 1]%nat)) [0; 1]%nat
            [(1, 1); (8, 8)] [0; 8] 16 8 eq_refl eq_refl eq_refl _ _ ex_members2).
  - discriminate.
  - repeat constructor; [exact ex_eff0|exact ex_eff1].
Qed.
Lemma ex_eff3 : eff ex_heap 3%nat 40 8.
Proof.
  refine (eff_struct ex_heap 3%nat (TObj 0 0 T_STRUCT (Some [2; 0; 2]%nat)) [2; 0; 2]%nat
            [(16, 8); (1, 1); (16, 8)] [0; 16; 24] 40 8 eq_refl eq_refl eq_refl _ _ ex_members3).
  - discriminate.
  - repeat constructor; [exact ex_eff2|exact ex_eff0|exact ex_eff2].
Qed.

Lemma ex_fit : sizes_fit 64 ex_heap.
Proof.
  intros p s a E. apply (eff_eff_layout ex_rank ex_heap ex_wf) in E.
  assert (D : forall s' a', eff ex_heap p s' a' -> s' < 2 ^ 64 -> s < 2 ^ 64).
  { intros s' a' E' H. destruct (eff_det ex_rank ex_heap ex_wf _ _ _ _ _ E E') as [-> ->]. auto. }
  do 6 (destruct p as [|p]; [eapply D;
     [first [exact ex_eff0|exact ex_eff1|exact ex_eff2|exact ex_eff3|exact ex_eff4|exact ex_eff5]|reflexivity]|]).
  inversion E; discriminate.
Qed.

Lemma ex_typed : well_typed ex_rank x86_64_target 3 ex_heap (2, 3%nat, [2; 1; 4; 5]%nat).
Proof.
  intros p H. cbn in H.
  repeat (destruct H as [<-|H]; [repeat split; [discriminate|cbn; lia|left; reflexivity]|]).
  contradiction.
Qed.

Lemma ex_acyclic : acyclic ex_rank ex_heap.
Proof. intros p o es e G. destruct (ex_wf p o G) as (_ & _ & H). eauto. Qed.

(** struct { int; struct {} }: the empty struct makes the type invalid. *)
Definition bad_heap : theap := fun p =>
  match p with
  | 0%nat => Some (TObj 4 4 T_SINT32 None)
  | 1%nat => Some (TObj 0 0 T_STRUCT (Some []))
  | 2%nat => Some (TObj 0 0 T_STRUCT (Some [0; 1]%nat))
  | 3%nat => Some (TObj 0 0 T_STRUCT (Some [1; 0]%nat))
  | _ => None
  end.
