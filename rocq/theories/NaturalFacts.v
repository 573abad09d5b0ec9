(** Facts about natural types. *)
From Coq Require Import ZifyBool ZifyNat.
From Verif Require Import Base BaseFacts Types LayoutSpec NaturalTypes.

Lemma least_multiple_round a v m : 0 < a -> least_multiple a v m -> m = round_up v a.
Proof.
  intros Ha (D & L & M). pose proof (round_up_le v a Ha). pose proof (round_up_least v a m Ha D L).
  specialize (M (round_up v a) (round_up_divide v a) H). lia.
Qed.

Lemma round_least_multiple a v : 0 < a -> least_multiple a v (round_up v a).
Proof.
  intros Ha. split; [apply round_up_divide|]. split; [apply round_up_le; auto|].
  intros. apply round_up_least; auto.
Qed.

(** End of a member list, functionally. *)
Fixpoint end_at (e : Z) (es : list ftype) : Z :=
  match es with
  | [] => e
  | t :: r => end_at (round_up e (ty_align t) + ty_size t) r
  end.

Definition basic (t : ftype) : Prop :=
  0 < ty_size t /\ is_pow2 (ty_align t) /\ ty_align t <= 16 /\ (ty_align t | ty_size t).

Lemma basic_align_pos t : basic t -> 1 <= ty_align t.
Proof. intros (_ & P & _). apply is_pow2_pos in P. lia. Qed.

Lemma members_end es : Forall basic es -> forall e offs e',
  members_at e (map lay es) offs e' -> e' = end_at e es.
Proof.
  induction 1 as [|t es B F IH]; intros e offs e' M; cbn in M.
  - inversion M; subst. reflexivity.
  - inversion M as [|e0 s a off rest offs0 e0' LM M']; subst. cbn [end_at].
    apply least_multiple_round in LM; [|pose proof (basic_align_pos _ B); lia]. subst. eauto.
Qed.

Lemma end_at_ge es : Forall basic es -> forall e, e <= end_at e es.
Proof.
  induction 1 as [|t es B F IH]; intros e; cbn [end_at]; [lia|].
  specialize (IH (round_up e (ty_align t) + ty_size t)). destruct B as (Hs & Hp & _).
  apply is_pow2_pos in Hp. pose proof (round_up_le e (ty_align t)). lia.
Qed.

Lemma end_at_gt es : Forall basic es -> es <> [] -> forall e, e < end_at e es.
Proof.
  destruct 1 as [|t es B F]; intros N e; [congruence|]. cbn [end_at].
  pose proof (end_at_ge es F (round_up e (ty_align t) + ty_size t)). destruct B as (Hs & Hp & _).
  apply is_pow2_pos in Hp. pose proof (round_up_le e (ty_align t)). lia.
Qed.

Lemma max_align_map es : Forall basic es -> is_pow2 (max_align (map lay es)) /\ max_align (map lay es) <= 16.
Proof.
  induction 1 as [|t es B F [IH1 IH2]]; cbn [map].
  - split; [exists 0; split; [lia|reflexivity]|cbn; lia].
  - change (max_align (lay t :: map lay es)) with (Z.max (ty_align t) (max_align (map lay es))).
    destruct B as (_ & P & L & _). split; [apply is_pow2_max; auto|lia].
Qed.

Lemma max_align_in es t : In t es -> ty_align t <= max_align (map lay es).
Proof.
  induction es as [|u es IH]; intros H; [contradiction|]. cbn [map].
  change (max_align (lay u :: map lay es)) with (Z.max (ty_align u) (max_align (map lay es))).
  destruct H as [->|H]; [lia|]. specialize (IH H). lia.
Qed.

Lemma struct_basic s a es offs : es <> [] -> Forall basic es -> struct_layout (map lay es) offs s a ->
  basic (FT T_STRUCT s a es) /\ s = round_up (end_at 0 es) a /\ a = max_align (map lay es).
Proof.
  intros N F (e & M & -> & L). apply members_end in M; auto. subst e.
  destruct (max_align_map es F) as [P U]. pose proof (is_pow2_pos _ P).
  apply least_multiple_round in L; [|lia]. subst s. split; [|auto].
  pose proof (end_at_gt es F N 0). pose proof (round_up_le (end_at 0 es) (max_align (map lay es))).
  repeat split; cbn; try lia; auto. apply round_up_divide.
Qed.

Lemma scalar_basic t : In t scalar_types -> basic t.
Proof.
  intros H. cbn in H. repeat (destruct H as [<-|H]; [cbn; repeat split; cbn; try lia;
    first [exists 0; split; [lia|reflexivity]|exists 1; split; [lia|reflexivity]|exists 2; split; [lia|reflexivity]
    |exists 3; split; [lia|reflexivity]|exists 4; split; [lia|reflexivity]|exists 1; reflexivity]|]). contradiction.
Qed.

Lemma natural_basic t : natural t -> basic t.
Proof.
  induction t as [c s a es IH] using ftype_ind'. intros N.
  inversion N as [t0 H|t0 H|s0 a0 es0 offs NE F SL]; subst.
  - apply scalar_basic; auto.
  - assert (B : basic t0) by (apply scalar_basic; right; auto).
    destruct B as (B1 & B2 & B3 & B4). change (0 < 2 * ty_size t0 /\ is_pow2 (ty_align t0) /\ ty_align t0 <= 16 /\ (ty_align t0 | 2 * ty_size t0)). split; [lia|]. split; [auto|]. split; [auto|]. apply Z.divide_mul_r; auto.
  - eapply struct_basic; eauto. rewrite Forall_forall in *. auto.
Qed.

Lemma natural_struct_inv s a es : natural (FT T_STRUCT s a es) ->
  es <> [] /\ Forall natural es /\ s = round_up (end_at 0 es) a /\ a = max_align (map lay es).
Proof.
  intros N. inversion N as [t0 H|t0 H|s0 a0 es0 offs NE F SL]; subst.
  - exfalso. cbn in H. repeat (destruct H as [H|H]; [discriminate|]). contradiction.
  - split; auto. split; auto.
    assert (FB : Forall basic es) by (rewrite Forall_forall in *; auto using natural_basic).
    destruct (struct_basic _ _ _ _ NE FB SL) as (_ & A & B). auto.
Qed.

Lemma natural_elem_align s a es e : natural (FT T_STRUCT s a es) -> In e es -> (ty_align e | a).
Proof.
  intros N I. destruct (natural_struct_inv _ _ _ N) as (_ & F & _ & ->).
  assert (FB : Forall basic es) by (rewrite Forall_forall in *; auto using natural_basic).
  destruct (max_align_map es FB) as [P _]. pose proof (max_align_in es e I).
  rewrite Forall_forall in FB. destruct (FB e I) as (_ & Pe & _). apply is_pow2_divide; auto.
Qed.

Lemma round_up_0 a : 0 < a -> round_up 0 a = 0.
Proof. intros. apply round_up_id; auto. apply Z.divide_0_r. Qed.

(** The C struct with the given members. *)
Fixpoint offs_at (e : Z) (es : list ftype) : list Z :=
  match es with
  | [] => []
  | t :: r => let o := round_up e (ty_align t) in o :: offs_at (o + ty_size t) r
  end.
Definition c_struct_of (es : list ftype) : ftype :=
  let a := max_align (map lay es) in
  FT T_STRUCT (round_up (end_at 0 es) a) a es.

Lemma members_of_end es : Forall basic es -> forall e, members_at e (map lay es) (offs_at e es) (end_at e es).
Proof.
  induction 1 as [|t es B F IH]; intros e; cbn [map offs_at end_at]; [constructor|].
  apply members_cons; [|apply IH]. apply round_least_multiple. pose proof (basic_align_pos t B). cbn. lia.
Qed.

Lemma c_struct_natural es : es <> [] -> Forall natural es -> natural (c_struct_of es).
Proof.
  intros NE F. assert (B : Forall basic es) by (eapply Forall_impl; [|exact F]; apply natural_basic).
  unfold c_struct_of. apply natural_struct with (offs := offs_at 0 es); auto.
  exists (end_at 0 es). split; [apply members_of_end; auto|]. split; [reflexivity|].
  apply round_least_multiple. pose proof (max_align_map es B) as [P _]. apply is_pow2_pos in P. lia.
Qed.

Ltac natural_tac := repeat first
  [ apply Forall_nil
  | apply Forall_cons
  | apply c_struct_natural; [discriminate|]
  | match goal with |- natural ?t => match eval hnf in t with
      | FT T_COMPLEX _ _ [?u] => apply (natural_complex u); cbn; tauto
      | FT T_STRUCT _ _ _ => fail
      | _ => apply natural_scalar; cbn; tauto end end ].
