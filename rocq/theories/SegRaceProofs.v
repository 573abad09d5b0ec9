From Verif Require Import Base SegRaceModel SegRaceSpec.
From Coq Require Import Lia ZifyBool.
Local Open Scope Z_scope.

Section Race.
Context (a : Z) (k : nat) (l : list nat).

(** The rest of the list from [n] on contains the record looked for. *)
Definition rest (h : rheap) (n : nat) : Prop := exists l', chain h n l' /\ In k l' /\ incl l' l.

(** The search between the loads: it has not passed the record it looks for. *)
Definition ahead (h : rheap) (r : reader) : Prop :=
  match r with
  | RBase n => rest h n
  | RBase2 n => rest h n /\ r_base (h n) <= a
  | RSize n b => rest h n /\ b = r_base (h n) /\ b <= a
  | RNext n => n <> k /\ rest h n
  | RDone o => o = Some k
  end.

Definition good (h : rheap) : Prop :=
  has_addr h k a /\ forall n, In n l -> n <> k -> ~ has_addr h n a.

Lemma rest_in h n : rest h n -> In n l.
Proof. intros (l' & C & _ & I). apply I. destruct C; left; reflexivity. Qed.

Lemma read_ahead h r : good h -> ahead h r -> ahead h (read_step a h r).
Proof.
  intros (G & U) H. destruct r as [n|n|n b|n|o]; cbn in *.
  - destruct (Z.leb_spec (r_base (h n)) a); cbn; [auto|]. split; [|exact H]. intros ->. unfold has_addr in G. lia.
  - destruct H as (H & E). auto.
  - destruct H as (H & -> & E). destruct (Z.ltb_spec a (r_base (h n) + r_size (h n))); cbn.
    + destruct (Nat.eq_dec n k) as [->|N]; [reflexivity|]. exfalso. apply (U n (rest_in _ _ H) N). unfold has_addr. lia.
    + split; [|exact H]. intros ->. unfold has_addr in G. lia.
  - destruct H as (N & l' & C & I & J). destruct C as [m E|m j l' E C].
    + cbn in I. destruct I as [->|[]]. congruence.
    + rewrite E. cbn. exists l'. split; [exact C|]. cbn in I. destruct I as [->|I]; [congruence|]. split; [exact I|].
      intros x Hx. apply J. right. exact Hx.
  - exact H.
Qed.

Lemma size_same h n v m : r_base (do_store (StSize n v) h m) = r_base (h m) /\ r_next (do_store (StSize n v) h m) = r_next (h m) /\
  r_size (do_store (StSize n v) h m) = if Nat.eqb m n then v else r_size (h m).
Proof. cbn. destruct (Nat.eqb_spec m n) as [->|]; cbn; auto. Qed.

Lemma chain_size h n v m l' : chain h m l' -> chain (do_store (StSize n v) h) m l'.
Proof.
  induction 1 as [m H|m j l' H C IH].
  - apply chain_end. rewrite (proj1 (proj2 (size_same h n v m))). exact H.
  - apply chain_cons with j; [|exact IH]. rewrite (proj1 (proj2 (size_same h n v m))). exact H.
Qed.

Lemma rest_size h n v m : rest h m -> rest (do_store (StSize n v) h) m.
Proof. intros (l' & C & I). exists l'. split; [apply chain_size; exact C|exact I]. Qed.

Lemma good_size h n t : good h -> 0 <= t -> ~ (r_base (h n) + r_size (h n) <= a < r_base (h n) + r_size (h n) + t) ->
  good (do_store (StSize n (r_size (h n) + t)) h).
Proof.
  intros (G & U) Ht F. split.
  - unfold has_addr in *. destruct (size_same h n (r_size (h n) + t) k) as (-> & _ & ->). destruct (Nat.eqb_spec k n) as [->|]; lia.
  - intros m Hm N. specialize (U m Hm N). unfold has_addr in *.
    destruct (size_same h n (r_size (h n) + t) m) as (-> & _ & ->). destruct (Nat.eqb_spec m n) as [->|]; lia.
Qed.

Lemma ahead_size h n v r : ahead h r -> ahead (do_store (StSize n v) h) r.
Proof.
  destruct r as [m|m|m b|m|o]; cbn [ahead]; intros A; rewrite ?(proj1 (size_same h n v m)).
  - apply rest_size; exact A.
  - destruct A as (A & B). split; [apply rest_size; exact A|exact B].
  - destruct A as (A & B). split; [apply rest_size; exact A|exact B].
  - destruct A as (A & B). split; [exact A|apply rest_size; exact B].
  - exact A.
Qed.

Lemma race_appends sched : forall q h r, good h -> fresh_appends h a q -> ahead h r ->
  ahead (snd (fst (race a sched (appends h q) h r))) (snd (race a sched (appends h q) h r)).
Proof.
  induction sched as [|[] s IH]; intros q h r G W A; cbn [race].
  - exact A.
  - apply IH; auto. apply read_ahead; assumption.
  - destruct q as [|[n t] q]; cbn [appends append_stores app]; [apply (IH []); auto|].
    destruct W as (W1 & W2 & W3). apply IH; [apply good_size; assumption|exact W3|apply ahead_size; exact A].
Qed.
End Race.

Lemma C51_appends h l k a q : located h l k a -> fresh_appends h a q -> finds h (appends h q) k a.
Proof.
  intros (C & N & I & G & U) F sched o E.
  pose proof (race_appends a k l sched q h (RBase 0)) as A. rewrite E in A. apply A; [split; assumption|exact F|].
  exists l. split; [exact C|]. split; [exact I|]. intros x Hx; exact Hx.
Qed.

(** The search ends after at most four loads per record. *)
Lemma search_ends h a : forall l n, chain h n l -> exists o, snd (race a (repeat true (4 * length l)) [] h (RBase n)) = RDone o.
Proof.
  assert (D : forall m o, snd (race a (repeat true m) [] h (RDone o)) = RDone o) by (induction m; intros; cbn; auto).
  assert (Tr : forall m j r, snd (race a (repeat true (m + j)) [] h r) = snd (race a (repeat true j) [] h (snd (race a (repeat true m) [] h r)))).
  { induction m as [|m IH]; intros j r; cbn; [reflexivity|]. apply IH. }
  induction l as [|x l IH]; intros n C; [inversion C|].
  replace (4 * length (x :: l))%nat with (4 + 4 * length l)%nat by (cbn; lia). rewrite Tr.
  assert (St : (exists o, snd (race a (repeat true 4) [] h (RBase n)) = RDone o) \/
               (exists j, r_next (h n) = Some j /\ (snd (race a (repeat true 4) [] h (RBase n)) = RBase j \/
                 snd (race a (repeat true 4) [] h (RBase n)) = read_step a h (read_step a h (RBase j))))).
  { cbn. destruct (r_base (h n) <=? a); cbn.
    - destruct (a <? r_base (h n) + r_size (h n)); cbn; [left; eauto|]. destruct (r_next (h n)); [right; eauto|left; eauto].
    - destruct (r_next (h n)) as [j|]; cbn; [|left; eauto]. right. exists j. split; [reflexivity|]. right. reflexivity. }
  destruct St as [(o & ->)|(j & Hj & St)]; [rewrite D; eauto|].
  inversion C as [m E|m j' l' E C']; subst; [congruence|]. rewrite Hj in E. injection E as <-.
  destruct (IH j C') as (o & Ho). destruct St as [-> | ->]; [eauto|].
  exists o. rewrite <- Ho at 1.
  change (read_step a h (read_step a h (RBase j))) with (snd (race a (repeat true 2) [] h (RBase j))).
  rewrite <- Tr. rewrite Nat.add_comm, Tr, Ho. apply D.
Qed.

(** Two segments; memory that does not fit is added, or a segment grows downwards. *)
Definition h0 : rheap := fun n =>
  match n with
  | O => SRec 0x20000 0x1000 (Some 1%nat) 0x500000
  | S O => SRec 0x10000 0x1000 None 0x600000
  | _ => SRec 0 0 None 0
  end.

Lemma h0_located k a : (k = 0%nat /\ 0x20000 <= a < 0x21000) \/ (k = 1%nat /\ 0x10000 <= a < 0x11000) -> located h0 [0; 1]%nat k a.
Proof.
  intros H. split; [apply chain_cons with 1%nat; [reflexivity|apply chain_end; reflexivity]|].
  split; [repeat constructor; cbn; intuition discriminate|].
  split; [cbn; destruct H as [(-> & _)|(-> & _)]; auto|].
  split; [unfold has_addr; destruct H as [(-> & H)|(-> & H)]; cbn; lia|].
  intros n [<-|[<-|[]]] N; unfold has_addr; cbn; destruct H as [(-> & H)|(-> & H)]; try congruence; lia.
Qed.

(** The reader comes by after the new base and size are stored and before the link is. *)
Definition add_sched : list bool := repeat false 7 ++ repeat true 6.
Lemma C51_add_witness : exists h l k a ss tbase tsize exo sched, located h l k a /\ ~ In ss l /\
  ~ (tbase <= a < tbase + tsize) /\
  (let '(_, h', r) := race a sched (add_segment_stores h ss tbase tsize exo) h (RBase 0) in code_of h' a r = Some UB).
Proof.
  exists h0, [0; 1]%nat, 0%nat, 0x20010, 2%nat, 0x30000, 0x1000, 0x500000, add_sched.
  split; [apply h0_located; left; split; [reflexivity|lia]|]. split; [cbn; intuition discriminate|]. split; [lia|].
  vm_compute. reflexivity.
Qed.

(** The record is found and then changes before its offset is loaded. *)
Lemma C51_stale_witness : exists h l k a ss tbase tsize exo sched, located h l k a /\ ~ In ss l /\
  ~ (tbase <= a < tbase + tsize) /\
  (let '(_, h', r) := race a sched (add_segment_stores h ss tbase tsize exo) h (RBase 0) in
   exists c, code_of h' a r = Some (Ok c) /\ c <> a + r_exo (h k)).
Proof.
  exists h0, [0; 1]%nat, 0%nat, 0x20010, 2%nat, 0x30000, 0x1000, 0x700000, (repeat true 3 ++ repeat false 8).
  split; [apply h0_located; left; split; [reflexivity|lia]|]. split; [cbn; intuition discriminate|]. split; [lia|].
  vm_compute. eexists. split; [reflexivity|discriminate].
Qed.

(** The new base is stored and the new size is not. *)
Lemma C51_prepend_witness : exists h l k a n tbase tsize sched, located h l k a /\ In n l /\
  0 < tsize /\ tbase + tsize = r_base (h n) /\ ~ (tbase <= a < tbase + tsize) /\
  (let '(_, h', r) := race a sched (prepend_stores h n tbase tsize) h (RBase 0) in code_of h' a r = Some UB).
Proof.
  exists h0, [0; 1]%nat, 1%nat, 0x10f00, 1%nat, 0xf000, 0x1000, (false :: repeat true 6).
  split; [apply h0_located; right; split; [reflexivity|lia]|]. split; [cbn; auto|]. split; [lia|]. split; [reflexivity|].
  split; [lia|]. vm_compute. reflexivity.
Qed.

Lemma h0_appends : fresh_appends h0 0x10f00 [(1%nat, 0x1000); (0%nat, 0x3000)].
Proof. cbn. lia. Qed.
