From Coq Require Import String Lia.
From Verif Require Import Base TempFileModel TempFileSpec.
Local Open Scope Z_scope.

Definition doc_of (o : opt) : docplace :=
  match o with OMemfd _ => DMemfd | OVar n => DEnv n | ODir n => DDir n | OMnt n => DMounts n end.

Lemma opts_documented g : map doc_of (opts g) = documented (tc_memfd g) (tc_mntent g).
Proof. unfold opts, documented. destruct (tc_memfd g), (tc_mntent g); reflexivity. Qed.

(** Same files, size and descriptor. *)
Definition same_files (s s' : ex) : Prop :=
  x_fd s' = x_fd s /\ x_size s' = x_size s /\ x_nfile s' = x_nfile s /\ x_file s' = x_file s.

(** One new file, empty. *)
Definition opened (n : nat) (s s' : ex) : Prop :=
  x_fd s' = x_fd s /\ x_size s' = x_size s /\ n = x_nfile s /\ x_nfile s' = S n /\
  x_file s' n = File 0 0 (fun _ => false) /\ (forall k, k <> n -> x_file s' k = x_file s k).

Definition file_step (fd : option nat) (s s' : ex) : Prop :=
  match fd with None => same_files s s' | Some n => opened n s s' end.

Definition same_search (s s' : ex) : Prop :=
  x_idx s' = x_idx s /\ x_last s' = x_last s /\ x_mnt s' = x_mnt s /\ x_tried s' = x_tried s.

Lemma sf_refl s : same_files s s.
Proof. repeat split. Qed.

Lemma sf_step fd s0 s s' : same_files s0 s -> file_step fd s s' -> file_step fd s0 s'.
Proof.
  intros (A & B & C & D) H. destruct fd as [n|]; cbn in *.
  - destruct H as (E & F & G & H & I & J). unfold opened.
    repeat split; try congruence. intros k Hk. rewrite J, D; auto.
  - destruct H as (E & F & G & H). unfold same_files. repeat split; congruence.
Qed.

Lemma step_sf fd s s1 s' : file_step fd s s1 -> same_files s1 s' -> file_step fd s s'.
Proof.
  intros H (A & B & C & D). destruct fd as [n|]; cbn in *.
  - destruct H as (E & F & G & H & I & J). unfold opened.
    rewrite A, B, C, D. repeat split; auto.
  - destruct H as (E & F & G & H). unfold same_files. repeat split; congruence.
Qed.

Lemma ss_trans a b c : same_search a b -> same_search b c -> same_search a c.
Proof. unfold same_search. intuition congruence. Qed.

Lemma new_file_ok s fd s' : new_file s = (fd, s') -> file_step fd s s' /\ same_search s s'.
Proof.
  intros H. injection H as <- <-. split.
  - cbn. unfold opened; cbn. rewrite Nat.eqb_refl. repeat split.
    intros k Hk. apply Nat.eqb_neq in Hk. rewrite Hk. reflexivity.
  - repeat split.
Qed.

Lemma tick_sf s : same_files s (tick s). Proof. repeat split. Qed.
Lemma tick_ss s : same_search s (tick s). Proof. repeat split. Qed.

Lemma open_call_ok e s fd s' : open_call e s = (fd, s') -> file_step fd s s' /\ same_search s s'.
Proof.
  unfold open_call. destruct (_ =? 0).
  - intros H. apply new_file_ok in H as [A B]. split; auto.
  - intros H. injection H as <- <-. split; repeat split.
Qed.

Lemma open_dir_ok g e s fd s' : open_dir g e s = (fd, s') -> file_step fd s s' /\ same_search s s'.
Proof.
  unfold open_dir. destruct (tc_tmpfile g); [destruct (_ =? 0); [|destruct (_ =? 1)]|]; intros H.
  - apply new_file_ok in H as [A B]. split; auto.
  - apply open_call_ok in H as [A B]. split; auto.
  - injection H as <- <-. split; repeat split.
  - apply open_call_ok in H as [A B]. split; auto.
Qed.

Lemma open_env_ok g e s fd s' : open_env g e s = (fd, s') -> file_step fd s s' /\ same_search s s'.
Proof.
  unfold open_env. destruct (e_var e _); intros H.
  - apply open_dir_ok in H as [A B]. split; auto.
  - injection H as <- <-. split; repeat split.
Qed.

Lemma entries_app f k a b : entries f k (a ++ b) = entries f k a ++ entries f (k + List.length a) b.
Proof.
  revert k; induction a as [|m a IH]; intros k; cbn [app entries List.length].
  - rewrite Nat.add_0_r; reflexivity.
  - rewrite IH. f_equal. f_equal. f_equal. lia.
Qed.

(** The loop over a mounts file. *)
Lemma mnt_loop_ok g e name l : forall k s fd s', mnt_loop g e name k l s = (fd, s') ->
  exists new, x_tried s' = rev new ++ x_tried s /\ Forall usable_only new /\
    file_step fd s s' /\ x_idx s' = x_idx s /\ x_last s' = x_last s /\
    match fd with
    | None => map stop_of new = entries name k l
    | Some _ => exists rest, x_mnt s' = Some ((k + List.length new)%nat, rest) /\
                   map stop_of new ++ entries name (k + List.length new) rest = entries name k l /\
                   (List.length rest < List.length l)%nat
    end.
Proof.
  induction l as [|m l IH]; intros k s fd s' H; cbn [mnt_loop] in H.
  - injection H as <- <-. exists []. cbn. repeat split. constructor.
  - assert (Skip : forall s1, same_files s s1 -> x_idx s1 = x_idx s -> x_last s1 = x_last s ->
        forall t, (t = true -> mnt_ro m = false /\ mnt_noexec m = false) ->
        x_tried s1 = VEnt name k m t :: x_tried s ->
        mnt_loop g e name (S k) l s1 = (fd, s') ->
        exists new, x_tried s' = rev new ++ x_tried s /\ Forall usable_only new /\
        file_step fd s s' /\ x_idx s' = x_idx s /\ x_last s' = x_last s /\
        match fd with
        | None => map stop_of new = entries name k (m :: l)
        | Some _ => exists rest, x_mnt s' = Some ((k + List.length new)%nat, rest) /\
                   map stop_of new ++ entries name (k + List.length new) rest = entries name k (m :: l) /\
                   (List.length rest < List.length (m :: l))%nat
        end).
    { intros s1 F1 I1 L1 t Ht T1 H1.
      destruct (IH _ _ _ _ H1) as (new & A & B & C & D & E & F).
      exists (VEnt name k m t :: new). split; [|split; [|split; [|split; [|split]]]].
      - cbn [rev]. rewrite A, T1, <- app_assoc. reflexivity.
      - constructor; [destruct t; cbn; auto | assumption].
      - eapply sf_step; eassumption.
      - congruence.
      - congruence.
      - destruct fd.
        + destruct F as (rest & F1' & F2 & F3). exists rest. cbn [List.length].
          replace (k + S (List.length new))%nat with (S k + List.length new)%nat by lia.
          split; [exact F1'|]. split; [|lia].
          cbn [map app entries stop_of]. f_equal. exact F2.
        + cbn [map entries stop_of]. f_equal. exact F. }
    destruct (mnt_ro m || mnt_noexec m) eqn:R.
    + apply (Skip (try_at s (VEnt name k m false))) with (t := false); [| | | |reflexivity|exact H]; try reflexivity.
      * repeat split.
      * discriminate.
    + destruct (negb (e_acc e (x_tick s))) eqn:A0.
      * apply (Skip (try_at (tick s) (VEnt name k m false))) with (t := false); [| | | |reflexivity|exact H]; try reflexivity.
        -- repeat split.
        -- discriminate.
      * apply orb_false_iff in R.
        destruct (open_dir g e _) as [fd1 s1] eqn:Ho.
        apply open_dir_ok in Ho as [Hf (Hi & Hl & Hm & Ht)].
        destruct fd1 as [n|].
        -- injection H as <- <-. exists [VEnt name k m true]. cbn [x_tried x_idx x_last x_mnt set_mnt].
           cbn [x_tried x_idx x_last x_mnt set_mnt try_at tick] in Hi, Hl, Hm, Ht.
           split; [rewrite Ht; reflexivity|]. split; [constructor; [exact R|constructor]|].
           split; [|split; [assumption|split; [assumption|]]].
           { eapply step_sf; [exact Hf|repeat split]. }
           exists l. cbn [List.length map app entries stop_of].
           replace (k + 1)%nat with (S k) by lia. split; [reflexivity|split; [reflexivity|lia]].
        -- eapply (Skip s1) with (t := true); [exact Hf|exact Hi|exact Hl|intros _; exact R|exact Ht|exact H].
Qed.

(** Invariant of the search. *)
Definition wf (g : tmpcfg) (s : ex) : Prop :=
  (x_idx s < List.length (opts g))%nat /\
  (x_last s = None -> x_mnt s = None) /\
  (forall f, x_last s = Some f -> nth_error (opts g) (x_idx s) = Some (OMnt f)) /\
  (x_fd s = None -> x_last s = None).

Definition idle (s : ex) : Prop := x_last s = None /\ x_mnt s = None.

Lemma opts_next_ok g e s w s' : (x_idx s < List.length (opts g))%nat ->
  (forall f, x_last s = Some f -> nth_error (opts g) (x_idx s) = Some (OMnt f)) ->
  (x_last s = None -> x_mnt s = None) ->
  opts_next g e s = (w, s') ->
  same_files s s' /\ x_tried s' = x_tried s /\ idle s' /\
  (if w then x_idx s' = 0%nat /\ S (x_idx s) = List.length (opts g)
   else x_idx s' = S (x_idx s) /\ (S (x_idx s) < List.length (opts g))%nat).
Proof.
  intros Hi Hl Hn. unfold opts_next.
  destruct (nth_error (opts g) (x_idx s)) as [o|] eqn:Ho; [|apply nth_error_None in Ho; lia].
  set (s1 := if repeats o then snd (open_mnt g e None s) else s).
  assert (H1 : same_files s s1 /\ x_tried s1 = x_tried s /\ x_idx s1 = x_idx s /\ idle s1).
  { subst s1. destruct (repeats o) eqn:R.
    - unfold open_mnt. destruct (x_last s) eqn:L; cbn.
      + repeat split.
      + destruct (x_mnt s) as [[? ?]|] eqn:M.
        * discriminate (Hn eq_refl).
        * cbn. repeat split; assumption.
    - assert (L : x_last s = None).
      { destruct (x_last s) as [f|] eqn:L; [|reflexivity]. pose proof (Hl f eq_refl) as K.
        injection K as ->. discriminate R. }
      split; [apply sf_refl|]. split; [reflexivity|]. split; [reflexivity|]. split; [exact L|auto]. }
  clearbody s1. destruct H1 as ((F1 & F2 & F3 & F4) & T & I & L & M).
  cbn [x_idx set_idx]. rewrite I.
  destruct (Nat.eqb_spec (S (x_idx s)) (List.length (opts g))) as [E|E]; intros H; injection H as <- <-.
  - repeat split; cbn; auto.
  - repeat split; cbn; auto. lia.
Qed.

Section Search.
Context (g : tmpcfg) (e : env) (Hm : tc_mntent g = true).

Notation D := (mounts_seen e).
Notation rows s := (skipn (x_idx s) (documented (tc_memfd g) (tc_mntent g))).

Lemma skipn_doc i o : nth_error (opts g) i = Some o ->
  skipn i (documented (tc_memfd g) (tc_mntent g)) =
  doc_of o :: skipn (S i) (documented (tc_memfd g) (tc_mntent g)).
Proof.
  rewrite <- opts_documented. generalize (opts g). intros l. revert i.
  induction l as [|a l IH]; intros [|i] H; try discriminate.
  - injection H as ->. reflexivity.
  - apply (IH i H).
Qed.

Lemma last_row i o : nth_error (opts g) i = Some o -> S i = List.length (opts g) -> repeats o = true.
Proof.
  unfold opts. rewrite Hm. destruct (tc_memfd g); cbn; intros H E; injection E as ->; injection H as <-; reflexivity.
Qed.

(** Progress of the search between two opened files. *)
Definition ents_left (s : ex) : nat := match x_mnt s with Some (_, l) => S (List.length l) | None => 0%nat end.
Definition later (s s' : ex) : Prop :=
  (x_idx s < x_idx s')%nat \/
  (x_idx s = x_idx s' /\ match x_mnt s with
                        | None => x_mnt s' <> None
                        | Some (_, l) => exists k l', x_mnt s' = Some (k, l') /\ (List.length l' < List.length l)%nat
                        end).

Lemma open_opt_fixed o s fd s' : repeats o = false -> open_opt g e o s = (fd, s') ->
  file_step fd s s' /\ x_idx s' = x_idx s /\ x_last s' = x_last s /\ x_mnt s' = x_mnt s /\
  x_tried s' = VRow o :: x_tried s.
Proof.
  intros R. destruct o; try discriminate; cbn [open_opt]; intros H.
  - apply open_call_ok in H as [A (B & C & E & F)]. repeat split; auto.
  - apply open_env_ok in H as [A (B & C & E & F)]. repeat split; auto.
  - apply open_dir_ok in H as [A (B & C & E & F)]. repeat split; auto.
Qed.

(** A row for a mounts file. *)
Lemma open_mnt_ok f s fd s' r :
  (x_last s = None -> x_mnt s = None) ->
  (forall f', x_last s = Some f' -> f' = f) ->
  open_mnt g e (Some f) s = (fd, s') ->
  exists new, x_tried s' = rev new ++ x_tried s /\ Forall usable_only new /\ file_step fd s s' /\
    x_idx s' = x_idx s /\ x_last s' = Some f /\
    match fd with
    | None => forall l, walk D None r l -> walk D (x_mnt s) (DMounts f :: r) (map stop_of new ++ l)
    | Some _ => (forall l, walk D (x_mnt s') (DMounts f :: r) l ->
                           walk D (x_mnt s) (DMounts f :: r) (map stop_of new ++ l)) /\
                match x_mnt s with
                | None => x_mnt s' <> None
                | Some (_, l) => exists k l', x_mnt s' = Some (k, l') /\ (List.length l' < List.length l)%nat
                end
    end.
Proof.
  intros Hn Hf H. unfold open_mnt in H.
  destruct (x_last s) as [f'|] eqn:L.
  - specialize (Hf _ eq_refl). subst f'. rewrite String.eqb_refl in H.
    destruct (x_mnt s) as [[k l]|] eqn:M.
    + apply mnt_loop_ok in H as (new & A & B & C & E & F & G). exists new.
      split; [exact A|]. split; [exact B|]. split; [exact C|]. split; [exact E|]. split; [congruence|].
      destruct fd.
      * destruct G as (rest & G1 & G2 & G3). split.
        -- intros w W. rewrite G1 in W. inversion W as [| | |? ? ? ? w0 W0]; subst.
           rewrite app_assoc, G2. constructor. exact W0.
        -- exists (k + List.length new)%nat, rest. split; [exact G1|exact G3].
      * intros w W. rewrite G. constructor. exact W.
    + injection H as <- <-. exists []. repeat split; auto.
      intros w W. cbn. apply (walk_mounts D f [] r w); [left; reflexivity|exact W].
  - cbn [negb] in H. rewrite (Hn eq_refl). clear Hn Hf.
    cbn [x_mnt set_mnt tick] in H.
    destruct (e_mnt e (x_tick s)) as [l|] eqn:M.
    + apply mnt_loop_ok in H as (new & A & B & C & E & F & G). exists new.
      split; [exact A|]. split; [exact B|]. split; [exact C|]. split; [exact E|]. split; [exact F|].
      destruct fd.
      * destruct G as (rest & G1 & G2 & G3). cbn [Nat.add] in G1, G2. split.
        -- intros w W. rewrite G1 in W. inversion W as [| | |? ? ? ? w0 W0]; subst.
           rewrite app_assoc, G2. constructor; [right; exists (x_tick s); exact M|exact W0].
        -- rewrite G1. discriminate.
      * intros w W. rewrite G. constructor; [right; exists (x_tick s); exact M|exact W].
    + injection H as <- <-. exists []. repeat split; auto.
      intros w W. cbn. apply (walk_mounts D f [] r w); [left; reflexivity|exact W].
Qed.

Definition search_wf (s : ex) : Prop :=
  (x_idx s < List.length (opts g))%nat /\
  (x_last s = None -> x_mnt s = None) /\
  (forall f, x_last s = Some f -> nth_error (opts g) (x_idx s) = Some (OMnt f)).

Lemma idle_wf s : (x_idx s < List.length (opts g))%nat -> idle s -> search_wf s.
Proof. intros H (A & B). split; [exact H|]. split; [intros _; exact B|]. intros f F. congruence. Qed.

Lemma open_temp_ok : forall fuel s, search_wf s -> (List.length (opts g) <= fuel + x_idx s)%nat ->
  exists fd s' new, open_temp fuel g e s = (Out fd, s') /\
    x_tried s' = rev new ++ x_tried s /\ Forall usable_only new /\ file_step fd s s' /\ search_wf s' /\
    match fd with
    | None => walk D (x_mnt s) (rows s) (map stop_of new) /\ idle s'
    | Some _ => (forall l, walk D (x_mnt s') (rows s') l -> walk D (x_mnt s) (rows s) (map stop_of new ++ l)) /\
                later s s'
    end.
Proof.
  induction fuel as [|fuel IH]; intros s (Hi & Hn & Hl) Hfuel; [lia|].
  cbn [open_temp].
  destruct (nth_error (opts g) (x_idx s)) as [o|] eqn:Ho; [|apply nth_error_None in Ho; lia].
  destruct (open_opt g e o s) as [fd s1] eqn:Hop.
  destruct (repeats o) eqn:R.
  - (* a mounts file *)
    destruct o as [| | |f]; try discriminate. cbn [open_opt] in Hop.
    assert (Hl' : forall f', x_last s = Some f' -> f' = f).
    { intros f' F. specialize (Hl _ F). congruence. }
    destruct (open_mnt_ok f s fd s1 (skipn (S (x_idx s)) (documented (tc_memfd g) (tc_mntent g))) Hn Hl' Hop)
      as (new & A & B & C & E & F & G).
    cbn [negb orb]. destruct fd as [n|].
    + exists (Some n), s1, new. split; [reflexivity|]. split; [exact A|]. split; [exact B|].
      split; [exact C|]. destruct G as (G1 & G2). split; [|split].
      * split; [rewrite E; exact Hi|]. split; [intros K; congruence|].
        intros f' K. rewrite F in K. injection K as <-. rewrite E. exact Ho.
      * intros l W. rewrite (skipn_doc _ _ Ho). cbn [doc_of]. apply G1. rewrite E, (skipn_doc _ _ Ho) in W. exact W.
      * right. split; [symmetry; exact E|]. exact G2.
    + destruct (opts_next g e s1) as [w s2] eqn:Hnx.
      apply opts_next_ok in Hnx as (N1 & N2 & N3 & N4).
      2:{ rewrite E; exact Hi. }
      2:{ intros f' K. rewrite F in K. injection K as <-. rewrite E. exact Ho. }
      2:{ intros K; congruence. }
      destruct w.
      * exists None, s2, new. split; [reflexivity|]. destruct N4 as [N4 N5].
        split; [congruence|]. split; [exact B|]. split; [eapply step_sf; eassumption|].
        split; [apply idle_wf; [rewrite N4; destruct (opts g); [destruct (x_idx s); discriminate|cbn; lia]|exact N3]|].
        split; [|exact N3]. rewrite (skipn_doc _ _ Ho). cbn [doc_of].
        specialize (G []). rewrite app_nil_r in G. apply G.
        rewrite skipn_all2; [constructor|]. rewrite <- opts_documented, map_length. lia.
      * destruct N4 as [N4 N5].
        destruct (IH s2) as (fd' & s3 & new' & P & P1 & P2 & P3 & P4 & P5).
        { apply idle_wf; [lia|exact N3]. }
        { lia. }
        exists fd', s3, (new ++ new'). split; [exact P|].
        assert (Fs : same_files s s2) by (eapply (step_sf None); eassumption).
        split; [rewrite P1, N2, A, rev_app_distr, app_assoc; reflexivity|].
        split; [apply Forall_app; split; assumption|].
        split; [eapply sf_step; eassumption|]. split; [exact P4|].
        destruct N3 as (N3a & N3b). rewrite N3b, N4, E in P5.
        rewrite (skipn_doc _ _ Ho). cbn [doc_of].
        destruct fd'.
        -- destruct P5 as (P5 & P6). split.
           ++ intros l W. rewrite map_app, <- app_assoc. apply G. apply P5. exact W.
           ++ left. destruct P6 as [P6|[P6 _]]; lia.
        -- destruct P5 as (P5 & P6). split; [|exact P6]. rewrite map_app. apply G. exact P5.
  - (* a fixed place *)
    assert (Id : idle s).
    { destruct (x_last s) as [f|] eqn:L.
      - specialize (Hl _ eq_refl). injection Hl as ->. discriminate.
      - split; [exact L|apply Hn; reflexivity]. }
    destruct (open_opt_fixed o s fd s1 R Hop) as (A & B & C & E & F).
    assert (Wk : forall l, walk D None (skipn (S (x_idx s)) (documented (tc_memfd g) (tc_mntent g))) l ->
                 walk D (x_mnt s) (rows s) (stop_of (VRow o) :: l)).
    { intros l W. rewrite (skipn_doc _ _ Ho). destruct Id as (_ & Idm). rewrite Idm.
      destruct o; try discriminate; cbn [doc_of stop_of]; constructor; try exact W; intros; discriminate. }
    cbn [negb orb]. destruct (opts_next g e s1) as [w s2] eqn:Hnx.
    apply opts_next_ok in Hnx as (N1 & N2 & N3 & N4).
    2:{ lia. }
    2:{ intros f' K. destruct Id. congruence. }
    2:{ intros K. destruct Id. congruence. }
    destruct w.
    { destruct N4 as [_ N4]. rewrite B in N4. rewrite (last_row _ _ Ho N4) in R. discriminate. }
    destruct N4 as [N4 N5].
    destruct fd as [n|].
    + exists (Some n), s2, [VRow o]. split; [reflexivity|].
      split; [cbn; congruence|]. split; [constructor; [exact Logic.I|constructor]|].
      split; [eapply step_sf; eassumption|].
      split; [apply idle_wf; [lia|exact N3]|]. split.
      * intros l W. cbn [map app]. apply Wk. destruct N3 as (_ & N3). rewrite N3, N4, B in W. exact W.
      * left. lia.
    + destruct (IH s2) as (fd' & s3 & new' & P & P1 & P2 & P3 & P4 & P5).
      { apply idle_wf; [lia|exact N3]. }
      { lia. }
      exists fd', s3, (VRow o :: new'). split; [exact P|].
      assert (Fs : same_files s s2) by (eapply (step_sf None); eassumption).
      split; [cbn [rev]; rewrite P1, N2, F, <- app_assoc; reflexivity|].
      split; [constructor; [exact Logic.I|assumption]|].
      split; [eapply sf_step; eassumption|]. split; [exact P4|].
      destruct N3 as (N3a & N3b). rewrite N3b, N4, B in P5.
      destruct fd'.
      * destruct P5 as (P5 & P6). split.
        -- intros l W. cbn [map app]. apply Wk. apply P5. exact W.
        -- left. destruct P6 as [P6|[P6 _]]; lia.
      * destruct P5 as (P5 & P6). split; [|exact P6]. cbn [map]. apply Wk. exact P5.
Qed.

Lemma walk_exists r : exists l, walk D None r l.
Proof.
  induction r as [|d r [l IH]]; [exists []; constructor|].
  destruct d as [|n|n|f].
  - exists (At DMemfd :: l). constructor; [discriminate|exact IH].
  - exists (At (DEnv n) :: l). constructor; [discriminate|exact IH].
  - exists (At (DDir n) :: l). constructor; [discriminate|exact IH].
  - exists l. apply (walk_mounts D f [] r l); [left; reflexivity|exact IH].
Qed.

Lemma walk_from s : search_wf s -> exists l, walk D (x_mnt s) (rows s) l.
Proof.
  intros (A & B & C). destruct (x_mnt s) as [[k l]|] eqn:M; [|apply walk_exists].
  destruct (x_last s) as [f|] eqn:L; [|discriminate (B eq_refl)].
  rewrite (skipn_doc _ _ (C f eq_refl)). cbn [doc_of].
  destruct (walk_exists (skipn (S (x_idx s)) (documented (tc_memfd g) (tc_mntent g)))) as [w W].
  eexists. constructor. exact W.
Qed.

End Search.

(** * Files *)

(** A file written at its position. *)
Definition grown (f f' : file) : Prop :=
  f_pos f <= f_pos f' /\
  f_size f' = (if f_pos f' =? f_pos f then f_size f else Z.max (f_size f) (f_pos f')) /\
  (forall x, f_space f' x = (f_pos f <=? x) && (x <? f_pos f') || f_space f x).

Lemma grown_refl f : grown f f.
Proof.
  split; [lia|]. split; [rewrite Z.eqb_refl; reflexivity|]. intros x.
  destruct ((f_pos f <=? x) && (x <? f_pos f)) eqn:E; [|reflexivity].
  apply andb_true_iff in E. lia.
Qed.

Lemma grown_trans a b c : grown a b -> grown b c -> grown a c.
Proof.
  intros (A1 & A2 & A3) (B1 & B2 & B3). split; [lia|]. split.
  - rewrite B2, A2. destruct (Z.eqb_spec (f_pos c) (f_pos b)), (Z.eqb_spec (f_pos b) (f_pos a)), (Z.eqb_spec (f_pos c) (f_pos a)); lia.
  - intros x. rewrite B3, A3.
    destruct (Z.leb_spec (f_pos b) x), (Z.ltb_spec x (f_pos c)), (Z.leb_spec (f_pos a) x), (Z.ltb_spec x (f_pos b));
      cbn; try reflexivity; lia.
Qed.

(** Only file [n] changes, it is written to. *)
Definition wrote (n : nat) (s s' : ex) : Prop :=
  same_search s s' /\ x_fd s' = x_fd s /\ x_size s' = x_size s /\ x_nfile s' = x_nfile s /\
  (forall k, k <> n -> x_file s' k = x_file s k) /\ grown (x_file s n) (x_file s' n).

Lemma wrote_trans n a b c : wrote n a b -> wrote n b c -> wrote n a c.
Proof.
  intros (A0 & A1 & A2 & A3 & A4 & A5) (B0 & B1 & B2 & B3 & B4 & B5).
  split; [eapply ss_trans; eassumption|]. repeat (split; [congruence|]). split.
  - intros k Hk. rewrite B4, A4; auto.
  - eapply grown_trans; eassumption.
Qed.

Lemma wrote_tick n s : wrote n s (tick s).
Proof. split; [apply tick_ss|]. do 4 (split; [reflexivity|]). apply grown_refl. Qed.

Lemma write_call_ok e n len s w s' : 0 < len -> write_call e n len s = (w, s') ->
  wrote n s s' /\ (w < len \/ w = len) /\ (len <= w -> f_pos (x_file s' n) = f_pos (x_file s n) + len).
Proof.
  intros Hlen. unfold write_call. cbn [x_tick x_file tick].
  destruct (Z.ltb_spec (Z.min (e_write e (x_tick s)) len) 0) as [L|L]; intros H; injection H as <- <-.
  - split; [apply wrote_tick|]. split; lia.
  - set (w := Z.min (e_write e (x_tick s)) len) in *. assert (w <= len) by lia.
    split; [|split; [lia|]].
    + split; [repeat split|]. do 3 (split; [reflexivity|]). cbn [x_file set_file tick]. split.
      * intros k Hk. apply Nat.eqb_neq in Hk. rewrite Hk. reflexivity.
      * rewrite Nat.eqb_refl. split; cbn [f_pos f_size f_space]; [lia|]. split.
        -- destruct (Z.eqb_spec w 0), (Z.eqb_spec (f_pos (x_file s n) + w) (f_pos (x_file s n))); lia.
        -- intros x. destruct (_ && _); reflexivity.
    + intros. cbn [x_file set_file tick]. rewrite Nat.eqb_refl. cbn [f_pos]. lia.
Qed.

Lemma allocate_ok g e n : 0 < tc_page g -> forall fuel len s, (Z.to_nat len < fuel)%nat -> 0 <= len ->
  exists b s', allocate_space fuel g e n len s = (Out b, s') /\ wrote n s s' /\
    (b = true -> f_pos (x_file s' n) = f_pos (x_file s n) + len).
Proof.
  intros Hp. induction fuel as [|fuel IH]; intros len s Hf Hl; [lia|]. cbn [allocate_space].
  destruct (Z.leb_spec len 0) as [L|L].
  - exists true, s. split; [reflexivity|]. split; [|intros; lia].
    split; [repeat split|]. do 4 (split; [reflexivity|]). apply grown_refl.
  - set (tw := if len <? tc_page g then len else tc_page g).
    assert (T : 0 < tw <= len) by (subst tw; destruct (Z.ltb_spec len (tc_page g)); lia).
    clearbody tw.
    destruct (write_call e n tw s) as [w s1] eqn:W.
    apply write_call_ok in W as (W1 & W2 & W3); [|lia].
    destruct (Z.ltb_spec w tw) as [X|X].
    + exists false, s1. split; [reflexivity|]. split; [exact W1|discriminate].
    + destruct (IH (len - tw) s1) as (b & s2 & A & B & C); [lia|lia|].
      exists b, s2. split; [exact A|]. split; [eapply wrote_trans; eassumption|].
      intros E. rewrite (C E), W3 by lia. lia.
Qed.

(** How a failed request leaves the file it tried to extend. *)
Definition failed_file (e : env) (off : Z) (f f' : file) : Prop :=
  grown f f' \/
  ((exists t, e_trunc e t = true) /\ exists f1, grown f f1 /\
     f' = File (f_pos f1) off (fun x => if x <? off then f_space f1 x else false)).

Lemma ftruncate_ok e n off s0 s : wrote n s0 s ->
  same_search s0 (ftruncate e n off s) /\ x_fd (ftruncate e n off s) = x_fd s0 /\
  x_size (ftruncate e n off s) = x_size s0 /\ x_nfile (ftruncate e n off s) = x_nfile s0 /\
  (forall k, k <> n -> x_file (ftruncate e n off s) k = x_file s0 k) /\
  failed_file e off (x_file s0 n) (x_file (ftruncate e n off s) n).
Proof.
  intros (A0 & A1 & A2 & A3 & A4 & A5). unfold ftruncate. destruct (e_trunc e (x_tick s)) eqn:T.
  - cbn [x_fd x_size x_nfile x_file set_file tick]. split; [exact A0|]. do 3 (split; [assumption|]). split.
    + intros k Hk. apply Nat.eqb_neq in Hk. rewrite Hk. apply A4. apply Nat.eqb_neq. exact Hk.
    + rewrite Nat.eqb_refl. right. split; [exists (x_tick s); exact T|].
      exists (x_file s n). split; [exact A5|reflexivity].
  - split; [exact A0|]. repeat (split; [assumption|]). left. exact A5.
Qed.

(** dlmmap_locked with an open file. *)
Definition retry g e len k s2 : out mres * ex :=
  match open_temp (List.length (opts g)) g e s2 with
  | (Out None, s3) => (Out MFail, set_fd s3 None)
  | (Out (Some n'), s3) => dlmmap_locked k g e len (set_fd s3 (Some n'))
  | (Undef, s3) => (Undef, s3)
  | (Fuel, s3) => (Fuel, s3)
  end.

Definition mostly_same_search (g : tmpcfg) (s s' : ex) : Prop :=
  x_tried s' = x_tried s /\ (search_wf g s -> search_wf g s').

Lemma same_search_mostly g s s' : same_search s s' -> mostly_same_search g s s'.
Proof.
  intros (A & B & C & D). split; [exact D|]. unfold search_wf. rewrite A, B, C. auto.
Qed.

Lemma opts_next_files g e s : same_files s (snd (opts_next g e s)).
Proof.
  unfold opts_next. set (s1 := match nth_error _ _ with Some _ => _ | None => _ end).
  assert (H : same_files s s1).
  { subst s1. destruct (nth_error (opts g) (x_idx s)) as [o|]; [|apply sf_refl].
    destruct (repeats o); [|apply sf_refl]. unfold open_mnt. destruct (x_last s); cbn; [repeat split|].
    destruct (x_mnt s) as [[? ?]|]; repeat split. }
  clearbody s1. destruct (Nat.eqb _ _); cbn; destruct H as (A & B & C & D); repeat split; assumption.
Qed.

Lemma dl_step g e n s len : x_fd s = Some n -> 0 < tc_page g -> 0 < len ->
  (exists s', (forall k, dlmmap_locked (S k) g e len s = (Out MFail, s')) /\
     mostly_same_search g s s' /\ x_fd s' = x_fd s /\ x_size s' = x_size s /\ x_nfile s' = x_nfile s /\
     (forall k, k <> n -> x_file s' k = x_file s k) /\
     failed_file e (x_size s) (x_file s n) (x_file s' n)) \/
  (exists c d s', (forall k, dlmmap_locked (S k) g e len s = (Out (MMap n (x_size s) c d), s')) /\
     mostly_same_search g s s' /\ x_fd s' = x_fd s /\ x_size s' = x_size s + len /\ x_nfile s' = x_nfile s /\
     (forall k, k <> n -> x_file s' k = x_file s k) /\
     grown (x_file s n) (x_file s' n) /\ f_pos (x_file s' n) = f_pos (x_file s n) + len) \/
  (x_size s = 0 /\ exists s2, wrote n s s2 /\ forall k, dlmmap_locked (S k) g e len s = retry g e len k s2).
Proof.
  intros Hfd Hp Hlen.
  destruct (allocate_ok g e n Hp (S (Z.to_nat len)) len s ltac:(lia) ltac:(lia)) as (b & s1 & A & W & P).
  destruct b.
  2:{ left. exists s1. split; [intros k; cbn [dlmmap_locked]; rewrite Hfd, A; reflexivity|].
      destruct W as (W0 & W1 & W2 & W3 & W4 & W5).
      split; [apply same_search_mostly; exact W0|]. repeat (split; [assumption|]). left. exact W5. }
  specialize (P eq_refl).
  assert (W' := wrote_trans _ _ _ _ W (wrote_tick n s1)).
  assert (Hsz : x_size (tick s1) = x_size s) by apply W'.
  destruct (Z.eqb_spec (e_map e (x_tick s1)) (-1)) as [E|E].
  { destruct (Z.eqb_spec (x_size s) 0) as [Z0|Z0].
    - right; right. split; [exact Z0|]. exists (tick s1). split; [exact W'|].
      intros k. cbn [dlmmap_locked]. rewrite Hfd, A.
      rewrite (proj2 (Z.eqb_eq _ _) E), (proj2 (Z.eqb_eq _ _) Z0). reflexivity.
    - left. exists (ftruncate e n (x_size s) (tick s1)). split.
      + intros k. cbn [dlmmap_locked]. rewrite Hfd, A.
        rewrite (proj2 (Z.eqb_eq _ _) E), (proj2 (Z.eqb_neq _ _) Z0). reflexivity.
      + destruct (ftruncate_ok e n (x_size s) s (tick s1) W') as (F0 & F1 & F2 & F3 & F4 & F5).
        split; [apply same_search_mostly; exact F0|]. repeat (split; [assumption|]). exact F5. }
  set (s3 := match nth_error (opts g) (x_idx (tick s1)) with
             | Some o => if (x_size s =? 0) && repeats o then snd (opts_next g e (tick s1)) else tick s1
             | None => tick s1
             end).
  assert (H3 : mostly_same_search g (tick s1) s3 /\ same_files (tick s1) s3).
  { subst s3. destruct (nth_error (opts g) (x_idx (tick s1))) as [o|];
      [|split; [apply same_search_mostly; repeat split|apply sf_refl]].
    destruct (_ && _); [|split; [apply same_search_mostly; repeat split|apply sf_refl]].
    split; [|apply opts_next_files].
    destruct (opts_next g e (tick s1)) as [w s4] eqn:N. cbn [snd].
    split.
    - unfold opts_next in N. clear -N.
      set (s5 := match nth_error _ _ with Some _ => _ | None => _ end) in N.
      assert (H : x_tried s5 = x_tried (tick s1)).
      { subst s5. destruct (nth_error _ _) as [o|]; [|reflexivity]. destruct (repeats o); [|reflexivity].
        unfold open_mnt. destruct (x_last _); cbn; [reflexivity|]. destruct (x_mnt s1) as [[? ?]|]; reflexivity. }
      clearbody s5. destruct (Nat.eqb _ _); injection N as <- <-; exact H.
    - intros (K1 & K2 & K3). apply opts_next_ok in N as (N1 & N2 & N3 & N4); auto.
      apply idle_wf; [|exact N3]. destruct w; lia. }
  assert (Hrun : forall k, dlmmap_locked (S k) g e len s =
     (if e_map e (x_tick s3) =? -1 then (Out MFail, ftruncate e n (x_size s) (tick s3))
      else (Out (MMap n (x_size s) (e_map e (x_tick s1)) (e_map e (x_tick s3))), set_size (tick s3) (x_size (tick s3) + len)))).
  { intros k. cbn [dlmmap_locked]. rewrite Hfd, A. rewrite (proj2 (Z.eqb_neq _ _) E). reflexivity. }
  clearbody s3. destruct H3 as (M3 & (G1 & G2 & G3 & G4)).
  destruct W' as (V0 & V1 & V2 & V3 & V4 & V5).
  assert (M : mostly_same_search g s (tick s3)).
  { destruct M3 as (M3 & M4). destruct (same_search_mostly g _ _ V0) as (M5 & M6).
    split; [cbn; congruence|]. intros K. apply M6, M4 in K. exact K. }
  destruct (Z.eqb_spec (e_map e (x_tick s3)) (-1)) as [E'|E'].
  - left. exists (ftruncate e n (x_size s) (tick s3)). split; [exact Hrun|].
    destruct (ftruncate_ok e n (x_size s) (tick s3) (tick s3)) as (F0 & F1 & F2 & F3 & F4 & F5).
    { split; [repeat split|]. do 4 (split; [reflexivity|]). apply grown_refl. }
    split.
    { destruct M as (M1 & M2), (same_search_mostly g _ _ F0) as (M5 & M6). split; [congruence|auto]. }
    split; [rewrite F1; cbn; congruence|]. split; [rewrite F2; cbn; congruence|].
    split; [rewrite F3; cbn; congruence|]. split.
    + intros k Hk. rewrite F4 by exact Hk. cbn [x_file tick]. rewrite G4. apply V4. exact Hk.
    + cbn [x_file tick] in F5. rewrite G4 in F5. cbn [x_file tick] in F5, V5.
      destruct F5 as [F5|(F5 & f1 & F6 & F7)].
      * left. eapply grown_trans; eassumption.
      * right. split; [exact F5|]. exists f1. split; [eapply grown_trans; eassumption|exact F7].
  - right; left. eexists _, _, _. split; [exact Hrun|].
    split; [exact M|]. cbn [x_fd x_size x_nfile x_file set_size tick].
    cbn [x_fd x_size x_nfile x_file set_size tick] in *.
    split; [congruence|]. split; [congruence|]. split; [congruence|]. split.
    + intros k Hk. rewrite G4. apply V4. exact Hk.
    + rewrite G4. split; [exact V5|exact P].
Qed.

Lemma dl_none g e s len k : x_fd s = None ->
  dlmmap_locked (S k) g e len s =
  match open_temp (List.length (opts g)) g e (set_idx s 0) with
  | (Out None, s1) => (Out MFail, set_fd s1 None)
  | (Out (Some n), s1) => dlmmap_locked (S k) g e len (set_fd s1 (Some n))
  | (Undef, s1) => (Undef, s1)
  | (Fuel, s1) => (Fuel, s1)
  end.
Proof.
  intros H. cbn [dlmmap_locked]. rewrite H.
  destruct (open_temp _ g e (set_idx s 0)) as [[| |[n|]] s1]; reflexivity.
Qed.

(** * C38 *)
Section Terminates.
Context (g : tmpcfg) (e : env) (Hm : tc_mntent g = true) (Hp : 0 < tc_page g) (len : Z) (Hlen : 0 < len).

Notation D := (mounts_seen e).
Notation rows s := (skipn (x_idx s) (documented (tc_memfd g) (tc_mntent g))).

Definition ends (start : ex) (mnt0 : option (nat * list mnt)) (rows0 : list docplace) : Prop :=
  exists fuel r s' new, (forall k, (fuel <= k)%nat -> dlmmap_locked k g e len start = (Out r, s')) /\
    x_tried s' = rev new ++ x_tried start /\ Forall usable_only new /\
    (exists l, walk D mnt0 rows0 (map stop_of new ++ l)) /\
    (x_fd s' = None -> r = MFail /\ walk D mnt0 rows0 (map stop_of new)) /\
    wf g s'.

Lemma ends_step s n : search_wf g s -> x_fd s = Some n ->
  (forall s' n', later s s' -> search_wf g s' -> x_fd s' = Some n' -> ends s' (x_mnt s') (rows s')) ->
  ends s (x_mnt s) (rows s).
Proof.
  intros Hw Hfd IH. destruct (dl_step g e n s len Hfd Hp Hlen) as [H|[H|H]].
  - destruct H as (s' & R & (M1 & M2) & F & _). exists 1%nat, MFail, s', [].
    split; [intros [|k] Hk; [lia|apply R]|]. split; [exact M1|]. split; [constructor|].
    split; [cbn; apply (walk_from g e); exact Hw|]. split; [intros K; congruence|].
    destruct (M2 Hw) as (A & B & C). repeat split; auto. intros K; congruence.
  - destruct H as (c & d & s' & R & (M1 & M2) & F & _). exists 1%nat, (MMap n (x_size s) c d), s', [].
    split; [intros [|k] Hk; [lia|apply R]|]. split; [exact M1|]. split; [constructor|].
    split; [cbn; apply (walk_from g e); exact Hw|]. split; [intros K; congruence|].
    destruct (M2 Hw) as (A & B & C). repeat split; auto. intros K; congruence.
  - destruct H as (_ & s2 & W & R).
    destruct W as ((S1 & S2 & S3 & S4) & _).
    assert (Hw2 : search_wf g s2).
    { destruct Hw as (A & B & C). unfold search_wf. rewrite S1, S2, S3. auto. }
    destruct (open_temp_ok g e Hm (List.length (opts g)) s2 Hw2 ltac:(lia)) as (fd & s3 & new & O & T & U & _ & W3 & Z).
    rewrite S1, S3 in Z. destruct fd as [n'|].
    + destruct Z as (Z1 & Z2).
      destruct (IH (set_fd s3 (Some n')) n') as (fuel & r & s' & new' & P1 & P2 & P3 & P4 & P5 & P6).
      { unfold later in *. cbn [x_idx x_mnt set_fd]. rewrite S1, S3 in Z2. exact Z2. }
      { exact W3. }
      { reflexivity. }
      exists (S fuel), r, s', (new ++ new'). split; [|split; [|split; [|split; [|split]]]].
      * intros [|k] Hk; [lia|]. rewrite R. unfold retry. rewrite O. apply P1. lia.
      * rewrite P2. cbn [x_tried set_fd]. rewrite T, rev_app_distr, app_assoc, S4. reflexivity.
      * apply Forall_app; split; assumption.
      * destruct P4 as (l & P4). exists l. rewrite map_app, <- app_assoc. apply Z1. exact P4.
      * intros K. destruct (P5 K) as (P5a & P5b). split; [exact P5a|]. rewrite map_app. apply Z1. exact P5b.
      * exact P6.
    + destruct Z as (Z1 & Z2). exists 1%nat, MFail, (set_fd s3 None), new.
      split; [|split; [|split; [|split; [|split]]]].
      * intros [|k] Hk; [lia|]. rewrite R. unfold retry. rewrite O. reflexivity.
      * cbn. rewrite T, S4. reflexivity.
      * exact U.
      * exists []. rewrite app_nil_r. exact Z1.
      * intros _. split; [reflexivity|exact Z1].
      * destruct W3 as (A & B & C), Z2. repeat split; auto.
Qed.

Lemma ends_open : forall n s f, (List.length (opts g) - x_idx s <= n)%nat -> search_wf g s -> x_fd s = Some f ->
  ends s (x_mnt s) (rows s).
Proof.
  induction n as [|n IH]; intros s f Hn Hw Hfd.
  - destruct Hw as (A & _). lia.
  - assert (Some_case : forall m s f k l, (List.length (opts g) - x_idx s <= S n)%nat -> search_wf g s -> x_fd s = Some f ->
        x_mnt s = Some (k, l) -> (List.length l <= m)%nat -> ends s (x_mnt s) (rows s)).
    { clear s f Hn Hw Hfd. induction m as [|m IHm]; intros s f k l Hn Hw Hfd Hs Hl.
      - apply ends_step with f; auto. intros s' n' [L|(L & L2)] Hw' Hfd'.
        + apply IH with n'; auto. destruct Hw' as (A & _). lia.
        + rewrite Hs in L2. destruct L2 as (k' & l' & _ & L2). lia.
      - apply ends_step with f; auto. intros s' n' [L|(L & L2)] Hw' Hfd'.
        + apply IH with n'; auto. destruct Hw' as (A & _). lia.
        + rewrite Hs in L2. destruct L2 as (k' & l' & L2 & L3). apply (IHm s' n' k' l'); auto; lia. }
    destruct (x_mnt s) as [[k l]|] eqn:M.
    + rewrite <- M. apply (Some_case (List.length l) s f k l); auto.
    + rewrite <- M. apply ends_step with f; auto. intros s' n' [L|(L & L2)] Hw' Hfd'.
      * apply IH with n'; auto. destruct Hw' as (A & _). lia.
      * rewrite M in L2. destruct (x_mnt s') as [[k l]|] eqn:M'; [|congruence].
        rewrite <- M'. apply (Some_case (List.length l) s' n' k l); auto; lia.
Qed.

Lemma ends_all s : wf g s ->
  ends s (x_mnt s) (match x_fd s with None => documented (tc_memfd g) (tc_mntent g) | Some _ => rows s end).
Proof.
  intros (A & B & C & E). destruct (x_fd s) as [n|] eqn:Hfd.
  - eapply ends_open with (n := List.length (opts g)); [lia| |exact Hfd]. repeat split; auto.
  - assert (Hi : idle s) by (split; auto).
    assert (Hw : search_wf g (set_idx s 0)).
    { apply idle_wf; [cbn; lia|]. exact Hi. }
    destruct (open_temp_ok g e Hm (List.length (opts g)) (set_idx s 0) Hw ltac:(lia))
      as (fd & s3 & new & O & T & U & _ & W3 & Z).
    cbn [x_mnt x_idx set_idx skipn] in Z. destruct fd as [n|].
    + destruct Z as (Z1 & _).
      destruct (ends_open (List.length (opts g)) (set_fd s3 (Some n)) n) as (fuel & r & s' & new' & P1 & P2 & P3 & P4 & P5 & P6).
      { lia. }
      { exact W3. }
      { reflexivity. }
      exists (S fuel), r, s', (new ++ new'). split; [|split; [|split; [|split; [|split]]]].
      * intros [|k] Hk; [lia|]. rewrite dl_none, O by exact Hfd. apply P1. lia.
      * rewrite P2. cbn [x_tried set_fd]. rewrite T, rev_app_distr, app_assoc. reflexivity.
      * apply Forall_app; split; assumption.
      * destruct P4 as (l & P4). exists l. rewrite map_app, <- app_assoc. apply Z1. exact P4.
      * intros K. destruct (P5 K) as (P5a & P5b). split; [exact P5a|]. rewrite map_app. apply Z1. exact P5b.
      * exact P6.
    + destruct Z as (Z1 & Z2). exists 1%nat, MFail, (set_fd s3 None), new.
      split; [|split; [|split; [|split; [|split]]]].
      * intros [|k] Hk; [lia|]. rewrite dl_none, O by exact Hfd. reflexivity.
      * exact T.
      * exact U.
      * exists []. rewrite app_nil_r. exact Z1.
      * intros _. split; [reflexivity|exact Z1].
      * destruct W3 as (A' & B' & C'), Z2. repeat split; auto.
Qed.
End Terminates.

Lemma ex0_wf g : wf g ex0.
Proof.
  unfold wf. cbn. repeat split; auto; try discriminate.
  unfold opts. destruct (tc_memfd g); cbn; lia.
Qed.

Lemma fuel_unique g e len s k1 k2 r1 s1 : tc_mntent g = true -> 0 < tc_page g -> 0 < len -> wf g s ->
  dlmmap_locked k1 g e len s = (Out r1, s1) -> (k1 <= k2)%nat -> dlmmap_locked k2 g e len s = (Out r1, s1).
Proof.
  intros Hm Hp Hl _. revert k2 s. induction k1 as [|k1 IH]; intros [|k2] s H Hk; try discriminate; try lia.
  assert (G : forall s n, x_fd s = Some n -> dlmmap_locked (S k1) g e len s = (Out r1, s1) -> dlmmap_locked (S k2) g e len s = (Out r1, s1)).
  { clear s H. intros s n Hfd H. destruct (dl_step g e n s len Hfd Hp Hl) as [K|[K|K]].
    - destruct K as (s' & K & _). rewrite K in H |- *. exact H.
    - destruct K as (c & d & s' & K & _). rewrite K in H |- *. exact H.
    - destruct K as (_ & s2 & _ & K). rewrite K in H |- *. unfold retry in *.
      destruct (open_temp _ g e s2) as [[| |[n'|]] s3]; try discriminate; [|exact H].
      apply IH; [exact H|lia]. }
  destruct (x_fd s) as [n|] eqn:Hfd; [eapply G; eassumption|].
  rewrite dl_none in H |- * by exact Hfd.
  destruct (open_temp _ g e (set_idx s 0)) as [[| |[n'|]] s3]; try discriminate; [|exact H].
  eapply G; [reflexivity|exact H].
Qed.

(** States reached by any history. *)
Lemma history_wf g e s rs : tc_mntent g = true -> 0 < tc_page g -> history g e s rs -> wf g s.
Proof.
  intros Hm Hp H.
  assert (St : forall s s' fuel len r, wf g s -> 0 < len -> dlmmap_locked fuel g e len s = (Out r, s') -> wf g s').
  { clear -Hm Hp. intros s s' fuel len r Hw Hl R.
    destruct (ends_all g e Hm Hp len Hl s Hw) as (f & r' & s2 & new & A & _ & _ & _ & _ & B).
    assert (K := fuel_unique g e len s fuel (Nat.max fuel f) r s' Hm Hp Hl Hw R ltac:(lia)).
    rewrite A in K by lia. injection K as _ <-. exact B. }
  induction H as [|? ? ? ? ? H IH L R|? ? ? ? ? ? ? ? ? H IH L R].
  - apply ex0_wf.
  - exact (St _ _ _ _ _ IH L R).
  - exact (St _ _ _ _ _ IH L R).
Qed.

(** * Without mounts files the search may go round for ever *)
Definition g_nomnt : tmpcfg := TmpCfg false false false 4096.
(** Every file opens, nothing can be mapped. *)
Definition e_noexec : env :=
  Env (fun _ => 0) (fun _ => true) (fun _ => Some "/x"%string) (fun _ => None) (fun _ => 4096) (fun _ => -1) (fun _ => true).

Lemma allocate_full n : forall fuel len s, (Z.to_nat len < fuel)%nat ->
  exists s', allocate_space fuel g_nomnt e_noexec n len s = (Out true, s').
Proof.
  induction fuel as [|fuel IH]; intros len s Hf; [lia|]. cbn [allocate_space].
  destruct (Z.leb_spec len 0) as [L|L]; [eexists; reflexivity|].
  cbn [tc_page g_nomnt].
  set (tw := if len <? 4096 then len else 4096).
  assert (T : 0 < tw <= 4096 /\ tw <= len) by (subst tw; destruct (Z.ltb_spec len 4096); lia). clearbody tw.
  unfold write_call. cbn [e_write e_noexec].
  destruct (Z.ltb_spec (Z.min 4096 tw) 0) as [X|X]; [lia|].
  destruct (Z.ltb_spec (Z.min 4096 tw) tw) as [Y|Y]; [lia|]. apply IH. lia.
Qed.

Lemma open_all s : (x_idx s < 6)%nat -> exists n s', open_temp 6 g_nomnt e_noexec s = (Out (Some n), s') /\ (x_idx s' < 6)%nat /\ x_size s' = x_size s.
Proof.
  intros H. destruct s as [t i la m fd z nf fi tr]. cbn [x_idx] in H.
  do 6 (destruct i as [|i]; [eexists _, _; split; [reflexivity|cbn; split; [lia|reflexivity]]|]). lia.
Qed.

Lemma forever len : 0 < len -> forall k s, (x_idx s < 6)%nat -> x_size s = 0 ->
  fst (dlmmap_locked k g_nomnt e_noexec len s) = Fuel.
Proof.
  intros Hl. assert (Hp : 0 < tc_page g_nomnt) by (cbn; lia).
  induction k as [|k IH]; intros s Hi Hz; [reflexivity|].
  assert (G : forall s n, (x_idx s < 6)%nat -> x_size s = 0 -> x_fd s = Some n ->
     fst (dlmmap_locked (S k) g_nomnt e_noexec len s) = Fuel).
  { clear s Hi Hz. intros s n Hi Hz Hfd. cbn [dlmmap_locked]. rewrite Hfd.
    destruct (allocate_ok g_nomnt e_noexec n Hp (S (Z.to_nat len)) len s ltac:(lia) ltac:(lia)) as (b & s1 & A & W & _).
    destruct (allocate_full n (S (Z.to_nat len)) len s ltac:(lia)) as (s1' & A').
    rewrite A in A'. injection A' as -> <-. rewrite A. cbn [e_map e_noexec]. rewrite Hz.
    destruct W as ((W1 & _) & _ & W2 & _).
    destruct (open_all (tick s1)) as (n' & s3 & O & I & Z); [cbn; lia|].
    change (List.length (opts g_nomnt)) with 6%nat. cbn [Z.eqb Pos.eqb]. rewrite O.
    apply IH; [exact I|]. cbn. rewrite Z. cbn. congruence. }
  destruct (x_fd s) as [n|] eqn:Hfd; [eapply G; eassumption|].
  rewrite dl_none by exact Hfd. change (List.length (opts g_nomnt)) with 6%nat.
  destruct (open_all (set_idx s 0)) as (n' & s3 & O & I & Z); [cbn; lia|]. rewrite O.
  apply G with n'; [exact I|cbn in *; congruence|reflexivity].
Qed.

(** * C39 *)
Lemma open_mnt_files g e m s fd s' : open_mnt g e m s = (fd, s') -> file_step fd s s'.
Proof.
  unfold open_mnt. set (s1 := match m with Some _ => _ | None => _ end).
  assert (H : same_files s s1).
  { subst s1. destruct m as [n|]; destruct (x_last s) as [n'|]; try apply sf_refl; try (repeat split).
    all: destruct (String.eqb n n'); repeat split. }
  clearbody s1. destruct (x_mnt s1) as [[k l]|], m; intros K.
  - apply mnt_loop_ok in K as (new & _ & _ & K & _). eapply sf_step; eassumption.
  - injection K as <- <-. exact H.
  - injection K as <- <-. exact H.
  - injection K as <- <-. exact H.
Qed.

Lemma open_opt_files g e o s fd s' : open_opt g e o s = (fd, s') -> file_step fd s s'.
Proof.
  destruct o; cbn [open_opt]; intros H.
  - apply open_call_ok in H as (H & _). exact H.
  - apply open_env_ok in H as (H & _). exact H.
  - apply open_dir_ok in H as (H & _). exact H.
  - eapply open_mnt_files; eassumption.
Qed.

Lemma open_temp_files g e : forall fuel s fd s', open_temp fuel g e s = (Out fd, s') -> file_step fd s s'.
Proof.
  induction fuel as [|fuel IH]; intros s fd s' H; [discriminate|]. cbn [open_temp] in H.
  destruct (nth_error (opts g) (x_idx s)) as [o|]; [|discriminate].
  destruct (open_opt g e o s) as [fd1 s1] eqn:O. apply open_opt_files in O.
  pose proof (opts_next_files g e s1) as N.
  destruct (opts_next g e s1) as [w s2]. cbn [snd] in N.
  destruct (negb (repeats o) || _).
  - destruct w; [injection H as <- <-; eapply step_sf; eassumption|].
    destruct fd1 as [n|]; cbn in H.
    + injection H as <- <-. eapply (step_sf (Some n)); eassumption.
    + apply IH in H. eapply sf_step; [|exact H]. eapply (step_sf None); eassumption.
  - injection H as <- <-. exact O.
Qed.

Definition fits (n : nat) (z : Z) (r : nat * Z * Z) : Prop :=
  let '(n', off, len) := r in n' = n /\ 0 <= off /\ 0 < len /\ off + len <= z.

(** Invariant of the files. *)
Definition files_ok (s : ex) (rs : list (nat * Z * Z)) : Prop :=
  match x_fd s with
  | None => rs = [] /\ x_size s = 0
  | Some n => (n < x_nfile s)%nat /\ 0 <= x_size s /\ x_size s <= f_pos (x_file s n) /\ x_size s <= f_size (x_file s n) /\
              Forall (fits n (x_size s)) rs /\ ForallOrdPairs region_apart rs
  end.

(** The written part of the current file is an unbroken prefix. *)
Definition no_hole (s : ex) : Prop :=
  match x_fd s with
  | None => True
  | Some n => forall x, 0 <= x < f_pos (x_file s n) -> f_space (x_file s n) x = true
  end.

Definition add_region (len : Z) (r : mres) (rs : list (nat * Z * Z)) :=
  match r with MFail => rs | MMap n off _ _ => (n, off, len) :: rs end.

Section Files.
Context (g : tmpcfg) (e : env) (Hp : 0 < tc_page g) (len : Z) (Hlen : 0 < len).

Lemma fits_more n z z' rs : z <= z' -> Forall (fits n z) rs -> Forall (fits n z') rs.
Proof.
  intros Hz. apply Forall_impl. intros [[n' o] l]. cbn. lia.
Qed.

Lemma fits_empty n rs : Forall (fits n 0) rs -> rs = [].
Proof.
  intros H. inversion H as [|[[? ?] ?] ? K]; subst; [reflexivity|]. cbn in K. lia.
Qed.

Lemma opened_ok n s s' rs : x_size s = 0 -> rs = [] -> opened n s s' ->
  files_ok (set_fd s' (Some n)) rs /\ no_hole (set_fd s' (Some n)).
Proof.
  intros Hz -> (A & B & C & E & F & G). unfold files_ok, no_hole. cbn [x_fd set_fd x_size x_nfile x_file].
  rewrite F, B, Hz. cbn. split; [|intros; lia]. repeat split; try lia; constructor.
Qed.

Lemma grown_no_hole f f' : grown f f' -> (forall x, 0 <= x < f_pos f -> f_space f x = true) ->
  forall x, 0 <= x < f_pos f' -> f_space f' x = true.
Proof.
  intros (A & B & C) H x Hx. rewrite C. destruct (Z.leb_spec (f_pos f) x), (Z.ltb_spec x (f_pos f')); cbn; try lia; auto; apply H; lia.
Qed.

Lemma grown_size f f' z : grown f f' -> z <= f_size f -> z <= f_size f'.
Proof. intros (A & B & C) H. rewrite B. destruct (_ =? _); lia. Qed.

Lemma dl_files : forall k s rs r s', files_ok s rs -> dlmmap_locked k g e len s = (Out r, s') ->
  files_ok s' (add_region len r rs) /\
  (no_hole s -> (forall t, e_trunc e t = false) \/ r <> MFail -> no_hole s').
Proof.
  induction k as [|k IH]; intros s rs r s' Hok H; [discriminate|].
  assert (G : forall s n, x_fd s = Some n -> files_ok s rs -> dlmmap_locked (S k) g e len s = (Out r, s') ->
     files_ok s' (add_region len r rs) /\
     (no_hole s -> (forall t, e_trunc e t = false) \/ r <> MFail -> no_hole s')).
  { clear s Hok H. intros s n Hfd Hok H.
    unfold files_ok in Hok. rewrite Hfd in Hok. destruct Hok as (K1 & K2 & K3 & K4 & K5 & K6).
    destruct (dl_step g e n s len Hfd Hp Hlen) as [K|[K|K]].
    - destruct K as (s2 & K & _ & F1 & F2 & F3 & F4 & F5). rewrite K in H. injection H as <- <-.
      cbn [add_region]. unfold files_ok, no_hole. rewrite F1, Hfd, F2, F3. split.
      + split; [exact K1|]. split; [exact K2|].
        destruct F5 as [F5|(_ & f1 & F5 & F6)].
        * split; [destruct F5; lia|]. split; [eapply grown_size; eassumption|]. split; assumption.
        * rewrite F6. cbn [f_pos f_size]. split; [destruct F5; lia|]. split; [lia|]. split; assumption.
      + intros N [T|T]; [|congruence]. destruct F5 as [F5|((t & F5) & _)]; [|rewrite T in F5; discriminate].
        eapply grown_no_hole; eassumption.
    - destruct K as (c & d & s2 & K & _ & F1 & F2 & F3 & F4 & F5 & F6). rewrite K in H. injection H as <- <-.
      cbn [add_region]. unfold files_ok, no_hole. rewrite F1, Hfd, F2, F3. split.
      + split; [exact K1|]. split; [lia|]. split; [lia|]. split.
        { destruct F5 as (_ & F5 & _). rewrite F5, F6.
          destruct (Z.eqb_spec (f_pos (x_file s n) + len) (f_pos (x_file s n))); lia. }
        split.
        * constructor; [cbn; lia|]. eapply fits_more; [|exact K5]. lia.
        * constructor; [|exact K6]. eapply Forall_impl; [|exact K5]. intros [[n' o] l]. cbn. lia.
      + intros N _. eapply grown_no_hole; eassumption.
    - destruct K as (Z0 & s2 & W & K). rewrite K in H. unfold retry in H.
      destruct W as (_ & W1 & W2 & W3 & _).
      assert (Hrs : rs = []) by (rewrite Z0 in K5; exact (fits_empty _ _ K5)).
      destruct (open_temp _ g e s2) as [[| |[n'|]] s3] eqn:O; try discriminate.
      + apply open_temp_files in O. cbn in O.
        destruct (opened_ok n' s2 s3 rs ltac:(congruence) Hrs O) as (O1 & O2).
        destruct (IH _ _ _ _ O1 H) as (R1 & R2). split; [exact R1|]. intros _ T. exact (R2 O2 T).
      + injection H as <- <-. apply open_temp_files in O. destruct O as (_ & O1 & _).
        split; [|intros; exact Logic.I]. cbn. split; [exact Hrs|congruence]. }
  destruct (x_fd s) as [n|] eqn:Hfd; [eapply G; eassumption|].
  unfold files_ok in Hok. rewrite Hfd in Hok. destruct Hok as (Hrs & Hz).
  rewrite dl_none in H by exact Hfd.
  destruct (open_temp _ g e (set_idx s 0)) as [[| |[n'|]] s3] eqn:O; try discriminate.
  - apply open_temp_files in O. cbn in O.
    destruct (opened_ok n' (set_idx s 0) s3 rs Hz Hrs O) as (O1 & O2).
    destruct (G (set_fd s3 (Some n')) n' eq_refl O1 H) as (R1 & R2). split; [exact R1|]. intros _ T. exact (R2 O2 T).
  - injection H as <- <-. apply open_temp_files in O. destruct O as (_ & O1 & _).
    split; [|intros; exact Logic.I]. cbn. split; [exact Hrs|cbn in O1; congruence].
Qed.
End Files.

Lemma history_files g e s rs : 0 < tc_page g -> history g e s rs -> files_ok s rs.
Proof.
  intros Hp H. induction H as [|? ? ? ? ? H IH L R|? ? ? ? ? ? ? ? ? H IH L R].
  - cbn. split; reflexivity.
  - apply (dl_files g e Hp _ L _ _ _ _ _ IH R).
  - apply (dl_files g e Hp _ L _ _ _ _ _ IH R).
Qed.

Lemma history_no_hole g e s rs : 0 < tc_page g -> (forall t, e_trunc e t = false) -> history g e s rs -> no_hole s.
Proof.
  intros Hp T H. induction H as [|? ? ? ? ? H IH L R|? ? ? ? ? ? ? ? ? H IH L R].
  - exact Logic.I.
  - apply (dl_files g e Hp _ L _ _ _ _ _ (history_files _ _ _ _ Hp H) R); auto.
  - apply (dl_files g e Hp _ L _ _ _ _ _ (history_files _ _ _ _ Hp H) R); auto.
Qed.

Lemma successes_history g e s rs : successes g e s rs -> history g e s rs.
Proof. induction 1; econstructor; eassumption. Qed.

Lemma successes_no_hole g e s rs : 0 < tc_page g -> successes g e s rs -> no_hole s.
Proof.
  intros Hp H. induction H as [|? ? ? ? ? ? ? ? ? H IH L R].
  - exact Logic.I.
  - apply (dl_files g e Hp _ L _ _ _ _ _ (history_files _ _ _ _ Hp (successes_history _ _ _ _ H)) R); auto.
    right; discriminate.
Qed.

Lemma no_hole_backed s rs : files_ok s rs -> no_hole s -> Forall (backed s) rs.
Proof.
  unfold files_ok, no_hole. destruct (x_fd s) as [n|].
  - intros (A & B & C & E & F & _) H. eapply Forall_impl; [|exact F]. intros [[n' o] l] (-> & K1 & K2 & K3) x Hx.
    apply H. lia.
  - intros (-> & _) _. constructor.
Qed.

Lemma files_inside s rs : files_ok s rs -> Forall (inside_file s) rs /\ ForallOrdPairs region_apart rs.
Proof.
  unfold files_ok. destruct (x_fd s) as [n|].
  - intros (A & B & C & E & F & G). split; [|exact G]. eapply Forall_impl; [|exact F].
    intros [[n' o] l] (-> & K1 & K2 & K3). cbn. lia.
  - intros (-> & _). split; constructor.
Qed.
