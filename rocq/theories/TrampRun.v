(** An executable scheduler for the system of threads of TrampModel: it is used to show
    reachable states in examples.  Its choices are given: which thread moves, where malloc
    and mmap put things (negative: they fail), what the environment answers. *)
From Coq Require Import ZifyBool ZifyNat.
From Verif Require Import Base TrampModel TrampSpec.

Definition is_unmapped (p : perm) : bool := match p with Unmapped => true | _ => false end.

Fixpoint all_unmapped (s : st) (a : Z) (n : nat) : bool :=
  match n with O => true | S k => is_unmapped (s_perm s a) && all_unmapped s (a + 1) k end.

(** One operation; [d] is the choice. *)
Definition edo (c : tcfg) (s : st) (o : op) (d : Z) : option (val * st) :=
  match o with
  | Rd l => Some (s_val s l, s)
  | Wr l v => Some (Null, set_val s l v)
  | WrW (Addr a) v => Some (Null, St (s_val s) (s_tlive s) (s_alive s) (s_perm s) (set_word (s_mem s) a v))
  | MallocTab =>
    if d <? 0 then Some (Null, s) else if s_tlive s d then None
    else Some (PTab d, St (s_val s) (fun x => if x =? d then true else s_tlive s x) (s_alive s) (s_perm s) (s_mem s))
  | MallocArr (Num n) =>
    if d <? 0 then Some (Null, s) else match s_alive s d with Some _ => None | None =>
      Some (PTr d 0, St (s_val s) (s_tlive s) (fun x => if x =? d then Some n else s_alive s x) (s_perm s) (s_mem s)) end
  | Free (PTab id) => Some (Null, St (s_val s) (fun x => if x =? id then false else s_tlive s x) (s_alive s) (s_perm s) (s_mem s))
  | Free (PTr arr 0) => Some (Null, St (s_val s) (s_tlive s) (fun x => if x =? arr then None else s_alive s x) (s_perm s) (s_mem s))
  | Free Null => Some (Null, s)
  | MmapAnon (Num n) =>
    if d <? 0 then Some (Num (-1), s) else
    if (0 <? d) && (d + n <=? 2 ^ 64) && all_unmapped s d (Z.to_nat n) then
      Some (Addr d, St (s_val s) (s_tlive s) (s_alive s) (fun x => if inside d n x then RW else s_perm s x)
                       (fun x => if inside d n x then 0 else s_mem s x))
    else None
  | MmapCode (Addr a) (Num n) =>
    if d <? 0 then Some (Num (-1), s) else
    Some (Addr a, St (s_val s) (s_tlive s) (s_alive s) (fun x => if inside a n x then RX else s_perm s x)
                     (fun x => if inside a n x then tc_code c (x - a) else s_mem s x))
  | Munmap (Addr a) (Num n) =>
    Some (Null, St (s_val s) (s_tlive s) (s_alive s) (fun x => if inside a n x then Unmapped else s_perm s x) (s_mem s))
  | Env => Some (Num d, s)
  | _ => None
  end.

(** Does an operation use up a choice? *)
Definition chooses (o : op) : bool :=
  match o with MallocTab | MallocArr _ | MmapAnon _ | MmapCode _ _ | Env => true | _ => false end.

(** One step of thread [t]. *)
Definition estep (c : tcfg) (y : sys) (t : nat) (ds : list Z) : option (sys * list Z) :=
  match nth_error (y_thr y) t with
  | Some (Run cl own (Ret v)) => Some (Sys (y_st y) (y_owner y) (set_thr (y_thr y) t Idle) (result cl v ++ y_pool y), ds)
  | Some (Run cl own (Do Lock k)) =>
    match y_owner y with None => Some (Sys (y_st y) (Some t) (set_thr (y_thr y) t (Run cl own (k Null))) (y_pool y), ds) | _ => None end
  | Some (Run cl own (Do Unlock k)) =>
    match y_owner y with
    | Some u => if Nat.eqb u t then Some (Sys (y_st y) None (set_thr (y_thr y) t (Run cl own (k Null))) (y_pool y), ds) else None
    | None => None
    end
  | Some (Run cl own (Do o k)) =>
    let (d, ds') := if chooses o then (hd 0 ds, tl ds) else (0, ds) in
    match edo c (y_st y) o d with
    | Some (v, s') => Some (Sys s' (y_owner y) (set_thr (y_thr y) t (Run cl own (k v))) (y_pool y), ds')
    | None => None
    end
  | _ => None
  end.

(** Taking an entry out of the pool. *)
Fixpoint take (a i : Z) (l : list entry) : option (entry * list entry * list entry) :=
  match l with
  | [] => None
  | Entry a' i' p :: r =>
    if (a' =? a) && (i' =? i) then Some (Entry a' i' p, [], r)
    else match take a i r with Some (e, l1, l2) => Some (e, Entry a' i' p :: l1, l2) | None => None end
  end.

Definition getsb (a i : Z) (x : tstate) : bool := match x with Run (CGet a' i') _ _ => (a' =? a) && (i' =? i) | _ => false end.

(** Thread [t] starts a call. *)
Definition ecall (c : tcfg) (y : sys) (t : nat) (cl : call) : option sys :=
  let go own pool := Some (Sys (y_st y) (y_owner y) (set_thr (y_thr y) t (Run cl own (code c cl))) pool) in
  match nth_error (y_thr y) t with
  | Some Idle =>
    match cl with
    | CSupported | CAlloc _ => go [] (y_pool y)
    | CGet a i => match take a i (y_pool y) with Some _ => go [] (y_pool y) | None => None end
    | CSet a i _ _ | CFree a i =>
      match take a i (y_pool y) with
      | Some (e, l, r) => if existsb (getsb a i) (y_thr y) then None else go [e] (l ++ r)
      | None => None
      end
    end
  | _ => None
  end.

(** Commands of a schedule: a call, up to [n] steps (until the thread is idle). *)
Inductive ecmd : Type := ECall (cl : call) | ESteps (n : nat) (ds : list Z).

Definition idle (y : sys) (t : nat) : bool := match nth_error (y_thr y) t with Some Idle => true | _ => false end.

Fixpoint esteps (c : tcfg) (n : nat) (t : nat) (ds : list Z) (y : sys) (pk : Z) : option (sys * Z) :=
  match n with
  | O => Some (y, pk)
  | S m => if idle y t then Some (y, pk) else
    match estep c y t ds with Some (y', ds') => esteps c m t ds' y' (Z.max pk (zlen (inuse y'))) | None => None end
  end.

Fixpoint drive (c : tcfg) (l : list (nat * ecmd)) (y : sys) (pk : Z) : option (sys * Z) :=
  match l with
  | [] => Some (y, pk)
  | (t, ECall cl) :: r => match ecall c y t cl with Some y' => drive c r y' (Z.max pk (zlen (inuse y'))) | None => None end
  | (t, ESteps n ds) :: r => match esteps c n t ds y pk with Some (y', pk') => drive c r y' pk' | None => None end
  end.

(** [n] idle threads. *)
Definition boot (n : nat) : sys :=
  Sys (St (fun _ => Num 0) (fun _ => false) (fun _ => None) (fun _ => Unmapped) (fun _ => 0)) None (repeat Idle n) [].

(** ** Soundness *)
Lemma all_unmapped_ok s : forall n a, all_unmapped s a n = true -> forall x, a <= x < a + Z.of_nat n -> s_perm s x = Unmapped.
Proof.
  induction n as [|n IH]; intros a H x Hx; [lia|]. cbn [all_unmapped] in H. apply andb_prop in H as [H1 H2].
  destruct (Z.eq_dec x a) as [->|]; [destruct (s_perm s a); [reflexivity|discriminate|discriminate]|]. apply (IH (a + 1) H2). lia.
Qed.

Lemma edo_ok c s o d v s' : edo c s o d = Some (v, s') -> does c s o v s'.
Proof.
  destruct o; cbn [edo]; intros H; try discriminate.
  - injection H as <- <-. constructor.
  - injection H as <- <-. constructor.
  - destruct a; try discriminate. injection H as <- <-. constructor.
  - destruct (d <? 0); [injection H as <- <-; constructor|]. destruct (s_tlive s d) eqn:E; [discriminate|]. injection H as <- <-. apply d_mtab; auto.
  - destruct n; try discriminate. destruct (d <? 0); [injection H as <- <-; constructor|]. destruct (s_alive s d) eqn:E; [discriminate|]. injection H as <- <-. apply d_marr; auto.
  - destruct v0 as [|z|id|arr i|a]; try discriminate.
    + injection H as <- <-. constructor.
    + injection H as <- <-. constructor.
    + destruct i; try discriminate. injection H as <- <-. constructor.
  - destruct n; try discriminate. destruct (d <? 0); [injection H as <- <-; constructor|].
    destruct ((0 <? d) && (d + z <=? 2 ^ 64) && all_unmapped s d (Z.to_nat z)) eqn:E; [|discriminate]. injection H as <- <-.
    apply andb_prop in E as [E E3]. apply andb_prop in E as [E1 E2]. apply d_anon; [lia|lia|]. intros x Hx. unfold inside in Hx.
    eapply all_unmapped_ok; [exact E3|]. lia.
  - destruct a; try discriminate. destruct n; try discriminate. destruct (d <? 0); injection H as <- <-; constructor.
  - destruct a; try discriminate. destruct n; try discriminate. injection H as <- <-. constructor.
  - injection H as <- <-. constructor.
Qed.

Lemma estep_ok c y t ds y' ds' : estep c y t ds = Some (y', ds') -> ystep c y y'.
Proof.
  unfold estep. intros H. destruct (nth_error (y_thr y) t) as [[|cl own p]|] eqn:E; try discriminate.
  destruct p as [v|o k]; [injection H as <- _; eapply y_ret, E|].
  assert (D : o = Lock \/ o = Unlock \/
     (let (d, ds') := if chooses o then (hd 0 ds, tl ds) else (0, ds) in
      match edo c (y_st y) o d with
      | Some (v, s') => Some (Sys s' (y_owner y) (set_thr (y_thr y) t (Run cl own (k v))) (y_pool y), ds')
      | None => None
      end) = Some (y', ds')) by (destruct o; auto).
  destruct D as [->|[->|D]].
  - destruct (y_owner y) eqn:Eo; [discriminate|]. injection H as <- _. eapply y_lock; eassumption.
  - destruct (y_owner y) eqn:Eo; [|discriminate]. destruct (Nat.eqb_spec n t) as [->|]; [|discriminate]. injection H as <- _. eapply y_unlock; eassumption.
  - destruct (if chooses o then (hd 0 ds, tl ds) else (0, ds)) as [d ds2]. destruct (edo c (y_st y) o d) as [[v s']|] eqn:Ed; [|discriminate].
    injection D as <- _. eapply y_do; [exact E|]. eapply edo_ok, Ed.
Qed.

Lemma take_ok a i : forall l e l1 l2, take a i l = Some (e, l1, l2) -> l = l1 ++ e :: l2 /\ exists p, e = Entry a i p.
Proof.
  induction l as [|[a' i' p] l IH]; intros e l1 l2 H; [discriminate|]. cbn [take] in H.
  destruct ((a' =? a) && (i' =? i)) eqn:E.
  - injection H as <- <- <-. apply andb_prop in E as [E1 E2]. apply Z.eqb_eq in E1, E2. subst. split; [reflexivity|eauto].
  - destruct (take a i l) as [[[e1 m1] m2]|]; [|discriminate]. injection H as <- <- <-. destruct (IH _ _ _ eq_refl) as [-> H]. split; [reflexivity|exact H].
Qed.

Lemma no_gets a i l : existsb (getsb a i) l = false -> Forall (fun x => ~ gets a i x) l.
Proof.
  induction l as [|x l IH]; cbn; intros H; constructor; apply orb_false_elim in H as [H1 H2]; [|apply IH, H2].
  destruct x as [|[] own p]; cbn in *; auto. lia.
Qed.

Lemma ecall_ok c y t cl y' : ecall c y t cl = Some y' -> ystep c y y'.
Proof.
  unfold ecall. intros H. destruct (nth_error (y_thr y) t) as [[|? ? ?]|] eqn:E; try discriminate.
  destruct cl; try (injection H as <-; eapply y_call; [exact E|split; reflexivity]).
  - destruct (take a i (y_pool y)) as [[[e l] r]|] eqn:Et; [|discriminate]. destruct (existsb _ _) eqn:Ex; [discriminate|]. injection H as <-.
    apply take_ok in Et as [Ep (p & ->)]. eapply y_call; [exact E|]. exists p, l, r. split; [reflexivity|]. split; [exact Ep|]. split; [reflexivity|]. apply no_gets, Ex.
  - destruct (take a i (y_pool y)) as [[[e l] r]|] eqn:Et; [|discriminate]. injection H as <-. apply take_ok in Et as [Ep (p & ->)].
    eapply y_call; [exact E|]. split; [reflexivity|]. split; [reflexivity|]. exists p. rewrite Ep. apply in_or_app. right. left. reflexivity.
  - destruct (take a i (y_pool y)) as [[[e l] r]|] eqn:Et; [|discriminate]. destruct (existsb _ _) eqn:Ex; [discriminate|]. injection H as <-.
    apply take_ok in Et as [Ep (p & ->)]. eapply y_call; [exact E|]. exists p, l, r. split; [reflexivity|]. split; [exact Ep|]. split; [reflexivity|]. apply no_gets, Ex.
Qed.

Lemma esteps_ok c t : forall n ds y pk y' pk', runs c y pk -> esteps c n t ds y pk = Some (y', pk') -> runs c y' pk'.
Proof.
  induction n as [|n IH]; intros ds y pk y' pk' R H; cbn [esteps] in H; [injection H as <- <-; exact R|].
  destruct (idle y t); [injection H as <- <-; exact R|]. destruct (estep c y t ds) as [[y1 ds1]|] eqn:E; [|discriminate].
  eapply IH; [|exact H]. eapply runs_step; [exact R|]. eapply estep_ok, E.
Qed.

Lemma drive_ok c : forall l y pk y' pk', runs c y pk -> drive c l y pk = Some (y', pk') -> runs c y' pk'.
Proof.
  induction l as [|[t [cl|n ds]] l IH]; intros y pk y' pk' R H; cbn [drive] in H.
  - injection H as <- <-. exact R.
  - destruct (ecall c y t cl) as [y1|] eqn:E; [|discriminate]. eapply IH; [|exact H]. eapply runs_step; [exact R|]. eapply ecall_ok, E.
  - destruct (esteps c n t ds y pk) as [[y1 pk1]|] eqn:E; [|discriminate]. eapply IH; [|exact H]. eapply esteps_ok; eassumption.
Qed.

Lemma boot_start n : start (boot n).
Proof. repeat split. cbn. induction n; cbn; constructor; auto. Qed.

Lemma drive_runs c n l y pk : drive c l (boot n) 0 = Some (y, pk) -> runs c y pk.
Proof. apply drive_ok. constructor. apply boot_start. Qed.

Lemma runs_reach c y pk : runs c y pk -> reach c y.
Proof. intros H. induction H as [y S|y pk y' H IH S]; [constructor; exact S|econstructor; eassumption]. Qed.

Lemma drive_reach c n l y pk : drive c l (boot n) 0 = Some (y, pk) -> reach c y.
Proof. intros H. eapply runs_reach, drive_runs, H. Qed.

(** The state after a schedule, [boot 0] if the schedule is impossible. *)
Definition after_drive (c : tcfg) (n : nat) (l : list (nat * ecmd)) : sys :=
  match drive c l (boot n) 0 with Some (y, _) => y | None => boot 0 end.
Definition peak_drive (c : tcfg) (n : nat) (l : list (nat * ecmd)) : Z :=
  match drive c l (boot n) 0 with Some (_, pk) => pk | None => 0 end.

Lemma after_runs c n l : runs c (after_drive c n l) (peak_drive c n l).
Proof.
  unfold after_drive, peak_drive. destruct (drive c l (boot n) 0) as [[y pk]|] eqn:E; [eapply drive_runs, E|]. constructor. apply boot_start.
Qed.
Lemma after_reach c n l : reach c (after_drive c n l).
Proof. eapply runs_reach, after_runs. Qed.

(** Memory keeps holding bytes. *)
Definition bytes_st (s : st) : Prop := forall x, 0 <= s_mem s x < 256.


Lemma estep_bytes c y t ds y' ds' : (forall x, 0 <= tc_code c x < 256) -> bytes_st (y_st y) -> estep c y t ds = Some (y', ds') -> bytes_st (y_st y').
Proof.
  intros Hc Hs H. apply estep_ok in H. destruct H as [| | |t0 cl own o k v s' _ D|]; cbn [y_st]; auto.
  destruct D; intros w7; cbn [s_mem set_val]; auto.
  - unfold set_word. destruct (inside a 8 w7); [apply Z.mod_pos_bound; lia|apply Hs].
  - destruct (inside a n w7); [lia|apply Hs].
  - destruct (inside a n w7); [apply Hc|apply Hs].
Qed.

Lemma esteps_bytes c t : (forall x, 0 <= tc_code c x < 256) ->
  forall n ds y pk y' pk', bytes_st (y_st y) -> esteps c n t ds y pk = Some (y', pk') -> bytes_st (y_st y').
Proof.
  intros Hc. induction n as [|n IH]; intros ds y pk y' pk' R H; cbn [esteps] in H; [injection H as <- <-; exact R|].
  destruct (idle y t); [injection H as <- <-; exact R|]. destruct (estep c y t ds) as [[y1 ds1]|] eqn:E; [|discriminate].
  eapply IH; [|exact H]. eapply estep_bytes; eassumption.
Qed.

Lemma drive_bytes c : (forall x, 0 <= tc_code c x < 256) ->
  forall l y pk y' pk', bytes_st (y_st y) -> drive c l y pk = Some (y', pk') -> bytes_st (y_st y').
Proof.
  intros Hc. induction l as [|[t [cl|n ds]] l IH]; intros y pk y' pk' R H; cbn [drive] in H.
  - injection H as <- <-. exact R.
  - destruct (ecall c y t cl) as [y1|] eqn:E; [|discriminate]. eapply IH; [|exact H]. unfold ecall in E.
    destruct (nth_error (y_thr y) t) as [[|? ? ?]|]; try discriminate.
    destruct cl; repeat match type of E with context[match ?x with _ => _ end] => destruct x; try discriminate end; injection E as <-; exact R.
  - destruct (esteps c n t ds y pk) as [[y1 pk1]|] eqn:E; [|discriminate]. eapply IH; [|exact H]. eapply esteps_bytes; eassumption.
Qed.

Lemma after_bytes c n l : (forall x, 0 <= tc_code c x < 256) -> bytes_st (y_st (after_drive c n l)).
Proof.
  intros Hc. unfold after_drive. assert (B : forall n, bytes_st (y_st (boot n))) by (intros m x; cbn; lia).
  destruct (drive c l (boot n) 0) as [[y pk]|] eqn:E; [|apply B]. eapply drive_bytes; [exact Hc|apply (B n)|exact E].
Qed.
