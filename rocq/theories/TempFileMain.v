(** The statements about the temporary files, from the lemmas. *)
From Coq Require Import String Lia.
From Verif Require Import Base TempFileModel TempFileSpec TempFileProofs.
Local Open Scope Z_scope.

Lemma C38_ends :
  forall (g : tmpcfg) (e : env) (len : Z) (s : ex) (rs : list (nat * Z * Z)),
    tc_mntent g = true -> 0 < tc_page g -> 0 < len -> history g e s rs ->
    let places := documented (tc_memfd g) true in
    let todo := match x_fd s with None => places | Some _ => skipn (x_idx s) places end in
    exists fuel r s' new,
      (forall k, (fuel <= k)%nat -> dlmmap_locked k g e len s = (Out r, s')) /\
      x_tried s' = rev new ++ x_tried s /\ Forall usable_only new /\
      (exists rest, walk (mounts_seen e) (x_mnt s) todo (map stop_of new ++ rest)) /\
      (x_fd s' = None -> r = MFail /\ walk (mounts_seen e) (x_mnt s) todo (map stop_of new)).
Proof.
  intros g e len s rs Hm Hp Hl H places todo. subst places todo.
  destruct (ends_all g e Hm Hp len Hl s (history_wf g e s rs Hm Hp H)) as (f & r & s' & new & A & B & C & D & E & _).
  exists f, r, s', new. rewrite Hm in *. split; [exact A|]. split; [exact B|]. split; [exact C|].
  split; assumption.
Qed.

Lemma C38_never_ends :
  exists (g : tmpcfg) (e : env), (0 < tc_page g)%Z /\
    forall len, (0 < len)%Z -> forall fuel, fst (dlmmap_locked fuel g e len ex0) = Fuel.
Proof.
  exists g_nomnt, e_noexec. split; [reflexivity|]. intros len Hl fuel. apply forever; [exact Hl|cbn; lia|reflexivity].
Qed.

Lemma C39_inside g e s rs : 0 < tc_page g -> history g e s rs ->
    Forall (inside_file s) rs /\ ForallOrdPairs region_apart rs.
Proof. intros Hp H. apply files_inside. eapply history_files; eassumption. Qed.

Lemma C39_backed1 g e s rs : 0 < tc_page g -> (forall t, e_trunc e t = false) -> history g e s rs -> Forall (backed s) rs.
Proof.
  intros Hp T H. apply no_hole_backed; [eapply history_files|eapply history_no_hole]; eassumption.
Qed.

Lemma C39_backed2 g e s rs : 0 < tc_page g -> successes g e s rs -> Forall (backed s) rs.
Proof.
  intros Hp H. apply no_hole_backed; [eapply history_files; [|eapply successes_history]|eapply successes_no_hole]; eassumption.
Qed.

(** The second request fails to map. *)
Definition hole_env : env :=
  Env (fun _ => 0) (fun _ => true) (fun _ => None) (fun _ => None) (fun _ => 65536)
      (fun t => if Nat.eqb t 6 then -1 else 65536 * Z.of_nat t) (fun _ => true).
Definition hole_cfg : tmpcfg := TmpCfg true false true 4096.

Lemma run_snd {A B} (p : A * B) a : fst p = a -> p = (a, snd p).
Proof. destruct p; cbn. intros ->. reflexivity. Qed.

Definition hole_s1 := snd (dlmmap_locked 3 hole_cfg hole_env 4096 ex0).
Definition hole_s2 := snd (dlmmap_locked 3 hole_cfg hole_env 8192 hole_s1).
Definition hole_s3 := snd (dlmmap_locked 3 hole_cfg hole_env 8192 hole_s2).
Lemma hole_run1 : fst (dlmmap_locked 3 hole_cfg hole_env 4096 ex0) = Out (MMap 0 0 131072 196608).
Proof. vm_compute. reflexivity. Qed.
Lemma hole_run2 : fst (dlmmap_locked 3 hole_cfg hole_env 8192 hole_s1) = Out MFail.
Proof. vm_compute. reflexivity. Qed.
Lemma hole_run3 : fst (dlmmap_locked 3 hole_cfg hole_env 8192 hole_s2) = Out (MMap 0 4096 655360 720896).
Proof. vm_compute. reflexivity. Qed.
Lemma hole_h3 : history hole_cfg hole_env hole_s3 [(0%nat, 4096, 8192); (0%nat, 0, 4096)].
Proof.
  refine (h_map _ _ _ _ _ _ _ _ _ _ _ _ _ (run_snd _ _ hole_run3)); [|reflexivity].
  refine (h_fail _ _ _ _ _ _ _ _ _ (run_snd _ _ hole_run2)); [|reflexivity].
  refine (h_map _ _ _ _ _ _ _ _ _ _ _ _ _ (run_snd _ _ hole_run1)); [constructor|reflexivity].
Qed.

Lemma C39_hole :
  exists g e s rs, 0 < tc_page g /\ history g e s rs /\
    exists r, In r rs /\ ~ backed s r.
Proof.
  exists hole_cfg, hole_env, hole_s3, [(0%nat, 4096, 8192); (0%nat, 0, 4096)].
  split; [reflexivity|]. split; [exact hole_h3|].
  exists (0%nat, 4096, 8192). split; [left; reflexivity|].
  intros H. specialize (H 4096 ltac:(lia)). revert H. vm_compute. discriminate.
Qed.
