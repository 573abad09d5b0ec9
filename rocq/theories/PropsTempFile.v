(** Properties C38 and C39: the search for an executable temporary file and the space
    behind the mappings made from it. *)
From Coq Require Import String.
From Verif Require Import Base TempFileModel TempFileSpec TempFileProofs TempFileMain.
Local Open Scope Z_scope.

(** C38.  On systems with mounts files, a request for a mapping ends, whatever opens and
    whatever mapping fails; it looks at the documented places in the documented order, one
    after the other, starting from where the last search stopped (from the first one if no
    file is open).  If no file is open at the end, all places were visited.  No file is
    tried on a read-only or non-executable mount.  Missing: systems without mounts files
    (see C38_search_terminates_refuted). *)
Theorem C38_search_terminates_partial :
  forall (g : tmpcfg) (e : env) (len : Z) (s : ex) (rs : list (nat * Z * Z)),
    tc_mntent g = true -> 0 < tc_page g -> 0 < len -> history g e s rs ->
    let places := documented (tc_memfd g) true in
    let todo := match x_fd s with None => places | Some _ => skipn (x_idx s) places end in
    exists fuel r s' new,
      (forall k, (fuel <= k)%nat -> dlmmap_locked k g e len s = (Out r, s')) /\
      x_tried s' = rev new ++ x_tried s /\ Forall usable_only new /\
      (exists rest, walk (mounts_seen e) (x_mnt s) todo (map stop_of new ++ rest)) /\
      (x_fd s' = None -> r = MFail /\ walk (mounts_seen e) (x_mnt s) todo (map stop_of new)).
Proof. exact C38_ends. Qed.
Print Assumptions C38_search_terminates_partial.

Local Open Scope string_scope.
(** Environment of the examples: memfd_create is missing, the file systems of /tmp,
    /var/tmp, /dev/shm and the home directory are mounted noexec (mmap fails), /etc/mtab
    lists a read-only mount, a noexec one and a good one. *)
Definition c38_env : env :=
  Env (fun _ => 0%Z) (fun _ => true) (fun t => if Nat.eqb t 0 then None else Some "/home/u")
      (fun _ => Some [Mnt true false "/boot"; Mnt false true "/srv"; Mnt false false "/opt"])
      (fun _ => 65536%Z) (fun t => if Nat.leb t 21 then (-1)%Z else (65536 * Z.of_nat t)%Z) (fun _ => true).
Definition c38_cfg : tmpcfg := TmpCfg false false true 4096.
Example C38_meets_hypotheses :
  tc_mntent c38_cfg = true /\ (0 < tc_page c38_cfg)%Z /\ history c38_cfg c38_env ex0 [] /\
  fst (dlmmap_locked 20 c38_cfg c38_env 4096 ex0) = Out (MMap 5 0 1441792 1507328) /\
  map stop_of (rev (x_tried (snd (dlmmap_locked 20 c38_cfg c38_env 4096 ex0)))) =
    [At (DEnv "LIBFFI_TMPDIR"); At (DEnv "TMPDIR"); At (DDir "/tmp"); At (DDir "/var/tmp"); At (DDir "/dev/shm");
     At (DEnv "HOME"); AtMount "/etc/mtab" 0 (Mnt true false "/boot"); AtMount "/etc/mtab" 1 (Mnt false true "/srv");
     AtMount "/etc/mtab" 2 (Mnt false false "/opt")].
Proof.
  split; [reflexivity|]. split; [reflexivity|]. split; [constructor|].
  split; vm_compute; reflexivity.
Qed.

(** C38 fails without mounts files: the last place of the list is then not a repeated one,
    so the search starts again at the first place after the last file that opened could not
    be mapped. *)
Theorem C38_search_terminates_refuted :
  exists (g : tmpcfg) (e : env), (0 < tc_page g)%Z /\
    forall len, (0 < len)%Z -> forall fuel, fst (dlmmap_locked fuel g e len ex0) = Fuel.
Proof. exact C38_never_ends. Qed.
Print Assumptions C38_search_terminates_refuted.

Local Open Scope Z_scope.
(** C39.  Regions handed out lie inside their file and do not overlap in it, after any
    history of requests and failures.  Missing: that the bytes have space in the file
    (see C39_backed_refuted). *)
Theorem C39_inside_file_partial :
  forall g e s rs, 0 < tc_page g -> history g e s rs ->
    Forall (inside_file s) rs /\ ForallOrdPairs region_apart rs.
Proof. exact C39_inside. Qed.
Print Assumptions C39_inside_file_partial.

(** C39.  As long as no call of ftruncate succeeds, every byte handed out was written. *)
Theorem C39_backed_no_truncate_partial :
  forall g e s rs, 0 < tc_page g -> (forall t, e_trunc e t = false) -> history g e s rs -> Forall (backed s) rs.
Proof. exact C39_backed1. Qed.
Print Assumptions C39_backed_no_truncate_partial.

(** C39.  As long as every request succeeds, every byte handed out was written. *)
Theorem C39_backed_no_failure_partial :
  forall g e s rs, 0 < tc_page g -> successes g e s rs -> Forall (backed s) rs.
Proof. exact C39_backed2. Qed.
Print Assumptions C39_backed_no_failure_partial.

(** Histories: [hole_s1] after a request that succeeds, [hole_s2] after one that could not be
    mapped, [hole_s3] after one that succeeds. *)
Example C39_meets_hypotheses :
  0 < tc_page hole_cfg /\ history hole_cfg hole_env hole_s3 [(0%nat, 4096, 8192); (0%nat, 0, 4096)] /\
  successes hole_cfg hole_env hole_s1 [(0%nat, 0, 4096)].
Proof.
  split; [reflexivity|]. split; [exact hole_h3|].
  refine (su_map _ _ _ _ _ _ _ _ _ _ _ _ _ (run_snd _ _ hole_run1)); [constructor|reflexivity].
Qed.
(** The same when ftruncate fails. *)
Definition c39_env : env :=
  Env (fun _ => 0) (fun _ => true) (fun _ => None) (fun _ => None) (fun _ => 65536)
      (fun t => if Nat.eqb t 6 then -1 else 65536 * Z.of_nat t) (fun _ => false).
Definition c39_s1 := snd (dlmmap_locked 3 hole_cfg c39_env 4096 ex0).
Definition c39_s2 := snd (dlmmap_locked 3 hole_cfg c39_env 8192 c39_s1).
Definition c39_s3 := snd (dlmmap_locked 3 hole_cfg c39_env 8192 c39_s2).
Example c39_run1 : fst (dlmmap_locked 3 hole_cfg c39_env 4096 ex0) = Out (MMap 0 0 131072 196608).
Proof. vm_compute. reflexivity. Qed.
Example c39_run2 : fst (dlmmap_locked 3 hole_cfg c39_env 8192 c39_s1) = Out MFail.
Proof. vm_compute. reflexivity. Qed.
Example c39_run3 : fst (dlmmap_locked 3 hole_cfg c39_env 8192 c39_s2) = Out (MMap 0 4096 655360 720896).
Proof. vm_compute. reflexivity. Qed.
Example C39_truncate_meets_hypotheses :
  (forall t, e_trunc c39_env t = false) /\ history hole_cfg c39_env c39_s3 [(0%nat, 4096, 8192); (0%nat, 0, 4096)].
Proof.
  split; [reflexivity|].
  refine (h_map _ _ _ _ _ _ _ _ _ _ _ _ _ (run_snd _ _ c39_run3)); [|reflexivity].
  refine (h_fail _ _ _ _ _ _ _ _ _ (run_snd _ _ c39_run2)); [|reflexivity].
  refine (h_map _ _ _ _ _ _ _ _ _ _ _ _ _ (run_snd _ _ c39_run1)); [constructor|reflexivity].
Qed.

(** C39 is false: when a mapping fails, the file is cut back but its position stays, so the
    next request writes further back and hands out a region that was never written. *)
Theorem C39_backed_refuted :
  exists g e s rs, 0 < tc_page g /\ history g e s rs /\
    exists r, In r rs /\ ~ backed s r.
Proof. exact C39_hole. Qed.
Print Assumptions C39_backed_refuted.
