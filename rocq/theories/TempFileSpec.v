(** What the search for a temporary file and the mapping of closure memory should do. *)
From Coq Require Import String.
From Verif Require Import Base TempFileModel.
Local Open Scope Z_scope.

(** The places listed in doc/libffi.texi:984-1016, after the anonymous mapping, which is
    tried before (src/closures.c:890-935). *)
Inductive docplace : Type :=
| DMemfd
| DEnv (name : string)
| DDir (name : string)
| DMounts (file : string).

(** doc/libffi.texi:984-1016; memfd_create and the mounts files only if the system has them. *)
Definition documented (memfd mntent : bool) : list docplace :=
  (if memfd then [DMemfd] else []) ++
  [DEnv "LIBFFI_TMPDIR"; DEnv "TMPDIR"; DDir "/tmp"; DDir "/var/tmp"; DDir "/dev/shm"; DEnv "HOME"] ++
  (if mntent then [DMounts "/etc/mtab"; DMounts "/proc/mounts"] else []).

(** One stop of a search: a fixed place, or an entry of a mounts file. *)
Inductive stop : Type :=
| At (d : docplace)
| AtMount (file : string) (k : nat) (m : mnt).

(** The entries of a mounts file from number [k] on. *)
Fixpoint entries (f : string) (k : nat) (l : list mnt) : list stop :=
  match l with [] => [] | m :: r => AtMount f k m :: entries f (S k) r end.

(** A whole search through some places, in order.  [D l]: a mounts file may have the
    entries [l].  The search may resume in the middle of the mounts file listed first. *)
Inductive walk (D : list mnt -> Prop) : option (nat * list mnt) -> list docplace -> list stop -> Prop :=
| walk_end : walk D None [] []
| walk_fixed d r l : (forall f, d <> DMounts f) -> walk D None r l -> walk D None (d :: r) (At d :: l)
| walk_mounts f ents r l : D ents -> walk D None r l ->
    walk D None (DMounts f :: r) (entries f 0 ents ++ l)
| walk_resumed f k ents r l : walk D None r l ->
    walk D (Some (k, ents)) (DMounts f :: r) (entries f k ents ++ l).

(** What a visit of the model is a stop at. *)
Definition stop_of (v : visit) : stop :=
  match v with
  | VRow (OMemfd _) => At DMemfd
  | VRow (OVar n) => At (DEnv n)
  | VRow (ODir n) => At (DDir n)
  | VRow (OMnt n) => At (DMounts n)
  | VEnt f k m _ => AtMount f k m
  end.

(** Contents of mounts files: what setmntent gave, nothing if it failed. *)
Definition mounts_seen (e : env) (l : list mnt) : Prop := l = [] \/ exists t, e_mnt e t = Some l.

(** No file is tried on a file system that is read-only or not executable. *)
Definition usable_only (v : visit) : Prop :=
  match v with VEnt _ _ m true => mnt_ro m = false /\ mnt_noexec m = false | _ => True end.

(** Histories of requests, with the regions handed out: file, offset, length. *)
Inductive history (g : tmpcfg) (e : env) : ex -> list (nat * Z * Z) -> Prop :=
| h_start : history g e ex0 []
| h_fail s rs fuel len s' : history g e s rs -> 0 < len ->
    dlmmap_locked fuel g e len s = (Out MFail, s') -> history g e s' rs
| h_map s rs fuel len n off c d s' : history g e s rs -> 0 < len ->
    dlmmap_locked fuel g e len s = (Out (MMap n off c d), s') -> history g e s' ((n, off, len) :: rs).

(** Histories in which every request succeeds. *)
Inductive successes (g : tmpcfg) (e : env) : ex -> list (nat * Z * Z) -> Prop :=
| su_start : successes g e ex0 []
| su_map s rs fuel len n off c d s' : successes g e s rs -> 0 < len ->
    dlmmap_locked fuel g e len s = (Out (MMap n off c d), s') -> successes g e s' ((n, off, len) :: rs).

(** Every byte of a region has space in its file. *)
Definition backed (s : ex) (r : nat * Z * Z) : Prop :=
  let '(n, off, len) := r in forall x, off <= x < off + len -> f_space (x_file s n) x = true.

(** A region lies inside its file. *)
Definition inside_file (s : ex) (r : nat * Z * Z) : Prop :=
  let '(n, off, len) := r in 0 <= off /\ off + len <= f_size (x_file s n).

(** Two regions do not share a byte of a file. *)
Definition region_apart (r1 r2 : nat * Z * Z) : Prop :=
  let '(n1, o1, l1) := r1 in let '(n2, o2, l2) := r2 in n1 <> n2 \/ o1 + l1 <= o2 \/ o2 + l2 <= o1.
