(** The search for an executable temporary file and the dual mapping of closure memory:
    open_temp_exec_file, allocate_space and dlmmap_locked of src/closures.c. *)
From Coq Require Import String.
From Verif Require Import Base.
Local Open Scope Z_scope.

(** An entry of a mounts file, as far as src/closures.c:706-708 looks at it. *)
Record mnt : Type := Mnt { mnt_ro : bool; mnt_noexec : bool; mnt_dir : string }.

(** The environment: answers to the system calls, by the number of calls made before.
    [e_open] answers open, memfd_create and mkostemp (0: opened, 1: O_TMPFILE not supported,
    otherwise: failed), [e_acc] access (true: writable), [e_var] getenv, [e_mnt] setmntent
    (the entries of the file), [e_write] write (bytes written), [e_map] mmap (an address, -1
    for failure) and [e_trunc] ftruncate (src/closures.c:580-888). *)
Record env : Type := Env {
  e_open : nat -> Z;
  e_acc : nat -> bool;
  e_var : nat -> option string;
  e_mnt : nat -> option (list mnt);
  e_write : nat -> Z;
  e_map : nat -> Z;
  e_trunc : nat -> bool
}.

(** Configuration: HAVE_MEMFD_CREATE, O_TMPFILE, HAVE_MNTENT (src/closures.c:589, 629, 671)
    and the page size (801-803). *)
Record tmpcfg : Type := TmpCfg { tc_memfd : bool; tc_tmpfile : bool; tc_mntent : bool; tc_page : Z }.

(** Rows of the table of places (src/closures.c:719-740); [OMnt] rows have repeat set. *)
Inductive opt : Type := OMemfd (name : string) | OVar (name : string) | ODir (name : string) | OMnt (name : string).

(** src/closures.c:719-740 open_temp_exec_file_opts *)
Definition opts (g : tmpcfg) : list opt :=
  (if tc_memfd g then [OMemfd "libffi"] else []) ++
  [OVar "LIBFFI_TMPDIR"; OVar "TMPDIR"; ODir "/tmp"; ODir "/var/tmp"; ODir "/dev/shm"; OVar "HOME"] ++
  (if tc_mntent g then [OMnt "/etc/mtab"; OMnt "/proc/mounts"] else []).

(** src/closures.c:725 the repeat flag. *)
Definition repeats (o : opt) : bool := match o with OMnt _ => true | _ => false end.

(** What the search looked at: a row of the table, or entry [k] of a mounts file, which was
    skipped or tried (src/closures.c:693-714). *)
Inductive visit : Type := VRow (o : opt) | VEnt (file : string) (k : nat) (m : mnt) (tried : bool).

(** An open temporary file: position, size, and the bytes with space allocated to them by
    write (src/closures.c:790-818). *)
Record file : Type := File { f_pos : Z; f_size : Z; f_space : Z -> bool }.

(** The static variables of src/closures.c:580-888, the files opened so far (numbered), and
    the history of places visited, newest first.  [x_mnt] is last_mntent: the number of
    entries read and the entries left. *)
Record ex : Type := Ex {
  x_tick : nat;
  x_idx : nat;
  x_last : option string;
  x_mnt : option (nat * list mnt);
  x_fd : option nat;
  x_size : Z;
  x_nfile : nat;
  x_file : nat -> file;
  x_tried : list visit
}.

(** One answer used up (src/closures.c:580-888). *)
Definition tick (s : ex) : ex :=
  Ex (S (x_tick s)) (x_idx s) (x_last s) (x_mnt s) (x_fd s) (x_size s) (x_nfile s) (x_file s) (x_tried s).
(** src/closures.c:743 open_temp_exec_file_opts_idx set. *)
Definition set_idx (s : ex) (i : nat) : ex :=
  Ex (x_tick s) i (x_last s) (x_mnt s) (x_fd s) (x_size s) (x_nfile s) (x_file s) (x_tried s).
(** src/closures.c:678-679 last_mounts and last_mntent set. *)
Definition set_mnt (s : ex) (l : option string) (m : option (nat * list mnt)) : ex :=
  Ex (x_tick s) (x_idx s) l m (x_fd s) (x_size s) (x_nfile s) (x_file s) (x_tried s).
(** src/closures.c:584 execfd set. *)
Definition set_fd (s : ex) (f : option nat) : ex :=
  Ex (x_tick s) (x_idx s) (x_last s) (x_mnt s) f (x_size s) (x_nfile s) (x_file s) (x_tried s).
(** src/closures.c:587 execsize set. *)
Definition set_size (s : ex) (z : Z) : ex :=
  Ex (x_tick s) (x_idx s) (x_last s) (x_mnt s) (x_fd s) z (x_nfile s) (x_file s) (x_tried s).
(** A file changes (src/closures.c:812, 856, 874). *)
Definition set_file (s : ex) (n : nat) (f : file) : ex :=
  Ex (x_tick s) (x_idx s) (x_last s) (x_mnt s) (x_fd s) (x_size s) (x_nfile s)
     (fun k => if Nat.eqb k n then f else x_file s k) (x_tried s).
(** A place is looked at (src/closures.c:702-709, 775-776). *)
Definition try_at (s : ex) (p : visit) : ex :=
  Ex (x_tick s) (x_idx s) (x_last s) (x_mnt s) (x_fd s) (x_size s) (x_nfile s) (x_file s) (p :: x_tried s).

(** A temporary file is opened: new and empty (src/closures.c:591-656). *)
Definition new_file (s : ex) : option nat * ex :=
  (Some (x_nfile s),
   Ex (x_tick s) (x_idx s) (x_last s) (x_mnt s) (x_fd s) (x_size s) (S (x_nfile s))
      (fun k => if Nat.eqb k (x_nfile s) then File 0 0 (fun _ => false) else x_file s k) (x_tried s)).

(** An answer telling success (0) from failure (src/closures.c:595, 606-610). *)
Definition open_call (e : env) (s : ex) : option nat * ex :=
  if e_open e (x_tick s) =? 0 then new_file (tick s) else (None, tick s).

(** src/closures.c:601-616 open_temp_exec_file_name, and 619-655 open_temp_exec_file_dir: O_TMPFILE
    first. *)
Definition open_dir (g : tmpcfg) (e : env) (s : ex) : option nat * ex :=
  if tc_tmpfile g then
    let a := e_open e (x_tick s) in
    if a =? 0 then new_file (tick s)
    else if a =? 1 then open_call e (tick s)
    else (None, tick s)
  else open_call e s.

(** src/closures.c:659-668 open_temp_exec_file_env *)
Definition open_env (g : tmpcfg) (e : env) (s : ex) : option nat * ex :=
  match e_var e (x_tick s) with
  | None => (None, tick s)
  | Some _ => open_dir g e (tick s)
  end.

(** src/closures.c:696-715 the loop of open_temp_exec_file_mnt over the entries left; [k]
    entries were read before. *)
Fixpoint mnt_loop (g : tmpcfg) (e : env) (name : string) (k : nat) (l : list mnt) (s : ex) : option nat * ex :=
  match l with
  | [] => (None, set_mnt s (x_last s) (Some (k, [])))
  | m :: r =>
    if mnt_ro m || mnt_noexec m then mnt_loop g e name (S k) r (try_at s (VEnt name k m false))
    else
      let a := e_acc e (x_tick s) in
      let s := tick s in
      if negb a then mnt_loop g e name (S k) r (try_at s (VEnt name k m false))
      else
        let (fd, s') := open_dir g e (try_at s (VEnt name k m true)) in
        match fd with
        | Some _ => (fd, set_mnt s' (x_last s') (Some (S k, r)))
        | None => mnt_loop g e name (S k) r s'
        end
  end.

(** src/closures.c:675-716 open_temp_exec_file_mnt; [None] is the NULL argument. *)
Definition open_mnt (g : tmpcfg) (e : env) (mounts : option string) (s : ex) : option nat * ex :=
  let s1 :=
    match mounts, x_last s with
    | None, None => s
    | None, Some _ => set_mnt s None None
    | Some n, last =>
      if match last with Some n' => String.eqb n n' | None => false end then s
      else
        let l := e_mnt e (x_tick s) in
        set_mnt (tick s) (Some n) (match l with Some l => Some (0%nat, l) | None => None end)
    end in
  match x_mnt s1, mounts with
  | Some (k, l), Some n => mnt_loop g e n k l s1
  | _, _ => (None, s1)
  end.

(** A row of the table is called with its argument (src/closures.c:775-776). *)
Definition open_opt (g : tmpcfg) (e : env) (o : opt) (s : ex) : option nat * ex :=
  match o with
  | OMemfd _ => open_call e (try_at s (VRow o))
  | OVar _ => open_env g e (try_at s (VRow o))
  | ODir _ => open_dir g e (try_at s (VRow o))
  | OMnt n => open_mnt g e (Some n) s
  end.

(** src/closures.c:748-764 open_temp_exec_file_opts_next: nonzero when wrapping around. *)
Definition opts_next (g : tmpcfg) (e : env) (s : ex) : bool * ex :=
  let s1 := match nth_error (opts g) (x_idx s) with
            | Some o => if repeats o then snd (open_mnt g e None s) else s
            | None => s
            end in
  let s2 := set_idx s1 (S (x_idx s1)) in
  if Nat.eqb (x_idx s2) (List.length (opts g)) then (true, set_idx s2 0) else (false, s2).

(** Results of the functions below: out of fuel, undefined (table index), or a value (src/closures.c:768-888). *)
Inductive out (X : Type) : Type := Fuel | Undef | Out (x : X).
Arguments Fuel {X}.
Arguments Undef {X}.
Arguments Out {X} x.

(** src/closures.c:768-788 open_temp_exec_file *)
Fixpoint open_temp (fuel : nat) (g : tmpcfg) (e : env) (s : ex) : out (option nat) * ex :=
  match fuel with
  | O => (Fuel, s)
  | S n =>
    match nth_error (opts g) (x_idx s) with
    | None => (Undef, s)
    | Some o =>
      let (fd, s1) := open_opt g e o s in
      let failed := match fd with None => true | _ => false end in
      if negb (repeats o) || failed then
        let (wrapped, s2) := opts_next g e s1 in
        if wrapped then (Out fd, s2)
        else if failed then open_temp n g e s2 else (Out fd, s2)
      else (Out fd, s1)
    end
  end.

(** write (src/closures.c:812): the answer is the number of bytes written, at most what
    was asked for; negative means failure. *)
Definition write_call (e : env) (n : nat) (len : Z) (s : ex) : Z * ex :=
  let a := e_write e (x_tick s) in
  let s := tick s in
  let f := x_file s n in
  let w := Z.min a len in
  if w <? 0 then (-1, s)
  else (w, set_file s n (File (f_pos f + w) (if w =? 0 then f_size f else Z.max (f_size f) (f_pos f + w))
                              (fun x => if (f_pos f <=? x) && (x <? f_pos f + w) then true else f_space f x))).

(** src/closures.c:796-818 allocate_space: true on success. *)
Fixpoint allocate_space (fuel : nat) (g : tmpcfg) (e : env) (n : nat) (len : Z) (s : ex) : out bool * ex :=
  match fuel with
  | O => (Fuel, s)
  | S k =>
    if len <=? 0 then (Out true, s)
    else
      let to_write := if len <? tc_page g then len else tc_page g in
      let (w, s1) := write_call e n to_write s in
      if w <? to_write then (Out false, s1)
      else allocate_space k g e n (len - to_write) s1
  end.

(** ftruncate (src/closures.c:856, 874): the position stays. *)
Definition ftruncate (e : env) (n : nat) (len : Z) (s : ex) : ex :=
  let ok := e_trunc e (x_tick s) in
  let s := tick s in
  let f := x_file s n in
  if ok then set_file s n (File (f_pos f) len (fun x => if x <? len then f_space f x else false)) else s.

(** Result of dlmmap_locked: MFAIL, or the executable and the writable address of the
    mapping of a file from an offset on (src/closures.c:820-824). *)
Inductive mres : Type := MFail | MMap (n : nat) (off : Z) (code data : Z).

(** src/closures.c:825-888 dlmmap_locked; [fuel] bounds the number of files tried. *)
Fixpoint dlmmap_locked (fuel : nat) (g : tmpcfg) (e : env) (length : Z) (s : ex) : out mres * ex :=
  match fuel with
  | O => (Fuel, s)
  | S k =>
    let body (n : nat) (s : ex) :=
      let offset := x_size s in
      match allocate_space (S (Z.to_nat length)) g e n length s with
      | (Fuel, s1) => (Fuel, s1)
      | (Undef, s1) => (Undef, s1)
      | (Out false, s1) => (Out MFail, s1)
      | (Out true, s1) =>
        let ptr := e_map e (x_tick s1) in
        let s2 := tick s1 in
        if ptr =? -1 then
          if offset =? 0 then
            (* close, goto retry_open *)
            match open_temp (List.length (opts g)) g e s2 with
            | (Out None, s3) => (Out MFail, set_fd s3 None)
            | (Out (Some n'), s3) => dlmmap_locked k g e length (set_fd s3 (Some n'))
            | (Undef, s3) => (Undef, s3)
            | (Fuel, s3) => (Fuel, s3)
            end
          else (Out MFail, ftruncate e n offset s2)
        else
          let s3 := match nth_error (opts g) (x_idx s2) with
                    | Some o => if (offset =? 0) && repeats o then snd (opts_next g e s2) else s2
                    | None => s2
                    end in
          let start := e_map e (x_tick s3) in
          let s4 := tick s3 in
          if start =? -1 then (Out MFail, ftruncate e n offset s4)
          else (Out (MMap n offset ptr start), set_size s4 (x_size s4 + length))
      end in
    match x_fd s with
    | Some n => body n s
    | None =>
      match open_temp (List.length (opts g)) g e (set_idx s 0) with
      | (Out None, s1) => (Out MFail, set_fd s1 None)
      | (Out (Some n), s1) => body n (set_fd s1 (Some n))
      | (Undef, s1) => (Undef, s1)
      | (Fuel, s1) => (Fuel, s1)
      end
    end
  end.

(** The start of the process (src/closures.c:584, 587, 678-679, 743). *)
Definition ex0 : ex := Ex 0 0 None None None 0 0 (fun _ => File 0 0 (fun _ => false)) [].
