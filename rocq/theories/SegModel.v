(** Memory segments of the closure allocator: how src/dlmalloc.c keeps track of mapped
    memory and of the distance to its executable copy, and how src/closures.c maps and
    unmaps it. *)
From Verif Require Import Base.
Local Open Scope Z_scope.

(** What a mapped byte shows: a byte of a file, or of anonymous memory named by its
    address (src/closures.c:843-866, 906, 931). *)
Inductive bk : Type := BFile (n : nat) (off : Z) | BAnon (a : Z).

(** Equality of [bk] (no counterpart in /repo)
    (two mappings of one file page, src/closures.c:866-880). *)
Definition bk_eqb (x y : bk) : bool :=
  match x, y with
  | BFile n o, BFile m p => Nat.eqb n m && (o =? p)
  | BAnon a, BAnon b => a =? b
  | _, _ => false
  end.

(** src/dlmalloc.c:1945-1985 struct malloc_segment without the link: records are kept in
    a list. *)
Record seg : Type := Seg { sg_base : Z; sg_size : Z; sg_exo : Z }.

(** The address space ([vm], per byte), the words stored ([wd], by what holds them), and the
    segments of gm, first the record in gm itself (src/dlmalloc.c:1945-1985, 2079-2122). *)
Record sgs : Type := Sgs { vm : Z -> option bk; wd : bk -> Z; segs : list seg }.

(** Nothing mapped yet (static struct malloc_state, src/dlmalloc.c:2122). *)
Definition sgs0 : sgs := Sgs (fun _ => None) (fun _ => 0) [].

(** src/dlmalloc.c:2160-2162 segment_holds *)
Definition holds (sp : seg) (a : Z) : bool := (sg_base sp <=? a) && (a <? sg_base sp + sg_size sp).

(** src/dlmalloc.c:2165-2173 segment_holding; the zeroed record of an unused gm holds
    nothing. *)
Definition segment_holding (st : sgs) (a : Z) : option seg := find (fun sp => holds sp a) (segs st).

(** src/closures.c:971-982 segment_holding_code *)
Definition segment_holding_code (st : sgs) (a : Z) : option seg :=
  find (fun sp => (sg_base sp + sg_exo sp <=? a) && (a <? sg_base sp + sg_exo sp + sg_size sp)) (segs st).

(** src/dlmalloc.c:1960-1961 add_segment_exec_offset, sub_segment_exec_offset *)
Definition add_exo (p : Z) (sp : seg) : Z := p + sg_exo sp.
(** src/dlmalloc.c:1961 sub_segment_exec_offset *)
Definition sub_exo (p : Z) (sp : seg) : Z := p - sg_exo sp.

(** Load and store of a word at a mapped address (src/dlmalloc.c:1953 mmap_exec_offset). *)
Definition read_word (st : sgs) (a : Z) : res Z :=
  match vm st a with Some b => Ok (wd st b) | None => UB end.
(** A store to a mapped address (src/closures.c:883). *)
Definition write_word (st : sgs) (a v : Z) : res sgs :=
  match vm st a with
  | Some b => Ok (Sgs (vm st) (fun b' => if bk_eqb b' b then v else wd st b') (segs st))
  | None => UB
  end.

(** Answer of the system to a request for memory: failure, an anonymous mapping, or the two
    mappings of a part of a file (src/closures.c:843-866, 906, 931). *)
Inductive kmap : Type := KFail | KAnon (p : Z) | KDual (n : nat) (off code data : Z).

(** A mapping appears / disappears: mmap, munmap (src/closures.c:846, 866, 870, 906, 931, 961, 966). *)
Definition map_range (f : Z -> option bk) (p len : Z) (b : Z -> bk) : Z -> option bk :=
  fun x => if (p <=? x) && (x <? p + len) then Some (b (x - p)) else f x.
(** munmap (src/closures.c:873, 961, 966) *)
Definition unmap_range (f : Z -> option bk) (p len : Z) : Z -> option bk :=
  fun x => if (p <=? x) && (x <? p + len) then None else f x.

(** src/closures.c:890-943 dlmmap and 864-887: the mapping and the word at its end telling
    where the executable copy is; anonymous memory and file space are zero at first. *)
Definition dlmmap (len : Z) (k : kmap) (st : sgs) : res (option Z * sgs) :=
  match k with
  | KFail => Ok (None, st)
  | KAnon p =>
    Ok (Some p, Sgs (map_range (vm st) p len (fun i => BAnon (p + i)))
                    (fun b => match b with BAnon a => if (p <=? a) && (a <? p + len) then 0 else wd st b | _ => wd st b end)
                    (segs st))
  | KDual n off code data =>
    let st1 := Sgs (map_range (map_range (vm st) code len (fun i => BFile n (off + i))) data len (fun i => BFile n (off + i)))
                   (wd st) (segs st) in
    let* st2 := write_word st1 (data + len - 8) (code - data) in
    Ok (Some data, st2)
  end.

(** src/dlmalloc.c:1965-1972 set_segment_flags with IS_MMAPPED_BIT, on a new record. *)
Definition set_segment_flags (st : sgs) (base size : Z) : res (seg * sgs) :=
  let* exo := read_word st (base + size - 8) in
  let* w := read_word st (base + exo + size - 8) in
  if negb (w =? exo) then Abort
  else
    let* st' := write_word st (base + size - 8) 0 in
    Ok (Seg base size exo, st').

(** The first element satisfying [p] is changed (a record found by the loops of
    src/dlmalloc.c:3575-3577, 3591-3593). *)
Fixpoint upd_first (p : seg -> bool) (f : seg -> seg) (l : list seg) : list seg :=
  match l with
  | [] => []
  | sp :: r => if p sp then f sp :: r else sp :: upd_first p f r
  end.

(** The list of segments changes (src/dlmalloc.c:3394-3398, 3585, 3598-3599). *)
Definition set_segs (st : sgs) (l : list seg) : sgs := Sgs (vm st) (wd st) l.

(** src/dlmalloc.c:3556-3605: new memory [tbase, tbase+tsize) is added to the segments;
    [top] is the top chunk.  add_segment is 3376-3398 (its chunk headers are not modelled). *)
Definition sys_add (tbase tsize top : Z) (st : sgs) : res sgs :=
  match segs st with
  | [] =>
    let* (sp, st') := set_segment_flags st tbase tsize in
    Ok (set_segs st' [sp])
  | _ =>
    let* w := read_word st (tbase + tsize - 8) in
    let ends sp := tbase =? sg_base sp + sg_size sp in
    let starts sp := sg_base sp =? tbase + tsize in
    let mine := match find ends (segs st) with
                | Some sp => (w =? sg_exo sp) && holds sp top
                | None => false
                end in
    if mine then
      Ok (set_segs st (upd_first ends (fun sp => Seg (sg_base sp) (sg_size sp + tsize) (sg_exo sp)) (segs st)))
    else
      let below := match find starts (segs st) with Some sp => w =? sg_exo sp | None => false end in
      if below then
        Ok (set_segs st (upd_first starts (fun sp => Seg tbase (sg_size sp + tsize) (sg_exo sp)) (segs st)))
      else
        let* (sp, st') := set_segment_flags st tbase tsize in Ok (set_segs st' (sp :: segs st))
  end.

(** src/dlmalloc.c:3520-3605 the part of sys_alloc that gets memory: false if there is none. *)
Definition sys_alloc (len : Z) (k : kmap) (top : Z) (st : sgs) : res (bool * sgs) :=
  let* (p, st1) := dlmmap len k st in
  match p with
  | None => Ok (false, st1)
  | Some tbase => let* st2 := sys_add tbase len top st1 in Ok (true, st2)
  end.

(** src/closures.c:945-967 dlmunmap; [ok1] and [ok2] answer its calls of munmap.  True if it
    returns 0. *)
Definition dlmunmap (start len : Z) (ok1 ok2 : bool) (st : sgs) : bool * sgs :=
  let un p st := Sgs (unmap_range (vm st) p len) (wd st) (segs st) in
  match segment_holding st start with
  | Some sp =>
    if negb (add_exo start sp =? start) then
      if ok1 then
        let st1 := un (add_exo start sp) st in
        if ok2 then (true, un start st1) else (false, st1)
      else (false, st)
    else if ok2 then (true, un start st) else (false, st)
  | None => if ok2 then (true, un start st) else (false, st)
  end.

(** src/dlmalloc.c:3665-3680, 3700-3706 sys_trim on the segment of the top chunk; [topsize]
    and [pad] (with TOP_FOOT_SIZE added) are the allocator's, [unit] the granularity, [linked]
    the answer of has_segment_link. *)
Definition sys_trim (top topsize pad unit : Z) (linked ok1 ok2 : bool) (st : sgs) : res sgs :=
  if negb (pad <? topsize) then Ok st
  else
    let extra := ((topsize - pad + (unit - 1)) / unit - 1) * unit in
    match segment_holding st top with
    | None => UB
    | Some sp =>
      if (extra <=? sg_size sp) && negb linked then
        let newsize := sg_size sp - extra in
        let (done, st1) := dlmunmap (sg_base sp + newsize) extra ok1 ok2 st in
        if done && negb (extra =? 0) then
          Ok (set_segs st1 (upd_first (fun sp => holds sp top)
                             (fun sp => Seg (sg_base sp) (sg_size sp - extra) (sg_exo sp)) (segs st1)))
        else Ok st1
      else Ok st
    end.

(** src/dlmalloc.c:3626-3663 release_unused_segments: the loop over the records after the
    first; [unused] tells which segments hold one free chunk only, [ans] answers munmap.
    [pre] are the records before. *)
Fixpoint release_loop (unused : seg -> bool) (ans : nat -> bool * bool) (k : nat)
    (pre rest : list seg) (st : sgs) : sgs :=
  match rest with
  | [] => st
  | sp :: next =>
    if unused sp then
      let (done, st1) := dlmunmap (sg_base sp) (sg_size sp) (fst (ans k)) (snd (ans k)) st in
      if done then release_loop unused ans (S k) pre next (set_segs st1 (pre ++ next))
      else release_loop unused ans (S k) (pre ++ [sp]) next st1
    else release_loop unused ans k (pre ++ [sp]) next st
  end.
(** src/dlmalloc.c:3626-3663 *)
Definition release_unused (unused : seg -> bool) (ans : nat -> bool * bool) (st : sgs) : sgs :=
  match segs st with
  | [] => st
  | sp :: rest => release_loop unused ans 0 [sp] rest st
  end.

(** Stores by the program and by the allocator, to any mapped memory
    (src/dlmalloc.c:3285-3425, closures filled in by ffi_prep_closure_loc). *)
Definition scribble (f : bk -> Z) (st : sgs) : sgs := Sgs (vm st) f (segs st).
