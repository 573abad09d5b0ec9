(** The whole of ffi_prep_cif on x86-64: the generic preparation over type objects
    followed by the machine dependent one, which reads the same objects. *)
From Verif Require Import Base Types TypeHeapModel Unix64Model Win64Model.

(** include/ffi.h.in:129-135  the type object at [p] as the machine dependent code of
    src/x86/ffi64.c:160-345 walks it: a tree, elements followed recursively.  A NULL
    [elements] is read as no elements.  [fuel] counts stack frames. *)
Fixpoint view (fuel : nat) (h : theap) (p : tptr) : res ftype :=
  match fuel with
  | O => UB
  | S f =>
    let* o := of_option (h p) in
    let* es :=
      match o_elems o with
      | None => Ok []
      | Some l =>
        (fix all (l : list tptr) : res (list ftype) :=
           match l with
           | [] => Ok []
           | e :: r => let* t := view f h e in let* ts := all r in Ok (t :: ts)
           end) l
      end in
    Ok (FT (o_code o) (o_size o) (o_align o) es)
  end.

(** include/ffi.h.in:239-249  the argument types of a cif as trees. *)
Fixpoint views (fuel : nat) (h : theap) (l : list tptr) : res (list ftype) :=
  match l with
  | [] => Ok []
  | p :: r => let* t := view fuel h p in let* ts := views fuel h r in Ok (t :: ts)
  end.

(** src/x86/ffi64.c:400-558  ffi_prep_cif_machdep on a cif that points to type
    objects. *)
Definition machdep_objects (fuel : nat) (h : theap) (c : cif) : res (status * cif) :=
  let* rt := view fuel h (cif_rtype c) in
  let* ts := views fuel h (cif_args c) in
  let* r := machdep_x86 (TCif (cif_abi c) ts rt (cif_bytes c) (cif_flags c)) in
  let '(st, c') := r in
  Ok (st, Cif (cif_abi c) (cif_args c) (cif_rtype c) (c_bytes c') (c_flags c')).

(** src/prep_cif.c:219-223  ffi_prep_cif on x86-64. *)
Definition prep_x86 (fuel : nat) (abi : Z) (rtype : tptr) (atypes : list tptr) (h : theap)
  : res (status * theap * option cif) :=
  prep_cif x86_64_target fuel (machdep_objects fuel) abi rtype atypes h.
