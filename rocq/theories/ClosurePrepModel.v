(** Preparation of closures and raw closures on x86-64 at the level of memory, and what the
    closure entry points read back. LP64 only. *)
From Verif Require Import Base Types Unix64Model TrampCodeModel.

(** Virtual memory: [phys] translates addresses, so that the writable and the executable
    mapping of a closure (src/closures.c:825-888) can show the same bytes. *)
Definition view_of (phys pm : Z -> Z) : Z -> Z := fun a => pm (phys a).

(** A store through virtual addresses (the stores of src/x86/ffi64.c:801-811). *)
Fixpoint vstore (phys pm : Z -> Z) (a : Z) (d : list Z) : Z -> Z :=
  match d with
  | [] => pm
  | b :: r => fun x => if x =? phys a then b else vstore phys pm (a + 1) r x
  end.

(** Addresses of the closure entry points (src/x86/ffi64.c:740-745,
    src/x86/ffiw64.c:215-218). *)
Record entries : Type := Entries {
  en_unix : Z; en_sse : Z; en_win : Z;
  en_unix_alt : Z; en_sse_alt : Z; en_win_alt : Z
}.

(** What ffi_closure_alloc hands out (src/closures.c:990-1019): the writable address, the
    code address, and with static trampolines the address of the parameter block of the
    trampoline found through closure->ftramp. *)
Record calloc : Type := CAlloc { ca_ptr : Z; ca_code : Z; ca_parm : option Z }.

(** src/x86/ffi64.c:776-800, src/x86/ffiw64.c:244-260: the entry point for an ABI;
    [None] for FFI_BAD_ABI. *)
Definition closure_dest (en : entries) (abi flags : Z) (static : bool) : option Z :=
  if (abi =? FFI_WIN64) || (abi =? FFI_GNUW64) then
    Some (if static then en_win_alt en else en_win en)
  else if abi =? FFI_UNIX64 then
    Some (if negb (Z.land flags FLAG_XMM_ARGS =? 0)
          then (if static then en_sse_alt en else en_sse en)
          else (if static then en_unix_alt en else en_unix en))
  else None.

(** src/x86/ffi64.c:756-813 ffi_prep_closure_loc and src/x86/ffiw64.c:225-274.
    ffi_tramp_set_parms (src/tramp.c:636-645) stores the target after, then the data
    before it.  [codeloc] is not used on x86-64. *)
Definition prep_closure_loc (phys pm : Z -> Z) (en : entries) (cl : calloc) (abi flags cif fn user_data : Z)
  : status * (Z -> Z) :=
  let static := match ca_parm cl with Some _ => true | None => false end in
  match closure_dest en abi flags static with
  | None => (FFI_BAD_ABI, pm)
  | Some dest =>
    let pm1 :=
      match ca_parm cl with
      | Some parm => vstore phys (vstore phys pm (parm + 8) (le_enc 8 dest)) parm (le_enc 8 (ca_ptr cl))
      | None => vstore phys (vstore phys pm (ca_ptr cl) dynamic_tramp) (ca_ptr cl + 24) (le_enc 8 dest)
      end in
    let pm2 := vstore phys pm1 (ca_ptr cl + 32) (le_enc 8 cif) in
    let pm3 := vstore phys pm2 (ca_ptr cl + 40) (le_enc 8 fn) in
    (FFI_OK, vstore phys pm3 (ca_ptr cl + 48) (le_enc 8 user_data))
  end.

(** src/raw_api.c:224-245 ffi_prep_raw_closure_loc; [translate] is the address of
    ffi_translate_args.  The last two stores are to fun and user_data of the raw closure
    (include/ffi.h.in:385-410). *)
Definition prep_raw_closure_loc (phys pm : Z -> Z) (en : entries) (translate : Z) (cl : calloc)
  (abi flags cif fn user_data codeloc : Z) : status * (Z -> Z) :=
  let '(st, pm1) := prep_closure_loc phys pm en cl abi flags cif translate codeloc in
  match st with
  | FFI_OK =>
    let pm2 := vstore phys pm1 (ca_ptr cl + 56) (le_enc 8 fn) in
    (FFI_OK, vstore phys pm2 (ca_ptr cl + 64) (le_enc 8 user_data))
  | _ => (st, pm1)
  end.

(** src/x86/unix64.S:293-301, src/x86/win64.S:204-206: cif, function and user data the
    entry points load from the closure in %r10 and pass on. *)
Definition closure_call (m : Z -> Z) (r10 : Z) : Z * Z * Z :=
  (load m (r10 + 32) 8, load m (r10 + 40) 8, load m (r10 + 48) 8).

(** The handler called in the end: when the closure's function is ffi_translate_args
    (src/raw_api.c:213-222) the one it reads from its user data. *)
Definition handler_called (m : Z -> Z) (translate r10 : Z) : Z * Z * Z :=
  let '(cif, fn, ud) := closure_call m r10 in
  if fn =? translate then (cif, load m (ud + 56) 8, load m (ud + 64) 8) else (cif, fn, ud).
