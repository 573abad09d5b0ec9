(** ffi_closure_alloc, ffi_closure_free and ffi_data_to_code_pointer of src/closures.c over
    the segments of SegModel. *)
From Verif Require Import Base SegModel.
Local Open Scope Z_scope.

(** Configuration: the answer of ffi_tramp_is_supported (it does not change, src/tramp.c:598-607),
    FFI_CLOSURE_FREE_CODE (src/closures.c:1046), and the address of the trampoline of a
    handle (ffi_tramp_get_addr, src/tramp.c:656-667). *)
Record cacfg : Type := CaCfg { ca_sup : bool; ca_free_code : bool; ca_addr : Z -> Z }.

(** The segments, the blocks that dlmalloc gave out (address, usable size), the handles that
    ffi_tramp_alloc gave out, and the ftramp fields of closures (src/closures.c:990-1056;
    include/ffi.h.in:318-329). *)
Record cst : Type := Cst {
  c_sg : sgs;
  c_blocks : list (Z * Z);
  c_tramps : list Z;
  c_ft : Z -> Z
}.

(** Nothing allocated (src/dlmalloc.c:2122). *)
Definition cst0 : cst := Cst sgs0 [] [] (fun _ => 0).

(** A request of dlmalloc for more memory: length, the answer, the top chunk
    (src/dlmalloc.c:3430-3605). *)
Record extend : Type := Extend { x_len : Z; x_ans : kmap; x_top : Z }.

(** What dlmalloc does in one call: requests for memory, and the block it chooses
    (src/dlmalloc.c:4134-4264); the choice among free chunks is not modelled. *)
Record mans : Type := MAns { ma_ext : list extend; ma_blk : option (Z * Z) }.

(** The requests for memory of one call (src/dlmalloc.c:3430-3605). *)
Fixpoint extend_all (l : list extend) (sg : sgs) : res sgs :=
  match l with
  | [] => Ok sg
  | x :: r => let* (_, sg1) := sys_alloc (x_len x) (x_ans x) (x_top x) sg in extend_all r sg1
  end.

(** src/dlmalloc.c:4134-4264 dlmalloc *)
Definition dlmalloc (m : mans) (st : cst) : res (option Z * cst) :=
  let* sg := extend_all (ma_ext m) (c_sg st) in
  match ma_blk m with
  | None => Ok (None, Cst sg (c_blocks st) (c_tramps st) (c_ft st))
  | Some (p, n) => Ok (Some p, Cst sg ((p, n) :: c_blocks st) (c_tramps st) (c_ft st))
  end.

(** What dlfree does with memory it does not need any more (src/dlmalloc.c:4318-4330,
    3665-3715): perhaps sys_trim, perhaps the release of segments. *)
Record fans : Type := FAns {
  fa_trim : option (Z * Z * Z * Z * bool * bool * bool);
  fa_release : option ((seg -> bool) * (nat -> bool * bool))
}.

(** Removal of the block at an address; [None] if there is none (src/dlmalloc.c:4266-4370). *)
Fixpoint remove_block (p : Z) (l : list (Z * Z)) : option (list (Z * Z)) :=
  match l with
  | [] => None
  | b :: r => if fst b =? p then Some r
              else match remove_block p r with Some r' => Some (b :: r') | None => None end
  end.

(** src/dlmalloc.c:4266-4370 dlfree; a pointer that is not a block is undefined. *)
Definition dlfree (f : fans) (p : Z) (st : cst) : res cst :=
  match remove_block p (c_blocks st) with
  | None => UB
  | Some bs =>
    let* sg1 := match fa_trim f with
                | Some (top, topsize, pad, unit, linked, ok1, ok2) =>
                  sys_trim top topsize pad unit linked ok1 ok2 (c_sg st)
                | None => Ok (c_sg st)
                end in
    let sg2 := match fa_release f with
               | Some (unused, ans) => release_unused unused ans sg1
               | None => sg1
               end in
    Ok (Cst sg2 bs (c_tramps st) (c_ft st))
  end.

(** src/closures.c:987-1019 ffi_closure_alloc; [t] answers ffi_tramp_alloc, [hascode] tells
    whether the second argument is not NULL.  The result is the closure and the value stored
    through [code], if any. *)
Definition closure_alloc (g : cacfg) (hascode : bool) (m : mans) (t : option Z) (f : fans) (st : cst)
  : res (option Z * option Z * cst) :=
  if negb hascode then Ok (None, None, st)
  else
    let* (ptr, st1) := dlmalloc m st in
    match ptr with
    | None => Ok (None, None, st1)
    | Some p =>
      match segment_holding (c_sg st1) p with
      | None => UB
      | Some sp =>
        let code := add_exo p sp in
        if negb (ca_sup g) then Ok (Some p, Some code, st1)
        else
          match t with
          | None => let* st2 := dlfree f p st1 in Ok (None, Some code, st2)
          | Some h =>
            Ok (Some p, Some (ca_addr g h),
                Cst (c_sg st1) (c_blocks st1) (h :: c_tramps st1)
                    (fun q => if q =? p then h else c_ft st1 q))
          end
      end
    end.

(** src/closures.c:1021-1037 ffi_data_to_code_pointer *)
Definition data_to_code (g : cacfg) (st : cst) (p : Z) : Z :=
  match segment_holding (c_sg st) p with
  | Some sp => if negb (ca_sup g) then add_exo p sp else ca_addr g (c_ft st p)
  | None => p
  end.

(** src/closures.c:1058-1063 ffi_tramp_is_present *)
Definition tramp_is_present (g : cacfg) (st : cst) (p : Z) : bool :=
  match segment_holding (c_sg st) p with Some _ => ca_sup g | None => false end.

(** src/closures.c:1039-1056 ffi_closure_free; ffi_tramp_free of something that is not a live
    handle is undefined (src/tramp.c:672-680). *)
Definition closure_free (g : cacfg) (f : fans) (ptr : Z) (st : cst) : res cst :=
  let p := if ca_free_code g then
             match segment_holding_code (c_sg st) ptr with Some sp => sub_exo ptr sp | None => ptr end
           else ptr in
  let* st1 := if ca_sup g then
                let h := c_ft st p in
                if existsb (Z.eqb h) (c_tramps st) then
                  Ok (Cst (c_sg st) (c_blocks st) (remove Z.eq_dec h (c_tramps st)) (c_ft st))
                else UB
              else Ok st in
  dlfree f p st1.
