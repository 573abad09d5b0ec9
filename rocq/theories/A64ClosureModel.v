(** Preparation of closures on AArch64 (LP64), at the level of memory. *)
From Verif Require Import Base Types ByteMem A64AsmModel.
From Verif Require A64Model.
Local Open Scope Z_scope.

(** How calls of a closure get to the library (src/aarch64/ffi.c:883-924): code in the closure
    itself, the static trampoline whose parameter block is at [parm], or an entry of a Mach
    trampoline table with pages of [page] bytes. *)
Inductive how : Type := Dynamic | Static (parm : Z) | MachTable (page : Z).

(** src/aarch64/ffitarget.h:63-76, include/ffi.h.in:324-336: whether the closure has the layout
    for trampoline tables *)
Definition is_table (h : how) : bool := match h with MachTable _ => true | _ => false end.

(** src/aarch64/ffi.c:878-881, 904-907 the entry point; [lab]: addresses of the labels of
    A64AsmModel.closure_src *)
Definition start (lab : Z -> Z) (flags : Z) (h : how) : Z :=
  let v := negb (Z.land flags A64Model.A_ARG_V =? 0) in
  match h with
  | Static _ => lab (if v then 203 else 204)
  | _ => lab (if v then 201 else 202)
  end.

(** src/aarch64/ffi.c:864-937 ffi_prep_closure_loc; with static trampolines the two stores of
    src/tramp.c:643-651.  Cache flushes (lines 917-928) do nothing here; on arm64e [codeloc] is the
    address after authentication (line 887). *)
Definition prep_closure_loc (lab : Z -> Z) (h : how) (abi flags closure cif fn user_data codeloc : Z) (m : Z -> Z)
  : status * (Z -> Z) :=
  if negb (abi =? A64Model.A_SYSV) && negb (abi =? A64Model.A_WIN64) then (FFI_BAD_ABI, m)
  else
    let s := start lab flags h in
    let m1 := match h with
              | Dynamic => wr (wr m closure trampoline) (closure + 16) (le_enc 8 s)
              | Static parm => wr (wr m (parm + 8) (le_enc 8 s)) parm (le_enc 8 closure)
              | MachTable page => wr (wr m (codeloc - page) (le_enc 8 closure)) (codeloc - page + 8) (le_enc 8 s)
              end in
    let o := clo_off (is_table h) in
    (FFI_OK, wr (wr (wr m1 (closure + o) (le_enc 8 cif)) (closure + o + 8) (le_enc 8 fn)) (closure + o + 16) (le_enc 8 user_data)).

(** src/aarch64/ffi.c:943-962 ffi_prep_go_closure *)
Definition prep_go_closure (lab : Z -> Z) (abi flags closure cif fn : Z) (m : Z -> Z) : status * (Z -> Z) :=
  if negb (abi =? A64Model.A_SYSV) && negb (abi =? A64Model.A_WIN64) then (FFI_BAD_ABI, m)
  else
    let s := lab (if negb (Z.land flags A64Model.A_ARG_V =? 0) then 205 else 206) in
    (FFI_OK, wr (wr (wr m closure (le_enc 8 s)) (closure + 8) (le_enc 8 cif)) (closure + 16) (le_enc 8 fn)).
