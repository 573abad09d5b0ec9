(** src/or1k/ffi.c: the backend for OpenRISC 1000, a 32-bit big-endian target. *)
From Verif Require Import Base Types ByteMem S390Model.
Local Open Scope Z_scope.

(** ** Preparing a cif *)

(** The fields of ffi_cif that matter (include/ffi.h.in:239-248, src/or1k/ffitarget.h:56). *)
Record ocif : Type := OCif { oc_args : list ftype; oc_rt : ftype; oc_fixed : Z; oc_flags : Z }.

(** src/or1k/ffi.c:318-325 cif->flags, as numbers of include/ffi.h.in:60-79 *)
Definition ret_code (rt : ftype) : Z :=
  match ty_code rt with T_STRUCT => 13 | _ => if 4 <? ty_size rt then 11 else 0 end.
(** src/or1k/ffi.c:316-330 ffi_prep_cif_machdep *)
Definition machdep (rt : ftype) (ts : list ftype) : ocif := OCif ts rt (zlen ts) (ret_code rt).
(** src/or1k/ffi.c:333-341 ffi_prep_cif_machdep_var *)
Definition machdep_var (rt : ftype) (nfixed : Z) (ts : list ftype) : ocif :=
  let c := machdep rt ts in OCif (oc_args c) (oc_rt c) nfixed (oc_flags c).

(** ** Calls *)

(** The comparisons of a type with FFI_TYPE_STRUCT (src/or1k/ffi.c:45, 129, 142, 155, 202). *)
Definition is_struct (t : ftype) : bool := match ty_code t with T_STRUCT => true | _ => false end.

(** Local variables of ffi_prep_args (src/or1k/ffi.c:35-39): memory, stack, count, nfixedargs.
    The counters, ints in the source, are taken as unbounded. *)
Record pst : Type := PSt { p_m : Z -> Z; p_at : Z; p_count : Z; p_fixed : Z }.

(** src/or1k/ffi.c:54-60 variadic arguments go behind the part for registers *)
Definition skip_regs (stack : Z) (s : pst) : pst :=
  if (p_fixed s =? 0) && (p_count s <? 24) then PSt (p_m s) (stack + 24) 24 (p_fixed s - 1)
  else PSt (p_m s) (p_at s) (p_count s) (p_fixed s - 1).
(** A word stored at the current place (src/or1k/ffi.c:66-89 with 103-104) *)
Definition put_word (w : Z) (s : pst) : pst :=
  PSt (wr (p_m s) (p_at s) (be_enc 4 w)) (p_at s + 4) (p_count s + 4) (p_fixed s).
(** src/or1k/ffi.c:92-100 the default case: a gap when only one register is left, then a copy *)
Definition put_copy (t : ftype) (arg : Z) (s : pst) : pst :=
  let g := if p_count s =? 20 then 4 else 0 in
  let n := ty_size t in
  PSt (wr (p_m s) (p_at s + g) (rd (p_m s) arg (Z.to_nat n))) (p_at s + g + n) (p_count s + g + n) (p_fixed s).
(** src/or1k/ffi.c:51-107 one round of the loop *)
Definition prep_arg (stack : Z) (t : ftype) (arg : Z) (s : pst) : pst :=
  let s1 := skip_regs stack s in
  let u n := be_dec (rd (p_m s1) arg n) in
  match ty_code t with
  | T_STRUCT => put_word arg s1
  | T_SINT8 => put_word (to_signed 8 (u 1%nat)) s1
  | T_UINT8 => put_word (u 1%nat) s1
  | T_SINT16 => put_word (to_signed 16 (u 2%nat)) s1
  | T_UINT16 => put_word (u 2%nat) s1
  | T_SINT32 | T_UINT32 | T_FLOAT | T_POINTER => put_word (u 4%nat) s1
  | _ => put_copy t arg s1
  end.
(** src/or1k/ffi.c:51-107 the loop *)
Fixpoint prep_loop (stack : Z) (ts : list ftype) (args : list Z) (s : pst) : pst :=
  match ts, args with
  | t :: ts', a :: args' => prep_loop stack ts' args' (prep_arg stack t a s)
  | _, _ => s
  end.
(** src/or1k/ffi.c:41-50 before the loop *)
Definition prep_start (c : ocif) (rv stack : Z) (m : Z -> Z) : pst :=
  let s := PSt m stack 0 (oc_fixed c) in if is_struct (oc_rt c) then put_word rv s else s.
(** src/or1k/ffi.c:33-109 ffi_prep_args: memory and the stack pointer for the call *)
Definition prep_args (c : ocif) (rv : Z) (args : list Z) (stack : Z) (m : Z -> Z) : (Z -> Z) * Z :=
  let s := prep_loop stack (oc_args c) args (prep_start c rv stack m) in
  (p_m s, stack + (if 24 <? p_count s then 24 else 0)).

(** src/or1k/ffi.c:129-135 space for one argument *)
Definition arg_room (t : ftype) : Z := if is_struct t then 4 else if ty_size t <=? 4 then 4 else 8.
(** src/or1k/ffi.c:127-156 size *)
Definition call_size (c : ocif) : Z :=
  fold_right (fun t z => arg_room t + z) 0 (oc_args c)
  + (if zlen (oc_args c) =? oc_fixed c then 0 else 24) + (if is_struct (oc_rt c) then 4 else 0).
(** src/or1k/ffi.c:137-148 structs are copied to memory from alloca (its results are [cps], one
    for each argument) and avalue is changed; the array avalue is a list here, the second result
    is what it holds from then on. *)
Fixpoint copy_structs (ts : list ftype) (args cps : list Z) (m : Z -> Z) : (Z -> Z) * list Z :=
  match ts, args, cps with
  | t :: ts', a :: args', p :: cps' =>
    let m1 := if is_struct t then wr m p (rd m a (Z.to_nat (ty_size t))) else m in
    let (m2, l) := copy_structs ts' args' cps' m1 in (m2, (if is_struct t then p else a) :: l)
  | _, _, _ => (m, [])
  end.
(** src/or1k/ffi.c:119-173 ffi_call up to the call of ffi_call_SYSV: memory, avalue, size and
    flags handed on *)
Definition call_prepare (c : ocif) (args cps : list Z) (m : Z -> Z) : (Z -> Z) * list Z * Z * Z :=
  let (m1, l) := copy_structs (oc_args c) args cps m in (m1, l, call_size c, oc_flags c).

(** ** Closures *)

(** src/or1k/ffi.c:186-187 register_args at [ra] *)
Fixpoint spill (ra : Z) (regs : list Z) (m : Z -> Z) : Z -> Z :=
  match regs with [] => m | r :: l => spill (ra + 4) l (wr m ra (be_enc 4 r)) end.
(** src/or1k/ffi.c:212-261 one round: the element of avalue, then ptr, count, nfixedargs *)
Definition clo_arg (ra sp : Z) (m : Z -> Z) (t : ftype) (s : Z * Z * Z) : Z * (Z * Z * Z) :=
  let '(ptr, count, fixed) := s in
  let ptr := if (fixed =? 0) && (count <? 24) then sp else ptr in
  let count := if (fixed =? 0) && (count <? 24) then 24 else count in
  let next (v p n : Z) := (v, (if n =? 24 then sp else p, n, fixed - 1)) in
  match ty_code t with
  | T_SINT8 | T_UINT8 => next (ptr + 3) (ptr + 4) (count + 4)
  | T_SINT16 | T_UINT16 => next (ptr + 2) (ptr + 4) (count + 4)
  | T_SINT32 | T_UINT32 | T_FLOAT | T_POINTER => next ptr (ptr + 4) (count + 4)
  | T_STRUCT => next (be_dec (rd m ptr 4)) (ptr + 4) (count + 4)
  | _ => let p := if ptr =? ra + 20 then sp else ptr in next p (p + 4 + 4) (count + 4 + 4)
  end.
(** src/or1k/ffi.c:208-262 the loop: avalue *)
Fixpoint clo_loop (ra sp : Z) (m : Z -> Z) (ts : list ftype) (s : Z * Z * Z) : list Z :=
  match ts with
  | [] => []
  | t :: ts' => let (v, s') := clo_arg ra sp m t s in v :: clo_loop ra sp m ts' s'
  end.
(** src/or1k/ffi.c:176-273 ffi_closure_SYSV up to the call of the handler: memory, the result
    pointer and avalue.  [regs] are %r3 to %r8, [sp] is %r17, [buf] the local variable rvalue. *)
Definition closure_args (c : ocif) (regs : list Z) (sp ra buf : Z) (m : Z -> Z) : (Z -> Z) * Z * list Z :=
  let m1 := spill ra regs m in
  let st := is_struct (oc_rt c) in
  let s := if st then (ra + 4, 4, oc_fixed c) else (ra, 0, oc_fixed c) in
  (m1, if st then nth 0 regs 0 else buf, clo_loop ra sp m1 (oc_args c) s).
(** src/or1k/ffi.c:264-273 %r11 and %r12 after the handler; [None]: left alone *)
Definition closure_result (c : ocif) (buf : Z) (m : Z -> Z) : option (Z * Z) :=
  if is_struct (oc_rt c) then None else Some (be_dec (rd m buf 4), be_dec (rd m (buf + 4) 4)).

(** src/or1k/ffi.c:296-310 the halfwords of the trampoline *)
Definition tramp_words (cls fn : Z) : list Z :=
  [ Z.lor (Z.shiftl 6 10) (Z.shiftl 13 5); Z.shiftr cls 16;
    Z.lor (Z.lor (Z.shiftl 42 10) (Z.shiftl 13 5)) 13; Z.land cls 65535;
    Z.lor (Z.shiftl 6 10) (Z.shiftl 15 5); Z.shiftr fn 16;
    Z.lor (Z.lor (Z.shiftl 42 10) (Z.shiftl 15 5)) 15; Z.land fn 65535;
    Z.shiftl 17 10; Z.shiftl 15 11;
    Z.lor (Z.lor (Z.shiftl 42 10) (Z.shiftl 17 5)) 1; 0 ].
(** Stores of halfwords from [p] on (src/or1k/ffi.c:296-310) *)
Fixpoint put_halves (p : Z) (l : list Z) (m : Z -> Z) : Z -> Z :=
  match l with [] => m | h :: r => put_halves (p + 2) r (wr m p (be_enc 2 h)) end.
(** src/or1k/ffi.c:277-313 ffi_prep_closure_loc; [entry] is ffi_closure_SYSV; offsets of cif, fun
    and user_data behind the 24 bytes of the trampoline (include/ffi.h.in:330-344); [None]:
    FFI_BAD_ABI. *)
Definition prep_closure (sysv : bool) (closure cif func data codeloc entry : Z) (m : Z -> Z) : option (Z -> Z) :=
  if sysv then
    let m1 := wr m (closure + 24) (be_enc 4 cif) in
    let m2 := wr m1 (closure + 32) (be_enc 4 data) in
    let m3 := wr m2 (closure + 28) (be_enc 4 func) in
    Some (put_halves closure (tramp_words codeloc entry) m3)
  else None.
