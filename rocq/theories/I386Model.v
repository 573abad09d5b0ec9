(** src/x86/ffi.c and src/x86/sysv.S: the 32-bit x86 backend as compiled by gcc or clang, for
    Linux-like systems, Darwin and Windows (not Microsoft's compiler, which has its own
    assembly file). *)
From Verif Require Import Base Types X87Model.

(** The systems that src/x86/ffi.c distinguishes: X86_DARWIN, X86_WIN32, others
    (src/x86/ffi.c:121-132, 187-191). *)
Inductive sys : Type := Linux | Darwin | Win32.

(** src/x86/ffitarget.h:104-131 ffi_abi *)
Inductive abi : Type := SYSV | THISCALL | FASTCALL | STDCALL | PASCAL | REGISTER | MS_CDECL.

(** src/x86/internal.h:1-14 X86_RET codes *)
Inductive ret : Type :=
| R_FLOAT | R_DOUBLE | R_LDOUBLE | R_SINT8 | R_SINT16 | R_UINT8 | R_UINT16 | R_INT64 | R_INT32
| R_VOID | R_STRUCTPOP | R_STRUCTARG | R_STRUCT_1B | R_STRUCT_2B.
(** src/x86/internal.h:1-14 their numbers *)
Definition ret_num (r : ret) : Z :=
  match r with
  | R_FLOAT => 0 | R_DOUBLE => 1 | R_LDOUBLE => 2 | R_SINT8 => 3 | R_SINT16 => 4 | R_UINT8 => 5 | R_UINT16 => 6
  | R_INT64 => 7 | R_INT32 => 8 | R_VOID => 9 | R_STRUCTPOP => 10 | R_STRUCTARG => 11 | R_STRUCT_1B => 12 | R_STRUCT_2B => 13
  end.

(** src/x86/ffi.c:135-146 the codes of results in memory *)
Definition struct_flags (a : abi) : ret :=
  match a with THISCALL | FASTCALL | STDCALL | MS_CDECL => R_STRUCTARG | _ => R_STRUCTPOP end.

(** src/x86/ffi.c:83-180 the code of a result type; [None]: FFI_BAD_TYPEDEF *)
Definition ret_flags (o : sys) (a : abi) (rt : ftype) : option ret :=
  match ty_code rt with
  | T_VOID => Some R_VOID
  | T_FLOAT => Some R_FLOAT
  | T_DOUBLE => Some R_DOUBLE
  | T_LONGDOUBLE => Some R_LDOUBLE
  | T_UINT8 => Some R_UINT8
  | T_UINT16 => Some R_UINT16
  | T_SINT8 => Some R_SINT8
  | T_SINT16 => Some R_SINT16
  | T_INT | T_SINT32 | T_UINT32 | T_POINTER => Some R_INT32
  | T_SINT64 | T_UINT64 => Some R_INT64
  | T_STRUCT =>
    match o with
    | Linux => Some (struct_flags a)
    | _ =>
      if ty_size rt =? 1 then Some R_STRUCT_1B
      else if ty_size rt =? 2 then Some R_STRUCT_2B
      else if ty_size rt =? 4 then Some R_INT32
      else if ty_size rt =? 8 then Some R_INT64
      else Some (struct_flags a)
    end
  | T_COMPLEX =>
    match ty_elems rt with
    | e :: _ =>
      match ty_code e with
      | T_DOUBLE | T_LONGDOUBLE | T_SINT64 | T_UINT64 => Some (struct_flags a)
      | T_FLOAT | T_INT | T_SINT32 | T_UINT32 => Some R_INT64
      | T_SINT16 | T_UINT16 => Some R_INT32
      | T_SINT8 | T_UINT8 => Some R_STRUCT_2B
      | _ => None
      end
    | [] => None
    end
  end.

(** Is it a code of a result in memory? (src/x86/ffi.c:134-149) *)
Definition struct_ret (r : ret) : bool := match r with R_STRUCTPOP | R_STRUCTARG => true | _ => false end.

(** src/x86/ffi.c:183-195 space for the arguments; size_t has 32 bits *)
Fixpoint arg_space (o : sys) (a : abi) (ts : list ftype) (bytes : Z) : Z :=
  match ts with
  | [] => bytes
  | t :: r =>
    let al := match o, a with Win32, STDCALL => 4 | _, _ => ty_align t end in
    arg_space o a r (wrap32 (ffi_align_w 32 bytes al + ffi_align_w 32 (ty_size t) 4))
  end.

(** The fields of ffi_cif used here (include/ffi.h.in:239-249). *)
Record cif : Type := Cif {
  k_abi : abi;
  k_args : list ftype;
  k_rtype : ftype;
  k_bytes : Z;
  k_flags : ret
}.

(** src/x86/ffi.c:63-198 ffi_prep_cif_machdep; the abi number is a valid one *)
Definition prep (o : sys) (a : abi) (rt : ftype) (ts : list ftype) : option cif :=
  match ret_flags o a rt with
  | Some f => Some (Cif a ts rt (arg_space o a ts (if struct_ret f then ffi_align_w 32 4 4 else 0)) f)
  | None => None
  end.

(** src/x86/internal.h:21-23 register numbers; src/x86/ffi.c:235-252 abi_params: whether
    parameters grow downward, the static chain register, the parameter registers *)
Definition R_EAX := 0.
(** src/x86/internal.h:22 *)
Definition R_EDX := 1.
(** src/x86/internal.h:23 *)
Definition R_ECX := 2.
(** src/x86/ffi.c:237, 243-252 abi_params.dir < 0 *)
Definition down (a : abi) : bool := match a with PASCAL | REGISTER => true | _ => false end.
(** src/x86/ffi.c:238, 243-252 abi_params.static_chain *)
Definition chain_reg (a : abi) : Z := match a with THISCALL | FASTCALL => R_EAX | _ => R_ECX end.
(** src/x86/ffi.c:239-240, 243-252 abi_params.regs *)
Definition param_regs (a : abi) : list Z :=
  match a with
  | THISCALL => [R_ECX]
  | FASTCALL => [R_ECX; R_EDX]
  | REGISTER => [R_EAX; R_EDX; R_ECX]
  | _ => []
  end.

(** src/x86/ffi.c:57-61 STACK_ALIGN *)
Definition stack_align (bytes : Z) : Z := ffi_align_w 32 bytes 16.

(** src/x86/ffi.c:200-223 extend_basic_type *)
Definition extend_basic_type (obj : list Z) (c : tcode) : res Z :=
  let int (n : Z) (signed : bool) :=
    let* x := of_option (get_range obj 0 n) in
    Ok ((if signed then to_signed (8 * n) (le_dec x) else le_dec x) mod 2 ^ 32) in
  match c with
  | T_SINT8 => int 1 true
  | T_UINT8 => int 1 false
  | T_SINT16 => int 2 true
  | T_UINT16 => int 2 false
  | T_SINT32 | T_UINT32 | T_POINTER | T_FLOAT => int 4 false
  | _ => Abort
  end.

(** src/x86/ffi.c:225-233 struct call_frame: ebp 0, retaddr 4, fn 8, flags 12, rvalue 16,
    regs 20 *)
Definition frame_size := 32.

(** src/x86/ffi.c:373-380, 522-529 arguments after which the parameter registers are not used *)
Definition closes_regs (a : abi) (c : tcode) : bool :=
  match a, c with
  | THISCALL, (T_SINT64 | T_UINT64 | T_STRUCT) | FASTCALL, (T_SINT64 | T_UINT64 | T_STRUCT) => true
  | _, _ => false
  end.
(** src/x86/ffi.c:351, 498 arguments of a word *)
Definition one_word (t : ftype) : bool := (ty_size t <=? 4) && negb (tcode_eqb (ty_code t) T_STRUCT).
(** src/x86/ffi.c:371, 382-390, 516-520 alignment of an argument of several words *)
Definition arg_align (t : ftype) : Z := if tcode_eqb (ty_code t) T_STRUCT && (16 <=? ty_align t) then 16 else 4.

(** State of the loop src/x86/ffi.c:344-406: the block given by alloca, argp, narg_reg. *)
Record cst : Type := CSt { b_blk : list Z; b_argp : Z; b_n : Z }.

(** Store to the block at address [base]; outside it is undefined behaviour
    (stores of src/x86/ffi.c:329-405). *)
Definition store (base : Z) (blk : list Z) (addr : Z) (d : list Z) : res (list Z) := of_option (set_range blk (addr - base) d).

(** src/x86/ffi.c:346-405 one argument; [fr] is the address of the frame *)
Definition push_arg (a : abi) (base fr : Z) (t : ftype) (obj : list Z) (s : cst) : res cst :=
  if one_word t then
    let* v := extend_basic_type obj (ty_code t) in
    match (if tcode_eqb (ty_code t) T_FLOAT then None else znth (param_regs a) (b_n s)) with
    | Some r =>
      let* b := store base (b_blk s) (fr + 20 + 4 * r) (le_enc 4 v) in
      Ok (CSt b (b_argp s) (b_n s + 1))
    | None =>
      if down a then
        let* b := store base (b_blk s) (b_argp s - 4) (le_enc 4 v) in
        Ok (CSt b (b_argp s - 4) (b_n s))
      else
        let* b := store base (b_blk s) (b_argp s) (le_enc 4 v) in
        Ok (CSt b (b_argp s + 4) (b_n s))
    end
  else
    let za := ffi_align_w 32 (ty_size t) 4 in
    let n := if closes_regs a (ty_code t) then 2 else b_n s in
    let* d := of_option (get_range obj 0 (ty_size t)) in
    if down a then
      let* b := store base (b_blk s) (b_argp s - za) d in
      Ok (CSt b (b_argp s - za) n)
    else
      let p := ffi_align_w 32 (b_argp s) (arg_align t) in
      let* b := store base (b_blk s) p d in
      Ok (CSt b (p + za) n).

(** src/x86/ffi.c:344-406 the loop *)
Fixpoint push_args (a : abi) (base fr : Z) (ts : list ftype) (objs : list (list Z)) (s : cst) : res cst :=
  match ts with
  | [] => Ok s
  | t :: r =>
    match objs with
    | [] => UB
    | o :: os => let* s1 := push_arg a base fr t o s in push_args a base fr r os s1
    end
  end.

(** src/x86/ffi.c:292-311 the return code used and the space for a result nobody wants *)
Definition call_flags (c : cif) (rv : option Z) : ret :=
  match rv with
  | Some _ => k_flags c
  | None => match k_flags c with R_FLOAT | R_DOUBLE | R_LDOUBLE | R_STRUCTPOP | R_STRUCTARG => k_flags c | _ => R_VOID end
  end.
(** src/x86/ffi.c:294-311 rsize *)
Definition call_rsize (c : cif) (rv : option Z) : Z :=
  match rv with
  | Some _ => 0
  | None => match k_flags c with R_FLOAT | R_DOUBLE | R_LDOUBLE | R_STRUCTPOP | R_STRUCTARG => ty_size (k_rtype c) | _ => 0 end
  end.

(** src/x86/ffi.c:313-314 size of the block *)
Definition call_size (c : cif) (rv : option Z) : Z := stack_align (k_bytes c) + frame_size + call_rsize c rv.

(** src/x86/ffi.c:325-341 the pointer to the memory of the result as hidden argument; [rv]: its
    address *)
Definition push_result (a : abi) (base fr : Z) (f : ret) (rv : Z) (s : cst) : res cst :=
  let on_stack :=
    let* b := store base (b_blk s) (b_argp s) (le_enc 4 rv) in
    Ok (CSt b (b_argp s + 4) (b_n s)) in
  match f with
  | R_STRUCTARG =>
    match param_regs a with
    | r :: _ => let* b := store base (b_blk s) (fr + 20 + 4 * r) (le_enc 4 rv) in Ok (CSt b (b_argp s) 1)
    | [] => on_stack
    end
  | R_STRUCTPOP => on_stack
  | _ => Ok s
  end.

(** What a called function sees: registers, the address of its first stack word (above the
    return address), and memory (src/x86/sysv.S:116-121). *)
Record state : Type := State {
  s_regs : Z -> Z;
  s_sp : Z;
  s_read : Z -> Z -> option (list Z)
}.

(** src/x86/ffi.c:276-410 ffi_call_int up to the call instruction of ffi_call_i386
    (src/x86/sysv.S:92-121).  [rv]: result pointer, [None] for NULL; [blk]: the memory from
    alloca at [base]; [ebp], [ra]: what ffi_call_i386 saves in the frame.  Yields the state at
    entry of the function and the block. *)
Definition call (c : cif) (rv : option Z) (objs : list (list Z)) (fn chain base : Z) (blk : list Z) (ebp ra : Z)
  : res (state * list Z) :=
  let a := k_abi c in
  let f := call_flags c rv in
  let bytes := stack_align (k_bytes c) in
  let fr := base + bytes in
  let rvalue := match rv with Some p => p | None => if 0 <? call_rsize c rv then fr + frame_size else 0 end in
  let argp := if down a then base + bytes else base in
  let* b1 := store base blk (fr + 8) (le_enc 4 fn) in
  let* b2 := store base b1 (fr + 12) (le_enc 4 (ret_num f)) in
  let* b3 := store base b2 (fr + 16) (le_enc 4 rvalue) in
  let* b4 := store base b3 (fr + 20 + 4 * chain_reg a) (le_enc 4 chain) in
  let* s := push_result a base fr f rvalue (CSt b4 argp 0) in
  let* s := push_args a base fr (k_args c) objs s in
  let* b5 := store base (b_blk s) fr (le_enc 4 ebp) in
  let* b6 := store base b5 (fr + 4) (le_enc 4 ra) in
  let* e := of_option (get_range b6 (bytes + 20 + 4 * R_EAX) 4) in
  let* d := of_option (get_range b6 (bytes + 20 + 4 * R_EDX) 4) in
  let* x := of_option (get_range b6 (bytes + 20 + 4 * R_ECX) 4) in
  Ok (State (fun r => if r =? R_EAX then le_dec e else if r =? R_EDX then le_dec d else le_dec x) base
        (fun p n => get_range b6 (p - base) n), b6).

(** ** Closures *)

(** Where an element of the argument vector points: a word of frame->regs
    (src/x86/ffi.c:441-448), or the stack. *)
Inductive argat : Type := AReg (r : Z) | AMem (p : Z).

(** src/x86/ffi.c:493-546 one argument; state: argp, narg_reg *)
Definition take_arg (a : abi) (t : ftype) (argp n : Z) : argat * Z * Z :=
  if one_word t then
    match (if tcode_eqb (ty_code t) T_FLOAT then None else znth (param_regs a) n) with
    | Some r => (AReg r, argp, n + 1)
    | None => if down a then (AMem (argp - 4), argp - 4, n) else (AMem argp, argp + 4, n)
    end
  else
    let za := ffi_align_w 32 (ty_size t) 4 in
    let n' := if closes_regs a (ty_code t) then 2 else n in
    if down a then (AMem (argp - za), argp - za, n')
    else let p := ffi_align_w 32 argp (arg_align t) in (AMem p, p + za, n').

(** src/x86/ffi.c:491-547 the loop; also the final narg_reg *)
Fixpoint take_args (a : abi) (ts : list ftype) (argp n : Z) : list argat * Z :=
  match ts with
  | [] => ([], n)
  | t :: r => let '(v, p, m) := take_arg a t argp n in let '(l, e) := take_args a r p m in (v :: l, e)
  end.

(** Where the handler's result goes: rettemp of the frame, or memory of the caller
    (src/x86/ffi.c:460-490). *)
Inductive retat : Type := RTemp | RCaller (p : Z).

(** src/x86/ffi.c:450-549 ffi_closure_inner up to the call of the handler.  [regs]: the
    registers saved by FFI_CLOSURE_SAVE_REGS (src/x86/sysv.S:225-229); [stack]: the address
    above the return address.  Yields the argument vector, narg_reg and the result place. *)
Definition closure_args (c : cif) (regs : Z -> Z) (stack : Z) (rd : Z -> Z -> option (list Z)) : res (list argat * Z * retat) :=
  let a := k_abi c in
  let argp := if down a then stack + stack_align (k_bytes c) else stack in
  let on_stack :=
    let* x := of_option (rd argp 4) in
    let '(l, n) := take_args a (k_args c) (argp + 4) 0 in
    Ok (l, n, RCaller (le_dec x)) in
  match k_flags c with
  | R_STRUCTARG =>
    match param_regs a with
    | r :: _ => let '(l, n) := take_args a (k_args c) argp 1 in Ok (l, n, RCaller (regs r))
    | [] => on_stack
    end
  | R_STRUCTPOP => on_stack
  | _ => let '(l, n) := take_args a (k_args c) argp 0 in Ok (l, n, RTemp)
  end.

(** src/x86/ffi.c:551-561 the value returned by ffi_closure_inner, without the return code in
    the low four bits; src/x86/sysv.S:496-497 the shifts *)
Definition pop_count (c : cif) (narg : Z) : Z :=
  match k_abi c with
  | STDCALL => wrap32 (k_bytes c * 16) / 16
  | THISCALL | FASTCALL => wrap32 (wrap32 (k_bytes c - narg * 4) * 16) / 16
  | _ => 0
  end.

(** src/x86/ffi.c:551-561 the value that ffi_closure_inner returns: the return code in the low
    four bits (src/x86/internal.h:18-19), bytes to remove from the stack above them *)
Definition inner_value (c : cif) (narg : Z) : Z :=
  match k_abi c with
  | STDCALL => Z.lor (ret_num (k_flags c)) (wrap32 (k_bytes c * 16))
  | THISCALL | FASTCALL => Z.lor (ret_num (k_flags c)) (wrap32 (wrap32 (k_bytes c - narg * 4) * 16))
  | _ => ret_num (k_flags c)
  end.

(** src/x86/ffi.c:575-594 the entry code of a closure: ffi_closure_i386, others *)
Definition plain_entry (a : abi) : bool := match a with SYSV | MS_CDECL => true | _ => false end.

(** src/x86/ffi.c:638-668 ffi_prep_go_closure: the entry code of a Go closure ends in the first
    load table (src/x86/sysv.S:310, 331) or the second (src/x86/sysv.S:440); [None]:
    FFI_BAD_ABI *)
Definition go_plain (a : abi) : option bool :=
  match a with SYSV | MS_CDECL | THISCALL | FASTCALL => Some true | STDCALL | PASCAL => Some false | REGISTER => None end.
(** The register in which that code expects the Go closure (src/x86/sysv.S:305, 326, 435). *)
Definition go_reg (a : abi) : Z := match a with THISCALL | FASTCALL => R_EAX | _ => R_ECX end.

(** Closure entry: from the address of the closure, which the trampoline puts in eax or, for
    REGISTER, pushes (src/x86/ffi.c:571, 588-591, 612-620), and the return address: the closure
    the entry code works with, the address it will return to, and the saved registers.
    src/x86/sysv.S:343-352 ffi_closure_i386, 446-463 ffi_closure_REGISTER (there the word at
    closure_FS-4 is the one pushed last), 474-490 ffi_closure_STDCALL. *)
Definition entry (a : abi) (clo ra : Z) (regs : Z -> Z) : Z * Z * (Z -> Z) :=
  match a with
  | REGISTER =>
    let at_fs4 := clo in
    let at_fs := ra in
    let ecx := at_fs4 in
    let eax := at_fs in
    (eax, ecx, regs)
  | _ => (clo, ra, fun r => if r =? R_EAX then clo else regs r)
  end.

(** State after a closure returned: eax, edx, st(0), and the bytes by which the stack pointer
    is above the word after the return address (src/x86/sysv.S:361-418). *)
Record after : Type := After { r_eax : Z; r_edx : Z; r_st : option ext; r_pop : Z }.

(** The load tables, src/x86/sysv.S:361-418, 512-580, 708-764 and 825-882, which treat results
    alike: [tmp] is the memory of the result; [edx] is the value edx has when it is not set;
    [pop] as above. *)
Definition load_result (f : ret) (tmp : list Z) (edx pop : Z) : res after :=
  let* e := of_option (get_range tmp 0 4) in
  let eax := le_dec e in
  let fp (n : Z) := let* x := of_option (get_range tmp 0 n) in Ok (After eax edx (Some (fld n x)) pop) in
  let int (v : Z) := Ok (After v edx None pop) in
  match f with
  | R_FLOAT => fp 4
  | R_DOUBLE => fp 8
  | R_LDOUBLE => fp 10
  | R_SINT8 => int (to_signed 8 eax mod 2 ^ 32)
  | R_SINT16 => int (to_signed 16 eax mod 2 ^ 32)
  | R_UINT8 | R_STRUCT_1B => int (eax mod 2 ^ 8)
  | R_UINT16 | R_STRUCT_2B => int (eax mod 2 ^ 16)
  | R_INT64 => let* x := of_option (get_range tmp 4 4) in Ok (After eax (le_dec x) None pop)
  | R_INT32 | R_VOID | R_STRUCTPOP | R_STRUCTARG => int eax
  end.

(** src/x86/sysv.S:398-402 ret $4 of the first and third table *)
Definition plain_pop (f : ret) : Z := match f with R_STRUCTPOP => 4 | _ => 0 end.

(** The return of a closure, src/x86/sysv.S:357-418 ([plain]: ffi_closure_i386) and 491-580:
    [tmp] is rettemp after the handler ran; for results in memory its first word is the
    pointer (src/x86/ffi.c:476, 483). *)
Definition closure_ret (plain : bool) (c : cif) (narg : Z) (tmp : list Z) (edx : Z) : res after :=
  load_result (k_flags c) tmp edx (if plain then plain_pop (k_flags c) else pop_count c narg).

(** The store table src/x86/sysv.S:140-197: [eax], [edx], [st0]; [buf]: memory at the result
    address. *)
Definition call_ret (f : ret) (eax edx : Z) (st0 : ext) (buf : list Z) : res (list Z) :=
  let put (d : list Z) := of_option (set_range buf 0 d) in
  match f with
  | R_FLOAT => put (fstp 4 st0)
  | R_DOUBLE => put (fstp 8 st0)
  | R_LDOUBLE => put (fstp 10 st0)
  | R_SINT8 => put (le_enc 4 (to_signed 8 eax mod 2 ^ 32))
  | R_SINT16 => put (le_enc 4 (to_signed 16 eax mod 2 ^ 32))
  | R_UINT8 => put (le_enc 4 (eax mod 2 ^ 8))
  | R_UINT16 => put (le_enc 4 (eax mod 2 ^ 16))
  | R_INT64 => let* b := of_option (set_range buf 4 (le_enc 4 edx)) in of_option (set_range b 0 (le_enc 4 eax))
  | R_INT32 => put (le_enc 4 eax)
  | R_VOID | R_STRUCTPOP | R_STRUCTARG => Ok buf
  | R_STRUCT_1B => put (le_enc 1 eax)
  | R_STRUCT_2B => put (le_enc 2 eax)
  end.

(** ** Raw calls *)

(** State of the loop src/x86/ffi.c:795-815: block, argp, narg_reg, index into the raw words,
    bytes left. *)
Record rst : Type := RSt { w_blk : list Z; w_argp : Z; w_n : Z; w_av : Z; w_bytes : Z }.

(** src/x86/ffi.c:795-815 the loop over arguments while registers last; [raw]: the raw argument
    memory; avalue is a pointer to 4-byte words, so [avalue += z] advances z words.  Yields
    whether arguments are left. *)
Fixpoint raw_regs (a : abi) (base fr : Z) (raw : list Z) (ts : list ftype) (s : rst) : res (rst * bool) :=
  match ts with
  | [] => Ok (s, false)
  | t :: r =>
    if w_n s <? zlen (param_regs a) then
      if one_word t && negb (tcode_eqb (ty_code t) T_FLOAT) then
        let* x := of_option (get_range raw (4 * w_av s) (ty_size t)) in
        let* v := extend_basic_type x (ty_code t) in
        let* k := of_option (znth (param_regs a) (w_n s)) in
        let* b := store base (w_blk s) (fr + 20 + 4 * k) (le_enc 4 v) in
        raw_regs a base fr raw r (RSt b (w_argp s) (w_n s + 1) (w_av s + 4) (wrap32 (w_bytes s - 4)))
      else
        let* x := of_option (get_range raw (4 * w_av s) (ty_size t)) in
        let* b := store base (w_blk s) (w_argp s) x in
        let z := ffi_align_w 32 (ty_size t) 4 in
        raw_regs a base fr raw r (RSt b (w_argp s + z) (w_n s) (w_av s + z) (wrap32 (w_bytes s - z)))
    else Ok (s, true)
  end.

(** src/x86/ffi.c:729-820 ffi_raw_call up to the call instruction.  [blk] is the memory from
    alloca at [low], [stack]-aligned by clearing bit 4 (src/x86/ffi.c:765-766); [raw]: the raw
    arguments. *)
Definition raw_size (c : cif) (rv : option Z) : Z := stack_align (k_bytes c) + frame_size + call_rsize c rv + 15.
(** src/x86/ffi.c:729-820 ffi_raw_call up to the call *)
Definition raw_call (c : cif) (rv : option Z) (raw : list Z) (fn low : Z) (blk : list Z) (ebp ra : Z) : res (state * list Z) :=
  let a := k_abi c in
  let f := call_flags c rv in
  let bytes := stack_align (k_bytes c) in
  let base := Z.ldiff low 16 in
  let fr := base + bytes in
  let rvalue := match rv with Some p => p | None => if 0 <? call_rsize c rv then fr + frame_size else 0 end in
  let* b1 := store low blk (fr + 8) (le_enc 4 fn) in
  let* b2 := store low b1 (fr + 12) (le_enc 4 (ret_num f)) in
  let* b3 := store low b2 (fr + 16) (le_enc 4 rvalue) in
  let* s := push_result a low fr f rvalue (CSt b3 base 0) in
  let left := if struct_ret f && (b_n s =? 0) then wrap32 (bytes - 4) else bytes in
  let* (w, more) := raw_regs a low fr raw (k_args c) (RSt (b_blk s) (b_argp s) (b_n s) 0 left) in
  let* b4 := if more then
               let* x := of_option (get_range raw (4 * w_av w) (w_bytes w)) in
               store low (w_blk w) (w_argp w) x
             else Ok (w_blk w) in
  let* b5 := store low b4 fr (le_enc 4 ebp) in
  let* b6 := store low b5 (fr + 4) (le_enc 4 ra) in
  let* e := of_option (get_range b6 (fr - low + 20 + 4 * R_EAX) 4) in
  let* d := of_option (get_range b6 (fr - low + 20 + 4 * R_EDX) 4) in
  let* x := of_option (get_range b6 (fr - low + 20 + 4 * R_ECX) 4) in
  Ok (State (fun r => if r =? R_EAX then le_dec e else if r =? R_EDX then le_dec d else le_dec x) base
        (fun p n => get_range b6 (p - low) n), b6).

(** ** Raw closures *)

(** src/x86/ffi.c:694-713 the signatures ffi_prep_raw_closure_loc accepts *)
Definition raw_closure_ok (c : cif) : bool :=
  forallb (fun t => match ty_code t with T_STRUCT | T_LONGDOUBLE => false | _ => true end) (k_args c) &&
  match k_abi c with THISCALL | SYSV => true | _ => false end.

(** The raw argument memory handed to the handler, from its first byte: src/x86/sysv.S:684-685
    the stack; src/x86/sysv.S:779-788, 801-802 the stack with ecx before it. *)
Definition raw_view (a : abi) (regs : Z -> Z) (stack : Z) (rd : Z -> Z -> option (list Z)) (off n : Z) : option (list Z) :=
  match a with
  | THISCALL =>
    if 4 <=? off then rd (stack + off - 4) n
    else if off + n <=? 4 then get_range (le_enc 4 (regs R_ECX)) off n else None
  | _ => rd (stack + off) n
  end.

(** The return, src/x86/sysv.S:708-764 and 825-882: results of all kinds are loaded from [res],
    the 16 bytes at 16(%esp); for THISCALL the 4 bytes of ret $4 are those pushed at entry. *)
Definition raw_res_size := 16.
(** src/x86/sysv.S:708-764, 825-882 the load tables of raw closures *)
Definition raw_closure_ret (c : cif) (res : list Z) (edx : Z) : Base.res after := load_result (k_flags c) res edx (plain_pop (k_flags c)).
