(** src/riscv/ffi.c and src/riscv/sysv.S: the 64-bit RISC-V backend (little-endian), for the
    three calling conventions without floating point registers, with single and with double
    precision ones. *)
From Verif Require Import Base Types.
From Verif Require A64Model.

(** ABI_FLEN in bytes (src/riscv/ffi.c:36-42, src/riscv/sysv.S:44-54): 0, 4 or 8. *)
(** src/riscv/ffi.c:44 *)
Definition NARGREG := 8.

(** src/riscv/ffi.c:69-73 IS_INT, 64-bit *)
Definition is_int_code (c : tcode) : bool := (5 <=? tcode_num c) && (tcode_num c <=? 12).

(** src/riscv/ffi.c:80-84 IS_FLOAT; without floating point registers it is not defined and
    not used *)
Definition is_float_code (fl : Z) (c : tcode) : bool :=
  if fl =? 8 then (2 <=? tcode_num c) && (tcode_num c <=? 3)
  else if fl =? 4 then tcode_num c =? 2
  else false.

(** src/riscv/ffi.c:86-96 flatten_struct, with room for three *)
Fixpoint flatten3 (t : ftype) (out : list ftype) : list ftype :=
  if (length out =? 3)%nat then out
  else
    match t with
    | FT T_STRUCT _ _ es =>
      (fix go (l : list ftype) (o : list ftype) : list ftype :=
         match l with [] => o | e :: r => go r (flatten3 e o) end) es out
    | _ => out ++ [t]
    end.

(** src/riscv/ffi.c:76-78 float_struct_info; [None] when as_elements is zero, else type1 and,
    when offset2 is not zero, offset2 and type2 *)
Definition finfo : Type := option (tcode * option (Z * tcode)).

(** src/riscv/ffi.c:101-129 struct_passed_as_elements; offset2 is a char, unsigned on this
    machine *)
Definition passed_as_elements (fl used_int used_float : Z) (t : ftype) : finfo :=
  match flatten3 t [] with
  | [a] => if is_float_code fl (ty_code a) then Some (ty_code a, None) else None
  | [a; b] =>
    let bz (x : bool) : Z := if x then 1 else 0 in
    let fa := is_float_code fl (ty_code a) in
    let fb := is_float_code fl (ty_code b) in
    let num_floats := bz fa + bz fb in
    let num_ints := bz (is_int_code (ty_code a)) + bz (is_int_code (ty_code b)) in
    if (num_floats =? 0) || negb (num_floats + num_ints =? 2) then None
    else if (used_float + num_floats >? NARGREG) || (used_int + (2 - num_floats) >? NARGREG) then None
    else if negb fa && negb fb then None
    else
      let off := wrap 8 (ffi_align (ty_size a) (ty_align b)) in
      Some (ty_code a, if off =? 0 then None else Some (off, ty_code b))
  | _ => None
  end.

(** src/riscv/ffi.c:57-64 call_builder while arguments are stored: the memory of ffi_call_int
    as one block, the numbers of registers used, and the two pointers as offsets in the
    block *)
Record cb : Type := CB {
  b_blk : list Z;
  b_int : Z;
  b_flt : Z;
  b_stk : Z;
  b_cpy : Z
}.

(** The store to fa[used_float++] (src/riscv/ffi.c:155, 160).  The compiler loads the value
    into a floating point register, which fills the upper half of a double register with ones
    for a float, and stores the register.  [ctx]: offset of the call_context in the block.  An
    index of 8 or more is an offset behind the array. *)
Definition put_float (ctx fl : Z) (d : list Z) (s : cb) : res cb :=
  let* b := of_option (set_range (b_blk s) (ctx + fl * b_flt s) (d ++ repeat 255 (Z.to_nat (fl - zlen d)))) in
  Ok (CB b (b_int s) (b_flt s + 1) (b_stk s) (b_cpy s)).

(** src/riscv/ffi.c:165-169 a word goes to the next register or stack slot *)
Definition put_word (ctx fl v : Z) (s : cb) : res cb :=
  if b_int s =? NARGREG then
    let* b := of_option (set_range (b_blk s) (b_stk s) (le_enc 8 v)) in
    Ok (CB b (b_int s) (b_flt s) (b_stk s + 8) (b_cpy s))
  else
    let* b := of_option (set_range (b_blk s) (ctx + 8 * fl + 8 * b_int s) (le_enc 8 v)) in
    Ok (CB b (b_int s + 1) (b_flt s) (b_stk s) (b_cpy s)).

(** src/riscv/ffi.c:133-170 marshal_atom; [d] is the memory at data *)
Definition marshal_atom (ctx fl : Z) (c : tcode) (d : list Z) (s : cb) : res cb :=
  let rd n := of_option (get_range d 0 n) in
  match c with
  | T_UINT8 => let* x := rd 1 in put_word ctx fl (le_dec x) s
  | T_SINT8 => let* x := rd 1 in put_word ctx fl (wrap64 (to_signed 8 (le_dec x))) s
  | T_UINT16 => let* x := rd 2 in put_word ctx fl (le_dec x) s
  | T_SINT16 => let* x := rd 2 in put_word ctx fl (wrap64 (to_signed 16 (le_dec x))) s
  | T_UINT32 | T_SINT32 => let* x := rd 4 in put_word ctx fl (wrap64 (to_signed 32 (le_dec x))) s
  | T_UINT64 | T_SINT64 | T_POINTER => let* x := rd 8 in put_word ctx fl (le_dec x) s
  | T_FLOAT => if 4 <=? fl then let* x := rd 4 in put_float ctx fl x s else Abort
  | T_DOUBLE => if 8 <=? fl then let* x := rd 8 in put_float ctx fl x s else Abort
  | _ => Abort
  end.

(** src/riscv/ffi.c:305-314 passed_by_ref, first the part about structs *)
Definition elements_of (fl : Z) (var : bool) (used_int used_float : Z) (t : ftype) : finfo :=
  if (fl =? 0) || var then None
  else match ty_code t with T_STRUCT => passed_as_elements fl used_int used_float t | _ => None end.
(** src/riscv/ffi.c:305-314 passed_by_ref *)
Definition passed_by_ref (fl : Z) (used_int used_float : Z) (t : ftype) (var : bool) : bool :=
  match elements_of fl var used_int used_float t with
  | Some _ => false
  | None => ty_size t >? 16
  end.

(** src/riscv/ffi.c:237-241 alignment of variadics in registers and of the stack *)
Definition align_pair (base : Z) (var : bool) (t : ftype) (s : cb) : cb :=
  if ty_align t >? 8 then
    CB (b_blk s) (if var then ffi_align (b_int s) 2 else b_int s) (b_flt s)
      (ffi_align (base + b_stk s) 16 - base) (b_cpy s)
  else s.

(** src/riscv/ffi.c:210-254 marshal.  [d]: the memory at data; [gr]: the uninitialised array
    realign; [base]: address of the block. *)
Definition marshal (base ctx fl : Z) (t : ftype) (var : bool) (d gr : list Z) (s : cb) : res cb :=
  match elements_of fl var (b_int s) (b_flt s) t with
  | Some (c1, None) => marshal_atom ctx fl c1 d s
  | Some (c1, Some (off, c2)) =>
    let* s1 := marshal_atom ctx fl c1 d s in
    let* d2 := of_option (get_range d off (zlen d - off)) in
    marshal_atom ctx fl c2 d2 s1
  | None =>
    if negb var && (b_flt s <? NARGREG) && is_float_code fl (ty_code t) then marshal_atom ctx fl (ty_code t) d s
    else if ty_size t >? 16 then
      let* x := of_option (get_range d 0 (ty_size t)) in
      let* b := of_option (set_range (b_blk s) (b_cpy s) x) in
      marshal_atom ctx fl T_POINTER (le_enc 8 (base + b_cpy s))
        (CB b (b_int s) (b_flt s) (b_stk s) (ffi_align (base + b_cpy s + ty_size t) 8 - base))
    else if is_int_code (ty_code t) || tcode_eqb (ty_code t) T_POINTER then marshal_atom ctx fl (ty_code t) d s
    else
      let s1 := align_pair base var t s in
      let* x := of_option (get_range d 0 (ty_size t)) in
      let* re := of_option (set_range gr 0 x) in
      let* s2 := if ty_size t >? 0 then marshal_atom ctx fl T_POINTER re s1 else Ok s1 in
      if ty_size t >? 8 then let* re1 := of_option (get_range re 8 8) in marshal_atom ctx fl T_POINTER re1 s2 else Ok s2
  end.

(** The argument loop (src/riscv/ffi.c:375-376); [i]: number of the argument, [gr]: contents of
    the uninitialised array in the call for argument [i]. *)
Fixpoint marshal_args (base ctx fl nfixed i : Z) (ts : list ftype) (objs : list (list Z)) (gr : Z -> list Z) (s : cb)
  : res cb :=
  match ts with
  | [] => Ok s
  | t :: r =>
    match objs with
    | [] => UB
    | o :: os =>
      let* s1 := marshal base ctx fl t (nfixed <=? i) o (gr i) s in
      marshal_args base ctx fl nfixed (i + 1) r os gr s1
    end
  end.

(** A call interface (include/ffi.h.in:239-249, src/riscv/ffitarget.h:65). *)
Record rcif : Type := RCif {
  k_args : list ftype;
  k_rtype : ftype;
  k_bytes : Z;
  k_nfixed : Z
}.

(** ffi_prep_cif and ffi_prep_cif_var on laid out types (src/prep_cif.c:110-252) with
    ffi_prep_cif_machdep and ffi_prep_cif_machdep_var (src/riscv/ffi.c:317-327); [fixed] is
    the number of fixed arguments of a variadic signature *)
Definition prep (fixed : option Z) (rt : ftype) (ts : list ftype) : rcif :=
  RCif ts rt (A64Model.core_bytes rt ts) (match fixed with None => zlen ts | Some n => n end).

(** src/riscv/ffi.c:339-346 the parts of the block of ffi_call_int: stack arguments, a result
    nobody wants, copies of structs, call_context (src/riscv/ffi.c:48-55) *)
Definition arg_bytes (c : rcif) : Z :=
  if zlen (k_args c) <=? 3 then 0 else ffi_align (2 * 8 * (zlen (k_args c) - 3)) 16.
(** src/riscv/ffi.c:342 *)
Definition struct_bytes (c : rcif) : Z := ffi_align (k_bytes c) 16.
(** src/riscv/ffi.c:343-345 *)
Definition rval_bytes (c : rcif) (rv : option Z) : Z :=
  match rv with
  | None => if ty_size (k_rtype c) >? 16 then ffi_align (ty_size (k_rtype c)) 16 else 0
  | Some _ => 0
  end.
(** src/riscv/ffi.c:346-358 the place of call_context *)
Definition ctx_at (c : rcif) (rv : option Z) : Z := arg_bytes c + rval_bytes c rv + struct_bytes c.
(** src/riscv/ffi.c:48-56 sizeof (call_context) *)
Definition ctx_size (fl : Z) : Z := 8 * fl + 64 + 16.
(** src/riscv/ffi.c:346 *)
Definition alloc_size (fl : Z) (c : rcif) (rv : option Z) : Z := ctx_at c rv + ctx_size fl.

(** What a called function sees: argument registers as bytes, t2, the stack pointer, and
    memory, read at an address, so many bytes (src/riscv/sysv.S:94-124). *)
Record rstate : Type := RState {
  s_a : list Z;
  s_fa : list Z;
  s_t2 : Z;
  s_sp : Z;
  s_read : Z -> Z -> option (list Z)
}.

(** src/riscv/ffi.c:333-378 ffi_call_int up to the call instruction of ffi_call_asm
    (src/riscv/sysv.S:71-124).  [rv]: the result pointer, [None] for NULL; [blk]: the memory
    given by alloca, at address [base]; [frame]: what ffi_call_asm saves at the end of the call_context.  Yields the state at
    entry of the function, the result pointer used and whether the result is by reference. *)
Definition call (fl : Z) (c : rcif) (rv : option Z) (objs : list (list Z)) (gr : Z -> list Z) (chain base : Z)
  (blk frame : list Z) : res (rstate * option Z * bool) :=
  let ctx := ctx_at c rv in
  let rvalue := if rval_bytes c rv =? 0 then rv else Some (base + arg_bytes c) in
  let s0 := CB blk 0 0 0 (arg_bytes c + rval_bytes c rv) in
  let ref := passed_by_ref fl 0 0 (k_rtype c) false in
  let* s1 := if ref then marshal base ctx fl ty_pointer false (le_enc 8 (match rvalue with Some a => a | None => 0 end))
                           (gr (-1)) s0
             else Ok s0 in
  let* s2 := marshal_args base ctx fl (k_nfixed c) 0 (k_args c) objs gr s1 in
  let* b := of_option (set_range (b_blk s2) (ctx + 8 * fl + 64) frame) in
  let* fa := of_option (get_range b ctx (8 * fl)) in
  let* a := of_option (get_range b (ctx + 8 * fl) 64) in
  Ok (RState a fa chain base (fun p n => get_range b (p - base) n), rvalue, ref).

(** src/riscv/ffi.c:57-64 call_builder while arguments are read: numbers of registers used and
    the address of the next stack argument *)
Record ust : Type := USt { u_int : Z; u_flt : Z; u_stk : Z }.

(** src/riscv/ffi.c:172-207 unmarshal_atom; yields the bytes stored to data.  [regs]: the
    call_context as bytes, [rd]: memory. *)
Definition take_word (fl : Z) (regs : list Z) (rd : Z -> Z -> option (list Z)) (u : ust) : res (Z * ust) :=
  if u_int u =? NARGREG then
    let* x := of_option (rd (u_stk u) 8) in Ok (le_dec x, USt (u_int u) (u_flt u) (u_stk u + 8))
  else
    let* x := of_option (get_range regs (8 * fl + 8 * u_int u) 8) in
    Ok (le_dec x, USt (u_int u + 1) (u_flt u) (u_stk u)).
(** src/riscv/ffi.c:176-183 a floating point register *)
Definition take_float (fl n : Z) (regs : list Z) (u : ust) : res (list Z * ust) :=
  let* x := of_option (get_range regs (fl * u_flt u) fl) in
  let* y := of_option (get_range x 0 n) in
  Ok (y, USt (u_int u) (u_flt u + 1) (u_stk u)).
(** src/riscv/ffi.c:172-207 unmarshal_atom *)
Definition unmarshal_atom (fl : Z) (regs : list Z) (rd : Z -> Z -> option (list Z)) (c : tcode) (u : ust)
  : res (list Z * ust) :=
  let int (n : nat) := let* (v, u1) := take_word fl regs rd u in Ok (le_enc n v, u1) in
  match c with
  | T_FLOAT => if 4 <=? fl then take_float fl 4 regs u else Abort
  | T_DOUBLE => if 8 <=? fl then take_float fl 8 regs u else Abort
  | T_UINT8 | T_SINT8 => int 1%nat
  | T_UINT16 | T_SINT16 => int 2%nat
  | T_UINT32 | T_SINT32 => int 4%nat
  | T_UINT64 | T_SINT64 | T_POINTER => int 8%nat
  | _ => Abort
  end.

(** What unmarshal returns: data, with its new contents, or a pointer (src/riscv/ffi.c:266-301). *)
Inductive uval : Type := UData (b : list Z) | UPtr (a : Z).

(** src/riscv/ffi.c:287-291 as align_pair *)
Definition ualign_pair (var : bool) (t : ftype) (u : ust) : ust :=
  if ty_align t >? 8 then USt (if var then ffi_align (u_int u) 2 else u_int u) (u_flt u) (ffi_align (u_stk u) 16)
  else u.

(** src/riscv/ffi.c:257-303 unmarshal; [buf]: the memory at data before *)
Definition unmarshal (fl : Z) (regs : list Z) (rd : Z -> Z -> option (list Z)) (t : ftype) (var : bool) (buf : list Z)
  (u : ust) : res (uval * ust) :=
  let store (off : Z) (d : list Z) (b : list Z) := of_option (set_range b off d) in
  let atom (c : tcode) :=
    let* (x, u1) := unmarshal_atom fl regs rd c u in
    let* b := store 0 x buf in
    Ok (UData b, u1) in
  match elements_of fl var (u_int u) (u_flt u) t with
  | Some (c1, None) => atom c1
  | Some (c1, Some (off, c2)) =>
    let* (x, u1) := unmarshal_atom fl regs rd c1 u in
    let* b := store 0 x buf in
    let* (x2, u2) := unmarshal_atom fl regs rd c2 u1 in
    let* b2 := store off x2 b in
    Ok (UData b2, u2)
  | None =>
    if negb var && (u_flt u <? NARGREG) && is_float_code fl (ty_code t) then atom (ty_code t)
    else if ty_size t >? 16 then
      let* (x, u1) := unmarshal_atom fl regs rd T_POINTER u in Ok (UPtr (le_dec x), u1)
    else if is_int_code (ty_code t) || tcode_eqb (ty_code t) T_POINTER then atom (ty_code t)
    else
      let u0 := ualign_pair var t u in
      let* (x, u1) := if ty_size t >? 0 then unmarshal_atom fl regs rd T_POINTER u0 else Ok ([], u0) in
      let* (y, u2) := if ty_size t >? 8 then unmarshal_atom fl regs rd T_POINTER u1 else Ok ([], u1) in
      let* d := of_option (get_range (x ++ y) 0 (ty_size t)) in
      let* b := store 0 d buf in
      Ok (UData b, u2)
  end.

(** The argument loop (src/riscv/ffi.c:504-506); [sto]: the 16 bytes of astorage for each
    argument, uninitialised *)
Fixpoint unmarshal_args (fl : Z) (regs : list Z) (rd : Z -> Z -> option (list Z)) (nfixed i : Z) (ts : list ftype)
  (sto : Z -> list Z) (u : ust) : res (list uval * ust) :=
  match ts with
  | [] => Ok ([], u)
  | t :: r =>
    let* (v, u1) := unmarshal fl regs rd t (nfixed <=? i) (sto i) u in
    let* (l, u2) := unmarshal_args fl regs rd nfixed (i + 1) r sto u1 in
    Ok (v :: l, u2)
  end.

(** Where the handler stores the result: memory of the closure, of the size of the type, or of
    the caller (src/riscv/ffi.c:498-502). *)
Inductive rplace : Type := RSlot (size : Z) | RCaller (a : Z).

(** ffi_closure_asm (src/riscv/sysv.S:155-199) and ffi_closure_inner (src/riscv/ffi.c:477-508)
    up to the call of the handler.  [m]: the state at the entry; [frame]: the saved fp and ra;
    yields the handler's argument pointers, the call_context and the place for the result.
    Memory of the caller is not changed. *)
Definition closure (fl : Z) (c : rcif) (m : rstate) (frame : list Z) (sto : Z -> list Z) (slot : list Z)
  : res (list uval * list Z * rplace) :=
  let regs := s_fa m ++ s_a m ++ frame in
  let u0 := USt 0 0 (s_sp m) in
  let ref := passed_by_ref fl 0 0 (k_rtype c) false in
  let* (r, u1) := if ref then
                    let* (v, u1) := unmarshal fl regs (s_read m) ty_pointer false slot u0 in
                    match v with
                    | UData b => let* x := of_option (get_range b 0 8) in Ok (RCaller (le_dec x), u1)
                    | UPtr _ => UB
                    end
                  else Ok (RSlot (ty_size (k_rtype c)), u0) in
  let* (l, _) := unmarshal_args fl regs (s_read m) (k_nfixed c) 0 (k_args c) sto u1 in
  Ok (l, regs, r).

(** The registers results come in: a0, a1, and fa0, fa1, as bytes (src/riscv/sysv.S:126-133,
    201-208). *)
Record rret : Type := RRet { r_a : list Z; r_fa : list Z }.

(** src/riscv/ffi.c:510-513, src/riscv/sysv.S:201-208: after the handler; [regs]: the
    call_context, [d]: the memory at rvalue, [gr]: the array realign *)
Definition load_ret (fl : Z) (c : rcif) (regs d gr : list Z) : res rret :=
  let* s := if passed_by_ref fl 0 0 (k_rtype c) false || tcode_eqb (ty_code (k_rtype c)) T_VOID then Ok (CB regs 0 0 0 0)
            else marshal 0 0 fl (k_rtype c) false d gr (CB regs 0 0 0 0) in
  let* fa := of_option (get_range (b_blk s) 0 (2 * fl)) in
  let* a := of_option (get_range (b_blk s) (8 * fl) 16) in
  Ok (RRet a fa).

(** src/riscv/ffi.c:380-407, src/riscv/sysv.S:126-133: the result after the call; [regs]: the
    call_context before, [buf]: the memory at rvalue, if any *)
Definition finish (fl : Z) (c : rcif) (rd : Z -> Z -> option (list Z)) (r : rret) (regs : list Z) (ref : bool)
  (buf : option (list Z)) : res (option (list Z)) :=
  let* x := of_option (set_range regs 0 (r_fa r)) in
  let* x1 := of_option (set_range x (8 * fl) (r_a r)) in
  match buf with
  | None => Ok None
  | Some b =>
    if (ref : bool) then Ok (Some b)
    else if is_int_code (ty_code (k_rtype c)) && (ty_size (k_rtype c) <? 8) then
      match ty_code (k_rtype c) with
      | T_SINT8 | T_SINT16 | T_SINT32 =>
        let* (v, _) := unmarshal_atom fl x1 rd T_SINT64 (USt 0 0 0) in
        let* b1 := of_option (set_range b 0 v) in Ok (Some b1)
      | T_UINT8 | T_UINT16 | T_UINT32 =>
        let* (v, _) := unmarshal_atom fl x1 rd T_UINT64 (USt 0 0 0) in
        let* b1 := of_option (set_range b 0 v) in Ok (Some b1)
      | _ => Ok (Some b)
      end
    else
      let* (v, _) := unmarshal fl x1 rd (k_rtype c) false b (USt 0 0 0) in
      match v with UData b1 => Ok (Some b1) | UPtr _ => Ok (Some b) end
  end.
