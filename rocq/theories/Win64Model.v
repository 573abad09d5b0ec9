(** src/x86/ffiw64.c, src/x86/win64.S and the dispatch in src/x86/ffi64.c: the Win64
    ABIs of the x86-64 backend, on memory made of blocks, so that the argument vector is
    a list of addresses. *)
From Verif Require Import Base Types Unix64Model.

(** A C object (or an alloca'd piece of stack): its address and its bytes; the memory
    reached by src/x86/ffi64.c:685-714 and src/x86/ffiw64.c:118-197. *)
Record block : Type := Block { b_addr : Z; b_bytes : list Z }.
(** Memory of src/x86/ffi64.c:685-714: the live blocks, the newest first. *)
Definition mem : Type := list block.

(** Load of [n] bytes at address [p] (memcpy source, src/x86/ffi64.c:701); [None] when
    no live block contains them. *)
Fixpoint mread (m : mem) (p n : Z) : option (list Z) :=
  match m with
  | [] => None
  | b :: r =>
    match get_range (b_bytes b) (p - b_addr b) n with
    | Some d => Some d
    | None => mread r p n
    end
  end.

(** Store at address [p] (what a callee does to memory it was given) (src/x86/ffiw64.c:158-164). *)
Fixpoint mwrite (m : mem) (p : Z) (d : list Z) : option mem :=
  match m with
  | [] => None
  | b :: r =>
    match set_range (b_bytes b) (p - b_addr b) d with
    | Some d' => Some (Block (b_addr b) d' :: r)
    | None => match mwrite r p d with Some r' => Some (b :: r') | None => None end
    end
  end.

(** All bytes from [p] to the end of the block holding [n] bytes at [p]: the object the
    argument loop of src/x86/ffi64.c:598-666 reads from. *)
Fixpoint mtail (m : mem) (p n : Z) : option (list Z) :=
  match m with
  | [] => None
  | b :: r =>
    match get_range (b_bytes b) (p - b_addr b) n with
    | Some _ => Some (skipn (Z.to_nat (p - b_addr b)) (b_bytes b))
    | None => mtail r p n
    end
  end.

(** src/x86/ffi64.c:693-704 and src/x86/ffiw64.c:131-143  copying large structs: the new
    contents of the caller's argument array and of memory.  [size] is an int.  The
    addresses returned by alloca are taken from [stk]; a failing alloca is UB. *)
Fixpoint copy_structs (max : Z) (args : list ftype) (avalue stk : list Z) (m : mem)
  : res (list Z * list Z * mem) :=
  match args with
  | [] => Ok (avalue, stk, m)
  | t :: rest =>
    match avalue with
    | [] => UB
    | p :: ps =>
      let size := to_signed 32 (ty_size t) in
      if tcode_eqb (ty_code t) T_STRUCT && (size >? max) then
        match stk with
        | [] => UB
        | a :: stk' =>
          let* d := of_option (mread m p size) in
          let* r := copy_structs max rest ps stk' (Block a d :: m) in
          let '(ps', s', m') := r in Ok (a :: ps', s', m')
        end
      else
        let* r := copy_structs max rest ps stk m in
        let '(ps', s', m') := r in Ok (p :: ps', s', m')
    end
  end.

(** src/x86/ffitarget.h:135-138  FFI_TYPE_SMALL_STRUCT_* (FFI_TYPE_LAST is 15). *)
Definition SMALL_STRUCT_1B := 16.
(** src/x86/ffitarget.h:136 *)
Definition SMALL_STRUCT_2B := 17.
(** src/x86/ffitarget.h:137 *)
Definition SMALL_STRUCT_4B := 18.

(** src/x86/ffiw64.c:66-94  the return flags. *)
Definition win_flags (abi : Z) (rt : ftype) : Z :=
  let by_size (f : Z) :=
    if ty_size rt =? 8 then tcode_num T_UINT64
    else if ty_size rt =? 4 then SMALL_STRUCT_4B
    else if ty_size rt =? 2 then SMALL_STRUCT_2B
    else if ty_size rt =? 1 then SMALL_STRUCT_1B
    else f in
  match ty_code rt with
  | T_LONGDOUBLE => if abi =? FFI_GNUW64 then tcode_num T_STRUCT else tcode_num T_LONGDOUBLE
  | T_COMPLEX | T_STRUCT => by_size (tcode_num T_STRUCT)
  | c => tcode_num c
  end.

(** src/x86/ffiw64.c:53-109  ffi_prep_cif_machdep_efi64. *)
Definition machdep_win (c : tcif) : res (status * tcif) :=
  if negb ((c_abi c =? FFI_WIN64) || (c_abi c =? FFI_GNUW64)) then Ok (FFI_BAD_ABI, c)
  else
    let flags := win_flags (c_abi c) (c_rtype c) in
    let n := to_signed 32 (zlen (c_args c) + (if flags =? tcode_num T_STRUCT then 1 else 0)) in
    let n' := if n <? 4 then 4 else n in
    Ok (FFI_OK, TCif (c_abi c) (c_args c) (c_rtype c) (wrap32 (n' * 8)) flags).

(** src/x86/ffi64.c:400-558  ffi_prep_cif_machdep with the dispatch of lines 409-412. *)
Definition machdep_x86 (c : tcif) : res (status * tcif) :=
  if (c_abi c =? FFI_WIN64) || (c_abi c =? FFI_GNUW64) then machdep_win c
  else machdep64 c.

(** src/x86/ffiw64.c:172-194  the argument loop, from slot [j] on.  [area] is the
    argument area of cif->bytes; a store outside it (into the frame behind it) is UB. *)
Fixpoint win_slots (m : mem) (args : list ftype) (avalue : list Z) (j : Z) (area : list Z)
  : res (list Z) :=
  match args with
  | [] => Ok area
  | t :: rest =>
    match avalue with
    | [] => UB
    | p :: ps =>
      let size := ty_size t in
      let* w :=
        (if (size =? 8) || (size =? 4) || (size =? 2) || (size =? 1)
         then let* d := of_option (mread m p size) in Ok (le_dec d)
         else Ok p) in
      let* area' := of_option (set_range area (8 * j) (le_enc 8 w)) in
      win_slots m rest ps (j + 1) area'
    end
  end.

(** State at the call instruction of ffi_call_win64 (src/x86/win64.S:62-79): the four
    general argument registers, the four vector argument registers as 16 bytes, %r10, the
    stack pointer, and the argument area it points to. *)
Record wstate : Type := WState {
  w_gpr : list Z;
  w_xmm : list (list Z);
  w_r10 : Z;
  w_sp : Z;
  w_stack : list Z
}.

(** src/x86/win64.S:68-77  loading slot [i] into registers (movsd clears the upper
    half). *)
Definition win_reg (area : list Z) (i : Z) : res (list Z) :=
  of_option (get_range area (8 * i) 8).

(** src/x86/ffiw64.c:118-197 and src/x86/win64.S:47-79  ffi_call_int up to and including
    the call.  [base]: address of the argument area, [g_area] its initial content, [rv]
    the result pointer ([None] = NULL), [tmp] the address of the temporary behind the
    frame (lines 153-164).  Result: the state, flags and result pointer put in the frame,
    the caller's array and memory (the copies on top). *)
Definition call_win (c : tcif) (rv : option Z) (tmp : Z) (avalue stk : list Z) (closure base : Z)
  (g_area : list Z) (m : mem) : res (wstate * Z * option Z * list Z * mem) :=
  let* r := copy_structs 8 (c_args c) avalue stk m in
  let '(av, _, m') := r in
  let is_struct := c_flags c =? tcode_num T_STRUCT in
  let '(flags, rvalue) :=
    match rv with
    | Some p => (c_flags c, Some p)
    | None => if is_struct then (c_flags c, if ty_size (c_rtype c) =? 0 then None else Some tmp)
              else (tcode_num T_VOID, None)
    end in
  let hidden := flags =? tcode_num T_STRUCT in
  let* area0 :=
    (if hidden then of_option (set_range g_area 0 (le_enc 8 (match rvalue with Some p => p | None => 0 end)))
     else Ok g_area) in
  let* area := win_slots m' (c_args c) av (if hidden then 1 else 0) area0 in
  let* s0 := win_reg area 0 in
  let* s1 := win_reg area 1 in
  let* s2 := win_reg area 2 in
  let* s3 := win_reg area 3 in
  let x (s : list Z) := s ++ repeat 0 8 in
  Ok (WState [le_dec s0; le_dec s1; le_dec s2; le_dec s3] [x s0; x s1; x s2; x s3] closure base area,
      flags, rvalue, av, m').

(** What ffi_call reached: the state of either backend (src/x86/ffi64.c:686-737). *)
Inductive entered : Type :=
| EnterUnix (s : mstate)
| EnterWin (s : wstate).

(** The objects the unix64 argument loop reads (src/x86/ffi64.c:598-666 through the
    pointers of avalue). *)
Fixpoint objects_at (m : mem) (args : list ftype) (avalue : list Z) : res (list (list Z)) :=
  match args with
  | [] => Ok []
  | t :: rest =>
    match avalue with
    | [] => UB
    | p :: ps =>
      let* o := of_option (mtail m p (ty_size t)) in
      let* os := objects_at m rest ps in Ok (o :: os)
    end
  end.

(** src/x86/ffi64.c:685-714  ffi_call, as far as the call instruction. *)
Definition ffi_call_x86 (c : tcif) (rv : option Z) (tmp : Z) (avalue stk : list Z) (base : Z)
  (g_gpr : list Z) (g_sse : list (list Z)) (g_area : list Z) (g_xmm : list (list Z)) (frame : list Z)
  (m : mem) : res (entered * Z * option Z * list Z * mem) :=
  let max := if c_abi c =? FFI_GNUW64 then 8 else 16 in
  let* r := copy_structs max (c_args c) avalue stk m in
  let '(av, stk', m') := r in
  if (c_abi c =? FFI_WIN64) || (c_abi c =? FFI_GNUW64) then
    let* q := call_win c rv tmp av stk' 0 base g_area m' in
    let '(s, fl, rv', av', m'') := q in Ok (EnterWin s, fl, rv', av', m'')
  else
    let* os := objects_at m' (c_args c) av in
    let* q := call64 c rv tmp os 0 base g_gpr g_sse g_area g_xmm frame in
    let '(s, fl, rv') := q in Ok (EnterUnix s, fl, rv', av, m').

(** src/x86/win64.S:81-159  storing the result; [buf] is the memory at rvalue.  The table
    index is the flags value; a store outside [buf] is UB. *)
Definition win_store (flags : Z) (r : rstate) (buf : list Z) : res (list Z) :=
  let st (d : list Z) := of_option (set_range buf 0 d) in
  let is (c : tcode) := flags =? tcode_num c in
  if is T_VOID then Ok buf
  else if is T_INT then st (le_enc 8 (sext 32 (rs_rax r)))
  else if is T_FLOAT then st (firstn 4 (rs_xmm0 r))
  else if is T_DOUBLE then st (firstn 8 (rs_xmm0 r))
  else if is T_LONGDOUBLE then Abort
  else if is T_UINT8 then st (le_enc 8 (zext 8 (rs_rax r)))
  else if is T_SINT8 then st (le_enc 8 (sext 8 (rs_rax r)))
  else if is T_UINT16 then st (le_enc 8 (zext 16 (rs_rax r)))
  else if is T_SINT16 then st (le_enc 8 (sext 16 (rs_rax r)))
  else if is T_UINT32 then st (le_enc 8 (zext 32 (rs_rax r)))
  else if is T_SINT32 then st (le_enc 8 (sext 32 (rs_rax r)))
  else if is T_UINT64 || is T_SINT64 || is T_POINTER then st (le_enc 8 (rs_rax r))
  else if is T_STRUCT then Ok buf
  else if is T_COMPLEX then Abort
  else if flags =? SMALL_STRUCT_1B then st (le_enc 1 (rs_rax r))
  else if flags =? SMALL_STRUCT_2B then st (le_enc 2 (rs_rax r))
  else if flags =? SMALL_STRUCT_4B then st (le_enc 4 (rs_rax r))
  else Abort.

(** Pointers given to the handler of a Win64 closure: into the saved vector registers,
    into the caller's argument area, or the caller's reference
    (src/x86/ffiw64.c:338-350). *)
Inductive wptr : Type :=
| WFarg (off : Z)
| WArg (off : Z)
| WRef (addr : Z).

(** src/x86/win64.S:202-222  the frame: the argument area with the general registers
    saved in its first four slots, and the low halves of the vector registers. *)
Definition win_closure_args (s : wstate) : res (list Z) :=
  of_option (set_range (w_stack s) 0 (concat (map (le_enc 8) (w_gpr s)))).
(** src/x86/win64.S:217-222 *)
Definition win_closure_fargs (s : wstate) : list Z :=
  concat (map (firstn 8) (w_xmm s)).

(** src/x86/ffiw64.c:333-353  the argument loop of ffi_closure_win64_inner from slot
    [nreg] on; [args] is the area above. *)
Fixpoint win_closure_loop (args : list Z) (ts : list ftype) (nreg : Z) : res (list wptr) :=
  match ts with
  | [] => Ok []
  | t :: rest =>
    let size := ty_size t in
    let* a :=
      (if tcode_eqb (ty_code t) T_DOUBLE || tcode_eqb (ty_code t) T_FLOAT then
         if nreg <? 4 then Ok (WFarg (8 * nreg)) else Ok (WArg (8 * nreg))
       else if (size =? 1) || (size =? 2) || (size =? 4) || (size =? 8) then Ok (WArg (8 * nreg))
       else
         let* d := of_option (get_range args (8 * nreg) 8) in Ok (WRef (le_dec d))) in
    let* l := win_closure_loop args rest (nreg + 1) in
    Ok (a :: l)
  end.

(** src/x86/ffiw64.c:310-359  ffi_closure_win64_inner up to the call of the handler:
    argument pointers, the caller's result pointer if there is one, and the 16 byte result
    slot [slot] as updated at line 330. *)
Definition closure_win (c : tcif) (s : wstate) (slot : list Z) : res (list wptr * option Z * list Z) :=
  let* args := win_closure_args s in
  if c_flags c =? tcode_num T_STRUCT then
    let* d := of_option (get_range args 0 8) in
    let* slot' := of_option (set_range slot 0 d) in
    let* l := win_closure_loop args (c_args c) 1 in
    Ok (l, Some (le_dec d), slot')
  else
    let* l := win_closure_loop args (c_args c) 0 in
    Ok (l, None, slot).

(** What the handler reads through an argument pointer (src/x86/ffiw64.c:338-352). *)
Definition read_wptr (args fargs : list Z) (m : mem) (p : wptr) (n : Z) : option (list Z) :=
  match p with
  | WFarg o => get_range fargs o n
  | WArg o => get_range args o n
  | WRef a => mread m a n
  end.

(** src/x86/win64.S:227-229  loading both result registers from the slot. *)
Definition win_load (slot : list Z) (r : rstate) : res rstate :=
  let* d := of_option (get_range slot 0 8) in
  Ok (RState (le_dec d) (rs_rdx r) (d ++ repeat 0 8) (rs_xmm1 r) (rs_st0 r) (rs_st1 r)).
