(** src/arm/ffi.c: the 32-bit ARM backend, little-endian, for systems other than Windows and
    without a trampoline table (FFI_EXEC_TRAMPOLINE_TABLE).  long double is double there, so
    there is no type code for it (include/ffi.h.in:60-79 with HAVE_LONG_DOUBLE 0). *)
From Verif Require Import Base Types ByteMem.
Local Open Scope Z_scope.

(** src/arm/internal.h:1 ARM_TYPE_VFP_S *)
Definition K_VFP_S := 0.
(** src/arm/internal.h:2 ARM_TYPE_VFP_D *)
Definition K_VFP_D := 1.
(** src/arm/internal.h:3 ARM_TYPE_VFP_N *)
Definition K_VFP_N := 2.
(** src/arm/internal.h:4 ARM_TYPE_INT64 *)
Definition K_INT64 := 3.
(** src/arm/internal.h:5 ARM_TYPE_INT *)
Definition K_INT := 4.
(** src/arm/internal.h:6 ARM_TYPE_VOID *)
Definition K_VOID := 5.
(** src/arm/internal.h:7 ARM_TYPE_STRUCT *)
Definition K_STRUCT := 6.

(** src/arm/ffitarget.h:41-51 ffi_abi *)
Inductive abi : Type := SYSV | VFP.

(** ** Homogeneous aggregates *)

(** ret == FFI_TYPE_STRUCT || ret == FFI_TYPE_COMPLEX (src/arm/ffi.c:718, 743, 797, 831) *)
Definition aggregate (c : Z) : bool := (c =? 13) || (c =? 15).

(** src/arm/ffi.c:708-728 is_hfa0; -1 for no scalar member *)
Fixpoint is_hfa0 (t : ftype) : Z :=
  match t with
  | FT _ _ _ es =>
    (fix go (l : list ftype) (ret : Z) : Z :=
       match l with
       | [] => ret
       | e :: r =>
         let c := tcode_num (ty_code e) in
         if aggregate c then let c' := is_hfa0 e in if c' <? 0 then go r c' else c' else c
       end) es (-1)
  end.

(** src/arm/ffi.c:733-753 is_hfa1 *)
Fixpoint is_hfa1 (t : ftype) (candidate : Z) : bool :=
  match t with
  | FT _ _ _ es =>
    (fix go (l : list ftype) : bool :=
       match l with
       | [] => true
       | e :: r =>
         let c := tcode_num (ty_code e) in
         if aggregate c then if is_hfa1 e candidate then go r else false
         else if c =? candidate then go r else false
       end) es
  end.

(** src/arm/ffi.c:797-805 the first scalar below the elements; running over the end of the
    array is UB *)
Fixpoint first_scalar (es : list ftype) : res Z :=
  match es with
  | [] => UB
  | e :: r => let c := is_hfa0 e in if 0 <=? c then Ok c else first_scalar r
  end.

(** src/arm/ffi.c:762-843 vfp_type_p; the last loop is that of is_hfa1 *)
Definition vfp_type (t : ftype) : res Z :=
  let code := tcode_num (ty_code t) in
  if (code =? 2) || (code =? 3) then Ok (Z.lor (1 * 2 ^ 8) code)
  else if code =? 15 then
    match ty_elems t with
    | [] => UB
    | e :: _ =>
      let c := tcode_num (ty_code e) in
      if (c =? 2) || (c =? 3) then Ok (Z.lor (2 * 2 ^ 8) c) else Ok 0
    end
  else if negb (code =? 13) then Ok 0
  else
    let size := ty_size t in
    if (size <? 4) || (size >? 32) then Ok 0
    else
      match ty_elems t with
      | [] => UB
      | e0 :: _ =>
        let c0 := tcode_num (ty_code e0) in
        let* cand := if aggregate c0 then first_scalar (ty_elems t) else Ok c0 in
        let unit := if cand =? 2 then 4 else if cand =? 3 then 8 else 0 in
        if unit =? 0 then Ok 0
        else
          let count := size / unit in
          if negb (size =? count * unit) then Ok 0
          else if count >? 4 then Ok 0
          else if is_hfa1 t cand then Ok (Z.lor (count * 2 ^ 8) cand)
          else Ok 0
      end.

(** ** Floating point registers for arguments *)

(** The fields vfp_used, vfp_reg_free and vfp_args of ffi_cif (src/arm/ffitarget.h:54-57); of
    vfp_args the vfp_nargs first elements. *)
Record vst : Type := VSt { v_used : Z; v_free : Z; v_args : list Z }.

(** src/arm/ffi.c:860-869 the inner loop: registers [s] to [s + n - 1], all unused, as bits *)
Fixpoint probe (used s : Z) (n : nat) (acc : Z) : option Z :=
  match n with
  | O => Some acc
  | S k =>
    let acc' := Z.lor acc (Z.shiftl 1 s) in
    if negb (Z.land used (Z.shiftl 1 s) =? 0) then None else probe used (s + 1) k acc'
  end.
(** src/arm/ffi.c:858-884 the outer loop, with the registers found; more than [fuel] rounds do
    not happen, they would be an Abort here *)
Fixpoint search (fuel : nat) (used reg nregs align : Z) : res (option (Z * Z)) :=
  match fuel with
  | O => Abort
  | S k =>
    if reg + nregs <=? 16 then
      match probe used reg (Z.to_nat nregs) 0 with
      | Some bits => Ok (Some (reg, bits))
      | None => search k used (wrap 16 (reg + align)) nregs align
      end
    else Ok None
  end.
(** src/arm/ffi.c:877-880 the next unused register *)
Fixpoint skip_used (fuel : nat) (used reg : Z) : res Z :=
  match fuel with
  | O => Abort
  | S k => if Z.land used (Z.shiftl 1 reg) =? 0 then Ok reg else skip_used k used (wrap 16 (reg + 1))
  end.

(** src/arm/ffi.c:845-889 place_vfp_arg; [true]: the result 1.  A store behind the end of
    vfp_args is UB. *)
Definition place_vfp_arg (h : Z) (v : vst) : res (bool * vst) :=
  let dbl := Z.land h 255 =? 3 in
  let align := if dbl then 2 else 1 in
  let nregs := if dbl then 2 * Z.shiftr h 8 else Z.shiftr h 8 in
  let reg := if negb (Z.land (v_free v) 1 =? 0) && (align =? 2) then wrap 16 (v_free v + 1) else v_free v in
  let* found := search 20 (v_used v) reg nregs align in
  match found with
  | Some (r, bits) =>
    let used := Z.lor (v_used v) bits in
    if 16 <=? zlen (v_args v) then UB
    else
      let* free := if negb (Z.land used (Z.shiftl 1 (v_free v)) =? 0) then skip_used 20 used (wrap 16 (r + nregs)) else Ok (v_free v) in
      Ok (false, VSt used free (v_args v ++ [r]))
  | None => Ok (true, VSt 65535 16 (v_args v))
  end.

(** src/arm/ffi.c:901-906 the loop of layout_vfp_args *)
Fixpoint layout_args (ts : list ftype) (v : vst) : res vst :=
  match ts with
  | [] => Ok v
  | t :: r =>
    let* h := vfp_type t in
    if h =? 0 then layout_args r v
    else
      let* (full, v') := place_vfp_arg h v in
      if (full : bool) then Ok v' else layout_args r v'
  end.
(** src/arm/ffi.c:891-907 layout_vfp_args *)
Definition layout_vfp_args (ts : list ftype) : res vst := layout_args ts (VSt 0 0 []).

(** ** Preparation *)

(** The fields of ffi_cif (include/ffi.h.in:239-249, src/arm/ffitarget.h:54-57). *)
Record acif : Type := ACif {
  k_abi : abi;
  k_args : list ftype;
  k_rtype : ftype;
  k_bytes : Z;
  k_flags : Z;
  k_vfp : vst
}.

(** src/prep_cif.c:31-33 STACK_ARG_SIZE with FFI_SIZEOF_ARG 4 *)
Definition stack_arg_size (n : Z) : Z := ffi_align_w 32 n 4.
(** src/prep_cif.c:166-205 bytes reserved for the arguments, types already laid out *)
Fixpoint core_bytes_args (ts : list ftype) (bytes : Z) : Z :=
  match ts with
  | [] => bytes
  | t :: r =>
    let b := if Z.land (ty_align t - 1) bytes =? 0 then bytes else ffi_align_w 32 bytes (ty_align t) in
    core_bytes_args r (wrap32 (b + stack_arg_size (ty_size t)))
  end.
(** src/prep_cif.c:152-207 cif->bytes when the machine dependent part is called *)
Definition core_bytes (rt : ftype) (ts : list ftype) : Z :=
  core_bytes_args ts (match ty_code rt with T_STRUCT => stack_arg_size 4 | _ => 0 end).

(** src/arm/ffi.c:259-319 the result code, and whether 4 is added to bytes *)
Definition ret_flags (a : abi) (rt : ftype) : res Z :=
  let composite :=
    if ty_size rt <=? 4 then Ok K_INT else Ok K_STRUCT in
  match ty_code rt with
  | T_VOID => Ok K_VOID
  | T_INT | T_UINT8 | T_SINT8 | T_UINT16 | T_SINT16 | T_UINT32 | T_SINT32 | T_POINTER => Ok K_INT
  | T_SINT64 | T_UINT64 => Ok K_INT64
  | T_FLOAT => Ok (match a with VFP => K_VFP_S | SYSV => K_INT end)
  | T_DOUBLE => Ok (match a with VFP => K_VFP_D | SYSV => K_INT64 end)
  | T_STRUCT | T_COMPLEX =>
    match a with
    | VFP =>
      let* h := vfp_type rt in
      if h =? 0 then composite
      else if h =? 256 + 2 then Ok K_VFP_S
      else if h =? 256 + 3 then Ok K_VFP_D
      else Ok K_VFP_N
    | SYSV => composite
    end
  | T_LONGDOUBLE => Abort
  end.

(** src/arm/ffi.c:245-334 ffi_prep_cif_machdep *)
Definition machdep (a : abi) (rt : ftype) (ts : list ftype) (bytes : Z) : res acif :=
  let* v := match a with VFP => layout_vfp_args ts | SYSV => Ok (VSt 0 0 []) end in
  let* f := ret_flags a rt in
  let b1 := if f =? K_STRUCT then wrap32 (bytes + 4) else bytes in
  let b2 := ffi_align_w 32 b1 8 in
  let b3 := if b2 <? 16 then 16 else b2 in
  Ok (ACif a ts rt b3 f v).

(** ffi_prep_cif, or ffi_prep_cif_var for [var], on laid out types (src/prep_cif.c:110-252), with
    ffi_prep_cif_machdep_var (src/arm/ffi.c:336-346): variadic functions follow the base
    standard.  The checks of variadic argument types are not repeated here (C05). *)
Definition prep (var : bool) (a : abi) (rt : ftype) (ts : list ftype) : res acif :=
  machdep (if var then SYSV else a) rt ts (core_bytes rt ts).

(** ** Arguments of calls *)

(** src/arm/ffi.c:75-88 ffi_align, on an address *)
Definition align_ptr (t : ftype) (p : Z) : Z :=
  ffi_align_w 32 p (if ty_align t <? 4 then 4 else ty_align t).

(** A store into the memory from [lo] to [hi], which alloca gave (src/arm/ffi.c:397); other
    stores are UB. *)
Definition store (lo hi : Z) (m : Z -> Z) (a : Z) (d : list Z) : res (Z -> Z) :=
  if (lo <=? a) && (a + zlen d <=? hi) then Ok (wr m a d) else UB.

(** src/arm/ffi.c:90-144 ffi_put_arg; [src]: the bytes of the argument object; yields the memory
    and the value returned *)
Definition put_arg (lo hi : Z) (t : ftype) (src : list Z) (m : Z -> Z) (dst : Z) : res ((Z -> Z) * Z) :=
  let get n := of_option (get_range src 0 n) in
  let done m' := Ok (m', ffi_align_w 32 (ty_size t) 4) in
  match ty_code t with
  | T_SINT8 => let* x := get 1 in let* m' := store lo hi m dst (le_enc 4 (wrap32 (to_signed 8 (le_dec x)))) in done m'
  | T_UINT8 => let* x := get 1 in let* m' := store lo hi m dst (le_enc 4 (le_dec x)) in done m'
  | T_SINT16 => let* x := get 2 in let* m' := store lo hi m dst (le_enc 4 (wrap32 (to_signed 16 (le_dec x)))) in done m'
  | T_UINT16 => let* x := get 2 in let* m' := store lo hi m dst (le_enc 4 (le_dec x)) in done m'
  | T_INT | T_SINT32 | T_UINT32 | T_POINTER | T_FLOAT => let* x := get 4 in let* m' := store lo hi m dst x in done m'
  | T_SINT64 | T_UINT64 | T_DOUBLE => let* x := get 8 in let* m' := store lo hi m dst x in done m'
  | T_STRUCT | T_COMPLEX => let* x := get (ty_size t) in let* m' := store lo hi m dst x in done m'
  | T_VOID | T_LONGDOUBLE => Abort
  end.

(** src/arm/ffi.c:166-171 the loop of ffi_prep_args_SYSV *)
Fixpoint args_sysv (lo hi : Z) (ts : list ftype) (objs : list (list Z)) (m : Z -> Z) (argp : Z) : res (Z -> Z) :=
  match ts with
  | [] => Ok m
  | t :: r =>
    match objs with
    | [] => UB
    | o :: os =>
      let p := align_ptr t argp in
      let* (m', n) := put_arg lo hi t o m p in
      args_sysv lo hi r os m' (p + n)
    end
  end.
(** src/arm/ffi.c:153-172 ffi_prep_args_SYSV *)
Definition prep_args_sysv (lo hi : Z) (c : acif) (flags rvalue : Z) (objs : list (list Z)) (m : Z -> Z) (argp : Z) : res (Z -> Z) :=
  if flags =? K_STRUCT then
    let* m' := store lo hi m argp (le_enc 4 rvalue) in args_sysv lo hi (k_args c) objs m' (argp + 4)
  else args_sysv lo hi (k_args c) objs m argp.

(** The local variables of ffi_prep_args_VFP (src/arm/ffi.c:178-182): memory, regp, argp,
    stack_used, done_with_regs, and the elements of vfp_args from vi on. *)
Record pst : Type := PSt { p_mem : Z -> Z; p_regp : Z; p_argp : Z; p_used : bool; p_done : bool; p_left : list Z }.

(** src/arm/ffi.c:238-241 an argument on the stack *)
Definition on_stack (lo hi : Z) (t : ftype) (o : list Z) (s : pst) : res pst :=
  let p := align_ptr t (p_argp s) in
  let* (m, n) := put_arg lo hi t o (p_mem s) p in
  Ok (PSt m (p_regp s) (p + n) true (p_done s) (p_left s)).
(** vi < cif->vfp_nargs && is_vfp_type (src/arm/ffi.c:204, 502): the register, and what is left of
    vfp_args *)
Definition in_vfp (h : Z) (left : list Z) : option (Z * list Z) :=
  if h =? 0 then None else match left with r :: l => Some (r, l) | [] => None end.
(** Size of an argument at least 4 (src/arm/ffi.c:214-215, 511). *)
Definition padded (t : ftype) : Z := if ty_size t <? 4 then 4 else ty_size t.
(** src/arm/ffi.c:198-242 one argument; [stk], [vfp]: stack and vfp_space.  The two assertions are
    not compiled in. *)
Definition put_vfp1 (lo hi stk vfp : Z) (t : ftype) (o : list Z) (s : pst) : res pst :=
  let* h := vfp_type t in
  match in_vfp h (p_left s) with
  | Some (r, l) =>
    let* (m, _) := put_arg lo hi t o (p_mem s) (vfp + r * 4) in
    Ok (PSt m (p_regp s) (p_argp s) (p_used s) (p_done s) l)
  | None =>
    if negb (p_done s) && (h =? 0) then
      let q := align_ptr t (p_regp s) in
      if q + padded t <=? stk + 16 then
        let* (m, n) := put_arg lo hi t o (p_mem s) q in
        Ok (PSt m (q + n) (p_argp s) (p_used s) (q + n =? p_argp s) (p_left s))
      else if negb (p_used s) then
        let* (m, n) := put_arg lo hi t o (p_mem s) q in
        Ok (PSt m (p_regp s) (q + n) true true (p_left s))
      else on_stack lo hi t o s
    else on_stack lo hi t o s
  end.
(** src/arm/ffi.c:197-242 the loop of ffi_prep_args_VFP *)
Fixpoint args_vfp (lo hi stk vfp : Z) (ts : list ftype) (objs : list (list Z)) (s : pst) : res pst :=
  match ts with
  | [] => Ok s
  | t :: r =>
    match objs with
    | [] => UB
    | o :: os => let* s' := put_vfp1 lo hi stk vfp t o s in args_vfp lo hi stk vfp r os s'
    end
  end.
(** src/arm/ffi.c:174-243 ffi_prep_args_VFP *)
Definition prep_args_vfp (lo hi : Z) (c : acif) (flags rvalue : Z) (objs : list (list Z)) (m : Z -> Z) (stk vfp : Z) : res (Z -> Z) :=
  let* (m', regp) := if flags =? K_STRUCT then let* m' := store lo hi m stk (le_enc 4 rvalue) in Ok (m', stk + 4) else Ok (m, stk) in
  let* s := args_vfp lo hi stk vfp (k_args c) objs (PSt m' regp (stk + 16) false false (v_args (k_vfp c))) in
  Ok (p_mem s).

(** ** ffi_call *)

(** sizeof (struct call_frame) (src/arm/ffi.c:350-357): fp 0, lr 4, rvalue 8, flags 12, closure
    16 *)
Definition frame_size := 20.
(** src/arm/ffi.c:368-384 flags after the test for NULL; [rv]: the result pointer, [None] for
    NULL *)
Definition call_flags (c : acif) (rv : option Z) : Z :=
  match rv with None => if k_flags c =? K_STRUCT then K_STRUCT else K_VOID | Some _ => k_flags c end.
(** src/arm/ffi.c:374-391 rsize *)
Definition call_rsize (c : acif) (rv : option Z) : Z :=
  match rv with
  | None => if k_flags c =? K_STRUCT then ty_size (k_rtype c) else 0
  | Some _ =>
    if k_flags c =? K_VFP_N then 32
    else if (k_flags c =? K_INT) && tcode_eqb (ty_code (k_rtype c)) T_STRUCT then 4
    else 0
  end.
(** cif->abi == FFI_VFP && cif->vfp_used (src/arm/ffi.c:394, 614-618, 683-688) *)
Definition use_vfp (c : acif) : bool := match k_abi c with VFP => negb (v_used (k_vfp c) =? 0) | SYSV => false end.
(** src/arm/ffi.c:393-394 vfp_size *)
Definition vfp_size (c : acif) : Z := if use_vfp c then 64 else 0.
(** src/arm/ffi.c:397 the size given to alloca *)
Definition alloc_size (c : acif) (rv : option Z) : Z := vfp_size c + k_bytes c + frame_size + call_rsize c rv.
(** src/arm/ffi.c:399-404 stack, [base] being the address from alloca *)
Definition stack_at (c : acif) (base : Z) : Z := base + vfp_size c.
(** src/arm/ffi.c:406 frame *)
Definition frame_at (c : acif) (base : Z) : Z := stack_at c base + k_bytes c.
(** src/arm/ffi.c:408-410 new_rvalue; NULL is 0 *)
Definition new_rvalue (c : acif) (rv : option Z) (base : Z) : Z :=
  if call_rsize c rv =? 0 then match rv with Some a => a | None => 0 end else frame_at c base + frame_size.

(** src/arm/ffi.c:364-425 ffi_call_int up to the call of ffi_call_VFP or ffi_call_SYSV: memory
    then.  [objs]: the bytes of the argument objects, which are outside of the memory from
    alloca. *)
Definition call (c : acif) (rv : option Z) (objs : list (list Z)) (closure base : Z) (m : Z -> Z) : res (Z -> Z) :=
  let hi := base + alloc_size c rv in
  let fr := frame_at c base in
  let nr := new_rvalue c rv base in
  let* m1 := store base hi m (fr + 8) (le_enc 4 nr) in
  let* m2 := store base hi m1 (fr + 12) (le_enc 4 (call_flags c rv)) in
  let* m3 := store base hi m2 (fr + 16) (le_enc 4 closure) in
  if use_vfp c then prep_args_vfp base hi c (call_flags c rv) nr objs m3 (stack_at c base) base
  else prep_args_sysv base hi c (call_flags c rv) nr objs m3 (stack_at c base).
(** src/arm/ffi.c:427-428 after the call: the copy of the result; [m]: memory, yields memory *)
Definition copy_back (c : acif) (rv : option Z) (base : Z) (m : Z -> Z) : Z -> Z :=
  match rv with
  | Some a =>
    if new_rvalue c rv base =? a then m
    else wr m a (rd m (new_rvalue c rv base) (Z.to_nat (ty_size (k_rtype c))))
  | None => m
  end.

(** ** Arguments of closures *)

(** src/arm/ffi.c:464-472 the loop of ffi_prep_incoming_args_SYSV: the pointers in avalue *)
Fixpoint incoming_sysv (ts : list ftype) (argp : Z) : list Z :=
  match ts with
  | [] => []
  | t :: r => let p := align_ptr t argp in p :: incoming_sysv r (p + ty_size t)
  end.

(** The local variables of ffi_prep_incoming_args_VFP (src/arm/ffi.c:481-485): regp, argp,
    done_with_regs, stack_used, and the elements of vfp_args from vi on. *)
Record ist : Type := ISt { i_regp : Z; i_argp : Z; i_done : bool; i_used : bool; i_left : list Z }.
(** src/arm/ffi.c:538-541 an argument on the stack of [z] bytes *)
Definition from_stack (t : ftype) (z : Z) (s : ist) : Z * ist :=
  let p := align_ptr t (i_argp s) in
  (p, ISt (i_regp s) (p + z) (i_done s) true (i_left s)).
(** src/arm/ffi.c:497-542 one argument *)
Definition take_vfp1 (stk vfp : Z) (t : ftype) (s : ist) : res (Z * ist) :=
  let* h := vfp_type t in
  match in_vfp h (i_left s) with
  | Some (r, l) => Ok (vfp + r * 4, ISt (i_regp s) (i_argp s) (i_done s) (i_used s) l)
  | None =>
    if negb (i_done s) && (h =? 0) then
      let q := align_ptr t (i_regp s) in
      let z := padded t in
      if (q + z <=? stk + 16) || negb (i_used s) then
        let regp := q + z in
        let argp := if regp >? stk + 16 then regp else i_argp s in
        let over := regp >=? stk + 16 in
        Ok (q, ISt regp argp (if over then true else i_done s) (if over then true else i_used s) (i_left s))
      else Ok (from_stack t z s)
    else Ok (from_stack t (ty_size t) s)
  end.
(** src/arm/ffi.c:496-542 the loop of ffi_prep_incoming_args_VFP *)
Fixpoint incoming_vfp (stk vfp : Z) (ts : list ftype) (s : ist) : res (list Z) :=
  match ts with
  | [] => Ok []
  | t :: r =>
    let* (p, s') := take_vfp1 stk vfp t s in
    let* l := incoming_vfp stk vfp r s' in
    Ok (p :: l)
  end.

(** ffi_closure_inner_SYSV (src/arm/ffi.c:556-567) with ffi_prep_incoming_args_SYSV
    (src/arm/ffi.c:446-475) up to the call of the handler: memory, the result pointer, the
    argument pointers; struct closure_frame has vfp_space at 0, result at 64, argp at 96
    (src/arm/ffi.c:549-554) *)
Definition inner_sysv (c : acif) (frame : Z) (m : Z -> Z) : (Z -> Z) * Z * list Z :=
  let argp := frame + 96 in
  if k_flags c =? K_STRUCT then (m, le_dec (rd m argp 4), incoming_sysv (k_args c) (argp + 4))
  else
    let m' := if negb (ty_size (k_rtype c) =? 0) && (ty_size (k_rtype c) <? 4) then wr m (frame + 64) (le_enc 4 0) else m in
    (m', frame + 64, incoming_sysv (k_args c) argp).
(** ffi_closure_inner_VFP (src/arm/ffi.c:569-580) with ffi_prep_incoming_args_VFP
    (src/arm/ffi.c:477-545) up to the call of the handler: the result pointer and the argument
    pointers *)
Definition inner_vfp (c : acif) (frame : Z) (m : Z -> Z) : res (Z * list Z) :=
  let stk := frame + 96 in
  let '(rvalue, regp) := if k_flags c =? K_STRUCT then (le_dec (rd m stk 4), stk + 4) else (frame + 64, stk) in
  let* l := incoming_vfp stk frame (k_args c) (ISt regp (stk + 16) false false (v_args (k_vfp c))) in
  Ok (rvalue, l).
(** src/arm/ffi.c:556-580 the inner function belonging to the entry point that
    ffi_prep_closure_loc chooses (src/arm/ffi.c:612-618) *)
Definition inner (c : acif) (frame : Z) (m : Z -> Z) : res ((Z -> Z) * Z * list Z) :=
  if use_vfp c then let* (r, l) := inner_vfp c frame m in Ok (m, r, l)
  else Ok (inner_sysv c frame m).
(** What the inner functions return (src/arm/ffi.c:566, 579). *)
Definition inner_code (c : acif) : Z := k_flags c.
