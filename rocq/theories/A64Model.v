(** src/aarch64/ffi.c and src/aarch64/sysv.S: the 64-bit ARM backend (LP64 or LLP64,
    little-endian). *)
From Verif Require Import Base Types.

(** Which system the library is built for; the preprocessor symbols tested are __APPLE__ and
    _WIN32 (src/aarch64/ffi.c:264-266, 291-297, 616-641, 735-739, 822-829). *)
Inductive platform : Type := Linux | Apple | Windows.

(** sizeof(long double) (src/aarch64/ffi.c:36-44, 219). *)
Definition sizeof_ld (p : platform) : Z := match p with Linux => 16 | _ => 8 end.

(** src/aarch64/internal.h:21-62 *)
Definition A_VOID := 0.
(** src/aarch64/internal.h:22 AARCH64_RET_INT64 *)
Definition A_INT64 := 1.
(** src/aarch64/internal.h:23 AARCH64_RET_INT128 *)
Definition A_INT128 := 2.
(** src/aarch64/internal.h:33 AARCH64_RET_S4 *)
Definition A_S4 := 8.
(** src/aarch64/internal.h:34 AARCH64_RET_S3 *)
Definition A_S3 := 9.
(** src/aarch64/internal.h:35 AARCH64_RET_S2 *)
Definition A_S2 := 10.
(** src/aarch64/internal.h:36 AARCH64_RET_S1 *)
Definition A_S1 := 11.
(** src/aarch64/internal.h:38 AARCH64_RET_D4 *)
Definition A_D4 := 12.
(** src/aarch64/internal.h:39 AARCH64_RET_D3 *)
Definition A_D3 := 13.
(** src/aarch64/internal.h:40 AARCH64_RET_D2 *)
Definition A_D2 := 14.
(** src/aarch64/internal.h:41 AARCH64_RET_D1 *)
Definition A_D1 := 15.
(** src/aarch64/internal.h:43 AARCH64_RET_Q4 *)
Definition A_Q4 := 16.
(** src/aarch64/internal.h:44 AARCH64_RET_Q3 *)
Definition A_Q3 := 17.
(** src/aarch64/internal.h:45 AARCH64_RET_Q2 *)
Definition A_Q2 := 18.
(** src/aarch64/internal.h:46 AARCH64_RET_Q1 *)
Definition A_Q1 := 19.
(** src/aarch64/internal.h:49 AARCH64_RET_UINT8 *)
Definition A_UINT8 := 20.
(** src/aarch64/internal.h:50 AARCH64_RET_UINT16 *)
Definition A_UINT16 := 22.
(** src/aarch64/internal.h:51 AARCH64_RET_UINT32 *)
Definition A_UINT32 := 24.
(** src/aarch64/internal.h:53 AARCH64_RET_SINT8 *)
Definition A_SINT8 := 26.
(** src/aarch64/internal.h:54 AARCH64_RET_SINT16 *)
Definition A_SINT16 := 28.
(** src/aarch64/internal.h:55 AARCH64_RET_SINT32 *)
Definition A_SINT32 := 30.
(** src/aarch64/internal.h:57 AARCH64_RET_MASK *)
Definition A_RET_MASK := 31.
(** src/aarch64/internal.h:59 AARCH64_RET_IN_MEM *)
Definition A_IN_MEM := 2 ^ 5.
(** src/aarch64/internal.h:60 AARCH64_RET_NEED_COPY *)
Definition A_NEED_COPY := 2 ^ 6.
(** src/aarch64/internal.h:62-63 AARCH64_FLAG_ARG_V *)
Definition A_ARG_V := 2 ^ 7.
(** src/aarch64/internal.h:64 AARCH64_FLAG_VARARG *)
Definition A_VARARG := 2 ^ 8.
(** src/aarch64/internal.h:66 N_X_ARG_REG *)
Definition N_X := 8.
(** src/aarch64/internal.h:67 N_V_ARG_REG *)
Definition N_V := 8.
(** src/aarch64/internal.h:68 CALL_CONTEXT_SIZE *)
Definition CTX := 16 * N_V + 8 * N_X.

(** src/aarch64/ffitarget.h:44-55 ffi_abi *)
Definition A_SYSV := 1.
(** src/aarch64/ffitarget.h:44-55 FFI_WIN64 *)
Definition A_WIN64 := 2.

(** t == FFI_TYPE_STRUCT || t == FFI_TYPE_COMPLEX (src/aarch64/ffi.c:108, 134, 237) *)
Definition aggregate (c : Z) : bool := (c =? 13) || (c =? 15).

(** src/aarch64/ffi.c:98-118 is_hfa0; -1 for no scalar member *)
Fixpoint is_hfa0 (t : ftype) : Z :=
  match t with
  | FT _ _ _ es =>
    (fix go (l : list ftype) (ret : Z) : Z :=
       match l with
       | [] => ret
       | e :: r =>
         let c := tcode_num (ty_code e) in
         if aggregate c then let c' := is_hfa0 e in if c' <? 0 then go r c' else c' else c
       end) es (-1)
  end.

(** src/aarch64/ffi.c:123-143 is_hfa1 *)
Fixpoint is_hfa1 (t : ftype) (candidate : Z) : bool :=
  match t with
  | FT _ _ _ es =>
    (fix go (l : list ftype) : bool :=
       match l with
       | [] => true
       | e :: r =>
         let c := tcode_num (ty_code e) in
         if aggregate c then if is_hfa1 e candidate then go r else false
         else if c =? candidate then go r else false
       end) es
  end.

(** src/aarch64/ffi.c:194-203 the first scalar below the elements; running over the end of
    the array is UB *)
Fixpoint first_scalar (es : list ftype) : res Z :=
  match es with
  | [] => UB
  | e :: r => let c := is_hfa0 e in if 0 <=? c then Ok c else first_scalar r
  end.

(** src/aarch64/ffi.c:153-245 is_vfp_type *)
Definition is_vfp (p : platform) (t : ftype) : res Z :=
  let code := tcode_num (ty_code t) in
  if (code =? 2) || (code =? 3) || (code =? 4) then Ok (code * 4 + 3)
  else if code =? 15 then
    match ty_elems t with
    | [] => UB
    | e :: _ =>
      let c := tcode_num (ty_code e) in
      if (c =? 2) || (c =? 3) || (c =? 4) then Ok (c * 4 + 2) else Ok 0
    end
  else if negb (code =? 13) then Ok 0
  else
    let size := ty_size t in
    if (size <? 4) || (size >? 64) then Ok 0
    else
      match ty_elems t with
      | [] => UB
      | e0 :: _ =>
        let c0 := tcode_num (ty_code e0) in
        let* cand := if aggregate c0 then first_scalar (ty_elems t) else Ok c0 in
        let unit := if cand =? 2 then 4 else if cand =? 3 then 8 else if cand =? 4 then sizeof_ld p else 0 in
        if unit =? 0 then Ok 0
        else
          let count := size / unit in
          if negb (size =? count * unit) then Ok 0
          else if count >? 4 then Ok 0
          else if is_hfa1 t cand then Ok (cand * 4 + (4 - count))
          else Ok 0
      end.

(** src/aarch64/ffi.c:257-267 struct arg_state *)
Record ast : Type := ASt {
  a_ngrn : Z;
  a_nsrn : Z;
  a_nsaa : Z;
  a_area : Z;
  a_var : bool
}.

(** src/aarch64/ffi.c:270-280 arg_init *)
Definition arg_init (size : Z) : ast := ASt 0 0 0 size false.

(** Assignments to single fields (src/aarch64/ffi.c:315, 536, 727-731, 753-776, 799-810). *)
Definition with_ngrn (n : Z) (s : ast) : ast := ASt n (a_nsrn s) (a_nsaa s) (a_area s) (a_var s).
(** state->nsrn = ... (src/aarch64/ffi.c:763, 775, 826) *)
Definition with_nsrn (n : Z) (s : ast) : ast := ASt (a_ngrn s) n (a_nsaa s) (a_area s) (a_var s).
(** The end of the area for copies (src/aarch64/ffi.c:311-315). *)
Definition with_area (n : Z) (s : ast) : ast := ASt (a_ngrn s) (a_nsrn s) (a_nsaa s) n (a_var s).

(** src/aarch64/ffi.c:282-303 allocate_to_stack; the result is the offset in the stack
    arguments *)
Definition allocate_to_stack (p : platform) (s : ast) (alignment size : Z) : Z * ast :=
  let al := match p with
            | Apple => if a_var s && (alignment <? 8) then 8 else alignment
            | _ => if alignment <? 8 then 8 else alignment
            end in
  let o := ffi_align (a_nsaa s) al in
  (o, ASt (a_ngrn s) (a_nsrn s) (wrap64 (o + size)) (a_area s) (a_var s)).

(** src/aarch64/ffi.c:320-378 extend_integer_type, the value as a 64-bit word *)
Definition extend_integer (a : list Z) (c : tcode) : res Z :=
  let rd n := of_option (get_range a 0 n) in
  match c with
  | T_UINT8 => let* d := rd 1 in Ok (le_dec d)
  | T_SINT8 => let* d := rd 1 in Ok (wrap64 (to_signed 8 (le_dec d)))
  | T_UINT16 => let* d := rd 2 in Ok (le_dec d)
  | T_SINT16 => let* d := rd 2 in Ok (wrap64 (to_signed 16 (le_dec d)))
  | T_UINT32 => let* d := rd 4 in Ok (le_dec d)
  | T_INT | T_SINT32 => let* d := rd 4 in Ok (wrap64 (to_signed 32 (le_dec d)))
  | T_UINT64 | T_SINT64 | T_POINTER => let* d := rd 8 in Ok (le_dec d)
  | _ => Abort
  end.

(** Size and number of the elements meant by an is_vfp_type result
    (src/aarch64/internal.h:31-45). *)
Definition vfp_unit (h : Z) : Z := if h <? 12 then 4 else if h <? 16 then 8 else 16.
(** Their number (src/aarch64/internal.h:31-45, src/aarch64/ffi.c:222). *)
Definition vfp_count (h : Z) : Z := 4 - h mod 4.

(** src/aarch64/ffi.c:383-448 extend_hfa_type: element [k] goes to the low bytes of the k-th
    16-byte slot from [dest] on, the rest of the slot is zeroed; only called with h of a
    vector type *)
Fixpoint extend_hfa (blk : list Z) (dest : Z) (src : list Z) (unit : Z) (count : nat) : res (list Z) :=
  match count with
  | O => Ok blk
  | S n =>
    let* blk1 := extend_hfa blk dest src unit n in
    let* d := of_option (get_range src (unit * Z.of_nat n) unit) in
    of_option (set_range blk1 (dest + 16 * Z.of_nat n) (d ++ repeat 0 (Z.to_nat (16 - unit))))
  end.

(** The bytes st2, st3, st4 gather from 16-byte slots (src/aarch64/ffi.c:456-520). *)
Fixpoint gather_hfa (blk : list Z) (off unit : Z) (count : nat) : res (list Z) :=
  match count with
  | O => Ok []
  | S n =>
    let* l := gather_hfa blk off unit n in
    let* d := of_option (get_range blk (off + 16 * Z.of_nat n) unit) in
    Ok (l ++ d)
  end.

(** src/aarch64/ffi.c:454-521 compress_hfa_type with dest equal to reg, as in all its uses
    (lines 1049, 1065): single elements and quad elements stay where they are *)
Definition compress_hfa (blk : list Z) (off h : Z) : res (list Z) :=
  if (vfp_count h =? 1) || (vfp_unit h =? 16) then Ok blk
  else
    let* d := gather_hfa blk off (vfp_unit h) (Z.to_nat (vfp_count h)) in
    of_option (set_range blk off d).

(** A call interface (include/ffi.h.in:239-249, with the extra field of
    src/aarch64/ffitarget.h:85). *)
Record acif : Type := ACif {
  k_abi : Z;
  k_args : list ftype;
  k_rtype : ftype;
  k_bytes : Z;
  k_flags : Z;
  k_nfixed : Z
}.

(** STACK_ARG_SIZE (src/prep_cif.c:32-35). *)
Definition stack_arg_size (n : Z) : Z := ffi_align n 8.

(** src/prep_cif.c:182-204 bytes reserved for the arguments, types already laid out *)
Fixpoint core_bytes_args (ts : list ftype) (bytes : Z) : Z :=
  match ts with
  | [] => bytes
  | t :: r =>
    let b := if Z.land (ty_align t - 1) bytes =? 0 then bytes else wrap32 (ffi_align bytes (ty_align t)) in
    core_bytes_args r (wrap32 (b + wrap32 (stack_arg_size (ty_size t))))
  end.

(** src/prep_cif.c:152-207 cif->bytes when the machine dependent part is called *)
Definition core_bytes (rt : ftype) (ts : list ftype) : Z :=
  core_bytes_args ts (match ty_code rt with T_STRUCT => stack_arg_size 8 | _ => 0 end).

(** src/aarch64/ffi.c:547-604 return flags, and the bytes added for results in memory *)
Definition ret_flags (p : platform) (rt : ftype) : res (Z * Z) :=
  match ty_code rt with
  | T_VOID => Ok (A_VOID, 0)
  | T_UINT8 => Ok (A_UINT8, 0)
  | T_UINT16 => Ok (A_UINT16, 0)
  | T_UINT32 => Ok (A_UINT32, 0)
  | T_SINT8 => Ok (A_SINT8, 0)
  | T_SINT16 => Ok (A_SINT16, 0)
  | T_INT | T_SINT32 => Ok (A_SINT32, 0)
  | T_SINT64 | T_UINT64 => Ok (A_INT64, 0)
  | T_POINTER => Ok (A_INT64, 0)
  | T_FLOAT | T_DOUBLE | T_LONGDOUBLE | T_STRUCT | T_COMPLEX =>
    let* h := is_vfp p rt in
    if negb (h =? 0) then Ok (h, 0)
    else
      let s := ty_size rt in
      if s >? 16 then Ok (Z.lor A_VOID A_IN_MEM, 8)
      else if s =? 16 then Ok (A_INT128, 0)
      else if s =? 8 then Ok (A_INT64, 0)
      else Ok (Z.lor A_INT128 A_NEED_COPY, 0)
  end.

(** src/aarch64/ffi.c:606-611 does any argument use a vector register? *)
Fixpoint any_vfp (p : platform) (ts : list ftype) : res bool :=
  match ts with
  | [] => Ok false
  | t :: r => let* h := is_vfp p t in if negb (h =? 0) then Ok true else any_vfp p r
  end.

(** src/aarch64/ffi.c:540-621 ffi_prep_cif_machdep *)
Definition machdep (p : platform) (abi : Z) (rt : ftype) (ts : list ftype) (bytes : Z) : res acif :=
  let* (fl, extra) := ret_flags p rt in
  let* v := any_vfp p ts in
  let flags := if (v : bool) then Z.lor fl A_ARG_V else fl in
  Ok (ACif abi ts rt (wrap32 (ffi_align (bytes + extra) 16)) flags 0).

(** src/aarch64/ffi.c:623-641 ffi_prep_cif_machdep_var *)
Definition machdep_var (p : platform) (abi : Z) (rt : ftype) (ts : list ftype) (bytes nfixed : Z) : res acif :=
  let* c := machdep p abi rt ts bytes in
  Ok (match p with
      | Apple => ACif (k_abi c) (k_args c) (k_rtype c) (k_bytes c) (k_flags c) nfixed
      | _ => ACif (k_abi c) (k_args c) (k_rtype c) (k_bytes c) (Z.lor (k_flags c) A_VARARG) (k_nfixed c)
      end).

(** ffi_prep_cif and ffi_prep_cif_var on laid out types (src/prep_cif.c:110-252); [fixed] is
    the number of fixed arguments of a variadic signature *)
Definition prep (p : platform) (abi : Z) (fixed : option Z) (rt : ftype) (ts : list ftype) : res acif :=
  match fixed with
  | None => machdep p abi rt ts (core_bytes rt ts)
  | Some n => machdep_var p abi rt ts (core_bytes rt ts) n
  end.

(** ** Calls *)

(** isvariadic && cif->abi == FFI_WIN64 (src/aarch64/ffi.c:668-672, 754, 1035) *)
Definition win_variadic (c : acif) : bool :=
  (k_abi c =? A_WIN64) && negb (Z.land (k_flags c) A_VARARG =? 0).

(** src/aarch64/ffi.c:723-742 label do_pointer: an integer or pointer [a] of type code [c],
    size [s], going to a register or to a stack slot aligned to [al] *)
Definition put_int (p : platform) (c : tcode) (al s : Z) (a : list Z) (blk : list Z) (st : ast)
  : res (list Z * ast) :=
  let* ext := extend_integer a c in
  if a_ngrn st <? N_X then
    let* b := of_option (set_range blk (16 * N_V + 8 * a_ngrn st) (le_enc 8 ext)) in
    Ok (b, with_ngrn (a_ngrn st + 1) st)
  else
    let '(o, st1) := allocate_to_stack p st al s in
    let* d := match p with Apple => of_option (get_range a 0 s) | _ => Ok (le_enc 8 ext) end in
    let* b := of_option (set_range blk (CTX + o) d) in
    Ok (b, with_ngrn N_X st1).

(** src/aarch64/ffi.c:698-820 one argument of ffi_call_int.  [blk] is the memory allocated by
    alloca, at address [base]: the call context, then the stack arguments, the frame and a
    temporary for the result; [obj] is the argument object. *)
Definition put_arg (p : platform) (win : bool) (base : Z) (t : ftype) (obj : list Z) (blk : list Z) (st : ast)
  : res (list Z * ast) :=
  let s := ty_size t in
  match ty_code t with
  | T_VOID => Ok (blk, st)
  | T_FLOAT | T_DOUBLE | T_LONGDOUBLE | T_STRUCT | T_COMPLEX =>
    let copy (off : Z) (st' : ast) :=
      let* d := of_option (get_range obj 0 s) in
      let* b := of_option (set_range blk off d) in
      Ok (b, st') in
    let* h := is_vfp p t in
    if negb (h =? 0) then
      let elems := vfp_count h in
      if win then
        if a_ngrn st + elems <=? N_X then
          let* b := extend_hfa blk (16 * N_V + 8 * a_ngrn st) obj (vfp_unit h) (Z.to_nat elems) in
          Ok (b, with_ngrn (a_ngrn st + elems) st)
        else
          let '(o, st1) := allocate_to_stack p (with_nsrn N_X st) (ty_align t) s in
          copy (CTX + o) st1
      else
        if a_nsrn st + elems <=? N_V then
          let* b := extend_hfa blk (16 * a_nsrn st) obj (vfp_unit h) (Z.to_nat elems) in
          Ok (b, with_nsrn (a_nsrn st + elems) st)
        else
          let '(o, st1) := allocate_to_stack p (with_nsrn N_V st) (ty_align t) s in
          copy (CTX + o) st1
    else if s >? 16 then
      let dest := ffi_align_down (wrap64 (a_area st - s)) (ty_align t) in
      let* d := of_option (get_range obj 0 s) in
      let* b := of_option (set_range blk (CTX + dest) d) in
      put_int p T_POINTER (ty_align t) 8 (le_enc 8 (base + CTX + dest)) b (with_area dest st)
    else
      let n := (s + 7) / 8 in
      if a_ngrn st + n <=? N_X then copy (16 * N_V + 8 * a_ngrn st) (with_ngrn (a_ngrn st + n) st)
      else
        let '(o, st1) := allocate_to_stack p (with_ngrn N_X st) (ty_align t) s in
        copy (CTX + o) st1
  | _ => put_int p (ty_code t) (ty_align t) s obj blk st
  end.

(** src/aarch64/ffi.c:822-829, 1113-1120 after the last fixed argument on Apple systems *)
Definition after_arg (p : platform) (nfixed i : Z) (st : ast) : ast :=
  match p with
  | Apple => if i + 1 =? nfixed then ASt N_X N_V (a_nsaa st) (a_area st) true else st
  | _ => st
  end.

(** src/aarch64/ffi.c:695-830 the argument loop of ffi_call_int *)
Fixpoint put_args (p : platform) (win : bool) (nfixed base i : Z) (ts : list ftype) (objs : list (list Z))
  (blk : list Z) (st : ast) : res (list Z * ast) :=
  match ts with
  | [] => Ok (blk, st)
  | t :: r =>
    match objs with
    | [] => UB
    | o :: os =>
      let* (b, s) := put_arg p win base t o blk st in
      put_args p win nfixed base (i + 1) r os b (after_arg p nfixed i s)
    end
  end.

(** What a called function sees: the argument registers as bytes, the registers x8 and x18,
    the stack pointer, and memory, read at an address, so many bytes
    (src/aarch64/sysv.S:113-141). *)
Record astate : Type := AState {
  s_x : list Z;
  s_v : list Z;
  s_x8 : Z;
  s_x18 : Z;
  s_sp : Z;
  s_read : Z -> Z -> option (list Z)
}.

(** src/aarch64/ffi.c:651-832 ffi_call_int up to the call instruction of ffi_call_SYSV
    (src/aarch64/sysv.S:92-141).  [rv]: the result pointer, [None] for NULL; [g_blk]: the
    memory given by alloca (call context, cif->bytes, 40 bytes of frame, a temporary), at
    address [base]; [g_v]: the vector registers before; [frame]: what ffi_call_SYSV saves in
    the frame.  Yields the state at entry of the function, the flags and the result pointer
    used. *)
Definition call (p : platform) (c : acif) (rv : option Z) (objs : list (list Z)) (chain base : Z)
  (g_blk g_v frame : list Z) : res (astate * Z * option Z) :=
  let flags0 := if Z.land (k_flags c) A_VARARG =? 0 then k_flags c else k_flags c - A_VARARG in
  let in_mem := negb (Z.land flags0 A_IN_MEM =? 0) in
  let flags := match rv with
               | None => if in_mem then flags0 else Z.land flags0 A_ARG_V
               | Some _ => flags0
               end in
  let rsize := match rv with
               | None => if in_mem then ty_size (k_rtype c) else 0
               | Some _ => if negb in_mem && negb (Z.land flags0 A_NEED_COPY =? 0) then 16 else 0
               end in
  let rvalue := if rsize =? 0 then rv else Some (base + CTX + k_bytes c + 40) in
  let* (blk, _) := put_args p (win_variadic c) (k_nfixed c) base 0 (k_args c) objs g_blk (arg_init (k_bytes c)) in
  let* blk1 := of_option (set_range blk (CTX + k_bytes c) frame) in
  let* v := of_option (get_range blk1 0 (16 * N_V)) in
  let* x := of_option (get_range blk1 (16 * N_V) (8 * N_X)) in
  Ok (AState x (if Z.land flags A_ARG_V =? 0 then g_v else v)
        (match rvalue with Some r => r | None => 0 end) chain (base + CTX)
        (fun a n => get_range blk1 (a - base) n),
      flags, rvalue).

(** How much alloca allocates (src/aarch64/ffi.c:677-690). *)
Definition call_size (c : acif) (rv : option Z) : Z :=
  let in_mem := negb (Z.land (k_flags c) A_IN_MEM =? 0) in
  CTX + k_bytes c + 40 +
  match rv with
  | None => if in_mem then ty_size (k_rtype c) else 0
  | Some _ => if negb in_mem && negb (Z.land (k_flags c) A_NEED_COPY =? 0) then 16 else 0
  end.

(** The registers results come in: x0 and x1 as 16 bytes, v0 to v3 as 64 bytes
    (src/aarch64/sysv.S:163-290). *)
Record aret : Type := ARet { r_x : list Z; r_v : list Z }.

(** src/aarch64/sysv.S:143-294 storing the result; [buf] is the memory at rvalue *)
Definition store_ret (flags : Z) (r : aret) (buf : list Z) : res (list Z) :=
  let code := Z.land flags A_RET_MASK in
  let st (off : Z) (d : list Z) (b : list Z) := of_option (set_range b off d) in
  let x0 := firstn 8 (r_x r) in
  let v (i : nat) (n : nat) := firstn n (skipn (16 * i) (r_v r)) in
  let w := le_dec x0 in
  if code =? A_VOID then Ok buf
  else if code =? A_INT64 then st 0 x0 buf
  else if code =? A_INT128 then st 0 (firstn 16 (r_x r)) buf
  else if code =? A_S4 then st 0 (v 0 4 ++ v 1 4 ++ v 2 4 ++ v 3 4)%nat buf
  else if code =? A_S3 then st 0 (v 0 4 ++ v 1 4 ++ v 2 4)%nat buf
  else if code =? A_S2 then st 0 (v 0 4 ++ v 1 4)%nat buf
  else if code =? A_S1 then st 0 (v 0 4)%nat buf
  else if code =? A_D4 then st 0 (v 0 8 ++ v 1 8 ++ v 2 8 ++ v 3 8)%nat buf
  else if code =? A_D3 then st 0 (v 0 8 ++ v 1 8 ++ v 2 8)%nat buf
  else if code =? A_D2 then st 0 (v 0 8 ++ v 1 8)%nat buf
  else if code =? A_D1 then st 0 (v 0 8)%nat buf
  else if code =? A_Q4 then
    let* b1 := st 48 (v 3 16)%nat buf in let* b2 := st 32 (v 2 16)%nat b1 in st 0 (v 0 16 ++ v 1 16)%nat b2
  else if code =? A_Q3 then let* b2 := st 32 (v 2 16)%nat buf in st 0 (v 0 16 ++ v 1 16)%nat b2
  else if code =? A_Q2 then st 0 (v 0 16 ++ v 1 16)%nat buf
  else if code =? A_Q1 then st 0 (v 0 16)%nat buf
  else if code =? A_UINT8 then st 0 (le_enc 8 (w mod 2 ^ 8)) buf
  else if code =? A_UINT16 then st 0 (le_enc 8 (w mod 2 ^ 16)) buf
  else if code =? A_UINT32 then st 0 (le_enc 8 (w mod 2 ^ 32)) buf
  else if code =? A_SINT8 then st 0 (le_enc 8 (wrap64 (to_signed 8 w))) buf
  else if code =? A_SINT16 then st 0 (le_enc 8 (wrap64 (to_signed 16 w))) buf
  else if code =? A_SINT32 then st 0 (le_enc 8 (wrap64 (to_signed 32 w))) buf
  else if (code =? 21) || (code =? 23) || (code =? 25) || (code =? 27) || (code =? 29) || (code =? 31) then Ok buf
  else Abort.

(** src/aarch64/ffi.c:832-835 the end of ffi_call_int: [tmp] is the temporary of line 693
    when a copy is needed, [buf] the caller's result buffer *)
Definition finish (c : acif) (flags : Z) (r : aret) (tmp buf : list Z) : res (list Z) :=
  if Z.land flags A_NEED_COPY =? 0 then store_ret flags r buf
  else
    let* t := store_ret flags r tmp in
    let* d := of_option (get_range t 0 (ty_size (k_rtype c))) in
    of_option (set_range buf 0 d).

(** ** Closures *)

(** An argument pointer of the handler: into the frame of the closure entry code (offset
    from the call context), or an address (src/aarch64/ffi.c:1002-1111). *)
Inductive aptr : Type := PFrame (off : Z) | PAddr (a : Z).

(** src/aarch64/ffi.c:528-538 allocate_int_to_reg_or_stack *)
Definition int_reg_or_stack (p : platform) (sp size : Z) (st : ast) : aptr * ast :=
  if a_ngrn st <? N_X then (PFrame (16 * N_V + 8 * a_ngrn st), with_ngrn (a_ngrn st + 1) st)
  else let '(o, st1) := allocate_to_stack p (with_ngrn N_X st) size size in (PAddr (sp + o), st1).

(** Load of a pointer through an argument pointer (src/aarch64/ffi.c:1087-1089). *)
Definition load_ptr (m : astate) (blk : list Z) (q : aptr) : res Z :=
  match q with
  | PFrame off => let* d := of_option (get_range blk off 8) in Ok (le_dec d)
  | PAddr a => let* d := of_option (s_read m a 8) in Ok (le_dec d)
  end.

(** src/aarch64/ffi.c:1002-1111 one argument of ffi_closure_SYSV_inner.  [blk] is the call
    context followed by the result slot. *)
Definition get_arg (p : platform) (win : bool) (m : astate) (t : ftype) (blk : list Z) (st : ast)
  : res (list aptr * list Z * ast) :=
  let s := ty_size t in
  match ty_code t with
  | T_VOID => Ok ([], blk, st)
  | T_FLOAT | T_DOUBLE | T_LONGDOUBLE | T_STRUCT | T_COMPLEX =>
    let* h := is_vfp p t in
    if negb (h =? 0) then
      let n := vfp_count h in
      if win then
        if a_ngrn st + n <=? N_X then
          let reg := 16 * N_V + 8 * a_ngrn st in
          let* b := compress_hfa blk reg h in
          Ok ([PFrame reg], b, with_ngrn (a_ngrn st + n) st)
        else
          let '(o, st1) := allocate_to_stack p (with_ngrn N_X (with_nsrn N_V st)) (ty_align t) s in
          Ok ([PAddr (s_sp m + o)], blk, st1)
      else
        if a_nsrn st + n <=? N_V then
          let reg := 16 * a_nsrn st in
          let* b := compress_hfa blk reg h in
          Ok ([PFrame reg], b, with_nsrn (a_nsrn st + n) st)
        else
          let '(o, st1) := allocate_to_stack p (with_nsrn N_V st) (ty_align t) s in
          Ok ([PAddr (s_sp m + o)], blk, st1)
    else if s >? 16 then
      let '(q, st1) := int_reg_or_stack p (s_sp m) 8 st in
      let* a := load_ptr m blk q in
      Ok ([PAddr a], blk, st1)
    else
      let n := (s + 7) / 8 in
      if a_ngrn st + n <=? N_X then
        Ok ([PFrame (16 * N_V + 8 * a_ngrn st)], blk, with_ngrn (a_ngrn st + n) st)
      else
        let '(o, st1) := allocate_to_stack p (with_ngrn N_X st) (ty_align t) s in
        Ok ([PAddr (s_sp m + o)], blk, st1)
  | _ => let '(q, st1) := int_reg_or_stack p (s_sp m) s st in Ok ([q], blk, st1)
  end.

(** src/aarch64/ffi.c:1000-1121 the argument loop of ffi_closure_SYSV_inner; entries of
    avalue for void arguments stay unset and are left out here *)
Fixpoint get_args (p : platform) (win : bool) (nfixed : Z) (m : astate) (i : Z) (ts : list ftype)
  (blk : list Z) (st : ast) : res (list aptr * list Z) :=
  match ts with
  | [] => Ok ([], blk)
  | t :: r =>
    let* (q, b, s) := get_arg p win m t blk st in
    let* (l, b') := get_args p win nfixed m (i + 1) r b (after_arg p nfixed i s) in
    Ok (q ++ l, b')
  end.

(** Where the handler puts the result: the slot of the closure frame or the caller's
    memory (src/aarch64/ffi.c:1123-1126). *)
Inductive rptr : Type := RSlot | RCaller (a : Z).

(** src/aarch64/sysv.S:324-379 and ffi.c:864-885, 981-1129: the entry code chosen by
    ffi_prep_closure_loc saves the registers, ffi_closure_SYSV_inner finds the arguments.
    [g_v]: the frame where vector registers are not saved, [slot]: the 64 bytes of the result
    slot.  Yields the argument pointers, the frame the handler sees, the result pointer and the
    flags. *)
Definition closure (p : platform) (c : acif) (m : astate) (g_v slot : list Z)
  : res (list aptr * list Z * rptr * Z) :=
  let flags := if Z.land (k_flags c) A_VARARG =? 0 then k_flags c else k_flags c - A_VARARG in
  let v := if Z.land (k_flags c) A_ARG_V =? 0 then g_v else s_v m in
  let* (l, blk) := get_args p (win_variadic c) (k_nfixed c) m 0 (k_args c) (v ++ s_x m ++ slot) (arg_init (k_bytes c)) in
  Ok (l, blk, (if Z.land flags A_IN_MEM =? 0 then RSlot else RCaller (s_x8 m)), flags).

(** src/aarch64/sysv.S:420-466 ldp and ldr of vector registers: [n] registers are loaded from
    consecutive [unit] byte pieces of the slot; a load zeroes the rest of the register. *)
Fixpoint load_vs (slot : list Z) (unit : Z) (n : nat) : res (list Z) :=
  match n with
  | O => Ok []
  | S j =>
    let* a := load_vs slot unit j in
    let* d := of_option (get_range slot (unit * Z.of_nat j) unit) in
    Ok (a ++ d ++ repeat 0 (16 - length d))
  end.

(** src/aarch64/sysv.S:381-519 loading the result after the handler; [r]: the registers
    before *)
Definition load_ret (flags : Z) (slot : list Z) (r : aret) : res aret :=
  let code := Z.land flags A_RET_MASK in
  let rd (off n : Z) := of_option (get_range slot off n) in
  let x0 (w : Z) := Ok (ARet (le_enc 8 w ++ skipn 8 (r_x r)) (r_v r)) in
  let vs (n : nat) (unit : Z) :=
    let* l := load_vs slot unit n in
    Ok (ARet (r_x r) (l ++ skipn (16 * n) (r_v r))) in
  if code =? A_VOID then Ok r
  else if code =? A_INT64 then let* d := rd 0 8 in Ok (ARet (d ++ skipn 8 (r_x r)) (r_v r))
  else if code =? A_INT128 then let* d := rd 0 16 in Ok (ARet d (r_v r))
  else if code =? A_S4 then vs 4%nat 4 else if code =? A_S3 then vs 3%nat 4
  else if code =? A_S2 then vs 2%nat 4 else if code =? A_S1 then vs 1%nat 4
  else if code =? A_D4 then vs 4%nat 8 else if code =? A_D3 then vs 3%nat 8
  else if code =? A_D2 then vs 2%nat 8 else if code =? A_D1 then vs 1%nat 8
  else if code =? A_Q4 then vs 4%nat 16 else if code =? A_Q3 then vs 3%nat 16
  else if code =? A_Q2 then vs 2%nat 16 else if code =? A_Q1 then vs 1%nat 16
  else if code =? A_UINT8 then let* d := rd 0 1 in x0 (le_dec d)
  else if code =? A_UINT16 then let* d := rd 0 2 in x0 (le_dec d)
  else if code =? A_UINT32 then let* d := rd 0 4 in x0 (le_dec d)
  else if code =? A_SINT8 then let* d := rd 0 1 in x0 (wrap64 (to_signed 8 (le_dec d)))
  else if code =? A_SINT16 then let* d := rd 0 2 in x0 (wrap64 (to_signed 16 (le_dec d)))
  else if code =? A_SINT32 then let* d := rd 0 4 in x0 (wrap64 (to_signed 32 (le_dec d)))
  else if code =? 31 then Ok r
  else Abort.

(** What the handler reads through an argument pointer (src/aarch64/ffi.c:1126). *)
Definition read_aptr (m : astate) (blk : list Z) (q : aptr) (n : Z) : option (list Z) :=
  match q with
  | PFrame off => get_range blk off n
  | PAddr a => s_read m a n
  end.
