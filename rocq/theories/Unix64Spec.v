(** The System V x86-64 psABI as far as argument and result passing is concerned,
    written without reference to libffi's code. *)
From Verif Require Import Base Types LayoutSpec BaseFacts.

(** ** Classification on the flattened member list *)

(** Kinds of scalar members. *)
Inductive kind : Type := KInt | KSse | KX87.

(** A scalar member: offset, size, kind. *)
Definition scalar : Type := (Z * Z * kind)%type.

(** Kind of a scalar type code. *)
Definition kind_of (c : tcode) : kind :=
  match c with
  | T_FLOAT | T_DOUBLE => KSse
  | T_LONGDOUBLE => KX87
  | _ => KInt
  end.

(** Scalar members of a type placed at offset [off]; a complex number is a pair. *)
Fixpoint flatten (t : ftype) (off : Z) : list scalar :=
  match t with
  | FT T_STRUCT _ _ es =>
    (fix members (l : list ftype) (o : Z) : list scalar :=
       match l with
       | [] => []
       | e :: r => let o' := round_up o (ty_align e) in
                   flatten e o' ++ members r (o' + ty_size e)
       end) es off
  | FT T_COMPLEX _ _ (e :: _) =>
    [(off, ty_size e, kind_of (ty_code e)); (off + ty_size e, ty_size e, kind_of (ty_code e))]
  | FT c s _ _ => [(off, s, kind_of c)]
  end.

(** Does the scalar occupy a byte of eightbyte [k]? *)
Definition touches8 (s : scalar) (k : Z) : bool :=
  let '(o, n, _) := s in (o <? 8 * k + 8) && (8 * k <? o + n).

(** Class of an eightbyte: INTEGER if any integer member lies in it, else SSE. *)
Inductive eclass : Type := EInt | ESse | ENone.
Definition is_int (s : scalar) : bool := match s with (_, _, KInt) => true | _ => false end.
Definition is_sse (s : scalar) : bool := match s with (_, _, KSse) => true | _ => false end.
Definition is_x87 (s : scalar) : bool := match s with (_, _, KX87) => true | _ => false end.
Definition eightbyte (ss : list scalar) (k : Z) : eclass :=
  if existsb (fun s => is_int s && touches8 s k) ss then EInt
  else if existsb (fun s => is_sse s && touches8 s k) ss then ESse
  else ENone.

(** Number of eightbytes of a size. *)
Definition eightbytes (size : Z) : Z := (size + 7) / 8.

Fixpoint zseq (start : Z) (n : nat) : list Z :=
  match n with O => [] | S m => start :: zseq (start + 1) m end.

(** How a type is passed: in memory, in registers by eightbyte, as x87 (one long
    double, or a complex long double). *)
Inductive passing : Type :=
| PMemory
| PRegs (l : list eclass)
| PX87
| PX87x2.

Definition passing_of (t : ftype) : passing :=
  match t with
  | FT T_COMPLEX _ _ (FT T_LONGDOUBLE _ _ _ :: _) => PX87x2
  | _ =>
    if ty_size t >? 16 then PMemory
    else if existsb is_x87 (flatten t 0) then PX87
    else PRegs (map (eightbyte (flatten t 0)) (zseq 0 (Z.to_nat (eightbytes (ty_size t)))))
  end.

(** ** Argument locations *)

(** Where one eightbyte lives. *)
Inductive reg : Type := Gpr (i : Z) | Xmm (i : Z) | NoReg.

Inductive location : Type :=
| InRegs (l : list reg)
| OnStack (off : Z).

Definition is_eint (c : eclass) : bool := match c with EInt => true | _ => false end.
Definition is_esse (c : eclass) : bool := match c with ESse => true | _ => false end.
Definition count {A} (p : A -> bool) (l : list A) : Z := zlen (filter p l).

(** Registers for a list of eightbytes, from general register [g] and vector register
    [x] on. *)
Fixpoint take_regs (l : list eclass) (g x : Z) : list reg :=
  match l with
  | [] => []
  | EInt :: r => Gpr g :: take_regs r (g + 1) x
  | ESse :: r => Xmm x :: take_regs r g (x + 1)
  | ENone :: r => NoReg :: take_regs r g x
  end.

(** Locations of the arguments of a call: an argument gets registers only if all its
    eightbytes do (6 general, 8 vector registers), otherwise the next stack slot,
    aligned to its alignment, at least 8.  Also the final counts and stack size. *)
Fixpoint assign (ts : list ftype) (g x stk : Z) : list location * Z * Z * Z :=
  match ts with
  | [] => ([], g, x, stk)
  | t :: r =>
    let mem :=
      let o := round_up stk (Z.max 8 (ty_align t)) in
      let '(l, g', x', s') := assign r g x (o + ty_size t) in
      (OnStack o :: l, g', x', s') in
    match passing_of t with
    | PRegs cl =>
      let ng := count is_eint cl in
      let nx := count is_esse cl in
      if (g + ng <=? 6) && (x + nx <=? 8) then
        let '(l, g', x', s') := assign r (g + ng) (x + nx) stk in
        (InRegs (take_regs cl g x) :: l, g', x', s')
      else mem
    | _ => mem
    end
  end.

(** ** States that hold arguments *)

(** Low [n] bytes of the register. *)
Definition reg_low (gpr : list Z) (xmm : list (list Z)) (r : reg) (n : nat) : option (list Z) :=
  match r with
  | Gpr i => match znth gpr i with Some v => Some (le_enc n v) | None => None end
  | Xmm i => match znth xmm i with Some b => Some (firstn n b) | None => None end
  | NoReg => None
  end.

(** The argument bytes [v] are in the registers, eightbyte by eightbyte. *)
Fixpoint regs_hold (gpr : list Z) (xmm : list (list Z)) (l : list reg) (v : list Z) : Prop :=
  match l with
  | [] => v = []
  | r :: rest =>
    reg_low gpr xmm r (Nat.min 8 (length v)) = Some (firstn 8 v) /\
    regs_hold gpr xmm rest (skipn 8 v)
  end.

(** Bytes of a scalar that carry its value: an x87 number has 10. *)
Definition value_size (n : Z) (k : kind) : Z := match k with KX87 => Z.min n 10 | _ => n end.

(** Objects of the type with the same value: equal in every scalar member; padding is
    not part of the value. *)
Definition same_value (t : ftype) (v w : list Z) : Prop :=
  zlen w = zlen v /\
  forall o n k, In (o, n, k) (flatten t 0) ->
    exists d, get_range v o (value_size n k) = Some d /\ get_range w o (value_size n k) = Some d.

(** An object with the value of [v] is at the location. *)
Definition held_at (gpr : list Z) (xmm : list (list Z)) (stack : list Z) (t : ftype) (l : location)
  (v : list Z) : Prop :=
  exists w, same_value t v w /\
    match l with
    | InRegs rs => regs_hold gpr xmm rs w
    | OnStack o => get_range stack o (zlen w) = Some w
    end.

(** Each argument is at its location. *)
Inductive all_held (gpr : list Z) (xmm : list (list Z)) (stack : list Z)
  : list ftype -> list location -> list (list Z) -> Prop :=
| held_nil : all_held gpr xmm stack [] [] []
| held_cons : forall t ts l ls v vs,
    held_at gpr xmm stack t l v -> all_held gpr xmm stack ts ls vs ->
    all_held gpr xmm stack (t :: ts) (l :: ls) (v :: vs).

(** First general register available to arguments: one is taken by the hidden result
    pointer of functions returning in memory. *)
Definition hidden_pointer (rt : ftype) : bool :=
  match ty_code rt with
  | T_VOID => false
  | _ => match passing_of rt with PMemory => true | _ => false end
  end.
Definition first_gpr (rt : ftype) : Z := if hidden_pointer rt then 1 else 0.

(** The whole call: every argument is where the ABI wants it. *)
Definition args_passed (rt : ftype) (ts : list ftype) (vs : list (list Z))
  (gpr : list Z) (xmm : list (list Z)) (stack : list Z) : Prop :=
  let '(locs, _, _, _) := assign ts (first_gpr rt) 0 0 in
  all_held gpr xmm stack ts locs vs.

(** Vector registers and stack bytes used by the arguments. *)
Definition vectors_used (rt : ftype) (ts : list ftype) : Z :=
  let '(_, _, x, _) := assign ts (first_gpr rt) 0 0 in x.
Definition stack_used (rt : ftype) (ts : list ftype) : Z :=
  let '(_, _, _, s) := assign ts (first_gpr rt) 0 0 in s.

(** ** Extension of integers *)

(** Signed integer types narrower than a register. *)
Definition signed_narrow (t : ftype) : bool :=
  match ty_code t with T_SINT8 | T_SINT16 | T_SINT32 => true | _ => false end.

(** Word [k] of an argument as a register value: narrow signed integers sign-extended,
    everything else zero-filled. *)
Definition arg_word (t : ftype) (v : list Z) (k : nat) : Z :=
  if signed_narrow t then to_signed (8 * ty_size t) (le_dec v) mod 2 ^ 64
  else le_dec (firstn 8 (skipn (8 * k) v)).

(** General registers at a location hold extended words. *)
Definition extended_at (gpr : list Z) (t : ftype) (l : location) (v : list Z) : Prop :=
  match l with
  | InRegs rs => forall k i, nth_error rs k = Some (Gpr i) -> znth gpr i = Some (arg_word t v k)
  | OnStack _ => True
  end.
Inductive all_extended (gpr : list Z) : list ftype -> list location -> list (list Z) -> Prop :=
| extended_nil : all_extended gpr [] [] []
| extended_cons : forall t ts l ls v vs,
    extended_at gpr t l v -> all_extended gpr ts ls vs ->
    all_extended gpr (t :: ts) (l :: ls) (v :: vs).
Definition args_extended (rt : ftype) (ts : list ftype) (vs : list (list Z)) (gpr : list Z) : Prop :=
  let '(locs, _, _, _) := assign ts (first_gpr rt) 0 0 in all_extended gpr ts locs vs.

(** ** Return values *)

(** The value [v] of type [rt] is returned in these registers: eightbytes in rax, rdx
    and xmm0, xmm1; x87 numbers in st0, st1; in memory otherwise. *)
Definition returned (rt : ftype) (rax rdx : Z) (xmm0 xmm1 st0 st1 : list Z) (v : list Z) : Prop :=
  match passing_of rt with
  | PMemory => True
  | PRegs l => exists w, same_value rt v w /\ regs_hold [rax; rdx] [xmm0; xmm1] (take_regs l 0 0) w
  | PX87 => st0 = firstn 10 v
  | PX87x2 => st0 = firstn 10 v /\ st1 = firstn 10 (skipn 16 v)
  end.

(** Types whose results libffi widens to ffi_arg (doc/libffi.texi:205-235). *)
Definition integral (t : ftype) : bool :=
  match ty_code t with
  | T_UINT8 | T_SINT8 | T_UINT16 | T_SINT16 | T_UINT32 | T_SINT32 | T_UINT64 | T_SINT64 | T_POINTER | T_INT => true
  | _ => false
  end.
(** The widened value. *)
Definition widened (t : ftype) (v : list Z) : Z :=
  if signed_narrow t then to_signed (8 * ty_size t) (le_dec v) mod 2 ^ 64 else le_dec v.

(** Bytes of the result buffer that belong to the result. *)
Definition result_width (t : ftype) : Z := if integral t then 8 else ty_size t.

(** The result buffer holds the value. *)
Definition result_holds (t : ftype) (v buf : list Z) : Prop :=
  if integral t then get_range buf 0 8 = Some (le_enc 8 (widened t v))
  else exists w, get_range buf 0 (ty_size t) = Some w /\ same_value t v w.
