(** The 32-bit x86 calling conventions as far as argument passing, results and the stack are
    concerned, and the C types of these systems, written without reference to libffi's code.
    Names of conventions and systems are those of I386Model. *)
From Verif Require Import Base Types LayoutSpec BaseFacts NaturalTypes.
From Verif Require Import I386Model.

(** ** C types *)

(** Alignment of 8-byte scalars in structs. *)
Definition align8 (o : sys) : Z := match o with Win32 => 8 | _ => 4 end.
Definition ty_u64 (o : sys) : ftype := FT T_UINT64 8 (align8 o) [].
Definition ty_s64 (o : sys) : ftype := FT T_SINT64 8 (align8 o) [].
Definition ty_ptr : ftype := FT T_POINTER 4 4 [].
Definition ty_dbl (o : sys) : ftype := FT T_DOUBLE 8 (align8 o) [].
Definition ty_ldbl (o : sys) : ftype := match o with Darwin => FT T_LONGDOUBLE 16 16 [] | _ => FT T_LONGDOUBLE 12 4 [] end.
Definition numbers (o : sys) : list ftype :=
  [ty_uint8; ty_sint8; ty_uint16; ty_sint16; ty_uint32; ty_sint32; ty_u64 o; ty_s64 o; ty_float; ty_dbl o; ty_ldbl o].

Inductive ctype32 (o : sys) : ftype -> Prop :=
| c32_pointer : ctype32 o ty_ptr
| c32_number : forall t, In t (numbers o) -> ctype32 o t
| c32_complex : forall t, In t (numbers o) -> ctype32 o (FT T_COMPLEX (2 * ty_size t) (ty_align t) [t])
| c32_struct : forall s a es offs,
    es <> [] -> Forall (ctype32 o) es -> struct_layout (map lay es) offs s a ->
    ctype32 o (FT T_STRUCT s a es).

(** ** Placement *)

(** Registers for parameters, in order. *)
Definition reg_params (a : abi) : list Z :=
  match a with THISCALL => [2] | FASTCALL => [2; 1] | REGISTER => [0; 1; 2] | _ => [] end.
(** Conventions in which the last argument is lowest on the stack. *)
Definition last_lowest (a : abi) : bool := match a with PASCAL | REGISTER => true | _ => false end.

(** Integers and pointers of at most a word go to registers. *)
Definition small_int (c : tcode) : bool :=
  match c with T_UINT8 | T_SINT8 | T_UINT16 | T_SINT16 | T_UINT32 | T_SINT32 | T_POINTER => true | _ => false end.
(** For thiscall and fastcall, after a 64-bit integer or a struct all arguments are on the
    stack. *)
Definition stops (a : abi) (c : tcode) : bool :=
  match a with
  | THISCALL | FASTCALL => match c with T_SINT64 | T_UINT64 | T_STRUCT => true | _ => false end
  | _ => false
  end.

Definition words (t : ftype) : Z := round_up (ty_size t) 4.
(** Structs aligned to 16 bytes keep this alignment on the stack. *)
Definition on_stack_align (t : ftype) : Z := match ty_code t with T_STRUCT => if 16 <=? ty_align t then 16 else 4 | _ => 4 end.

Inductive loc : Type := Reg (r : Z) | Stk (off : Z).

(** First argument lowest. *)
Fixpoint assign_up (a : abi) (regs : list Z) (off : Z) (ts : list ftype) : list loc * Z :=
  match ts with
  | [] => ([], off)
  | t :: r =>
    match small_int (ty_code t), regs with
    | true, k :: regs' => let '(l, e) := assign_up a regs' off r in (Reg k :: l, e)
    | _, _ =>
      let p := round_up off (on_stack_align t) in
      let '(l, e) := assign_up a (if stops a (ty_code t) then [] else regs) (p + words t) r in
      (Stk p :: l, e)
    end
  end.
(** Last argument lowest. *)
Fixpoint assign_down (a : abi) (regs : list Z) (ts : list ftype) : list loc * Z :=
  match ts with
  | [] => ([], 0)
  | t :: r =>
    match small_int (ty_code t), regs with
    | true, k :: regs' => let '(l, e) := assign_down a regs' r in (Reg k :: l, e)
    | _, _ => let '(l, e) := assign_down a regs r in (Stk e :: l, e + words t)
    end
  end.

(** Results in memory: structs, on Darwin and Windows only of sizes other than 1, 2, 4 and 8,
    and complex numbers of more than 8 bytes. *)
Definition in_memory (o : sys) (t : ftype) : bool :=
  match ty_code t with
  | T_STRUCT => match o with Linux => true | _ => negb ((ty_size t =? 1) || (ty_size t =? 2) || (ty_size t =? 4) || (ty_size t =? 8)) end
  | T_COMPLEX => 8 <? ty_size t
  | _ => false
  end.

(** The address of the memory is passed as a first argument.  (For the two conventions with the
    last argument lowest we do not say where.) *)
Definition hidden (o : sys) (rt : ftype) : list ftype := if in_memory o rt then [ty_ptr] else [].
Definition assign (a : abi) (ts : list ftype) : list loc * Z :=
  if last_lowest a then assign_down a (reg_params a) ts else assign_up a (reg_params a) 0 ts.
Definition places (o : sys) (a : abi) (rt : ftype) (ts : list ftype) : list loc := fst (assign a (hidden o rt ++ ts)).
(** Bytes of arguments on the stack. *)
Definition stack_used (o : sys) (a : abi) (rt : ftype) (ts : list ftype) : Z := snd (assign a (hidden o rt ++ ts)).

(** ** States that hold arguments *)

Definition signed (c : tcode) : bool := match c with T_SINT8 | T_SINT16 => true | _ => false end.
(** An integer object as a word. *)
Definition word_value (c : tcode) (d : list Z) : Z :=
  (if signed c then to_signed (8 * zlen d) (le_dec d) else le_dec d) mod 2 ^ 32.

Definition at_loc (regs : Z -> Z) (sp : Z) (rd : Z -> Z -> option (list Z)) (t : ftype) (l : loc) (d : list Z) : Prop :=
  match l with
  | Reg r => regs r = word_value (ty_code t) d
  | Stk off =>
    rd (sp + off) (ty_size t) = Some d /\
    (small_int (ty_code t) = true -> rd (sp + off) 4 = Some (le_enc 4 (word_value (ty_code t) d)))
  end.
Fixpoint held (regs : Z -> Z) (sp : Z) (rd : Z -> Z -> option (list Z)) (ts : list ftype) (ls : list loc) (objs : list (list Z)) : Prop :=
  match ts, ls, objs with
  | [], [], [] => True
  | t :: ts', l :: ls', d :: objs' => at_loc regs sp rd t l d /\ held regs sp rd ts' ls' objs'
  | _, _, _ => False
  end.

Definition objects_ok (ts : list ftype) (objs : list (list Z)) : Prop :=
  Forall2 (fun t d => zlen d = ty_size t /\ bytes_ok d) ts objs.

(** A bound on the size of all arguments. *)
Fixpoint total (ts : list ftype) : Z := match ts with [] => 0 | t :: r => ty_size t + 20 + total r end.

(** ** What a handler sees *)

Definition seen1 (regs : Z -> Z) (rd : Z -> Z -> option (list Z)) (t : ftype) (v : argat) (d : list Z) : Prop :=
  match v with
  | AReg r => get_range (le_enc 4 (regs r)) 0 (ty_size t) = Some d
  | AMem p => rd p (ty_size t) = Some d
  end.
Fixpoint seen (regs : Z -> Z) (rd : Z -> Z -> option (list Z)) (ts : list ftype) (vs : list argat) (objs : list (list Z)) : Prop :=
  match ts, vs, objs with
  | [], [], [] => True
  | t :: ts', v :: vs', d :: objs' => seen1 regs rd t v d /\ seen regs rd ts' vs' objs'
  | _, _, _ => False
  end.

(** ** The stack after a call *)

(** Bytes of arguments a function removes from the stack. *)
Definition pops (o : sys) (a : abi) (rt : ftype) (ts : list ftype) : Z :=
  match a with
  | STDCALL | THISCALL | FASTCALL | PASCAL | REGISTER => stack_used o a rt ts
  | SYSV => if in_memory o rt then 4 else 0
  | MS_CDECL => 0
  end.
