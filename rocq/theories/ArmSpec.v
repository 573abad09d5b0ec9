(** The procedure call standard for 32-bit ARM (AAPCS), the base standard and the one with
    floating point registers, as far as arguments and results are concerned, and the C types of
    these systems, written without reference to libffi's code. *)
From Verif Require Import Base Types LayoutSpec BaseFacts NaturalTypes ByteMem.
Local Open Scope Z_scope.

(** ** C types *)

Definition ty_ptr : ftype := FT T_POINTER 4 4 [].
(** 64-bit integers and double are aligned to 8 bytes; long double is double. *)
Definition numbers : list ftype :=
  [ty_uint8; ty_sint8; ty_uint16; ty_sint16; ty_uint32; ty_sint32; ty_uint64; ty_sint64; ty_float; ty_double].

Inductive ctype : ftype -> Prop :=
| ct_pointer : ctype ty_ptr
| ct_number : forall t, In t numbers -> ctype t
| ct_complex : forall t, In t numbers -> ctype (FT T_COMPLEX (2 * ty_size t) (ty_align t) [t])
| ct_struct : forall s a es offs,
    es <> [] -> Forall ctype es -> struct_layout (map lay es) offs s a -> ctype (FT T_STRUCT s a es).

(** ** Homogeneous aggregates *)

(** Type codes of the scalar members in memory order; a complex number is a pair. *)
Fixpoint members (t : ftype) : list tcode :=
  match t with
  | FT T_STRUCT _ _ es =>
    (fix all (l : list ftype) : list tcode :=
       match l with [] => [] | e :: r => members e ++ all r end) es
  | FT T_COMPLEX _ _ (e :: _) => [ty_code e; ty_code e]
  | FT c _ _ _ => [c]
  end.
Definition floating (c : tcode) : bool := match c with T_FLOAT | T_DOUBLE => true | _ => false end.
(** A floating point scalar, or an aggregate of one to four floating point members of one type. *)
Definition hfa_of (t : ftype) : option (tcode * nat) :=
  match members t with
  | c :: r =>
    if floating c && forallb (tcode_eqb c) r && (length r <=? 3)%nat then Some (c, S (length r)) else None
  | [] => None
  end.

(** The same as a relation. *)
Definition hfa (t : ftype) (c : tcode) (n : nat) : Prop :=
  members t = repeat c n /\ floating c = true /\ (1 <= n <= 4)%nat.

(** ** Placement *)

(** Where an argument is: in core registers from register [i] on, the rest, if it is too long,
    at the stack pointer; in single precision registers from [i] on; on the stack. *)
Inductive loc : Type := Core (i : Z) | Fp (i : Z) | Stk (off : Z).

Definition words (t : ftype) : Z := round_up (ty_size t) 4.

(** Rules C.3 to C.8; [n]: next core register, [s]: next stack offset. *)
Definition core_arg (t : ftype) (n s : Z) : loc * Z * Z :=
  let n1 := if ty_align t =? 8 then round_up n 2 else n in
  let w := words t / 4 in
  if n1 + w <=? 4 then (Core n1, n1 + w, s)
  else if (n1 <? 4) && (s =? 0) then (Core n1, 4, 4 * (n1 + w - 4))
  else let p := round_up s (if ty_align t =? 8 then 8 else 4) in (Stk p, 4, p + words t).

(** Single precision registers of an argument: number and alignment. *)
Definition fp_need (t : ftype) : option (Z * Z) :=
  match hfa_of t with
  | Some (T_DOUBLE, n) => Some (2 * Z.of_nat n, 2)
  | Some (_, n) => Some (Z.of_nat n, 1)
  | None => None
  end.
Definition range (r n : Z) : list Z := map (fun k => r + Z.of_nat k) (seq 0 (Z.to_nat n)).
Definition all_fp : list Z := range 0 16.
(** The registers from [r] on are not in use. *)
Definition free_at (u : list Z) (r n al : Z) : bool :=
  (r mod al =? 0) && (r + n <=? 16) && forallb (fun k => negb (existsb (Z.eqb k) u)) (range r n).
(** Rule C.1: the lowest sequence of unused registers. *)
Definition find_fp (u : list Z) (n al : Z) : option Z := find (fun r => free_at u r n al) all_fp.

(** [hard]: with floating point registers; [u]: those in use. *)
Fixpoint assign (hard : bool) (ts : list ftype) (n : Z) (u : list Z) (s : Z) : list loc * Z :=
  match ts with
  | [] => ([], s)
  | t :: r =>
    match (if hard then fp_need t else None) with
    | Some (k, al) =>
      match find_fp u k al with
      | Some f => let '(l, e) := assign hard r n (u ++ range f k) s in (Fp f :: l, e)
      | None =>
        let p := round_up s (if ty_align t =? 8 then 8 else 4) in
        let '(l, e) := assign hard r n all_fp (p + words t) in (Stk p :: l, e)
      end
    | None =>
      let '(p, n', s') := core_arg t n s in
      let '(l, e) := assign hard r n' u s' in (p :: l, e)
    end
  end.

(** Rule C.6 does not matter: no argument for core registers follows one that goes to the used
    stack while core registers are left. *)
Definition is_fp (t : ftype) : bool := match fp_need t with Some _ => true | None => false end.
Fixpoint tidy (ts : list ftype) (n : Z) (u : list Z) (s : Z) : bool :=
  match ts with
  | [] => true
  | t :: r =>
    match fp_need t with
    | Some (k, al) =>
      match find_fp u k al with
      | Some f => tidy r n (u ++ range f k) s
      | None => tidy r n all_fp (round_up s (if ty_align t =? 8 then 8 else 4) + words t)
      end
    | None =>
      let '(p, n', s') := core_arg t n s in
      (match p with Stk _ => (s =? 0) || (n =? 4) || forallb is_fp r | _ => true end) && tidy r n' u s'
    end
  end.

(** Composite results of more than 4 bytes, but homogeneous aggregates with floating point
    registers, are in memory; the address is in r0. *)
Definition in_memory (hard : bool) (rt : ftype) : bool :=
  match ty_code rt with
  | T_STRUCT | T_COMPLEX =>
    match (if hard then hfa_of rt else None) with Some _ => false | None => 4 <? ty_size rt end
  | _ => false
  end.
Definition first_core (hard : bool) (rt : ftype) : Z := if in_memory hard rt then 1 else 0.
Definition places (hard : bool) (rt : ftype) (ts : list ftype) : list loc :=
  fst (assign hard ts (first_core hard rt) [] 0).
Definition stack_used (hard : bool) (rt : ftype) (ts : list ftype) : Z :=
  snd (assign hard ts (first_core hard rt) [] 0).

(** Only with floating point registers. *)
Definition tidy_call (hard : bool) (rt : ftype) (ts : list ftype) : Prop :=
  hard = true -> tidy ts (first_core hard rt) [] 0 = true.

(** ** States that hold arguments *)

Definition small_int (c : tcode) : bool :=
  match c with T_UINT8 | T_SINT8 | T_UINT16 | T_SINT16 | T_UINT32 | T_SINT32 | T_POINTER => true | _ => false end.
Definition signed (c : tcode) : bool := match c with T_SINT8 | T_SINT16 => true | _ => false end.
(** An integer object as a word. *)
Definition word_value (c : tcode) (d : list Z) : Z :=
  (if signed c then to_signed (8 * zlen d) (le_dec d) else le_dec d) mod 2 ^ 32.

(** The core argument registers [core], 16 bytes, followed by the stack. *)
Definition area (core : list Z) (sp : Z) (mem : Z -> Z) : Z -> Z :=
  fun k => if k <? 16 then nth (Z.to_nat k) core 0 else mem (sp + (k - 16)).

(** [fp]: the bytes of the floating point registers. *)
Definition at_loc (core : list Z) (fp : Z -> Z) (sp : Z) (mem : Z -> Z) (t : ftype) (l : loc) (d : list Z) : Prop :=
  let here (m : Z -> Z) (a : Z) :=
    rd m a (Z.to_nat (ty_size t)) = d /\
    (small_int (ty_code t) = true -> rd m a 4 = le_enc 4 (word_value (ty_code t) d)) in
  match l with
  | Core i => here (area core sp mem) (4 * i)
  | Stk off => here mem (sp + off)
  | Fp i => rd fp (4 * i) (Z.to_nat (ty_size t)) = d
  end.
Fixpoint held (core : list Z) (fp : Z -> Z) (sp : Z) (mem : Z -> Z) (ts : list ftype) (ls : list loc) (objs : list (list Z)) : Prop :=
  match ts, ls, objs with
  | [], [], [] => True
  | t :: ts', l :: ls', d :: objs' => at_loc core fp sp mem t l d /\ held core fp sp mem ts' ls' objs'
  | _, _, _ => False
  end.

Definition objects_ok (ts : list ftype) (objs : list (list Z)) : Prop :=
  Forall2 (fun t d => zlen d = ty_size t /\ bytes_ok d) ts objs.
(** A bound on the size of all arguments. *)
Fixpoint total (ts : list ftype) : Z := match ts with [] => 0 | t :: r => ty_size t + 20 + total r end.

(** What a handler sees at its argument pointers. *)
Fixpoint seen (mem : Z -> Z) (ts : list ftype) (ps : list Z) (objs : list (list Z)) : Prop :=
  match ts, ps, objs with
  | [], [], [] => True
  | t :: ts', p :: ps', d :: objs' => rd mem p (Z.to_nat (ty_size t)) = d /\ seen mem ts' ps' objs'
  | _, _, _ => False
  end.

(** ** Results in registers *)

(** The bytes of the result: [core]: r0 and r1, [fp]: the floating point registers. *)
Definition result_bytes (hard : bool) (rt : ftype) (core : list Z) (fp : Z -> Z) : list Z :=
  match (if hard then hfa_of rt else None) with
  | Some _ => rd fp 0 (Z.to_nat (ty_size rt))
  | None => firstn (Z.to_nat (ty_size rt)) core
  end.

(** ** Around the rules *)

Definition rtype_ok (rt : ftype) : Prop := rt = ty_void \/ ctype rt.
(** A complex number as result that is in memory. *)
Definition bad_result (hard : bool) (rt : ftype) : bool := tcode_eqb (ty_code rt) T_COMPLEX && in_memory hard rt.
(** The floating point registers of the arguments, in order. *)
Definition fp_regs (ls : list loc) : list Z := flat_map (fun l => match l with Fp i => [i] | _ => [] end) ls.
(** Where an argument ends, the argument registers lying below the stack. *)
Definition arg_end (t : ftype) (l : loc) : Z :=
  match l with Core i => 4 * i + ty_size t | Stk off => 16 + off + ty_size t | Fp _ => 0 end.
(** Memory that a result takes: integers are widened to a word. *)
Definition result_room (t : ftype) : Z := if small_int (ty_code t) then 4 else ty_size t.
