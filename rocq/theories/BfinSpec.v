(** The Blackfin ABI as far as calls go: arguments in consecutive words, the first three of them in
    R0 to R2; independent of the model. *)
From Verif Require Import Base Types.
Local Open Scope Z_scope.

(** Argument types: scalars with their sizes on the target, structs of any size. *)
Definition btype (t : ftype) : Prop :=
  (ty_align t = 1 \/ ty_align t = 2 \/ ty_align t = 4) /\
  match ty_code t with
  | T_UINT8 | T_SINT8 => ty_size t = 1
  | T_UINT16 | T_SINT16 => ty_size t = 2
  | T_UINT32 | T_SINT32 | T_FLOAT | T_POINTER => ty_size t = 4
  | T_UINT64 | T_SINT64 | T_DOUBLE => ty_size t = 8
  | T_STRUCT => 0 < ty_size t
  | _ => False
  end.
(** Result types; void has size 1 in libffi. *)
Definition rtype_ok (rt : ftype) : Prop := ty_code rt = T_VOID /\ ty_size rt = 1 \/ btype rt.
Definition aggregate (t : ftype) : bool := match ty_code t with T_STRUCT => true | _ => false end.
(** Bytes an argument takes. *)
Definition slot (t : ftype) : Z := 4 * ((ty_size t + 3) / 4).
(** Bytes arguments take together. *)
Definition slots (ts : list ftype) : Z := fold_right (fun t z => slot t + z) 0 ts.

(** Little-endian value of a byte list. *)
Fixpoint value (l : list Z) : Z := match l with [] => 0 | b :: r => b + 256 * value r end.
Definition bytes_at (M : Z -> Z) (p n : Z) : list Z := map (fun k => M (p + Z.of_nat k)) (seq 0 (Z.to_nat n)).
Definition is_value (t : ftype) (v : list Z) : Prop := zlen v = ty_size t /\ Forall (fun b => 0 <= b < 256) v.
(** Integers are extended as their type says. *)
Definition extended (t : ftype) (v : list Z) : Z :=
  match ty_code t with
  | T_SINT8 | T_SINT16 => if value v <? 2 ^ (8 * ty_size t - 1) then value v else value v - 2 ^ (8 * ty_size t)
  | _ => value v
  end.
(** The bytes of a 32-bit word, the least significant one first. *)
Definition word_bytes (w : Z) : list Z := map (fun k => w / 2 ^ (8 * Z.of_nat k) mod 256) (seq 0 4).

(** Byte [j] of the arguments of a function entered with registers [X] (0 to 2: R0 to R2, 14: SP)
    and memory [M]: twelve bytes in registers, then the stack, where the place for the registers is
    left free. *)
Definition arg_byte (X M : Z -> Z) (j : Z) : Z := if j <? 12 then X (j / 4) / 2 ^ (8 * (j mod 4)) mod 256 else M (X 14 + j).
Definition arg_bytes (X M : Z -> Z) (o n : Z) : list Z := map (fun k => arg_byte X M (o + Z.of_nat k)) (seq 0 (Z.to_nat n)).
(** The argument of type [t] with bytes [v] is at [o]. *)
Definition carries (X M : Z -> Z) (o : Z) (t : ftype) (v : list Z) : Prop :=
  if negb (aggregate t) && (ty_size t <? 4) then value (arg_bytes X M o 4) = extended t v mod 2 ^ 32
  else arg_bytes X M o (ty_size t) = v.
Fixpoint passed (X M : Z -> Z) (o : Z) (ts : list ftype) (vs : list (list Z)) : Prop :=
  match ts, vs with
  | [], [] => True
  | t :: ts', v :: vs' => carries X M o t v /\ passed X M (o + slot t) ts' vs'
  | _, _ => False
  end.

(** Where a result is: nowhere, in memory the caller gives (its address in P0), in R0, in R0 and R1.
    Values of up to eight bytes are in registers. *)
Inductive home : Type := Nowhere | Memory | One | Two.
Definition home_of (rt : ftype) : home :=
  match ty_code rt with T_VOID => Nowhere | _ => if ty_size rt <=? 4 then One else if ty_size rt <=? 8 then Two else Memory end.
(** The result [v] in registers; integers are extended, the rest of a register is arbitrary after a
    struct. *)
Definition returned (rt : ftype) (v : list Z) (X : Z -> Z) : Prop :=
  match home_of rt with
  | Nowhere | Memory => True
  | One => if aggregate rt then firstn (length v) (word_bytes (X 0)) = v else X 0 mod 2 ^ 32 = extended rt v mod 2 ^ 32
  | Two => firstn (length v) (word_bytes (X 0) ++ word_bytes (X 1)) = v
  end.
(** What libffi promises to leave at the result pointer: integers smaller than a word are extended,
    other values are as they are. *)
Definition stored (rt : ftype) (v : list Z) : list Z :=
  match home_of rt with
  | Nowhere | Memory => []
  | One => if aggregate rt then v else word_bytes (extended rt v)
  | Two => v
  end.

(** Registers that are preserved by functions: R4 to R7, P4, P5, SP, FP. *)
Definition saved (r : Z) : Prop := 4 <= r <= 7 \/ 12 <= r <= 15.

(** The objects at [args] hold the values [vs] and do not meet the bytes from [lo] to [hi]. *)
Fixpoint objects (M : Z -> Z) (lo hi : Z) (ts : list ftype) (args : list Z) (vs : list (list Z)) : Prop :=
  match ts, args, vs with
  | [], [], [] => True
  | t :: ts', a :: as', v :: vs' =>
    btype t /\ is_value t v /\ bytes_at M a (ty_size t) = v /\ (a + ty_size t <= lo \/ hi <= a) /\ objects M lo hi ts' as' vs'
  | _, _, _ => False
  end.
Definition bytes_in (M : Z -> Z) : Prop := forall x, 0 <= M x < 256.
Definition words_in (X : Z -> Z) : Prop := forall r, 0 <= X r < 2 ^ 32.
(** Every argument but the last one fills its words or fits in one. *)
Fixpoint tidy (ts : list ftype) : bool :=
  match ts with
  | [] => true
  | t :: r => match r with [] => true | _ => ((ty_size t <=? 4) || (ty_size t mod 4 =? 0)) && tidy r end
  end.
(** The result types ffi_call_SYSV handles: no structs of 1 to 3 or 5 to 7 bytes, and half-words
    only of the signedness it extends them with. *)
Definition plain_result (sign : bool) (rt : ftype) : bool :=
  match ty_code rt with
  | T_STRUCT => (ty_size rt =? 4) || (8 <=? ty_size rt)
  | T_UINT16 => negb sign
  | T_SINT16 => sign
  | _ => true
  end.
(** Bytes there have to be at the address for the result. *)
Definition result_room (rt : ftype) : Z := if ty_size rt <=? 4 then 4 else ty_size rt.
