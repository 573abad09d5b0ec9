(** The ABI of OpenRISC 1000 ("OpenRISC 1000 Architecture Manual", application binary interface:
    register usage, argument passing, return values), independent of the model. *)
From Verif Require Import Base Types.
Local Open Scope Z_scope.

(** ** Types and values *)

(** Argument types: scalars with their sizes on the target, structs of any size. *)
Definition otype (t : ftype) : Prop :=
  match ty_code t with
  | T_UINT8 | T_SINT8 => ty_size t = 1
  | T_UINT16 | T_SINT16 => ty_size t = 2
  | T_UINT32 | T_SINT32 | T_FLOAT | T_POINTER => ty_size t = 4
  | T_UINT64 | T_SINT64 | T_DOUBLE => ty_size t = 8
  | T_STRUCT => 0 < ty_size t < 2 ^ 32
  | _ => False
  end.
(** Result types; void has size 1 in libffi. *)
Definition rtype_ok (rt : ftype) : Prop := ty_code rt = T_VOID /\ ty_size rt = 1 \/ otype rt.
(** Structs. *)
Definition aggregate (t : ftype) : bool := match ty_code t with T_STRUCT => true | _ => false end.
(** Number of words an argument takes: structs are passed by reference. *)
Definition words (t : ftype) : Z := if aggregate t then 1 else if ty_size t =? 8 then 2 else 1.

(** Big-endian value of a byte list. *)
Fixpoint value (l : list Z) : Z := match l with [] => 0 | b :: r => b * 2 ^ (8 * zlen r) + value r end.
(** The bytes of a 32-bit word, the most significant one first. *)
Definition word_bytes (w : Z) : list Z := map (fun k => w / 2 ^ (8 * (3 - Z.of_nat k)) mod 256) (seq 0 4).
(** [n] bytes of memory. *)
Definition bytes_at (M : Z -> Z) (p n : Z) : list Z := map (fun k => M (p + Z.of_nat k)) (seq 0 (Z.to_nat n)).
(** A value of a type is as many bytes as the type has. *)
Definition is_value (t : ftype) (v : list Z) : Prop := zlen v = ty_size t /\ Forall (fun b => 0 <= b < 256) v.
(** Integers are extended as their type says. *)
Definition extended (t : ftype) (v : list Z) : Z :=
  match ty_code t with
  | T_SINT8 | T_SINT16 => if value v <? 2 ^ (8 * ty_size t - 1) then value v else value v - 2 ^ (8 * ty_size t)
  | _ => value v
  end.

(** ** Where arguments are *)

(** Registers from %r[r] on, or the stack, [off] bytes above the stack pointer. *)
Inductive loc : Type := LR (r : Z) | LS (off : Z).
(** Arguments that are not variadic take the next of %r3 to %r8 as long as they fit completely;
    after the first one that does not, all go to the stack.  [g] registers and [s] bytes of the
    stack are taken, [fixed] arguments are still to come before the variadic ones. *)
Fixpoint places (g s fixed : Z) (ts : list ftype) : list loc :=
  match ts with
  | [] => []
  | t :: r =>
    if (0 <? fixed) && (g + words t <=? 6) then LR (3 + g) :: places (g + words t) s (fixed - 1) r
    else LS s :: places 6 (s + 4 * words t) (fixed - 1) r
  end.
(** Bytes that arguments take, the registers counted as the first 24 bytes; registers left free by
    arguments on the stack count. *)
Fixpoint extent (g s fixed : Z) (ts : list ftype) : Z :=
  match ts with
  | [] => 4 * g + s
  | t :: r =>
    if (0 <? fixed) && (g + words t <=? 6) then extent (g + words t) s (fixed - 1) r
    else extent 6 (s + 4 * words t) (fixed - 1) r
  end.
(** A struct result: its address is the first argument. *)
Definition hidden (rt : ftype) : Z := if aggregate rt then 1 else 0.

(** The bytes in a place: of registers (%r1 is the stack pointer) or memory. *)
Definition content (X M : Z -> Z) (l : loc) (n : Z) : list Z :=
  match l with
  | LR r => if n =? 2 then word_bytes (X r) ++ word_bytes (X (r + 1)) else word_bytes (X r)
  | LS off => bytes_at M (X 1 + off) (4 * n)
  end.
(** They stand for an argument of type [t] with bytes [v]: a pointer to them, an extended integer,
    or the bytes themselves. *)
Definition carries (M : Z -> Z) (t : ftype) (c v : list Z) : Prop :=
  if aggregate t then bytes_at M (value c) (ty_size t) = v
  else if ty_size t <? 4 then value c = extended t v mod 2 ^ 32
  else c = v.
(** All arguments are where they belong. *)
Fixpoint passed_in (X M : Z -> Z) (ls : list loc) (ts : list ftype) (vs : list (list Z)) : Prop :=
  match ls, ts, vs with
  | [], [], [] => True
  | l :: ls', t :: ts', v :: vs' => carries M t (content X M l (words t)) v /\ passed_in X M ls' ts' vs'
  | _, _, _ => False
  end.
Definition passed (rt : ftype) (fixed : Z) (ts : list ftype) (vs : list (list Z)) (X M : Z -> Z) : Prop :=
  passed_in X M (places (hidden rt) 0 fixed ts) ts vs.

(** An argument of two words comes when only %r8 is left. *)
Fixpoint gap (g fixed : Z) (ts : list ftype) : bool :=
  match ts with
  | [] => false
  | t :: r => (0 <? fixed) && (((g =? 5) && (words t =? 2)) || (g + words t <=? 6) && gap (g + words t) (fixed - 1) r)
  end.

(** No struct passed by reference meets the bytes from [lo] to [hi]. *)
Fixpoint refs_outside (X M : Z -> Z) (lo hi : Z) (ls : list loc) (ts : list ftype) : Prop :=
  match ls, ts with
  | l :: ls', t :: ts' =>
    (aggregate t = true -> let p := value (content X M l 1) in p + ty_size t <= lo \/ hi <= p) /\ refs_outside X M lo hi ls' ts'
  | _, _ => True
  end.
(** The objects at [avs] hold [vs]. *)
Fixpoint values_at (M : Z -> Z) (ts : list ftype) (avs : list Z) (vs : list (list Z)) : Prop :=
  match ts, avs, vs with
  | [], [], [] => True
  | t :: ts', a :: avs', v :: vs' => bytes_at M a (ty_size t) = v /\ values_at M ts' avs' vs'
  | _, _, _ => False
  end.

(** ** Results *)

(** The result [v] in registers: %r11, or %r11 and %r12. *)
Definition returned (rt : ftype) (v : list Z) (X : Z -> Z) : Prop :=
  match ty_code rt with
  | T_VOID | T_STRUCT => True
  | _ => if ty_size rt =? 8 then word_bytes (X 11) ++ word_bytes (X 12) = v
         else X 11 mod 2 ^ 32 = extended rt v mod 2 ^ 32
  end.
(** What libffi promises to leave at the result pointer: integers smaller than a word are
    extended to a word (ffi_arg), other values are as they are. *)
Definition stored (rt : ftype) (v : list Z) : list Z :=
  match ty_code rt with
  | T_VOID | T_STRUCT => []
  | _ => if ty_size rt =? 8 then v else word_bytes (extended rt v)
  end.

(** Registers a function has to preserve: %r1, %r2 and the even ones from %r14 on. *)
Definition saved (r : Z) : Prop := r = 1 \/ r = 2 \/ 14 <= r <= 30 /\ r mod 2 = 0.

(** ** The caller's side *)

(** The objects at [args] hold the values [vs] of the types [ts] and do not meet the bytes from
    [lo] to [hi]. *)
Fixpoint objects (M : Z -> Z) (lo hi : Z) (ts : list ftype) (args : list Z) (vs : list (list Z)) : Prop :=
  match ts, args, vs with
  | [], [], [] => True
  | t :: ts', a :: as', v :: vs' =>
    otype t /\ is_value t v /\ bytes_at M a (ty_size t) = v /\ 0 <= a < 2 ^ 32 /\ (a + ty_size t <= lo \/ hi <= a) /\
    objects M lo hi ts' as' vs'
  | _, _, _ => False
  end.
(** Memory and registers hold bytes and 32-bit words. *)
Definition bytes_in (M : Z -> Z) : Prop := forall x, 0 <= M x < 256.
Definition words_in (X : Z -> Z) : Prop := forall r, 0 <= X r < 2 ^ 32.
