(** How the 32-bit x86 conventions return values, written without reference to libffi's code;
    [fstp] is the processor's store of the x87 register (X87Model). *)
From Verif Require Import Base Types X87Model X87Facts I386Model I386Spec.
Local Open Scope Z_scope.

(** A structure whose only scalar is a floating point number: Darwin returns it like that
    number. *)
Fixpoint only_float (t : ftype) : option Z :=
  match t with
  | FT T_FLOAT _ _ _ => Some 4
  | FT T_DOUBLE _ _ _ => Some 8
  | FT T_LONGDOUBLE _ _ _ => Some 10
  | FT T_STRUCT _ _ [e] => only_float e
  | _ => None
  end.

(** Bytes of the x87 format in which a result is returned, if it is. *)
Definition in_x87 (o : sys) (t : ftype) : option Z :=
  match ty_code t with
  | T_FLOAT => Some 4
  | T_DOUBLE => Some 8
  | T_LONGDOUBLE => Some 10
  | T_STRUCT => match o with Darwin => only_float t | _ => None end
  | _ => None
  end.

(** The object [d] of type [t] is returned in registers. *)
Definition returned (o : sys) (t : ftype) (d : list Z) (eax edx : Z) (st0 : ext) : Prop :=
  match in_x87 o t with
  | Some n => fstp n st0 = firstn (Z.to_nat n) d
  | None =>
    if ty_size t <=? 4 then firstn (Z.to_nat (ty_size t)) (le_enc 4 eax) = d
    else le_enc 4 eax ++ le_enc 4 edx = d
  end.

(** The meaningful bytes of an object. *)
Definition meaning (t : ftype) (d : list Z) : list Z := match ty_code t with T_LONGDOUBLE => firstn 10 d | _ => d end.

(** Memory that holds a result the way the documentation of ffi_call and of closures asks:
    integers smaller than a word are widened to a word. *)
Definition result_in (t : ftype) (d : list Z) (buf : list Z) : Prop :=
  get_range buf 0 (zlen (meaning t d)) = Some (meaning t d) /\
  (small_int (ty_code t) = true -> get_range buf 0 4 = Some (le_enc 4 (word_value (ty_code t) d))).

Definition result_size (t : ftype) : Z := Z.max 4 (ty_size t).
