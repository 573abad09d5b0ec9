(** Type descriptions that stand for C types of the LP64 little-endian targets:
    the predefined scalars, complex numbers of them, and structs with the layout the C
    language gives them. *)
From Verif Require Import Base Types LayoutSpec.

(** Size and alignment of a type description (include/ffi.h.in:131-132). *)
Definition lay (t : ftype) : Z * Z := (ty_size t, ty_align t).

(** The predefined integer objects (src/types.c:68-77). *)
Definition int_types : list ftype :=
  [ty_uint8; ty_sint8; ty_uint16; ty_sint16; ty_uint32; ty_sint32; ty_uint64; ty_sint64].
(** The predefined floating point objects (src/types.c:80-81,99). *)
Definition float_types : list ftype := [ty_float; ty_double; ty_longdouble].
(** All predefined scalars (src/types.c:69-99). *)
Definition scalar_types : list ftype := ty_pointer :: int_types ++ float_types.

(** Types a C program can have: the predefined ones and structs of them with the C layout
    (src/types.c:65-105, src/prep_cif.c:40-102). *)
Inductive natural : ftype -> Prop :=
| natural_scalar : forall t, In t scalar_types -> natural t
| natural_complex : forall t, In t (int_types ++ float_types) ->
    natural (FT T_COMPLEX (2 * ty_size t) (ty_align t) [t])
| natural_struct : forall s a es offs,
    es <> [] -> Forall natural es -> struct_layout (map lay es) offs s a ->
    natural (FT T_STRUCT s a es).
