(** Heaps of type objects that describe C signatures. *)
From Verif Require Import Base Types TypeHeapModel LayoutSpec TypeHeapSpec NaturalTypes.

(** The object of a predefined scalar type (src/types.c). *)
Definition scalar_object (t : ftype) : tobj := TObj (ty_size t) (ty_align t) (ty_code t) None.

(** Size and alignment are recorded in the object. *)
Definition recorded (h : theap) (p : tptr) (m : Z * Z) : Prop :=
  exists o, h p = Some o /\ o_size o <> 0 /\ m = (o_size o, o_align o).

(** A predefined scalar; a complex type of one; a struct, either not laid out yet
    (size 0) or laid out as C does over laid out members. *)
Definition c_object (h : theap) (p : tptr) : Prop :=
  (exists t, In t scalar_types /\ h p = Some (scalar_object t)) \/
  (exists t q, In t (int_types ++ float_types) /\ h q = Some (scalar_object t) /\
     h p = Some (TObj (2 * ty_size t) (ty_align t) T_COMPLEX (Some [q]))) \/
  (exists o, h p = Some o /\ o_code o = T_STRUCT /\
     (o_size o = 0 \/
      exists es ms offs, o_elems o = Some es /\ es <> [] /\ Forall2 (recorded h) es ms /\
        struct_layout ms offs (o_size o) (o_align o))).

(** All types of the signature and all types below are C types; the return type may be
    the object of void. *)
Definition c_signature (h : theap) (rt : tptr) (ats : list tptr) : Prop :=
  (h rt = Some (scalar_object ty_void) \/ forall p, reaches h rt p -> c_object h p) /\
  forall a p, In a ats -> reaches h a p -> c_object h p.
