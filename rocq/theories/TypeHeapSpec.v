(** What a heap of type objects describes, independently of the code that lays the
    types out. *)
From Verif Require Import Base Types TypeHeapModel LayoutSpec BaseFacts.

(** The object at [p] describes the C type: a type whose size is already recorded
    is taken as is; an object with size 0 describes the struct of its elements. *)
Inductive describes (h : theap) : tptr -> ctype -> Prop :=
| describes_known : forall p o,
    h p = Some o -> o_size o <> 0 -> describes h p (CKnown (o_size o) (o_align o))
| describes_struct : forall p o es ts,
    h p = Some o -> o_size o = 0 -> o_elems o = Some es -> es <> [] ->
    Forall2 (describes h) es ts -> describes h p (CStruct ts).

(** Effective size and alignment of the type described at [p]. *)
Definition eff_layout (h : theap) (p : tptr) (s a : Z) : Prop :=
  exists t, describes h p t /\ c_layout t s a.

(** A type that needs layout but has no (or an empty) list of members, itself or
    somewhere below. *)
Inductive undescribed (h : theap) : tptr -> Prop :=
| undescribed_null : forall p o,
    h p = Some o -> o_size o = 0 -> o_elems o = None -> undescribed h p
| undescribed_empty : forall p o,
    h p = Some o -> o_size o = 0 -> o_elems o = Some [] -> undescribed h p
| undescribed_member : forall p o es e,
    h p = Some o -> o_size o = 0 -> o_elems o = Some es -> In e es ->
    undescribed h e -> undescribed h p.

(** Well-formed memory of type objects: no dangling member, sizes not negative,
    recorded alignments are powers of two below 2^16, and members are strictly below
    their struct in some ranking (no struct contains itself). *)
Definition wf_theap (rank : tptr -> nat) (h : theap) : Prop :=
  forall p o, h p = Some o ->
    0 <= o_size o /\ (o_size o <> 0 -> is_pow2 (o_align o)) /\
    forall es e, o_elems o = Some es -> In e es -> h e <> None /\ (rank e < rank p)%nat.

(** All types described have a size representable in size_t of width [w]. *)
Definition sizes_fit (w : Z) (h : theap) : Prop :=
  forall p s a, eff_layout h p s a -> s < 2 ^ w.

(** [h'] differs from [h] only in that some types that had no recorded layout now
    have exactly their effective layout recorded. *)
Definition only_laid_out (h h' : theap) : Prop :=
  forall q, h' q = h q \/
    exists o s a, h q = Some o /\ o_size o = 0 /\ eff_layout h q s a /\
                  h' q = Some (TObj s a (o_code o) (o_elems o)).

(** [q] is [p] or one of the types below it. *)
Inductive reaches (h : theap) : tptr -> tptr -> Prop :=
| reaches_refl : forall p, reaches h p p
| reaches_step : forall p o es e q,
    h p = Some o -> o_elems o = Some es -> In e es -> reaches h e q -> reaches h p q.

(** A type whose *first* member chain ends in a type without members: the only
    kind of invalid type description whose rejection leaves no trace behind. *)
Inductive left_undescribed (h : theap) : tptr -> Prop :=
| left_null : forall p o,
    h p = Some o -> o_size o = 0 -> o_elems o = None -> left_undescribed h p
| left_empty : forall p o,
    h p = Some o -> o_size o = 0 -> o_elems o = Some [] -> left_undescribed h p
| left_member : forall p o e es,
    h p = Some o -> o_size o = 0 -> o_elems o = Some (e :: es) ->
    left_undescribed h e -> left_undescribed h p.

(** No dangling member pointer and no type below itself. *)
Definition acyclic (rank : tptr -> nat) (h : theap) : Prop :=
  forall p o es e, h p = Some o -> o_elems o = Some es -> In e es ->
    h e <> None /\ (rank e < rank p)%nat.

(** The target has complex types, or this is not one. *)
Definition complex_ok (tg : target) (h : theap) (p : tptr) : Prop :=
  tg_complex tg = true \/ forall o, h p = Some o -> o_code o <> T_COMPLEX.

(** ABI numbers between the two sentinels. *)
Definition abi_in_range (tg : target) (abi : Z) : Prop := tg_first_abi tg < abi < tg_last_abi tg.

(** A preparation: ABI, return type, argument types. *)
Definition request : Type := (Z * tptr * list tptr)%type.

(** All types of the signature. *)
Definition sig_types (r : request) : list tptr := let '(_, rt, ats) := r in rt :: ats.

(** Run the generic preparation of a request. *)
Definition prep_request (tg : target) (fuel : nat) (r : request) (h : theap) :=
  let '(abi, rt, ats) := r in prep_core tg fuel abi rt ats h.

(** Every type of the signature is an object, of rank below the stack depth
    available, and complex only if supported. *)
Definition well_typed (rank : tptr -> nat) (tg : target) (fuel : nat) (h : theap) (r : request) : Prop :=
  forall p, In p (sig_types r) -> h p <> None /\ (rank p < fuel)%nat /\ complex_ok tg h p.

(** A sequence of successful preparations over the same type objects. *)
Fixpoint prep_history (tg : target) (fuel : nat) (rs : list request) (h : theap) : option theap :=
  match rs with
  | [] => Some h
  | r :: rest =>
    match prep_request tg fuel r h with
    | Ok (FFI_OK, h', Some _) => prep_history tg fuel rest h'
    | _ => None
    end
  end.

(** Layouts of the members of the struct object at [p]. *)
Definition members_of (h : theap) (p : tptr) (ms : list (Z * Z)) : Prop :=
  exists o es, h p = Some o /\ o_code o = T_STRUCT /\ o_elems o = Some es /\ es <> [] /\
    Forall2 (fun e m => eff_layout h e (fst m) (snd m)) es ms.

(** A variadic argument whose type C would have promoted: float, or an integer type
    narrower than int. *)
Definition unpromoted (h : theap) (int_size : Z) (p : tptr) : Prop :=
  exists o, h p = Some o /\
    (o_code o = T_FLOAT \/
     (o_code o <> T_STRUCT /\ o_code o <> T_COMPLEX /\ o_size o < int_size)).

(** The same preparation attempted [n] times in a row: all answers. *)
Fixpoint prep_retry (tg : target) (fuel : nat) (r : request) (n : nat) (h : theap) : list (option status) :=
  match n with
  | O => []
  | S n' =>
    match prep_request tg fuel r h with
    | Ok (st, h', _) => Some st :: prep_retry tg fuel r n' h'
    | _ => [None]
    end
  end.
