(** Relations between states of the x86-64 model and the specification used in the
    statements of the properties. *)
From Verif Require Import Base Types LayoutSpec NaturalTypes Unix64Model Unix64Spec.

(** Return types: void or a C type. *)
Definition rt_ok (rt : ftype) : Prop := natural rt \/ ty_code rt = T_VOID.

(** Classes of the code and of the specification. *)
Definition class_is (c : rclass) (e : eclass) : Prop :=
  match e with
  | EInt => c = INTEGER_CLASS \/ c = INTEGERSI_CLASS
  | ESse => c = SSE_CLASS \/ c = SSESF_CLASS \/ c = SSEDF_CLASS
  | ENone => False
  end.

(** The code's decision is the specified one: registers eightbyte by eightbyte, memory,
    or x87 registers, which only carry results. *)
Definition class_matches (p : passing) (in_return : bool) (e : exam) : Prop :=
  match p, e with
  | PMemory, EMem => True
  | PX87, EMem | PX87x2, EMem => in_return = false
  | PX87, EX87 cl => in_return = true /\ cl = [X87_CLASS; X87UP_CLASS]
  | PX87x2, EX87 cl => in_return = true /\ cl = [COMPLEX_X87_CLASS]
  | PRegs l, ERegs cl ngpr nsse => Forall2 class_is cl l /\ ngpr = count is_eint l /\ nsse = count is_esse l
  | _, _ => False
  end.

(** Each argument object has the size of its type and consists of bytes. *)
Definition objects_ok (ts : list ftype) (vs : list (list Z)) : Prop :=
  Forall2 (fun t v => zlen v = ty_size t) ts vs /\ Forall bytes_ok vs.

(** Sizes of the memory blocks and registers of the caller; the argument area is
    16-byte aligned and inside the address space. *)
Definition env_ok (bytes base : Z) (g_gpr : list Z) (g_sse : list (list Z)) (g_area : list Z)
  (g_xmm : list (list Z)) (frame : list Z) : Prop :=
  (16 | base) /\ 0 <= base /\ base + bytes + 64 < 2 ^ 64 /\
  zlen g_gpr = 6 /\ zlen g_sse = 8 /\ Forall (fun b => zlen b = 16) g_sse /\ zlen g_area = bytes + 32 /\
  zlen g_xmm = 8 /\ Forall (fun b => zlen b = 16) g_xmm /\ zlen frame = 32.

(** A machine state a caller can be in. *)
Definition state_ok (m : mstate) (used : Z) : Prop :=
  zlen (m_gpr m) = 6 /\ zlen (m_xmm m) = 8 /\ Forall (fun b => zlen b = 16) (m_xmm m) /\
  (16 | m_sp m) /\ 0 <= m_sp m /\ m_sp m + used + 16 < 2 ^ 64.

(** Result registers: 64-bit, 128-bit and 80-bit. *)
Definition rstate_ok (r : rstate) : Prop :=
  0 <= rs_rax r < 2 ^ 64 /\ 0 <= rs_rdx r < 2 ^ 64 /\ zlen (rs_xmm0 r) = 16 /\ zlen (rs_xmm1 r) = 16 /\
  zlen (rs_st0 r) = 10 /\ zlen (rs_st1 r) = 10.

(** [returned] on a register state. *)
Definition returns (rt : ftype) (r : rstate) (v : list Z) : Prop :=
  returned rt (rs_rax r) (rs_rdx r) (rs_xmm0 r) (rs_xmm1 r) (rs_st0 r) (rs_st1 r) v.

(** Structs whose only member is a long double. *)
Definition struct_x87 (t : ftype) : bool :=
  match ty_code t, passing_of t with T_STRUCT, PX87 => true | _, _ => false end.

(** The handler's argument pointers lead to objects with the given values. *)
Definition args_seen (frame : list Z) (m : mstate) (ps : list aptr) (ts : list ftype) (vs : list (list Z)) : Prop :=
  Forall2 (fun p tv => exists w, read_aptr frame m p (ty_size (fst tv)) = Some w /\ same_value (fst tv) (snd tv) w)
    ps (combine ts vs) /\ length ts = length vs.
