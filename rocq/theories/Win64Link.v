(** Relations between states of the Win64 model and the specification, used in the
    statements of the properties. *)
From Verif Require Import Base Types LayoutSpec NaturalTypes Unix64Model Unix64Spec Unix64Link Win64Model Win64Spec.

(** The address ranges of live memory. *)
Definition live (m : mem) : list (Z * Z) := map (fun b => (b_addr b, zlen (b_bytes b))) m.

(** Byte ranges that do not overlap. *)
Definition apart (r s : Z * Z) : Prop := fst r + snd r <= fst s \/ fst s + snd s <= fst r.

(** The addresses handed out by alloca for requests of these sizes: each is a 64-bit
    address of memory apart from everything live. *)
Fixpoint allocas_ok (used : list (Z * Z)) (sizes stk : list Z) : Prop :=
  match sizes with
  | [] => True
  | n :: ns =>
    match stk with
    | [] => False
    | a :: s => 0 <= a < 2 ^ 64 /\ (forall r, In r used -> apart (a, n) r) /\ allocas_ok ((a, n) :: used) ns s
    end
  end.

(** Sizes of the struct arguments larger than [max]. *)
Definition big (max : Z) (ts : list ftype) : list Z :=
  filter (fun n => max <? n)
    (map ty_size (filter (fun t => match ty_code t with T_STRUCT => true | _ => false end) ts)).

(** Stack requests of a call under the ABI. *)
Definition requests (abi : Z) (ts : list ftype) : list Z :=
  if abi =? FFI_UNIX64 then big 16 ts
  else if abi =? FFI_GNUW64 then big 8 ts ++ big 8 ts
  else big 16 ts ++ big 8 ts.

(** Each argument pointer leads to the argument's bytes. *)
Inductive args_at (m : mem) : list ftype -> list Z -> list (list Z) -> Prop :=
| at_nil : args_at m [] [] []
| at_cons : forall t p v ts ps vs,
    0 <= p < 2 ^ 64 -> mread m p (ty_size t) = Some v -> bytes_ok v -> args_at m ts ps vs ->
    args_at m (t :: ts) (p :: ps) (v :: vs).

(** What was readable still is, with the same content. *)
Definition keeps (m m' : mem) : Prop := forall p n d, mread m p n = Some d -> mread m' p n = Some d.

(** The Win64 ABIs of the backend. *)
Definition win_abi (abi : Z) : Prop := abi = FFI_WIN64 \/ abi = FFI_GNUW64.

(** The hidden pointer is decided as the convention prescribes: everything except
    FFI_WIN64 functions returning a 16 byte long double. *)
Definition win_ret_ok (abi : Z) (rt : ftype) : Prop := abi = FFI_GNUW64 \/ ty_code rt <> T_LONGDOUBLE.

(** Holding an argument, on a state. *)
Definition win_holds (s : wstate) (m : mem) : ftype -> Z -> list Z -> Prop :=
  win_held (w_gpr s) (w_xmm s) (w_stack s) (mread m).

(** A machine state at the entry of a Win64 function with [n] argument slots. *)
Definition wstate_ok (s : wstate) (n : Z) : Prop :=
  zlen (w_gpr s) = 4 /\ zlen (w_xmm s) = 4 /\ Forall (fun b => zlen b = 16) (w_xmm s) /\
  32 <= zlen (w_stack s) /\ 8 * n <= zlen (w_stack s).

(** The result buffer holds the result: widened integers, otherwise the exact bytes. *)
Definition win_result_holds (rt : ftype) (v buf : list Z) : Prop :=
  if integral rt then get_range buf 0 8 = Some (le_enc 8 (widened rt v))
  else get_range buf 0 (ty_size rt) = Some v.

(** References passed to a callee for struct parameters: address and size. *)
Fixpoint struct_refs (s : wstate) (ts : list ftype) (slot : Z) : list (Z * Z) :=
  match ts with
  | [] => []
  | t :: r =>
    match ty_code t, slot_word (w_gpr s) (w_stack s) slot with
    | T_STRUCT, Some w =>
      if (ty_size t =? 1) || (ty_size t =? 2) || (ty_size t =? 4) || (ty_size t =? 8)
      then struct_refs s r (slot + 1) else (le_dec w, ty_size t) :: struct_refs s r (slot + 1)
    | _, _ => struct_refs s r (slot + 1)
    end
  end.

(** Memory behind the struct parameters of the callee; the System V convention passes no
    references (parameters are in registers and the callee's argument area). *)
Definition param_memory (e : entered) (ts : list ftype) (rt : ftype) : list (Z * Z) :=
  match e with
  | EnterUnix _ => []
  | EnterWin s => struct_refs s ts (win_first rt)
  end.

(** A callee modifying its parameters: any number of stores inside the ranges. *)
Inductive modifies (ranges : list (Z * Z)) : mem -> mem -> Prop :=
| modifies_none : forall m, modifies ranges m m
| modifies_store : forall m m1 m2 p d a n,
    In (a, n) ranges -> a <= p -> p + zlen d <= a + n -> mwrite m p d = Some m1 ->
    modifies ranges m1 m2 -> modifies ranges m m2.

(** Environment of a call under any ABI of the backend. *)
Definition call_env_ok (abi : Z) (rt : ftype) (ts : list ftype) (c : tcif) (base : Z) (g_gpr : list Z) (g_sse : list (list Z))
  (g_area : list Z) (g_xmm : list (list Z)) (frame : list Z) : Prop :=
  (abi = FFI_UNIX64 /\ stack_used rt ts + 64 < 2 ^ 32 /\ env_ok (c_bytes c) base g_gpr g_sse g_area g_xmm frame) \/
  (win_abi abi /\ win_ret_ok abi rt /\ zlen ts < 2 ^ 28 /\ zlen g_area = c_bytes c).

(** Struct types for which a Win64 call passes no pointer to the caller's object. *)
Definition by_value (t : ftype) : Prop := ty_code t = T_STRUCT -> fits_slot (ty_size t) \/ 8 < ty_size t.
