(** Words used in the statements about the x86-64 assembly code. *)
From Verif Require Import Base ByteMem Types Unix64Spec X64AsmModel.
Local Open Scope Z_scope.

(** Argument registers in the order of the psABI. *)
Definition gpr_args (X : Z -> Z) : list Z := [X RDI; X RSI; X RDX; X RCX; X R8; X R9].
Definition xmm_args (V : Z -> list Z) : list (list Z) := map V [0; 1; 2; 3; 4; 5; 6; 7].

(** Registers that a called function preserves, other than the stack pointer. *)
Definition callee_saved (i : Z) : Prop := i = 3 \/ i = RBP \/ 12 <= i.

(** Registers and memory cells hold what fits. *)
Definition machine_ok (X : Z -> Z) (V : Z -> list Z) (F : list (list Z)) (M : Z -> Z) : Prop :=
  (forall i, 0 <= X i < 2 ^ 64) /\ (forall i, zlen (V i) = 16) /\ Forall (fun r => zlen r = 10) F /\ zlen F <= 8 /\
  (forall x, byte_ok (M x)).

(** Values a function leaves on the x87 stack. *)
Definition x87_results (rt : ftype) : Z :=
  match ty_code rt with
  | T_VOID => 0
  | _ => match passing_of rt with PX87 => 1 | PX87x2 => 2 | _ => 0 end
  end.

(** A call of ffi_call_unix64 (stack, bytes + 192, flags, rvalue, fn) that returns to [ra];
    [blk] is the content of the block; the stack pointer is below it. *)
Definition called (bytes base fl : Z) (rv : option Z) (blk : list Z) (fn ra : Z) (X : Z -> Z) (M : Z -> Z) : Prop :=
  X RDI = base - 192 /\ X RSI = bytes + 192 /\ X RDX mod 2 ^ 32 = fl /\
  X RCX = match rv with Some p => p | None => 0 end /\ X R8 = fn /\ 192 <= base /\
  X RSP + 8 <= base - 192 /\ le_dec (rd M (X RSP) 8) = ra /\ rd M (base - 192) (length blk) = blk.
