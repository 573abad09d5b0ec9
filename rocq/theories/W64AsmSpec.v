(** Words used in the statements about src/x86/win64.S. *)
From Verif Require Import Base ByteMem Types Unix64Model Win64Model Win64Spec Win64Link W64AsmModel.
Local Open Scope Z_scope.

(** Registers and memory cells hold what fits. *)
Definition machine_ok (X : Z -> Z) (V : Z -> list Z) (M : Z -> Z) : Prop :=
  (forall i, 0 <= X i < 2 ^ 64) /\ (forall i, zlen (V i) = 16 /\ bytes_ok (V i)) /\ (forall x, byte_ok (M x)).

(** Where the text is, and that code is assembled for a processor that tracks branches when it
    runs on one. *)
Definition text_ok (g : cfg) (ibt : bool) (org : Z) : Prop := 0 <= org /\ org + 2048 <= 2 ^ 64 /\ (ibt = true -> g_cet g = true).

(** What the Win64 convention looks at, with [n] bytes of arguments at [a]. *)
Definition wstate_of (X : Z -> Z) (V : Z -> list Z) (M : Z -> Z) (a : Z) (n : nat) : wstate :=
  WState [X RCX; X RDX; X R8; X R9] [V 0; V 1; V 2; V 3] (X R10) a (rd M a n).

(** Registers a function preserves under the Microsoft convention, other than the stack pointer:
    rbx, rbp, rsi, rdi, r12 to r15; and xmm6 to xmm15. *)
Definition win_saved (i : Z) : Prop := i = 3 \/ i = RBP \/ i = RSI \/ i = RDI \/ 12 <= i.
(** Registers a function preserves under both the Microsoft and the System V convention. *)
Definition both_saved (i : Z) : Prop := i = 3 \/ i = RBP \/ 12 <= i.

(** Blocks of memory are in memory, and outside a range. *)
Definition memory_has (M : Z -> Z) (m : mem) : Prop := Forall (fun b => rd M (b_addr b) (length (b_bytes b)) = b_bytes b) m.
Definition outside (m : mem) (lo hi : Z) : Prop := Forall (fun b => apart (b_addr b, zlen (b_bytes b)) (lo, hi - lo)) m.

(** ffi_call_win64 (base, frame, chain) is called from [ra]: the arguments are at [base], the
    frame is behind them. *)
Definition called (g : cfg) (base frame chain : Z) (args : list Z) (fn fl : Z) (rv : option Z) (ra : Z) (X : Z -> Z) (M : Z -> Z) : Prop :=
  X (arg0 g) = base /\ X (arg1 g) = frame /\ X (arg2 g) = chain /\ X RSP + 8 <= base /\ 8 <= base /\
  frame = base + zlen args /\ frame + 40 <= 2 ^ 64 /\
  le_dec (rd M (X RSP) 8) = ra /\ rd M base (length args) = args /\
  rd M (frame + 16) 24 = frame_bytes fn fl (match rv with Some p => p | None => 0 end).

(** The frame during the call. *)
Definition frame_at (M : Z -> Z) (frame rbp ra fl : Z) (rv : option Z) : Prop :=
  rd M frame 16 = le_enc 8 rbp ++ le_enc 8 ra /\ rd M (frame + 24) 16 = le_enc 8 fl ++ le_enc 8 (match rv with Some p => p | None => 0 end).

(** What a handler reads through an argument pointer, the frame's saved vector registers being at
    [fargs] and its arguments at [args]. *)
Definition ptr_addr (fargs args : Z) (p : wptr) : Z :=
  match p with WFarg o => fargs + o | WArg o => args + o | WRef a => a end.

(** What holds when the function is entered: the arguments are where the convention has them, the
    closure pointer is in r10, the return address is on the stack below the arguments, the frame is
    filled in; other memory and the registers the caller relies on are unchanged. *)
Definition entry_done (g : cfg) (org base n closure : Z) (rt : ftype) (ts : list ftype) (vs : list (list Z)) (m : mem) (fl : Z) (rv : option Z) (target ra : Z)
  (X : Z -> Z) (V : Z -> list Z) (M : Z -> Z) (X1 : Z -> Z) (V1 : Z -> list Z) (M1 : Z -> Z) : Prop :=
  let s := wstate_of X1 V1 M1 base (Z.to_nat n) in
  win_all (win_holds s m) ts vs (win_first rt) /\ win_all (win_both (w_gpr s) (w_xmm s)) ts vs (win_first rt) /\ memory_has M1 m /\
  (win_hidden rt = true -> X1 RCX = target) /\ X1 R10 = closure /\ 32 <= n /\
  X1 RSP = base - 8 /\ rd M1 (base - 8) 8 = le_enc 8 (at_label (src g) org 5) /\
  X1 RBP = base + n /\ frame_at M1 (base + n) (X RBP) ra fl rv /\
  (forall i, i = 3 \/ i = RSI \/ i = RDI \/ 12 <= i -> X1 i = X i) /\ (forall i, 6 <= i -> V1 i = V i) /\
  (forall x, ~ (base + n <= x < base + n + 16) -> ~ (base - 8 <= x < base) -> M1 x = M x).

(** The closure objects, [go] for those of Go (include/ffi.h.in: ffi_closure, ffi_go_closure):
    the entry point and where cif, function and data are. *)
Definition clo_label (go : bool) : Z := if go then 10 else 11.
Definition clo_cif (go : bool) (M : Z -> Z) (cl : Z) : Z := le_dec (rd M (cl + if go then 8 else 32) 8).
Definition clo_fun (go : bool) (M : Z -> Z) (cl : Z) : Z := le_dec (rd M (cl + if go then 16 else 40) 8).
Definition clo_data (go : bool) (M : Z -> Z) (cl : Z) : Z := if go then cl else le_dec (rd M (cl + 48) 8).
Definition clo_size (go : bool) : Z := if go then 24 else 56.

(** The closure object at [cl] was prepared for these. *)
Definition clo_holds (go : bool) (M : Z -> Z) (cl cif func data : Z) : Prop :=
  clo_cif go M cl = cif /\ clo_fun go M cl = func /\ clo_data go M cl = data.
