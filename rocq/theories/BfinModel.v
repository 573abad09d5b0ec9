(** src/bfin/ffi.c and src/bfin/sysv.S: calls on Blackfin (FDPIC), a 32-bit little-endian target
    without closures. *)
From Verif Require Import Base Types ByteMem ArmModel.
Local Open Scope Z_scope.

(** ** src/bfin/ffi.c *)

(** src/bfin/ffi.c:65-110 ffi_prep_cif_machdep, cif->flags (codes of lines 39-43); [None]: the
    failed assertion *)
Definition ret_flags (rt : ftype) : option Z :=
  match ty_code rt with
  | T_VOID => Some 0
  | T_UINT16 | T_SINT16 => Some 2
  | T_UINT8 => Some 1
  | T_INT | T_UINT32 | T_SINT32 | T_FLOAT | T_POINTER | T_SINT8 => Some 4
  | T_SINT64 | T_UINT64 | T_DOUBLE => Some 3
  | T_STRUCT => Some (if ty_size rt <=? 4 then 4 else if ty_size rt =? 8 then 3 else 0)
  | _ => None
  end.
(** src/prep_cif.c:152-207 cif->bytes *)
Definition cif_bytes (rt : ftype) (ts : list ftype) : Z := core_bytes rt ts.

(** src/bfin/ffi.c:158-194 one round of the loop of ffi_prep_args: memory and argp; [None]: the
    failed assertion *)
Definition prep_arg (t : ftype) (arg : Z) (m : Z -> Z) (argp : Z) : option ((Z -> Z) * Z) :=
  let u n := le_dec (rd m arg n) in
  let word w := Some (wr m argp (le_enc 4 w), argp + 4) in
  if ty_size t <? 4 then
    match ty_code t with
    | T_SINT8 => word (to_signed 8 (u 1%nat))
    | T_UINT8 => word (u 1%nat)
    | T_SINT16 => word (to_signed 16 (u 2%nat))
    | T_UINT16 => word (u 2%nat)
    | T_STRUCT => Some (wr m argp (rd m arg (Z.to_nat (ty_size t))), argp + 4)
    | _ => None
    end
  else if ty_size t =? 4 then word (u 4%nat)
  else Some (wr m argp (rd m arg (Z.to_nat (ty_size t))), argp + ty_size t).
(** src/bfin/ffi.c:145-195 ffi_prep_args *)
Fixpoint prep_args (ts : list ftype) (args : list Z) (m : Z -> Z) (argp : Z) : option (Z -> Z) :=
  match ts, args with
  | [], _ => Some m
  | t :: ts', a :: args' => match prep_arg t a m argp with Some (m1, p) => prep_args ts' args' m1 p | None => None end
  | _, [] => None
  end.

(** ** src/bfin/sysv.S *)

(** Registers by number: 0-7 are R0-R7, 8-13 are P0-P5, 14 is SP, 15 is FP, 16 is RETS
    (src/bfin/sysv.S:67-176). *)
Record st : Type := St { sx : Z -> Z; spc : Z; sm : Z -> Z }.
(** Change of a register (src/bfin/sysv.S:67-176). *)
Definition upd (f : Z -> Z) (r v : Z) : Z -> Z := fun x => if x =? r then v else f x.

(** The instructions of src/bfin/sysv.S:67-176: LINK, store and load with offset, load from the
    global offset table (slot 0: the descriptor of ffi_prep_args, slot 1: .rettable), moves,
    constants, subtraction, addition, shift, calls and jumps; targets of [Jump] are numbers of
    instructions in the text. *)
Inductive instr : Type :=
| Link (n : Z)
| Stw (p off r : Z)
| Ldw (r p off : Z)
| Got (r p : Z) (slot : bool)
| Mov (d r : Z)
| Movi (d k : Z)
| Sub (d a b : Z)
| Add (d a b : Z)
| Addi (d k : Z)
| Shl (d a k : Z)
| Call (p : Z)
| JumpP (p : Z)
| Jump (n : Z)
| ByteZ (r : Z)
| Half (r : Z)
| Unlink
| Rts
| Word (n : Z).

(** Offsets of the two slots of the global offset table the code uses (src/bfin/sysv.S:87, 123,
    129), and whether R0 = R0.L (src/bfin/sysv.S:159) extends the sign: both cases are treated. *)
Record cfg : Type := Cfg { g_prep : Z; g_tab : Z; g_sign : bool }.

(** src/bfin/sysv.S:67-176 _ffi_call_SYSV.  Each instruction and each word of .rettable (numbers
    47 to 51) is taken to have four bytes, which concerns code addresses only.  .rbyte is 52,
    .rhalfword 56, .rint64 60, .rint32 64, .epilogue 66; [Word] is the distance of a label from
    .rettable in instructions. *)
Definition text : list instr :=
  [ Link 20; Stw 15 (-20) 11; Stw 15 8 0; Stw 15 12 1; Stw 15 16 2;
    Ldw 1 15 8; Mov 0 14; Sub 0 0 1; Movi 1 4; Sub 0 0 1; Stw 15 (-12) 14; Mov 14 0; Stw 15 (-16) 14;
    Got 8 11 false; Ldw 9 8 0; Ldw 11 8 4; Ldw 0 15 (-16); Ldw 1 15 12; Call 9;
    Ldw 14 15 (-16); Ldw 0 14 0; Ldw 1 14 4; Ldw 2 14 8;
    Mov 8 15; Addi 8 28; Ldw 9 8 0; Ldw 9 9 0; Ldw 11 8 4; Ldw 8 15 24; Call 9; Ldw 14 15 (-12);
    Ldw 10 15 (-20); Stw 15 (-8) 0; Stw 15 (-4) 1;
    Ldw 0 15 20; Shl 1 0 2; Got 0 10 true; Add 0 1 0; Mov 10 0; Ldw 1 10 0;
    Ldw 10 15 (-20); Got 0 10 true; Add 0 1 0; Mov 10 0; Ldw 0 15 (-8); Ldw 1 15 (-4); JumpP 10;
    Word 19; Word 5; Word 9; Word 13; Word 17;
    Ldw 8 15 24; ByteZ 0; Stw 8 0 0; Jump 66;
    Ldw 8 15 24; Half 0; Stw 8 0 0; Jump 66;
    Ldw 8 15 24; Stw 8 0 0; Stw 8 4 1; Jump 66;
    Ldw 8 15 24; Stw 8 0 0;
    Ldw 0 15 8; Ldw 1 15 12; Ldw 2 15 16; Ldw 11 15 (-20); Unlink; Rts ].

(** A word of memory (src/bfin/sysv.S:67-176). *)
Definition ld (m : Z -> Z) (a : Z) : Z := le_dec (rd m a 4).
(** The same, stored (src/bfin/sysv.S:67-176). *)
Definition stw (m : Z -> Z) (a x : Z) : Z -> Z := wr m a (le_enc 4 x).
(** An access of 4 bytes lies inside the address space; others are taken as faults, misaligned ones
    are not (accesses of src/bfin/sysv.S:67-176). *)
Definition fits (a : Z) : bool := (0 <=? a) && (a + 4 <=? 2 ^ 32).

(** One instruction of a text at [org] (src/bfin/sysv.S:67-176); [None]: a fault. *)
Definition exec (c : cfg) (org : Z) (i : instr) (s : st) : option st :=
  let x := sx s in
  let m := sm s in
  let next := wrap32 (spc s + 4) in
  let set r v := Some (St (upd x r v) next m) in
  let load r a := if fits a then set r (ld m a) else None in
  match i with
  | Link n =>
    let a := wrap32 (x 14 - 4) in
    let b := wrap32 (x 14 - 8) in
    if fits a && fits b then Some (St (upd (upd x 15 b) 14 (wrap32 (b - n))) next (stw (stw m a (x 16)) b (x 15))) else None
  | Stw p off r => let a := wrap32 (x p + off) in if fits a then Some (St x next (stw m a (x r))) else None
  | Ldw r p off => load r (wrap32 (x p + off))
  | Got r p slot => load r (wrap32 (x p + (if slot then g_tab c else g_prep c)))
  | Mov d r => set d (x r)
  | Movi d k => set d k
  | Sub d a b => set d (wrap32 (x a - x b))
  | Add d a b => set d (wrap32 (x a + x b))
  | Addi d k => set d (wrap32 (x d + k))
  | Shl d a k => set d (wrap32 (x a * 2 ^ k))
  | Call p => Some (St (upd x 16 next) (x p) m)
  | JumpP p => Some (St x (x p) m)
  | Jump n => Some (St x (org + 4 * n) m)
  | ByteZ r => set r (x r mod 256)
  | Half r => set r (wrap32 (if g_sign c then to_signed 16 (x r mod 65536) else x r mod 65536))
  | Unlink =>
    let a := x 15 in
    let b := wrap32 (a + 4) in
    if fits a && fits b then Some (St (upd (upd (upd x 14 (wrap32 (a + 8))) 15 (ld m a)) 16 (ld m b)) next m) else None
  | Rts => Some (St x (x 16) m)
  | Word _ => None
  end.
(** Fetch and execute (src/bfin/sysv.S:67-176). *)
Definition step (c : cfg) (org : Z) (s : st) : option st :=
  let d := spc s - org in
  if (0 <=? d) && (d mod 4 =? 0) then
    match nth_error text (Z.to_nat (d / 4)) with Some i => exec c org i s | None => None end
  else None.
(** Execution of [n] instructions (src/bfin/sysv.S:67-176). *)
Fixpoint steps (c : cfg) (org : Z) (n : nat) (s : st) : option st :=
  match n with O => Some s | S k => match step c org s with Some s' => steps c org k s' | None => None end end.
(** Execution arrives at [s'] (src/bfin/sysv.S:67-176). *)
Definition reach (c : cfg) (org : Z) (s s' : st) : Prop := exists n, steps c org n s = Some s'.
(** The words of .rettable in memory (src/bfin/sysv.S:145-150). *)
Definition table_in (org : Z) (m : Z -> Z) : Prop :=
  forall k w, nth_error text k = Some (Word w) -> ld m (org + 4 * Z.of_nat k) = 4 * w.
