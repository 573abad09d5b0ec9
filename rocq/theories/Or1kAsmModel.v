(** src/or1k/sysv.S instruction by instruction, with delay slots; and the code of a trampoline,
    decoded from memory. *)
From Verif Require Import Base ByteMem S390Model Or1kModel.
Local Open Scope Z_scope.

(** Registers, address of this and of the next instruction, the flag, memory
    (src/or1k/sysv.S:43-105). *)
Record st : Type := St { sx : Z -> Z; spc : Z; snpc : Z; sfl : bool; sm : Z -> Z }.

(** The instructions of src/or1k/sysv.S:43-105; targets of branches are numbers of instructions
    in the text.  [Movhi] occurs in trampolines only (src/or1k/ffi.c:296, 301). *)
Inductive instr : Type :=
| Sw (off ra rb : Z)
| Lwz (rd off ra : Z)
| Ori (rd ra k : Z)
| Addi (rd ra k : Z)
| Sub (rd ra rb : Z)
| Movhi (rd k : Z)
| Jalr (rb : Z)
| Jr (rb : Z)
| Sfeqi (ra k : Z)
| Bf (n : Z)
| Bnf (n : Z)
| Nop.

(** Change of a register (src/or1k/sysv.S:43-105). *)
Definition upd (f : Z -> Z) (r v : Z) : Z -> Z := fun x => if x =? r then v else f x.
(** A memory access of 4 bytes lies inside the address space (accesses of src/or1k/sysv.S:45-103;
    others are taken as faults, misaligned ones are not). *)
Definition fits (a : Z) : bool := (0 <=? a) && (a + 4 <=? 2 ^ 32).

(** One instruction of a text at [org] (src/or1k/sysv.S:43-105): jumps take effect after the
    instruction that follows.  [None]: a fault. *)
Definition exec (org : Z) (i : instr) (s : st) : option st :=
  let x := sx s in
  let m := sm s in
  let next := wrap32 (snpc s + 4) in
  let ea off r := wrap32 (x r + off) in
  let set r v := Some (St (upd x r v) (snpc s) next (sfl s) m) in
  let jump p := Some (St x (snpc s) p (sfl s) m) in
  match i with
  | Sw off a b => if fits (ea off a) then Some (St x (snpc s) next (sfl s) (wr m (ea off a) (be_enc 4 (x b)))) else None
  | Lwz d off a => if fits (ea off a) then set d (be_dec (rd m (ea off a) 4)) else None
  | Ori d a k => set d (Z.lor (x a) k)
  | Addi d a k => set d (wrap32 (x a + k))
  | Sub d a b => set d (wrap32 (x a - x b))
  | Movhi d k => set d (Z.shiftl k 16)
  | Jalr b => Some (St (upd x 9 (wrap32 (spc s + 8))) (snpc s) (x b) (sfl s) m)
  | Jr b => jump (x b)
  | Sfeqi a k => Some (St x (snpc s) next (x a =? k) m)
  | Bf n => jump (if sfl s then org + 4 * n else next)
  | Bnf n => jump (if sfl s then next else org + 4 * n)
  | Nop => jump next
  end.

(** src/or1k/sysv.S:43-105 ffi_call_SYSV; instruction 31 is four_byte_ret, 32 is ret. *)
Definition text : list instr :=
  [ Sw (-4) 1 9; Sw (-8) 1 1; Sw (-12) 1 14; Sw (-16) 1 16; Sw (-20) 1 18; Sw (-24) 1 20;
    Ori 14 1 0; Addi 1 1 (-24);
    Ori 16 7 0; Ori 18 6 0; Ori 20 8 0;
    Sub 1 1 3;
    Ori 3 1 0; Jalr 5; Nop;
    Lwz 3 0 1; Lwz 4 4 1; Lwz 5 8 1; Lwz 6 12 1; Lwz 7 16 1; Lwz 8 20 1;
    Ori 1 11 0; Jalr 16; Nop;
    Sfeqi 20 13; Bf 32; Nop;
    Sfeqi 20 11; Bnf 31; Nop;
    Sw 4 18 12;
    Sw 0 18 11;
    Ori 1 14 0; Lwz 9 (-4) 1; Lwz 1 (-8) 1; Lwz 14 (-12) 1; Lwz 16 (-16) 1; Lwz 18 (-20) 1; Lwz 20 (-24) 1;
    Jr 9; Nop ].

(** Fetch from the text at [org], then execute (src/or1k/sysv.S:43-105). *)
Definition step (org : Z) (s : st) : option st :=
  let d := spc s - org in
  if (0 <=? d) && (d mod 4 =? 0) then
    match nth_error text (Z.to_nat (d / 4)) with Some i => exec org i s | None => None end
  else None.
(** Execution of [n] instructions (src/or1k/sysv.S:43-105). *)
Fixpoint steps (org : Z) (n : nat) (s : st) : option st :=
  match n with O => Some s | S k => match step org s with Some s' => steps org k s' | None => None end end.
(** Execution arrives at [s'] (src/or1k/sysv.S:43-105). *)
Definition reach (org : Z) (s s' : st) : Prop := exists n, steps org n s = Some s'.

(** The instructions of a trampoline, from memory (src/or1k/ffi.c:296-310): opcode, rD and rA or
    rB, 16 bits. *)
Definition decode (m : Z -> Z) (p : Z) : option instr :=
  let w := be_dec (rd m p 4) in
  let op := w / 2 ^ 26 in
  let d := w / 2 ^ 21 mod 32 in
  let a := w / 2 ^ 16 mod 32 in
  let k := w mod 2 ^ 16 in
  if (op =? 6) && (a =? 0) then Some (Movhi d k)
  else if op =? 42 then Some (Ori d a k)
  else if op =? 17 then Some (Jr (k / 2 ^ 11))
  else None.
(** Execution of [n] instructions fetched from memory (the code of src/or1k/ffi.c:296-310). *)
Fixpoint msteps (n : nat) (s : st) : option st :=
  match n with
  | O => Some s
  | S k => match decode (sm s) (spc s) with
           | Some i => match exec 0 i s with Some s' => msteps k s' | None => None end
           | None => None
           end
  end.
