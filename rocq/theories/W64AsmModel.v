(** src/x86/win64.S instruction by instruction: the code around a call with the Win64 ABIs,
    closure entry and exit, Go closures, and the entry behind static trampolines.  The bytes of
    trampolines are in TrampCodeModel. *)
From Verif Require Import Base ByteMem.
Local Open Scope Z_scope.

(** How the file is assembled: with CET (src/x86/win64.S:51, 84), with .org in tables
    (src/x86/win64.S:30-34), for Windows (src/x86/win64.S:12-24). *)
Record cfg : Type := Cfg { g_cet : bool; g_org : bool; g_win : bool }.

(** General registers, vector registers as 16 bytes each, the condition flags CF and ZF, whether
    the processor waits for ENDBR64 after an indirect branch, instruction pointer and memory
    (src/x86/win64.S:49-247). *)
Record st : Type := St { sx : Z -> Z; sv : Z -> list Z; sc : bool; sz : bool; sk : bool; spc : Z; sm : Z -> Z }.

(** Registers by number (src/x86/win64.S:53). *)
Definition RAX := 0.
(** src/x86/win64.S:67, %rcx *)
Definition RCX := 1.
(** src/x86/win64.S:69, %rdx *)
Definition RDX := 2.
(** src/x86/win64.S:53, %rsp *)
Definition RSP := 4.
(** src/x86/win64.S:54, %rbp *)
Definition RBP := 5.
(** src/x86/win64.S:21, %rsi *)
Definition RSI := 6.
(** src/x86/win64.S:20, %rdi *)
Definition RDI := 7.
(** src/x86/win64.S:71, %r8 *)
Definition R8 := 8.
(** src/x86/win64.S:73, %r9 *)
Definition R9 := 9.
(** src/x86/win64.S:64, %r10 *)
Definition R10 := 10.
(** src/x86/win64.S:14, 20 arg0 *)
Definition arg0 (g : cfg) : Z := if g_win g then RCX else RDI.
(** src/x86/win64.S:15, 21 arg1 *)
Definition arg1 (g : cfg) : Z := if g_win g then RDX else RSI.
(** src/x86/win64.S:16, 22 arg2 *)
Definition arg2 (g : cfg) : Z := if g_win g then R8 else RDX.

(** The instructions of src/x86/win64.S:49-247, destination first.  Jump targets: label numbers
    in source text, displacements from the next instruction after assembling.  [near] tells a
    32-bit displacement from an 8-bit one. *)
Inductive instr : Type :=
| Endbr
| Mov (d s : Z)
| Zx (n : Z) (d s : Z)
| Sx (n : Z) (d s : Z)
| Lea (d b i : Z)
| LeaX (d b x : Z)
| LeaPc (d l : Z)
| Ld (n : nat) (d b i : Z)
| Sto (n : nat) (b i s : Z)
| LdV (d b i : Z)
| StV (n : nat) (b i s : Z)
| CmpL (r i : Z)
| Ja (near : bool) (l : Z)
| Jmp (near : bool) (l : Z)
| JmpR (notrack : bool) (r : Z)
| CallM (b i : Z)
| CallInner
| CallAbort
| Sub (r i : Z)
| Add (r i : Z)
| Leave
| Ret.

(** A line of source text: a label, .balign, .org label + number, or an instruction
    (src/x86/win64.S:30-49). *)
Inductive line : Type := L (n : Z) | Balign (k : Z) | Org (l k : Z) | I (i : instr).

(** ** Sizes *)

(** ModRM byte, SIB byte and displacement of a memory operand with base register [b] (operands
    of src/x86/win64.S:53-246). *)
Definition mlen (b i : Z) : Z :=
  1 + (if b mod 8 =? 4 then 1 else 0) +
  (if (i =? 0) && negb (b mod 8 =? 5) then 0 else if (-128 <=? i) && (i <=? 127) then 1 else 4).
(** A prefix for registers 8 to 15 (src/x86/win64.S:115). *)
Definition rex (a b : Z) : Z := if (8 <=? a) || (8 <=? b) then 1 else 0.
(** Length of the encodings chosen by GNU as and clang (src/x86/win64.S:49-247). *)
Definition len (i : instr) : Z :=
  match i with
  | Endbr => 4
  | Mov _ _ => 3
  | Zx n d s => (if n =? 32 then 2 else 3) + rex d s
  | Sx n _ _ => if n =? 32 then 3 else 4
  | Lea _ b i => 2 + mlen b i
  | LeaX _ _ _ => 4
  | LeaPc _ _ => 7
  | Ld n d b i => match n with 8%nat => 2 | _ => 1 + rex d b end + mlen b i
  | Sto n b i s => match n with 8%nat => 2 | 2%nat => 2 + rex s b | _ => 1 + rex s b end + mlen b i
  | LdV d b i => 3 + rex d b + mlen b i
  | StV _ b i s => 3 + rex s b + mlen b i
  | CmpL _ _ => 3
  | Ja near _ => if near then 6 else 2
  | Jmp near _ => if near then 5 else 2
  | JmpR notrack r => (if notrack then 3 else 2) + rex r 0
  | CallM b i => 1 + mlen b i
  | CallInner => 5
  | CallAbort => 5
  | Sub _ i => if (-128 <=? i) && (i <=? 127) then 4 else 7
  | Add _ i => if (-128 <=? i) && (i <=? 127) then 4 else 7
  | Leave => 1
  | Ret => 1
  end.

(** ** Assembling *)

(** The next multiple of [k] (.align, src/x86/win64.S:44). *)
Definition up (k a : Z) : Z := (a + k - 1) / k * k.
(** Position of a label (labels of src/x86/win64.S:49-247). *)
Fixpoint label (ls : list (Z * Z)) (n : Z) : option Z :=
  match ls with [] => None | (m, p) :: r => if m =? n then Some p else label r n end.
(** Instructions with their positions, and the positions of labels.  The start of the text is
    aligned.  .org cannot go back (src/x86/win64.S:33): [None]. *)
Fixpoint layout (t : list line) (pos : Z) (ls : list (Z * Z)) : option (list (Z * instr) * list (Z * Z)) :=
  match t with
  | [] => Some ([], ls)
  | L n :: r => layout r pos ((n, pos) :: ls)
  | Balign k :: r => layout r (up k pos) ls
  | Org l k :: r =>
    match label ls l with
    | Some p => if pos <=? p + k then layout r (p + k) ls else None
    | None => None
    end
  | I i :: r =>
    match layout r (pos + len i) ls with Some (t', ls') => Some ((pos, i) :: t', ls') | None => None end
  end.
(** Labels replaced by displacements from the next instruction at [next]; short ones have 8 bits
    (src/x86/win64.S:80, 83, 119, 190). *)
Definition resolve (ls : list (Z * Z)) (next : Z) (i : instr) : option instr :=
  let rel near n k :=
    match label ls n with
    | Some p => if near || ((-128 <=? p - next) && (p - next <=? 127)) then Some (k (p - next)) else None
    | None => None
    end in
  match i with
  | LeaPc d n => rel true n (LeaPc d)
  | Ja near n => rel near n (Ja near)
  | Jmp near n => rel near n (Jmp near)
  | _ => Some i
  end.
(** Resolving all instructions (src/x86/win64.S:49-247). *)
Fixpoint resolve_all (ls : list (Z * Z)) (t : list (Z * instr)) : option (list (Z * instr)) :=
  match t with
  | [] => Some []
  | (p, i) :: r =>
    match resolve ls (p + len i) i, resolve_all ls r with Some j, Some q => Some ((p, j) :: q) | _, _ => None end
  end.
(** The assembled text (src/x86/win64.S:49-247); empty when assembling fails. *)
Definition assemble (t : list line) : list (Z * instr) :=
  match layout t 0 [] with
  | Some (r, ls) => match resolve_all ls r with Some q => q | None => [] end
  | None => []
  end.
(** Address of a label of a text at [org]; -1: none (symbols of src/x86/win64.S:49-247). *)
Definition at_label (t : list line) (org n : Z) : Z :=
  match layout t 0 [] with
  | Some (_, ls) => match label ls n with Some p => org + p | None => -1 end
  | None => -1
  end.

(** ** Execution *)

(** Change of a register (any instruction of src/x86/win64.S:49-247 with a destination). *)
Definition upd {A} (f : Z -> A) (r : Z) (v : A) : Z -> A := fun x => if x =? r then v else f x.
(** A memory access of [n] bytes lies inside the address space (accesses of
    src/x86/win64.S:49-247; others are taken as faults). *)
Definition fits (a n : Z) : bool := (0 <=? a) && (a + n <=? 2 ^ 64).

(** One instruction, src/x86/win64.S:49-247; [inner] is the address of ffi_closure_win64_inner,
    [ibt] whether the processor tracks indirect branches.  [None]: a fault or abort.  After an
    indirect branch without the NOTRACK prefix only ENDBR64 does not fault. *)
Definition exec (ibt : bool) (inner : Z) (i : instr) (s : st) : option st :=
  let x := sx s in
  let v := sv s in
  let c := sc s in
  let z := sz s in
  let m := sm s in
  let next := wrap64 (spc s + len i) in
  let rel l := wrap64 (spc s + len i + l) in
  let set d w := Some (St (upd x d w) v c z false next m) in
  let ea b i := wrap64 (x b + i) in
  let mem a n d := if fits a n then Some (St x v c z false next (wr m a d)) else None in
  let go p := Some (St x v c z false p m) in
  let load a := le_dec (rd m a 8) in
  let call k p :=
    if fits (ea RSP (-8)) 8
    then Some (St (upd x RSP (ea RSP (-8))) v c z k p (wr m (ea RSP (-8)) (le_enc 8 next)))
    else None in
  if sk s && match i with Endbr => false | _ => true end then None else
  match i with
  | Endbr => go next
  | Mov d r => set d (x r)
  | Zx n d r => set d (x r mod 2 ^ n)
  | Sx n d r => set d (wrap64 (to_signed n (x r)))
  | Lea d b i => set d (ea b i)
  | LeaX d b r => set d (wrap64 (x b + x r * 8))
  | LeaPc d l => set d (rel l)
  | Ld n d b i => if fits (ea b i) (Z.of_nat n) then set d (le_dec (rd m (ea b i) n)) else None
  | Sto n b i r => mem (ea b i) (Z.of_nat n) (le_enc n (x r))
  | LdV d b i => if fits (ea b i) 8 then Some (St x (upd v d (rd m (ea b i) 8 ++ repeat 0 8)) c z false next m) else None
  | StV n b i r => mem (ea b i) (Z.of_nat n) (firstn n (v r))
  | CmpL r i => Some (St x v (x r mod 2 ^ 32 <? i) (x r mod 2 ^ 32 =? i) false next m)
  | Ja _ l => go (if c || z then next else rel l)
  | Jmp _ l => go (rel l)
  | JmpR notrack r => Some (St x v c z (ibt && negb notrack) (x r) m)
  | CallM b i => if fits (ea b i) 8 then call ibt (load (ea b i)) else None
  | CallInner => call false inner
  | CallAbort => None
  | Sub r i => Some (St (upd x r (wrap64 (x r - i))) v (x r <? i) (wrap64 (x r - i) =? 0) false next m)
  | Add r i => Some (St (upd x r (wrap64 (x r + i))) v (2 ^ 64 <=? x r + i) (wrap64 (x r + i) =? 0) false next m)
  | Leave =>
    if fits (x RBP) 8 then Some (St (upd (upd x RSP (ea RBP 8)) RBP (load (x RBP))) v c z false next m) else None
  | Ret => if fits (x RSP) 8 then Some (St (upd x RSP (ea RSP 8)) v c z false (load (x RSP)) m) else None
  end.

(** The instruction at an offset (fetches of src/x86/win64.S:49-247). *)
Fixpoint at_off (t : list (Z * instr)) (c : Z) : option instr :=
  match t with [] => None | (p, i) :: r => if p =? c then Some i else at_off r c end.
(** Fetch from the text at [org], then execute (src/x86/win64.S:49-247); the text cannot be
    changed by stores. *)
Definition step (ibt : bool) (inner : Z) (t : list (Z * instr)) (org : Z) (s : st) : option st :=
  match at_off t (spc s - org) with Some i => exec ibt inner i s | None => None end.
(** Execution of [n] instructions (src/x86/win64.S:49-247). *)
Fixpoint steps (ibt : bool) (inner : Z) (t : list (Z * instr)) (org : Z) (n : nat) (s : st) : option st :=
  match n with
  | O => Some s
  | S k => match step ibt inner t org s with Some s' => steps ibt inner t org k s' | None => None end
  end.

(** ** Source text *)

(** _CET_ENDBR (cet.h), as in src/x86/win64.S:51 *)
Definition endbr (g : cfg) : list line := if g_cet g then [I Endbr] else [].
(** src/x86/win64.S:30-34 E, and the slot behind it; the table is at label 2 *)
Definition slot (g : cfg) (n : Z) (t : list line) : list line :=
  [Balign 8] ++ (if g_org g then [Org 2 (n * 8)] else []) ++ t.
(** src/x86/win64.S:88-94 epilogue *)
Definition epilogue : list line := [I Leave; I Ret].

(** Labels: 1 ffi_call_win64, 2 the table (0), 3 is 98, 4 is 99; 5 stands for the return address
    of the call.  src/x86/win64.S:44-161 *)
Definition call_src (g : cfg) : list line :=
  [Balign 8; L 1] ++ endbr g ++
  [I (Ld 8 RAX RSP 0);
   I (Sto 8 (arg1 g) 0 RBP);
   I (Sto 8 (arg1 g) 8 RAX);
   I (Mov RBP (arg1 g));
   I (Mov RSP (arg0 g));
   I (Mov R10 (arg2 g));
   I (Ld 8 RCX RSP 0);
   I (LdV 0 RSP 0);
   I (Ld 8 RDX RSP 8);
   I (LdV 1 RSP 8);
   I (Ld 8 R8 RSP 16);
   I (LdV 2 RSP 16);
   I (Ld 8 R9 RSP 24);
   I (LdV 3 RSP 24);
   I (CallM RBP 16);
   L 5;
   I (Ld 4 RCX RBP 24);
   I (Ld 8 R8 RBP 32);
   I (LeaPc R10 2);
   I (CmpL RCX 18);
   I (LeaX R10 R10 RCX);
   I (Ja true 4);
   I (JmpR (g_cet g) R10);
   Balign 8; L 2] ++
  slot g 0 epilogue ++
  slot g 1 ([I (Sx 32 RAX RAX); I (Sto 8 R8 0 RAX)] ++ epilogue) ++
  slot g 2 ([I (StV 4 R8 0 0)] ++ epilogue) ++
  slot g 3 ([I (StV 8 R8 0 0)] ++ epilogue) ++
  slot g 4 [I CallAbort] ++
  slot g 5 ([I (Zx 8 RAX RAX); I (Sto 8 R8 0 RAX)] ++ epilogue) ++
  slot g 6 [I (Sx 8 RAX RAX); I (Jmp false 3)] ++
  slot g 7 ([I (Zx 16 RAX RAX); I (Sto 8 R8 0 RAX)] ++ epilogue) ++
  slot g 8 [I (Sx 16 RAX RAX); I (Jmp false 3)] ++
  slot g 9 ([I (Zx 32 RAX RAX); I (Sto 8 R8 0 RAX)] ++ epilogue) ++
  slot g 10 ([I (Sx 32 RAX RAX); I (Sto 8 R8 0 RAX)] ++ epilogue) ++
  slot g 11 ([L 3; I (Sto 8 R8 0 RAX)] ++ epilogue) ++
  slot g 12 ([I (Sto 8 R8 0 RAX)] ++ epilogue) ++
  slot g 13 epilogue ++
  slot g 14 ([I (Sto 8 R8 0 RAX)] ++ epilogue) ++
  slot g 15 [I CallAbort] ++
  slot g 16 ([I (Sto 1 R8 0 RAX)] ++ epilogue) ++
  slot g 17 ([I (Sto 2 R8 0 RAX)] ++ epilogue) ++
  slot g 18 ([I (Sto 4 R8 0 RAX)] ++ epilogue) ++
  [Balign 8; L 4; I CallAbort] ++ epilogue.

(** src/x86/win64.S:169 ffi_clo_FS *)
Definition FS := 32 + 8 + 16 + 32.
(** src/x86/win64.S:170 ffi_clo_OFF_R *)
Definition OFF_R := 32 + 8.
(** src/x86/win64.S:171 ffi_clo_OFF_X *)
Definition OFF_X := 32 + 8 + 16.
(** src/x86/ffitarget.h:144 FFI_TRAMPOLINE_SIZE *)
Definition TRAMP := 32.
(** src/x86/win64.S:182-185, 203-206 *)
Definition save_regs : list line := [I (Sto 8 RSP 8 RCX); I (Sto 8 RSP 16 RDX); I (Sto 8 RSP 24 R8); I (Sto 8 RSP 32 R9)].

(** Labels: 10 ffi_go_closure_win64, 11 ffi_closure_win64, 12 the label 0 behind it, 13
    ffi_closure_win64_alt; 14 stands for the return address of the call.
    src/x86/win64.S:173-247 *)
Definition closure_src (g : cfg) : list line :=
  [Balign 8; L 10] ++ endbr g ++ save_regs ++
  [I (Ld 8 RCX R10 8);
   I (Ld 8 RDX R10 16);
   I (Mov R8 R10);
   I (Jmp false 12);
   Balign 8; L 11] ++ endbr g ++ save_regs ++
  [I (Ld 8 RCX R10 TRAMP);
   I (Ld 8 RDX R10 (TRAMP + 8));
   I (Ld 8 R8 R10 (TRAMP + 16));
   L 12;
   I (Sub RSP FS);
   I (StV 8 RSP OFF_X 0);
   I (StV 8 RSP (OFF_X + 8) 1);
   I (StV 8 RSP (OFF_X + 16) 2);
   I (StV 8 RSP (OFF_X + 24) 3);
   I (Lea R9 RSP OFF_R);
   I CallInner;
   L 14;
   I (Ld 8 RAX RSP OFF_R);
   I (LdV 0 RSP OFF_R);
   I (Add RSP FS);
   I Ret;
   Balign 8; L 13] ++ endbr g ++
  [I (Ld 8 R10 RSP 8);
   I (Add RSP 16);
   I (Jmp true 11)].

(** src/x86/win64.S:44-247 *)
Definition src (g : cfg) : list line := call_src g ++ closure_src g.
(** The assembled code of src/x86/win64.S:44-247. *)
Definition text (g : cfg) : list (Z * instr) := assemble (src g).

(** ** The C side of calls and closures *)

(** struct win64_call_frame (src/x86/ffiw64.c:41-48), filled in by ffi_call_int
    (src/x86/ffiw64.c:163-165) from offset 16 on; flags is an int. *)
Definition frame_bytes (fn flags rvalue : Z) : list Z := le_enc 8 fn ++ le_enc 8 flags ++ le_enc 8 rvalue.
(** src/x86/ffiw64.c:225-274 ffi_prep_closure_loc: memory with the closure at [clo] whose code is
    run at the same address; [tramp] the 24 bytes of the trampoline, [entry] ffi_closure_win64. *)
Definition prep_closure (clo entry cif func user : Z) (tramp : list Z) (m : Z -> Z) : Z -> Z :=
  wr m clo (tramp ++ le_enc 8 entry ++ le_enc 8 cif ++ le_enc 8 func ++ le_enc 8 user).
(** src/x86/ffiw64.c:276-295 ffi_prep_go_closure: tramp, cif and fun *)
Definition prep_go (clo entry cif func : Z) (m : Z -> Z) : Z -> Z :=
  wr m clo (le_enc 8 entry ++ le_enc 8 cif ++ le_enc 8 func).
