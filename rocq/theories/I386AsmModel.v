(** src/x86/sysv.S instruction by instruction, without the unwind tables: the code around a call,
    closure entry and exit, Go closures, the entry points behind static trampolines, one slot of
    the static trampoline table, raw closures; and the machine code that ffi_prep_closure_loc and
    ffi_prep_raw_closure_loc (src/x86/ffi.c) write.  HAVE_FASTCALL is 1 (src/x86/internal.h:25-29;
    it is 0 only for the compiler PCC). *)
From Verif Require Import Base ByteMem X87Model.
From Verif Require I386Model.
Local Open Scope Z_scope.

(** Position independent code or not, and if so with hidden symbols or with a PLT
    (src/x86/sysv.S:262-292). *)
Inductive pic : Type := Fixed | Hidden | Plt.
(** How the file is assembled: with CET (cet.h: _CET_ENDBR, _CET_NOTRACK), [pic], and with .org
    in the tables or .balign alone (src/x86/sysv.S:66-74). *)
Record cfg : Type := Cfg { g_cet : bool; g_pic : pic; g_org : bool }.

(** General registers, the x87 register stack (top first), whether the processor waits for an
    ENDBR32 after an indirect branch, instruction pointer, memory (src/x86/sysv.S:92-932).  No
    code depends on the condition flags. *)
Record st : Type := St {
  sx : Z -> Z;
  sf : list ext;
  sk : bool;
  spc : Z;
  sm : Z -> Z
}.

(** The surroundings: address of ffi_closure_inner (src/x86/sysv.S:254) or its PLT entry (line
    280), of the global offset table (line 279), and whether indirect branch tracking is on. *)
Record env : Type := Env { e_inner : Z; e_got : Z; e_ibt : bool }.

(** Registers by number (src/x86/sysv.S:98-121). *)
Definition EAX := 0.
(** src/x86/sysv.S:98, %ecx *)
Definition ECX := 1.
(** src/x86/sysv.S:99, %edx *)
Definition EDX := 2.
(** src/x86/sysv.S:124, %ebx *)
Definition EBX := 3.
(** src/x86/sysv.S:101, %esp *)
Definition ESP := 4.
(** src/x86/sysv.S:102, %ebp *)
Definition EBP := 5.

(** The instructions of src/x86/sysv.S:92-932, destination first.  Labels are numbers; after
    assembling, displacements from the next instruction.  [Skip] is the padding of .balign in
    code, which does nothing.  [near]: a 32-bit displacement.  [LeaAbs d x l]: leal l(,x,8);
    [LeaDiff d b x l o]: leal l-o(b,x,8); [LeaGot d b x l]: leal l@GOTOFF(b,x,8); [AddGot]: addl
    of the global offset table. *)
Inductive instr : Type :=
| Endbr
| Skip (n : Z)
| Nop
| Ud2
| Mov (d s : Z)
| Zx (n : Z) (d s : Z)
| Sx (n : Z) (d s : Z)
| Lea (d b i : Z)
| LeaX (d b x i : Z)
| LeaAbs (d x l : Z)
| LeaDiff (d b x l o : Z)
| LeaGot (d b x l : Z)
| Ld (d b i : Z)
| Sto (n : nat) (b i s : Z)
| Fld (n : Z) (b i : Z)
| Fstp (n : Z) (b i : Z)
| And (r i : Z)
| Shr (r i : Z)
| Sub (r i : Z)
| Add (r i : Z)
| AddGot (r : Z)
| Jmp (near : bool) (l : Z)
| JmpR (notrack : bool) (r : Z)
| Call (l : Z)
| CallM (b i : Z)
| CallInner
| Pop (r : Z)
| Push (r : Z)
| Ret
| RetN (n : Z).

(** A line of source text: a label, .balign, .org label + number, or an instruction
    (src/x86/sysv.S:66-92). *)
Inductive line : Type := L (n : Z) | Balign (k : Z) | Org (l k : Z) | I (i : instr).

(** ** Sizes *)

(** ModRM byte, SIB byte and displacement of a memory operand with base register [b] (operands
    of src/x86/sysv.S:101-931). *)
Definition mlen (b i : Z) : Z :=
  1 + (if b =? 4 then 1 else 0) +
  (if (i =? 0) && negb (b =? 5) then 0 else if (-128 <=? i) && (i <=? 127) then 1 else 4).
(** Length of the encodings chosen by GNU as and clang (src/x86/sysv.S:92-932). *)
Definition len (i : instr) : Z :=
  match i with
  | Endbr => 4
  | Skip n => n
  | Nop => 1
  | Ud2 => 2
  | Mov _ _ => 2
  | Zx _ _ _ => 3
  | Sx _ _ _ => 3
  | Lea _ b i => 1 + mlen b i
  | LeaX _ b _ i => 1 + mlen ESP i
  | LeaAbs _ _ _ => 7
  | LeaDiff _ _ _ _ _ => 7
  | LeaGot _ _ _ _ => 7
  | Ld _ b i => 1 + mlen b i
  | Sto n b i _ => match n with 2%nat => 2 | _ => 1 end + mlen b i
  | Fld _ b i => 1 + mlen b i
  | Fstp _ b i => 1 + mlen b i
  | And _ _ => 3
  | Shr _ _ => 3
  | Sub _ _ => 3
  | Add _ _ => 3
  | AddGot _ => 6
  | Jmp near _ => if near then 5 else 2
  | JmpR notrack _ => if notrack then 3 else 2
  | Call _ => 5
  | CallM b i => 1 + mlen b i
  | CallInner => 5
  | Pop _ => 1
  | Push _ => 1
  | Ret => 1
  | RetN _ => 3
  end.

(** ** Assembling *)

(** The next multiple of [k] (.balign, src/x86/sysv.S:77). *)
Definition up (k a : Z) : Z := (a + k - 1) / k * k.
(** Position of a label (labels of src/x86/sysv.S:92-932). *)
Fixpoint label (ls : list (Z * Z)) (n : Z) : option Z :=
  match ls with [] => None | (m, p) :: r => if m =? n then Some p else label r n end.
(** Instructions with their positions, and the positions of labels.  The start of the text is
    aligned.  .balign pads with instructions that do nothing.  .org cannot go back
    (src/x86/sysv.S:67); what it skips is no code. *)
Fixpoint layout (t : list line) (pos : Z) (ls : list (Z * Z)) : option (list (Z * instr) * list (Z * Z)) :=
  match t with
  | [] => Some ([], ls)
  | L n :: r => layout r pos ((n, pos) :: ls)
  | Balign k :: r =>
    match layout r (up k pos) ls with
    | Some (t', ls') => Some (if up k pos =? pos then t' else (pos, Skip (up k pos - pos)) :: t', ls')
    | None => None
    end
  | Org l k :: r =>
    match label ls l with
    | Some p => if pos <=? p + k then layout r (p + k) ls else None
    | None => None
    end
  | I i :: r =>
    match layout r (pos + len i) ls with Some (t', ls') => Some ((pos, i) :: t', ls') | None => None end
  end.
(** Labels replaced by displacements from the next instruction at [next]; short ones have 8 bits.
    In [LeaDiff] the second label becomes 0 and the first the difference
    (src/x86/sysv.S:131, 143, 269, 310). *)
Definition resolve (ls : list (Z * Z)) (next : Z) (i : instr) : option instr :=
  let rel near n k :=
    match label ls n with
    | Some p => if near || ((-128 <=? p - next) && (p - next <=? 127)) then Some (k (p - next)) else None
    | None => None
    end in
  match i with
  | LeaAbs d x n => rel true n (LeaAbs d x)
  | LeaGot d b x n => rel true n (LeaGot d b x)
  | LeaDiff d b x n o =>
    match label ls n, label ls o with Some p, Some q => Some (LeaDiff d b x (p - q) 0) | _, _ => None end
  | Jmp near n => rel near n (Jmp near)
  | Call n => rel true n Call
  | _ => Some i
  end.
(** Resolving all instructions (src/x86/sysv.S:92-932). *)
Fixpoint resolve_all (ls : list (Z * Z)) (t : list (Z * instr)) : option (list (Z * instr)) :=
  match t with
  | [] => Some []
  | (p, i) :: r =>
    match resolve ls (p + len i) i, resolve_all ls r with Some j, Some q => Some ((p, j) :: q) | _, _ => None end
  end.
(** The assembled text (src/x86/sysv.S:92-932); empty when assembling fails. *)
Definition assemble (t : list line) : list (Z * instr) :=
  match layout t 0 [] with
  | Some (r, ls) => match resolve_all ls r with Some q => q | None => [] end
  | None => []
  end.
(** Address of a label of a text at [org]; -1: none (symbols of src/x86/sysv.S:92-932). *)
Definition at_label (t : list line) (org n : Z) : Z :=
  match layout t 0 [] with
  | Some (_, ls) => match label ls n with Some p => org + p | None => -1 end
  | None => -1
  end.

(** ** Execution *)

(** Change of a register (any instruction of src/x86/sysv.S:92-932 with a destination). *)
Definition upd {A} (f : Z -> A) (r : Z) (v : A) : Z -> A := fun x => if x =? r then v else f x.

(** A memory access of [n] bytes lies inside the address space (accesses of
    src/x86/sysv.S:92-932; others are taken as faults). *)
Definition fits (a n : Z) : bool := (0 <=? a) && (a + n <=? 2 ^ 32).

(** One instruction, src/x86/sysv.S:92-932.  [None]: a fault.  The x87 stack has eight registers;
    loading a ninth or storing from an empty stack would give a NaN and is taken as a fault.
    After an indirect branch without the NOTRACK prefix the processor waits for ENDBR32, if it
    tracks branches at all. *)
Definition exec (e : env) (i : instr) (s : st) : option st :=
  let x := sx s in
  let f := sf s in
  let m := sm s in
  let next := wrap32 (spc s + len i) in
  let rel l := wrap32 (spc s + len i + l) in
  let set d w := Some (St (upd x d w) f false next m) in
  let ea b i := wrap32 (x b + i) in
  let mem a n d := if fits a n then Some (St x f false next (wr m a d)) else None in
  let go p := Some (St x f false p m) in
  let load a := le_dec (rd m a 4) in
  let push w k p :=
    if fits (ea ESP (-4)) 4
    then Some (St (upd x ESP (ea ESP (-4))) f k p (wr m (ea ESP (-4)) (le_enc 4 w)))
    else None in
  let ret n := if fits (x ESP) 4 then Some (St (upd x ESP (ea ESP (4 + n))) f false (load (x ESP)) m) else None in
  if sk s && match i with Endbr => false | _ => true end then None else
  match i with
  | Endbr => go next
  | Skip _ => go next
  | Nop => go next
  | Ud2 => None
  | Mov d r => set d (x r)
  | Zx n d r => set d (x r mod 2 ^ n)
  | Sx n d r => set d (wrap32 (to_signed n (x r)))
  | Lea d b i => set d (ea b i)
  | LeaX d b r i => set d (wrap32 (x b + x r + i))
  | LeaAbs d r l => set d (wrap32 (x r * 8 + (spc s + len i + l)))
  | LeaDiff d b r l _ => set d (wrap32 (x b + x r * 8 + l))
  | LeaGot d b r l => set d (wrap32 (x b + x r * 8 + (spc s + len i + l - e_got e)))
  | Ld d b i => if fits (ea b i) 4 then set d (load (ea b i)) else None
  | Sto n b i r => mem (ea b i) (Z.of_nat n) (le_enc n (x r))
  | Fld n b i =>
    if fits (ea b i) n && (zlen f <? 8) then Some (St x (fld n (rd m (ea b i) (Z.to_nat n)) :: f) false next m) else None
  | Fstp n b i =>
    match f with
    | a :: f' => if fits (ea b i) n then Some (St x f' false next (wr m (ea b i) (fstp n a))) else None
    | [] => None
    end
  | And r i => set r (Z.land (x r) i)
  | Shr r i => set r (Z.shiftr (x r) i)
  | Sub r i => set r (wrap32 (x r - i))
  | Add r i => set r (wrap32 (x r + i))
  | AddGot r => set r (wrap32 (x r + (e_got e - spc s)))
  | Jmp _ l => go (rel l)
  | JmpR notrack r => Some (St x f (e_ibt e && negb notrack) (x r) m)
  | Call l => push next false (rel l)
  | CallM b i => if fits (ea b i) 4 then push next (e_ibt e) (load (ea b i)) else None
  | CallInner => push next false (e_inner e)
  | Pop r =>
    if fits (x ESP) 4 then Some (St (upd (upd x ESP (ea ESP 4)) r (load (x ESP))) f false next m) else None
  | Push r => push (x r) false next
  | Ret => ret 0
  | RetN n => ret n
  end.

(** The instruction at an offset (fetches of src/x86/sysv.S:92-932). *)
Fixpoint at_off (t : list (Z * instr)) (c : Z) : option instr :=
  match t with [] => None | (p, i) :: r => if p =? c then Some i else at_off r c end.
(** Fetch from the text at [org], then execute (src/x86/sysv.S:92-932); the text cannot be
    changed by stores. *)
Definition step (e : env) (t : list (Z * instr)) (org : Z) (s : st) : option st :=
  match at_off t (spc s - org) with Some i => exec e i s | None => None end.
(** Execution of [n] instructions (src/x86/sysv.S:92-932). *)
Fixpoint steps (e : env) (t : list (Z * instr)) (org : Z) (n : nat) (s : st) : option st :=
  match n with
  | O => Some s
  | S k => match step e t org s with Some s' => steps e t org k s' | None => None end
  end.

(** ** Source text *)

(** _CET_ENDBR (cet.h), as in src/x86/sysv.S:95 *)
Definition endbr (g : cfg) : list line := if g_cet g then [I Endbr] else [].
(** src/x86/sysv.S:66-74 E, and the slot behind it *)
Definition slot (g : cfg) (base n : Z) (t : list line) : list line :=
  [Balign 8] ++ (if g_org g then [Org base (n * 8)] else []) ++ t.
(** The table at label [base] plus 8 times register [x] into register [d], through register [b]
    which __x86.get_pc_thunk (label [thunk]) sets to the address of label [pc], if the code is
    position independent (src/x86/sysv.S:129-135, 693-699, 810-816). *)
Definition table_at (g : cfg) (d b x base pc thunk : Z) : list line :=
  match g_pic g with
  | Fixed => [I (LeaAbs d x base)]
  | _ => [I (Call thunk); L pc; I (LeaDiff d b x base pc)]
  end.

(** Labels: 1 ffi_call_i386, 2 L(store_table), 3 L(e1), 4 L(pc1), 60 __x86.get_pc_thunk.bx; 5
    stands for the return address of the call.  src/x86/sysv.S:76-205 *)
Definition call_src (g : cfg) : list line :=
  [Balign 16; L 1] ++ endbr g ++
  [I (Ld EAX ESP 0);
   I (Sto 4 ECX 0 EBP);
   I (Sto 4 ECX 4 EAX);
   I (Mov EBP ECX);
   I (Mov ESP EDX);
   I (Ld EAX EBP 20);
   I (Ld EDX EBP 24);
   I (Ld ECX EBP 28);
   I (CallM EBP 8);
   L 5;
   I (Ld ECX EBP 12);
   I (Sto 4 EBP 8 EBX);
   I (And ECX 15)] ++
  table_at g EBX EBX ECX 2 4 60 ++
  [I (Ld ECX EBP 16);
   I (JmpR (g_cet g) EBX);
   Balign 8; L 2] ++
  slot g 2 0 [I (Fstp 4 ECX 0); I (Jmp false 3)] ++
  slot g 2 1 [I (Fstp 8 ECX 0); I (Jmp false 3)] ++
  slot g 2 2 [I (Fstp 10 ECX 0); I (Jmp false 3)] ++
  slot g 2 3 [I (Sx 8 EAX EAX); I (Sto 4 ECX 0 EAX); I (Jmp false 3)] ++
  slot g 2 4 [I (Sx 16 EAX EAX); I (Sto 4 ECX 0 EAX); I (Jmp false 3)] ++
  slot g 2 5 [I (Zx 8 EAX EAX); I (Sto 4 ECX 0 EAX); I (Jmp false 3)] ++
  slot g 2 6 [I (Zx 16 EAX EAX); I (Sto 4 ECX 0 EAX); I (Jmp false 3)] ++
  slot g 2 7 [I (Sto 4 ECX 4 EDX)] ++
  slot g 2 8 [I (Sto 4 ECX 0 EAX)] ++
  slot g 2 9 [L 3; I (Ld EBX EBP 8); I (Mov ESP EBP); I (Pop EBP); I Ret] ++
  slot g 2 10 [I (Jmp false 3)] ++
  slot g 2 11 [I (Jmp false 3)] ++
  slot g 2 12 [I (Sto 1 ECX 0 EAX); I (Jmp false 3)] ++
  slot g 2 13 [I (Sto 2 ECX 0 EAX); I (Jmp false 3)] ++
  slot g 2 14 [I Ud2] ++
  slot g 2 15 [I Ud2].

(** src/x86/sysv.S:221 closure_FS *)
Definition FS := 44.
(** src/x86/ffitarget.h:149 FFI_TRAMPOLINE_SIZE *)
Definition TRAMP := 16.

(** src/x86/sysv.S:228-231 FFI_CLOSURE_SAVE_REGS *)
Definition save_regs : list line := [I (Sto 4 ESP 16 EAX); I (Sto 4 ESP 20 EDX); I (Sto 4 ESP 24 ECX)].
(** src/x86/sysv.S:233-239 FFI_CLOSURE_COPY_TRAMP_DATA *)
Definition copy_tramp_data : list line :=
  [I (Ld EDX EAX TRAMP); I (Ld ECX EAX (TRAMP + 4)); I (Ld EAX EAX (TRAMP + 8));
   I (Sto 4 ESP 28 EDX); I (Sto 4 ESP 32 ECX); I (Sto 4 ESP 36 EAX)].
(** src/x86/sysv.S:242-244 FFI_CLOSURE_PREP_CALL *)
Definition prep_call : list line := [I (Mov ECX ESP); I (Lea EDX ESP (FS + 4))].
(** src/x86/sysv.S:253-254, 275-281 FFI_CLOSURE_CALL_INNER; the label stands for the return
    address *)
Definition call_inner (g : cfg) (back : Z) : list line :=
  match g_pic g with
  | Plt => [I (Sto 4 ESP 40 EBX); I (Call 60); I (AddGot EBX)]
  | _ => []
  end ++ [I CallInner; L back].
(** src/x86/sysv.S:256-260, 265-271, 283-290 FFI_CLOSURE_MASK_AND_JUMP; label 61 is
    __x86.get_pc_thunk.dx *)
Definition mask_and_jump (g : cfg) (base pc : Z) : list line :=
  [I (And EAX 15)] ++
  match g_pic g with
  | Plt => [I (LeaGot EDX EBX EAX base); I (Ld EBX ESP 40)]
  | _ => table_at g EDX EDX EAX base pc 61
  end ++
  [I (Ld EAX ESP 0); I (JmpR (g_cet g) EDX)].

(** The tables of ffi_closure_i386, ffi_closure_raw_SYSV and ffi_closure_raw_THISCALL: [base] and
    [out] are labels, the result is at [i](%esp), the frame has [fs] bytes, and [pop] bytes above
    the return address are removed.  src/x86/sysv.S:361-418, 707-764, 824-882 *)
Definition load_table (g : cfg) (base out i fs pop : Z) : list line :=
  [Balign 8; L base] ++
  slot g base 0 [I (Fld 4 ESP i); I (Jmp false out)] ++
  slot g base 1 [I (Fld 8 ESP i); I (Jmp false out)] ++
  slot g base 2 [I (Fld 10 ESP i); I (Jmp false out)] ++
  slot g base 3 [I (Sx 8 EAX EAX); I (Jmp false out)] ++
  slot g base 4 [I (Sx 16 EAX EAX); I (Jmp false out)] ++
  slot g base 5 [I (Zx 8 EAX EAX); I (Jmp false out)] ++
  slot g base 6 [I (Zx 16 EAX EAX); I (Jmp false out)] ++
  slot g base 7 [I (Ld EDX ESP (i + 4)); I (Jmp false out)] ++
  slot g base 8 [I Nop] ++
  slot g base 9 [L out; I (Add ESP fs); I (if pop =? 0 then Ret else RetN pop)] ++
  slot g base 10 [I (Add ESP fs); I (RetN (pop + 4))] ++
  slot g base 11 [I (Jmp false out)] ++
  slot g base 12 [I (Zx 8 EAX EAX); I (Jmp false out)] ++
  slot g base 13 [I (Zx 16 EAX EAX); I (Jmp false out)] ++
  slot g base 14 [I Ud2] ++
  slot g base 15 [I Ud2].

(** Labels: 10 ffi_go_closure_EAX, 11 ffi_go_closure_ECX, 12 ffi_closure_i386, 13
    L(do_closure_i386), 14 L(load_table2), 15 L(e2), 16 L(pc2), 17 the return address of the
    call.  src/x86/sysv.S:294-422 *)
Definition i386_src (g : cfg) : list line :=
  [Balign 16; L 10] ++ endbr g ++ [I (Sub ESP FS)] ++ save_regs ++
  [I (Ld EDX EAX 4); I (Ld ECX EAX 8); I (Sto 4 ESP 28 EDX); I (Sto 4 ESP 32 ECX); I (Sto 4 ESP 36 EAX); I (Jmp false 13)] ++
  [Balign 16; L 11] ++ endbr g ++ [I (Sub ESP FS)] ++ save_regs ++
  [I (Ld EDX ECX 4); I (Ld EAX ECX 8); I (Sto 4 ESP 28 EDX); I (Sto 4 ESP 32 EAX); I (Sto 4 ESP 36 ECX); I (Jmp false 13)] ++
  [Balign 16; L 12] ++ endbr g ++ [I (Sub ESP FS)] ++ save_regs ++ copy_tramp_data ++
  [L 13] ++ prep_call ++ call_inner g 17 ++ mask_and_jump g 14 16 ++
  load_table g 14 15 0 FS 0.

(** A slot of the second load table (src/x86/sysv.S:512-569): a load, then esp from ecx. *)
Definition pop_slot (g : cfg) (n : Z) (t : list line) : list line := slot g 25 n (t ++ [I (Mov ESP ECX); I Ret]).
(** Labels: 20 ffi_go_closure_STDCALL, 21 ffi_closure_REGISTER, 22 ffi_closure_STDCALL, 23
    L(do_closure_REGISTER), 24 L(do_closure_STDCALL), 25 L(load_table3), 26 L(pc3), 27 the return
    address of the call.  src/x86/sysv.S:424-573 *)
Definition stdcall_src (g : cfg) : list line :=
  [Balign 16; L 20] ++ endbr g ++ [I (Sub ESP FS)] ++ save_regs ++
  [I (Ld EDX ECX 4); I (Ld EAX ECX 8); I (Sto 4 ESP 28 EDX); I (Sto 4 ESP 32 EAX); I (Sto 4 ESP 36 ECX); I (Jmp false 24)] ++
  [Balign 16; L 21] ++ endbr g ++ [I (Sub ESP (FS - 4))] ++ save_regs ++
  [I (Ld ECX ESP (FS - 4)); I (Ld EAX ESP FS); I (Sto 4 ESP FS ECX); I (Jmp false 23)] ++
  [Balign 16; L 22] ++ endbr g ++ [I (Sub ESP FS)] ++ save_regs ++
  [L 23] ++ copy_tramp_data ++
  [L 24] ++ prep_call ++ call_inner g 27 ++
  [I (Mov ECX EAX);
   I (Shr ECX 4);
   I (LeaX ECX ESP ECX FS);
   I (Ld EDX ESP FS);
   I (Sto 4 ECX 0 EDX)] ++
  mask_and_jump g 25 26 ++
  [Balign 8; L 25] ++
  pop_slot g 0 [I (Fld 4 ESP 0)] ++
  pop_slot g 1 [I (Fld 8 ESP 0)] ++
  pop_slot g 2 [I (Fld 10 ESP 0)] ++
  pop_slot g 3 [I (Sx 8 EAX EAX)] ++
  pop_slot g 4 [I (Sx 16 EAX EAX)] ++
  pop_slot g 5 [I (Zx 8 EAX EAX)] ++
  pop_slot g 6 [I (Zx 16 EAX EAX)] ++
  pop_slot g 7 [I (Ld EDX ESP 4)] ++
  pop_slot g 8 [] ++
  pop_slot g 9 [] ++
  pop_slot g 10 [] ++
  pop_slot g 11 [] ++
  pop_slot g 12 [I (Zx 8 EAX EAX)] ++
  pop_slot g 13 [I (Zx 16 EAX EAX)] ++
  slot g 25 14 [I Ud2] ++
  slot g 25 15 [I Ud2].

(** Labels: 30 ffi_closure_i386_alt, 31 ffi_closure_REGISTER_alt, 32 ffi_closure_STDCALL_alt.
    src/x86/sysv.S:577-608 *)
Definition alt_src (g : cfg) : list line :=
  [Balign 16; L 30] ++ endbr g ++ [I (Ld EAX ESP 4); I (Add ESP 8); I (Jmp true 12)] ++
  [Balign 16; L 31] ++ endbr g ++ [I (Ld EAX ESP 0); I (Add ESP 4); I (Jmp true 21)] ++
  [Balign 16; L 32] ++ endbr g ++ [I (Ld EAX ESP 4); I (Add ESP 8); I (Jmp true 22)].

(** Frame sizes: src/x86/sysv.S:666 raw_closure_S_FS *)
Definition RAW_S_FS := 44.
(** src/x86/sysv.S:770 raw_closure_T_FS *)
Definition RAW_T_FS := 40.
(** The common part of the raw closures, src/x86/sysv.S:675-705, 790-822: frame size, labels of
    the table, of L(pcN) and of the return address.  The second jump has no NOTRACK prefix. *)
Definition raw_body (g : cfg) (fs base pc back : Z) : list line :=
  [I (Sub ESP fs);
   I (Sto 4 ESP (fs - 4) EBX);
   I (Ld EDX EAX (TRAMP + 8));
   I (Sto 4 ESP 12 EDX);
   I (Lea EDX ESP (fs + 4));
   I (Sto 4 ESP 8 EDX);
   I (Lea EDX ESP 16);
   I (Sto 4 ESP 4 EDX);
   I (Ld EBX EAX TRAMP);
   I (Sto 4 ESP 0 EBX);
   I (CallM EAX (TRAMP + 4));
   L back;
   I (Ld EAX EBX 20);
   I (And EAX 15)] ++
  table_at g ECX EBX EAX base pc 60 ++
  [I (Ld EBX ESP (fs - 4));
   I (Ld EAX ESP 16);
   I (JmpR false ECX)].
(** Labels: 40 ffi_closure_raw_SYSV, 41 L(load_table4), 42 L(e4), 43 L(pc4), 44 the return address
    of the call; 50 ffi_closure_raw_THISCALL, 51 L(load_table5), 52 L(e5), 53 L(pc5), 54 the
    return address of the call.  src/x86/sysv.S:668-889 *)
Definition raw_src (g : cfg) : list line :=
  [Balign 16; L 40] ++ endbr g ++ raw_body g RAW_S_FS 41 43 44 ++ load_table g 41 42 16 RAW_S_FS 0 ++
  [Balign 16; L 50] ++ endbr g ++ [I (Pop EDX); I (Push ECX); I (Push EDX)] ++
  raw_body g RAW_T_FS 51 53 54 ++ load_table g 51 52 16 RAW_T_FS 4.

(** Labels 60 and 61: __x86.get_pc_thunk.bx and .dx, src/x86/sysv.S:921-932.  In ELF files they are
    in a section of their own; here they follow the rest. *)
Definition thunk_src (g : cfg) : list line :=
  match g_pic g with
  | Fixed => []
  | Hidden => [L 60; I (Ld EBX ESP 0); I Ret; L 61; I (Ld EDX ESP 0); I Ret]
  | Plt => [L 60; I (Ld EBX ESP 0); I Ret]
  end.

(** src/x86/sysv.S:76-932 without the trampoline table *)
Definition src (g : cfg) : list line :=
  call_src g ++ i386_src g ++ stdcall_src g ++ alt_src g ++ raw_src g ++ thunk_src g.
(** The assembled code of src/x86/sysv.S:76-932. *)
Definition text (g : cfg) : list (Z * instr) := assemble (src g).

(** ** Static trampolines *)

(** src/x86/internal.h:38-42 X86_TRAMP_SIZE *)
Definition tramp_size (g : cfg) : Z := if g_cet g then 44 else 40.
(** src/x86/internal.h:36-37 X86_TRAMP_MAP_SIZE *)
Definition TRAMP_MAP := 4096.
(** src/x86/sysv.S:634, 637 X86_DATA_OFFSET *)
Definition data_offset (g : cfg) : Z := if g_cet g then 4081 else 4085.
(** src/x86/sysv.S:635, 638 X86_CODE_OFFSET *)
Definition code_offset (g : cfg) : Z := if g_cet g then 4070 else 4074.
(** One slot of trampoline_code_table, src/x86/sysv.S:646-658; 70 its start, 71 the local label
    1. *)
Definition tramp_src (g : cfg) : list line :=
  [L 70] ++ endbr g ++
  [I (Sub ESP 8);
   I (Sto 4 ESP 0 EAX);
   I (Call 71);
   I (Ld EAX EAX (data_offset g));
   I (Sto 4 ESP 4 EAX);
   I (Call 71);
   I (Ld EAX EAX (code_offset g));
   I (JmpR false EAX);
   L 71;
   I (Ld EAX ESP 0);
   I Ret;
   Balign 4; L 72].
(** The code of a slot (src/x86/sysv.S:646-658). *)
Definition tramp_text (g : cfg) : list (Z * instr) := assemble (tramp_src g).

(** ** Dynamic trampolines *)

(** src/x86/ffi.c:571-621 ffi_prep_closure_loc: the 14 bytes written for the entry code at [dest];
    [push]: the opcode is that of pushl.  [clo]: codeloc. *)
Definition dyn_tramp (push : bool) (dest clo : Z) : list Z :=
  le_enc 4 4213444595 ++ [if push then 104 else 184] ++ le_enc 4 clo ++ [233] ++ le_enc 4 (wrap32 (dest - wrap32 (clo + 14))).
(** src/x86/ffi.c:715-721 ffi_prep_raw_closure_loc: 10 bytes *)
Definition raw_tramp (dest clo : Z) : list Z := [184] ++ le_enc 4 clo ++ [233] ++ le_enc 4 (wrap32 (dest - wrap32 (clo + 10))).

(** The processor on the bytes at the instruction pointer: endbr32, movl to eax, pushl, jmp (the
    four instructions of src/x86/ffi.c:611-621). *)
Definition dyn_step (s : st) : option st :=
  let m := sm s in
  let a := spc s in
  let x := sx s in
  let w := le_dec (rd m (a + 1) 4) in
  let esp := wrap32 (x ESP - 4) in
  if le_dec (rd m a 4) =? 4213444595 then Some (St x (sf s) false (wrap32 (a + 4)) m)
  else if sk s then None
  else if m a =? 184 then Some (St (upd x EAX w) (sf s) false (wrap32 (a + 5)) m)
  else if m a =? 104 then
    if fits esp 4 then Some (St (upd x ESP esp) (sf s) false (wrap32 (a + 5)) (wr m esp (le_enc 4 w))) else None
  else if m a =? 233 then Some (St x (sf s) false (wrap32 (a + 5 + w)) m)
  else None.
(** [n] instructions of a trampoline (src/x86/ffi.c:611-621). *)
Fixpoint dyn_steps (n : nat) (s : st) : option st :=
  match n with O => Some s | S k => match dyn_step s with Some s' => dyn_steps k s' | None => None end end.

(** ** Which entry code *)

(** src/x86/ffi.c:573-594 label of the entry code of a closure (with [alt], lines 599-604), for
    conventions of the first group, REGISTER, and the others *)
Inductive group : Type := GPlain | GRegister | GPop.
(** src/x86/ffi.c:577, 584, 588 *)
Definition entry_label (c : group) : Z := match c with GPlain => 12 | GRegister => 21 | GPop => 22 end.
(** src/x86/ffi.c:600-604 *)
Definition alt_label (c : group) : Z := match c with GPlain => 30 | GRegister => 31 | GPop => 32 end.
(** src/x86/ffi.c:571, 589: the opcode is that of pushl *)
Definition pushes (c : group) : bool := match c with GRegister => true | _ => false end.
(** src/x86/ffi.c:573-594 the switch over the ABI *)
Definition group_of (a : I386Model.abi) : group :=
  match a with
  | I386Model.SYSV | I386Model.MS_CDECL => GPlain
  | I386Model.REGISTER => GRegister
  | _ => GPop
  end.
