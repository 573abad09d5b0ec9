(** src/x86/unix64.S instruction by instruction (LP64): the code around a call, closure entry
    and exit, Go closures.  The trampolines and the entry points behind static trampolines
    (lines 458-545) are in TrampCodeModel, byte by byte. *)
From Verif Require Import Base ByteMem.
Local Open Scope Z_scope.

(** How the jump tables are laid out (src/x86/unix64.S:41-49): with 16 byte slots that start
    with an ENDBR64 (__CET__), by .org, or by .balign alone (clang, Apple, Solaris). *)
Inductive flavour : Type := Cet | Gnu | Clang.

(** General registers, vector registers as 16 bytes each, the x87 register stack (top first,
    80-bit images), the condition flags CF and ZF, instruction pointer and memory
    (src/x86/unix64.S:62-455).  The direction flag is clear, as the psABI demands at calls. *)
Record st : Type := St {
  sx : Z -> Z;
  sv : Z -> list Z;
  sf : list (list Z);
  sc : bool;
  sz : bool;
  spc : Z;
  sm : Z -> Z
}.

(** Registers by number (src/x86/unix64.S:64-115). *)
Definition RAX := 0.
(** src/x86/unix64.S:118, %rcx *)
Definition RCX := 1.
(** src/x86/unix64.S:66, %rdx *)
Definition RDX := 2.
(** src/x86/unix64.S:64, %rsp *)
Definition RSP := 4.
(** src/x86/unix64.S:68, %rbp *)
Definition RBP := 5.
(** src/x86/unix64.S:65, %rsi *)
Definition RSI := 6.
(** src/x86/unix64.S:65, %rdi *)
Definition RDI := 7.
(** src/x86/unix64.S:84, %r8 *)
Definition R8 := 8.
(** src/x86/unix64.S:92, %r9 *)
Definition R9 := 9.
(** src/x86/unix64.S:64, %r10 *)
Definition R10 := 10.
(** src/x86/unix64.S:84, %r11 *)
Definition R11 := 11.

(** The instructions of src/x86/unix64.S:62-455, destination first.  Jump targets: label
    numbers in source text, displacements from the next instruction after assembling.  [near]
    tells a 32-bit displacement from an 8-bit one, as the assembler chooses. *)
Inductive instr : Type :=
| Endbr
| Mov (d s : Z)
| Zx (n : Z) (d s : Z)
| Sx (n : Z) (d s : Z)
| Lea (d b i : Z)
| LeaX (d b x k : Z)
| LeaPc (d l : Z)
| Ld (n : nat) (d b i : Z)
| LdS (n : nat) (d b i : Z)
| St8 (b i s : Z)
| LdA (d b i : Z)
| StA (b i s : Z)
| LdV (n : nat) (d b i : Z)
| StV (n : nat) (b i s : Z)
| Fld (b i : Z)
| Fstp (b i : Z)
| CmpB (r i : Z)
| Test (r : Z)
| Jnz (near : bool) (l : Z)
| Ja (near : bool) (l : Z)
| Jmp (near : bool) (l : Z)
| JmpR (r : Z)
| CallR (r : Z)
| CallInner
| CallAbort
| Pop (r : Z)
| Sub (r i : Z)
| Add (r i : Z)
| AddD (d s : Z)
| Shr (r i : Z)
| RepMovs
| Ret.

(** A line of source text: a label, .balign, .org label + number, or an instruction
    (src/x86/unix64.S:39-62). *)
Inductive line : Type := L (n : Z) | Balign (k : Z) | Org (l k : Z) | I (i : instr).

(** ** Sizes *)

(** ModRM byte, SIB byte and displacement of a memory operand with base register [b] (operands
    of src/x86/unix64.S:64-440). *)
Definition mlen (b i : Z) : Z :=
  1 + (if b mod 8 =? 4 then 1 else 0) +
  (if (i =? 0) && negb (b mod 8 =? 5) then 0 else if (-128 <=? i) && (i <=? 127) then 1 else 4).
(** A prefix for registers 8 to 15 (src/x86/unix64.S:94). *)
Definition rex (a b : Z) : Z := if (8 <=? a) || (8 <=? b) then 1 else 0.
(** Length of the encodings chosen by GNU as and clang (src/x86/unix64.S:62-455). *)
Definition len (i : instr) : Z :=
  match i with
  | Endbr => 4
  | Mov _ _ => 3
  | Zx n d s => (if n =? 32 then 2 else 3) + rex d s
  | Sx n _ _ => if n =? 32 then 2 else 4
  | Lea _ b i => 2 + mlen b i
  | LeaX _ _ _ _ => 4
  | LeaPc _ _ => 7
  | Ld n d b i => match n with 8%nat => 2 | 4%nat => 1 + rex d b | _ => 2 + rex d b end + mlen b i
  | LdS _ d b i => 2 + rex d b + mlen b i
  | St8 b i _ => 2 + mlen b i
  | LdA d b i => 3 + rex d b + mlen b i
  | StA b i s => 3 + rex s b + mlen b i
  | LdV _ d b i => 3 + rex d b + mlen b i
  | StV _ b i s => 3 + rex s b + mlen b i
  | Fld b i => 1 + rex b 0 + mlen b i
  | Fstp b i => 1 + rex b 0 + mlen b i
  | CmpB r _ => if r =? RAX then 2 else 3
  | Test r => 2 + rex r 0
  | Jnz near _ => if near then 6 else 2
  | Ja near _ => if near then 6 else 2
  | Jmp near _ => if near then 5 else 2
  | JmpR r => 2 + rex r 0
  | CallR r => 2 + rex r 0
  | CallInner => 5
  | CallAbort => 5
  | Pop r => 1 + rex r 0
  | Sub _ i => if (-128 <=? i) && (i <=? 127) then 4 else 7
  | Add _ i => if (-128 <=? i) && (i <=? 127) then 4 else 7
  | AddD d s => 2 + rex d s
  | Shr _ _ => 3
  | RepMovs => 2
  | Ret => 1
  end.

(** ** Assembling *)

(** The next multiple of [k] (.balign, src/x86/unix64.S:58). *)
Definition up (k a : Z) : Z := (a + k - 1) / k * k.
(** Position of a label (labels of src/x86/unix64.S:62-455). *)
Fixpoint label (ls : list (Z * Z)) (n : Z) : option Z :=
  match ls with [] => None | (m, p) :: r => if m =? n then Some p else label r n end.
(** Instructions with their positions, and the positions of labels.  The start of the text is
    aligned.  .org cannot go back (src/x86/unix64.S:37-39): [None]. *)
Fixpoint layout (t : list line) (pos : Z) (ls : list (Z * Z)) : option (list (Z * instr) * list (Z * Z)) :=
  match t with
  | [] => Some ([], ls)
  | L n :: r => layout r pos ((n, pos) :: ls)
  | Balign k :: r => layout r (up k pos) ls
  | Org l k :: r =>
    match label ls l with
    | Some p => if pos <=? p + k then layout r (p + k) ls else None
    | None => None
    end
  | I i :: r =>
    match layout r (pos + len i) ls with Some (t', ls') => Some ((pos, i) :: t', ls') | None => None end
  end.
(** Labels replaced by displacements from the next instruction at [next]; short ones have 8 bits
    (src/x86/unix64.S:97, 121, 270). *)
Definition resolve (ls : list (Z * Z)) (next : Z) (i : instr) : option instr :=
  let rel near n k :=
    match label ls n with
    | Some p => if near || ((-128 <=? p - next) && (p - next <=? 127)) then Some (k (p - next)) else None
    | None => None
    end in
  match i with
  | LeaPc d n => rel true n (LeaPc d)
  | Jnz near n => rel near n (Jnz near)
  | Ja near n => rel near n (Ja near)
  | Jmp near n => rel near n (Jmp near)
  | _ => Some i
  end.
(** Resolving all instructions (src/x86/unix64.S:62-455). *)
Fixpoint resolve_all (ls : list (Z * Z)) (t : list (Z * instr)) : option (list (Z * instr)) :=
  match t with
  | [] => Some []
  | (p, i) :: r =>
    match resolve ls (p + len i) i, resolve_all ls r with Some j, Some q => Some ((p, j) :: q) | _, _ => None end
  end.
(** The assembled text (src/x86/unix64.S:62-455); empty when assembling fails. *)
Definition assemble (t : list line) : list (Z * instr) :=
  match layout t 0 [] with
  | Some (r, ls) => match resolve_all ls r with Some q => q | None => [] end
  | None => []
  end.
(** Address of a label of a text at [org]; -1: none (symbols of src/x86/unix64.S:62-455). *)
Definition at_label (t : list line) (org n : Z) : Z :=
  match layout t 0 [] with
  | Some (_, ls) => match label ls n with Some p => org + p | None => -1 end
  | None => -1
  end.

(** ** Execution *)

(** Change of a register (any instruction of src/x86/unix64.S:62-455 with a destination). *)
Definition upd {A} (f : Z -> A) (r : Z) (v : A) : Z -> A := fun x => if x =? r then v else f x.

(** A memory access of [n] bytes lies inside the address space (accesses of
    src/x86/unix64.S:62-455; others are taken as faults). *)
Definition fits (a n : Z) : bool := (0 <=? a) && (a + n <=? 2 ^ 64).

(** A loaded vector register: the bytes above are cleared (src/x86/unix64.S:361-391). *)
Definition vext (d : list Z) : list Z := d ++ repeat 0 (16 - length d).

(** rep movsb (src/x86/unix64.S:196, 202): byte after byte, upwards. *)
Fixpoint movs (n : nat) (m : Z -> Z) (src dst : Z) : Z -> Z :=
  match n with O => m | S k => movs k (wr m dst [m src]) (src + 1) (dst + 1) end.

(** One instruction of length [n], src/x86/unix64.S:62-455; [inner] is the address of
    ffi_closure_unix64_inner.  [None]: a fault or abort.  The x87 stack has eight registers. *)
Definition exec (inner : Z) (i : instr) (s : st) : option st :=
  let x := sx s in
  let v := sv s in
  let f := sf s in
  let c := sc s in
  let z := sz s in
  let m := sm s in
  let next := wrap64 (spc s + len i) in
  let rel l := wrap64 (spc s + len i + l) in
  let set d w := Some (St (upd x d w) v f c z next m) in
  let setv d w := Some (St x (upd v d w) f c z next m) in
  let mem a n d := if fits a n then Some (St x v f c z next (wr m a d)) else None in
  let ea b i := wrap64 (x b + i) in
  let arith r w cf := Some (St (upd x r w) v f cf (w =? 0) next m) in
  let go p := Some (St x v f c z p m) in
  let call p :=
    if fits (ea RSP (-8)) 8
    then Some (St (upd x RSP (ea RSP (-8))) v f c z p (wr m (ea RSP (-8)) (le_enc 8 next)))
    else None in
  match i with
  | Endbr => go next
  | Mov d r => set d (x r)
  | Zx n d r => set d (x r mod 2 ^ n)
  | Sx n d r => set d (wrap64 (to_signed n (x r)))
  | Lea d b i => set d (ea b i)
  | LeaX d b r k => set d (wrap64 (x b + x r * k))
  | LeaPc d l => set d (rel l)
  | Ld n d b i => if fits (ea b i) (Z.of_nat n) then set d (le_dec (rd m (ea b i) n)) else None
  | LdS n d b i =>
    if fits (ea b i) (Z.of_nat n) then set d (wrap32 (to_signed (8 * Z.of_nat n) (le_dec (rd m (ea b i) n)))) else None
  | St8 b i r => mem (ea b i) 8 (le_enc 8 (x r))
  | LdA d b i => if fits (ea b i) 16 && (ea b i mod 16 =? 0) then setv d (rd m (ea b i) 16) else None
  | StA b i r => if ea b i mod 16 =? 0 then mem (ea b i) 16 (v r) else None
  | LdV n d b i => if fits (ea b i) (Z.of_nat n) then setv d (vext (rd m (ea b i) n)) else None
  | StV n b i r => mem (ea b i) (Z.of_nat n) (firstn n (v r))
  | Fld b i =>
    if fits (ea b i) 10 && (zlen f <? 8) then Some (St x v (rd m (ea b i) 10 :: f) c z next m) else None
  | Fstp b i =>
    match f with
    | a :: f' => if fits (ea b i) 10 then Some (St x v f' c z next (wr m (ea b i) a)) else None
    | [] => None
    end
  | CmpB r i => Some (St x v f (x r mod 256 <? i) (x r mod 256 =? i) next m)
  | Test r => Some (St x v f false (x r mod 2 ^ 32 =? 0) next m)
  | Jnz _ l => go (if z then next else rel l)
  | Ja _ l => go (if c || z then next else rel l)
  | Jmp _ l => go (rel l)
  | JmpR r => go (x r)
  | CallR r => call (x r)
  | CallInner => call inner
  | CallAbort => None
  | Pop r =>
    if fits (x RSP) 8 then Some (St (upd (upd x RSP (ea RSP 8)) r (le_dec (rd m (x RSP) 8))) v f c z next m) else None
  | Sub r i => arith r (wrap64 (x r - i)) (x r <? i)
  | Add r i => arith r (wrap64 (x r + i)) (2 ^ 64 <=? x r + i)
  | AddD d r => arith d (wrap32 (x d + x r)) (2 ^ 32 <=? x d mod 2 ^ 32 + x r mod 2 ^ 32)
  | Shr r i => arith r (Z.shiftr (x r mod 2 ^ 32) i) (Z.testbit (x r) (i - 1))
  | RepMovs =>
    let n := x RCX in
    if fits (x RSI) n && fits (x RDI) n then
      Some (St (upd (upd (upd x RCX 0) RSI (x RSI + n)) RDI (x RDI + n)) v f c z next (movs (Z.to_nat n) m (x RSI) (x RDI)))
    else None
  | Ret => if fits (x RSP) 8 then Some (St (upd x RSP (ea RSP 8)) v f c z (le_dec (rd m (x RSP) 8)) m) else None
  end.

(** The instruction at an offset (fetches of src/x86/unix64.S:62-455). *)
Fixpoint at_off (t : list (Z * instr)) (c : Z) : option instr :=
  match t with [] => None | (p, i) :: r => if p =? c then Some i else at_off r c end.
(** Fetch from the text at [org], then execute (src/x86/unix64.S:62-455); the text cannot be
    changed by stores. *)
Definition step (inner : Z) (t : list (Z * instr)) (org : Z) (s : st) : option st :=
  match at_off t (spc s - org) with Some i => exec inner i s | None => None end.
(** Execution of [n] instructions (src/x86/unix64.S:62-455). *)
Fixpoint steps (inner : Z) (t : list (Z * instr)) (org : Z) (n : nat) (s : st) : option st :=
  match n with
  | O => Some s
  | S k => match step inner t org s with Some s' => steps inner t org k s' | None => None end
  end.

(** ** Source text *)

(** src/x86/unix64.S:28-33 _CET_ENDBR (cet.h) *)
Definition endbr (k : flavour) : list line := match k with Cet => [I Endbr] | _ => [] end.
(** src/x86/unix64.S:41-49 E *)
Definition E (k : flavour) (base n : Z) : list line :=
  match k with
  | Cet => [Balign 8; Org base (n * 16)]
  | Gnu => [Balign 8; Org base (n * 8)]
  | Clang => [Balign 8]
  end.
(** A slot of a table (src/x86/unix64.S:139-193, 322-388). *)
Definition slot (k : flavour) (base n : Z) (t : list line) : list line := E k base n ++ endbr k ++ t.
(** Dispatch on the code in register [r] (src/x86/unix64.S:125-136, 308-319); [table] and
    [other]: labels of the table and of the call of abort. *)
Definition dispatch (k : flavour) (r table other off : Z) : list line :=
  [I (CmpB r 15); I (Zx 8 R10 r); I (LeaPc R11 table); I (Ja true other)] ++
  match k with Cet => [I (AddD R10 R10)] | _ => [] end ++
  [I (LeaX R10 R11 R10 8); I (Lea RSI RSP off); I (JmpR R10)].

(** Labels: 1 ffi_call_unix64, 2 L(ret_from_load_sse), 3 L(store_table), 4 L(s2), 5 L(s3), 6
    L(sa), 7 L(load_sse); 8 stands for the return address of the call.  src/x86/unix64.S:58-217 *)
Definition call_src (k : flavour) : list line :=
  [Balign 8; L 1] ++ endbr k ++
  [I (Ld 8 R10 RSP 0);
   I (LeaX RAX RDI RSI 1);
   I (St8 RAX 0 RDX);
   I (St8 RAX 8 RCX);
   I (St8 RAX 16 RBP);
   I (St8 RAX 24 R10);
   I (Mov RBP RAX);
   I (Mov R10 RDI);
   I (Mov R11 R8);
   I (Ld 8 RDI R10 0);
   I (Ld 8 RSI R10 8);
   I (Ld 8 RDX R10 16);
   I (Ld 8 RCX R10 24);
   I (Ld 8 R8 R10 32);
   I (Ld 8 R9 R10 40);
   I (Ld 4 RAX R10 176);
   I (Test RAX);
   I (Jnz true 7);
   L 2;
   I (Lea RSP R10 184);
   I (Pop R10);
   I (CallR R11);
   L 8;
   I (Lea RSP RBP 24);
   I (Ld 8 RCX RBP 0);
   I (Ld 8 RDI RBP 8);
   I (Ld 8 RBP RBP 16)] ++
  dispatch k RCX 3 6 (-20) ++
  [Balign 8; L 3] ++
  slot k 3 0 [I Ret] ++
  slot k 3 1 [I (Zx 8 RAX RAX); I (St8 RDI 0 RAX); I Ret] ++
  slot k 3 2 [I (Zx 16 RAX RAX); I (St8 RDI 0 RAX); I Ret] ++
  slot k 3 3 [I (Zx 32 RAX RAX); I (St8 RDI 0 RAX); I Ret] ++
  slot k 3 4 [I (Sx 8 RAX RAX); I (St8 RDI 0 RAX); I Ret] ++
  slot k 3 5 [I (Sx 16 RAX RAX); I (St8 RDI 0 RAX); I Ret] ++
  slot k 3 6 [I (Sx 32 RAX RAX); I (St8 RDI 0 RAX); I Ret] ++
  slot k 3 7 [I (St8 RDI 0 RAX); I Ret] ++
  slot k 3 8 [I (StV 4 RDI 0 0); I Ret] ++
  slot k 3 9 [I (StV 8 RDI 0 0); I Ret] ++
  slot k 3 10 [I (Fstp RDI 0); I Ret] ++
  slot k 3 11 [I (Fstp RDI 0); I (Fstp RDI 16); I Ret] ++
  slot k 3 12 [I (St8 RSI 8 RAX); I (Jmp false 5)] ++
  slot k 3 13 [I (StV 8 RSI 8 0); I (Jmp false 4)] ++
  slot k 3 14 [I (StV 8 RSI 8 1); I (Jmp false 5)] ++
  slot k 3 15 [I (St8 RSI 8 RDX);
     L 4; I (St8 RSI 0 RAX); I (Shr RCX 12); I RepMovs; I Ret] ++
  [Balign 8; L 5; I (StV 8 RSI 0 0); I (Shr RCX 12); I RepMovs; I Ret;
   L 6; I CallAbort;
   Balign 2; L 7;
   I (LdA 0 R10 48); I (LdA 1 R10 64); I (LdA 2 R10 80); I (LdA 3 R10 96);
   I (LdA 4 R10 112); I (LdA 5 R10 128); I (LdA 6 R10 144); I (LdA 7 R10 160);
   I (Jmp true 2)].

(** src/x86/unix64.S:220 ffi_closure_OFS_V *)
Definition OFS_V := 48.
(** src/x86/unix64.S:221 ffi_closure_OFS_RVALUE *)
Definition OFS_RVALUE := OFS_V + 8 * 16.
(** src/x86/unix64.S:222 ffi_closure_FS *)
Definition FS := OFS_RVALUE + 32 + 8.
(** src/x86/ffitarget.h:128-155 FFI_TRAMPOLINE_SIZE *)
Definition TRAMP := 32.

(** Saving the vector registers, src/x86/unix64.S:239-246, 412-419 *)
Definition save_v : list line :=
  [I (StA RSP (OFS_V + 0) 0); I (StA RSP (OFS_V + 16) 1); I (StA RSP (OFS_V + 32) 2); I (StA RSP (OFS_V + 48) 3);
   I (StA RSP (OFS_V + 64) 4); I (StA RSP (OFS_V + 80) 5); I (StA RSP (OFS_V + 96) 6); I (StA RSP (OFS_V + 112) 7)].
(** Saving the general registers, src/x86/unix64.S:262-267, 435-440 *)
Definition save_x : list line :=
  [I (St8 RSP 0 RDI); I (St8 RSP 8 RSI); I (St8 RSP 16 RDX); I (St8 RSP 24 RCX); I (St8 RSP 32 R8); I (St8 RSP 40 R9)].

(** Labels: 11 ffi_closure_unix64_sse, 12 ffi_closure_unix64, 13 L(sse_entry1), 14
    L(do_closure), 15 L(load_table), 16 L(l2), 17 L(l3), 18 L(la), 19 stands for the return
    address of the call.  src/x86/unix64.S:227-399 *)
Definition closure_src (k : flavour) : list line :=
  [Balign 2; L 11] ++ endbr k ++ [I (Sub RSP FS)] ++ save_v ++ [I (Jmp false 13)] ++
  [Balign 2; L 12] ++ endbr k ++ [I (Sub RSP FS); L 13] ++ save_x ++
  [I (Ld 8 RDI R10 TRAMP);
   I (Ld 8 RSI R10 (TRAMP + 8));
   I (Ld 8 RDX R10 (TRAMP + 16));
   L 14;
   I (Lea RCX RSP OFS_RVALUE);
   I (Mov R8 RSP);
   I (Lea R9 RSP (FS + 8));
   I CallInner;
   L 19;
   I (Add RSP FS)] ++
  dispatch k RAX 15 18 (OFS_RVALUE - FS) ++
  [Balign 8; L 15] ++
  slot k 15 0 [I Ret] ++
  slot k 15 1 [I (Ld 1 RAX RSI 0); I Ret] ++
  slot k 15 2 [I (Ld 2 RAX RSI 0); I Ret] ++
  slot k 15 3 [I (Ld 4 RAX RSI 0); I Ret] ++
  slot k 15 4 [I (LdS 1 RAX RSI 0); I Ret] ++
  slot k 15 5 [I (LdS 2 RAX RSI 0); I Ret] ++
  slot k 15 6 [I (Ld 4 RAX RSI 0); I Ret] ++
  slot k 15 7 [I (Ld 8 RAX RSI 0); I Ret] ++
  slot k 15 8 [I (LdV 4 0 RSI 0); I Ret] ++
  slot k 15 9 [I (LdV 8 0 RSI 0); I Ret] ++
  slot k 15 10 [I (Fld RSI 0); I Ret] ++
  slot k 15 11 [I (Fld RSI 16); I (Fld RSI 0); I Ret] ++
  slot k 15 12 [I (Ld 8 RAX RSI 8); I (Jmp false 17)] ++
  slot k 15 13 [I (LdV 8 0 RSI 8); I (Jmp false 16)] ++
  slot k 15 14 [I (LdV 8 1 RSI 8); I (Jmp false 17)] ++
  slot k 15 15 [I (Ld 8 RDX RSI 8); L 16; I (Ld 8 RAX RSI 0); I Ret] ++
  [Balign 8; L 17; I (LdV 8 0 RSI 0); I Ret;
   L 18; I CallAbort].

(** Labels: 21 ffi_go_closure_unix64_sse, 22 ffi_go_closure_unix64, 23 L(sse_entry2).
    src/x86/unix64.S:402-455 *)
Definition go_src (k : flavour) : list line :=
  [Balign 2; L 21] ++ endbr k ++ [I (Sub RSP FS)] ++ save_v ++ [I (Jmp false 23)] ++
  [Balign 2; L 22] ++ endbr k ++ [I (Sub RSP FS); L 23] ++ save_x ++
  [I (Ld 8 RDI R10 8);
   I (Ld 8 RSI R10 16);
   I (Mov RDX R10);
   I (Jmp true 14)].

(** src/x86/unix64.S:58-455 *)
Definition src (k : flavour) : list line := call_src k ++ closure_src k ++ go_src k.
(** The assembled code of src/x86/unix64.S:58-455. *)
Definition text (k : flavour) : list (Z * instr) := assemble (src k).
