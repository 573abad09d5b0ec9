(** src/aarch64/sysv.S instruction by instruction (LP64, little-endian): the code around a
    call, closure entry and exit, Go closures, and trampolines. *)
From Verif Require Import Base ByteMem.
Local Open Scope Z_scope.

(** Pointer authentication as compiled in (src/aarch64/internal.h:82-145): none, the Linux
    variant, with key A (0) or B (1), or that of arm64e. *)
Inductive pac : Type := NoPac | LinuxPac (key : Z) | Arm64e.

(** The processor's functions to sign and to authenticate a pointer, by key and modifier, and
    the address of ffi_closure_SYSV_inner (src/aarch64/internal.h:86-125,
    src/aarch64/sysv.S:379). *)
Record env : Type := Env {
  sign : Z -> Z -> Z -> Z;
  auth : Z -> Z -> Z -> Z;
  inner : Z
}.

(** General registers (31: the stack pointer), vector registers as 16 bytes each, program
    counter and memory (src/aarch64/sysv.S:92-675). *)
Record st : Type := St { sx : Z -> Z; sv : Z -> list Z; spc : Z; sm : Z -> Z }.

(** The link register (src/aarch64/sysv.S:106). *)
Definition LR := 30.
(** The stack pointer (src/aarch64/sysv.S:112). *)
Definition SP := 31.

(** The instructions of src/aarch64/sysv.S:92-675.  Branch targets: label numbers in source
    text, displacements in instructions after assembling.  Nop stands for the branch target
    hints too. *)
Inductive instr : Type :=
| Nop
| Brk
| Mov (d s : Z)
| Uxt (n d s : Z)
| Sxt (n d s : Z)
| Add (d s i : Z)
| AddL (d s r sh : Z)
| AndW (d s i : Z)
| Adr (d l : Z)
| AdrI (d i : Z)
| Ldr (n : nat) (d b i : Z)
| LdrS (n : nat) (d b i : Z)
| Str (n : nat) (s b i : Z)
| Ldp (d1 d2 b i : Z)
| LdpPost (d1 d2 b i : Z)
| Stp (s1 s2 b i : Z)
| StpPre (s1 s2 b i : Z)
| LdV (n : nat) (d b i : Z)
| LdpV (n : nat) (d1 d2 b i : Z)
| StV (n : nat) (s b i : Z)
| StpV (n : nat) (s1 s2 b i : Z)
| StLane (n : nat) (k : nat) (b : Z)
| Tbz (r bit l : Z)
| B (l : Z)
| Br (r : Z)
| Blr (r : Z)
| Blraaz (r : Z)
| BlInner
| Ret
| Sign (key m : Z)
| Auth (key m : Z).

(** A line of source text: a label, an alignment to 16 bytes, or an instruction
    (src/aarch64/sysv.S:74, 163, 164). *)
Inductive line : Type := L (n : Z) | Align | I (i : instr).

(** ** Assembling *)

(** Nops filled in by .align 4 (src/aarch64/sysv.S:163, 393): the start of the text is
    aligned. *)
Definition pad (k : nat) : nat := ((4 - k mod 4) mod 4)%nat.
(** Index of the instruction behind label [n] (labels of src/aarch64/sysv.S:92-675); -1: none. *)
Fixpoint find_label (t : list line) (n : Z) (k : nat) : Z :=
  match t with
  | [] => -1
  | L m :: r => if m =? n then Z.of_nat k else find_label r n k
  | Align :: r => find_label r n (k + pad k)
  | I _ :: r => find_label r n (S k)
  end.
(** Labels replaced by displacements (src/aarch64/sysv.S:132, 157, 170). *)
Definition resolve (t : list line) (k : nat) (i : instr) : instr :=
  let rel n := find_label t n 0 - Z.of_nat k in
  match i with
  | Adr d n => Adr d (rel n)
  | Tbz r b n => Tbz r b (rel n)
  | B n => B (rel n)
  | _ => i
  end.
(** The instructions of a text (src/aarch64/sysv.S:92-675). *)
Fixpoint assemble (all t : list line) (k : nat) : list instr :=
  match t with
  | [] => []
  | L _ :: r => assemble all r k
  | Align :: r => repeat Nop (pad k) ++ assemble all r (k + pad k)
  | I i :: r => resolve all k i :: assemble all r (S k)
  end.

(** ** Execution *)

(** Change of a register (any instruction of src/aarch64/sysv.S:92-675 with a destination). *)
Definition upd {A} (f : Z -> A) (r : Z) (v : A) : Z -> A := fun x => if x =? r then v else f x.

(** A memory access of [n] bytes lies inside the address space (accesses of
    src/aarch64/sysv.S:92-675; others are taken as faults). *)
Definition fits (a : Z) (n : Z) : bool := (0 <=? a) && (a + n <=? 2 ^ 64).

(** A loaded vector register: the bytes above are cleared (src/aarch64/sysv.S:425-466). *)
Definition vext (d : list Z) : list Z := d ++ repeat 0 (16 - length d).

(** The bytes stored by st3 and st4 of lane 0, [n] bytes from each of the registers 0 to
    [k]-1 (src/aarch64/sysv.S:196-214). *)
Fixpoint lanes (v : Z -> list Z) (n : nat) (k : nat) : list Z :=
  match k with O => [] | S j => lanes v n j ++ firstn n (v (Z.of_nat j)) end.

(** One instruction, src/aarch64/sysv.S:92-675; [pc4]: the address of the next one.  [None]:
    a fault or brk. *)
Definition exec (e : env) (i : instr) (s : st) : option st :=
  let x := sx s in
  let v := sv s in
  let m := sm s in
  let pc4 := wrap64 (spc s + 4) in
  let rel l := wrap64 (spc s + 4 * l) in
  let set d w := Some (St (upd x d w) v pc4 m) in
  let setv d w := Some (St x (upd v d w) pc4 m) in
  let mem a n d := if fits a n then Some (St x v pc4 (wr m a d)) else None in
  let ea b i := wrap64 (x b + i) in
  match i with
  | Nop => Some (St x v pc4 m)
  | Brk => None
  | Mov d r => set d (x r)
  | Uxt n d r => set d (x r mod 2 ^ n)
  | Sxt n d r => set d (wrap64 (to_signed n (x r)))
  | Add d r i => set d (wrap64 (x r + i))
  | AddL d r q sh => set d (wrap64 (x r + x q * 2 ^ sh))
  | AndW d r i => set d (Z.land (x r mod 2 ^ 32) i)
  | Adr d l => set d (rel l)
  | AdrI d i => set d (wrap64 (spc s + i))
  | Ldr n d b i => if fits (ea b i) (Z.of_nat n) then set d (le_dec (rd m (ea b i) n)) else None
  | LdrS n d b i =>
    if fits (ea b i) (Z.of_nat n) then set d (wrap64 (to_signed (8 * Z.of_nat n) (le_dec (rd m (ea b i) n)))) else None
  | Str n r b i => mem (ea b i) (Z.of_nat n) (firstn n (le_enc 8 (x r)))
  | Ldp d1 d2 b i =>
    if fits (ea b i) 16 then
      Some (St (upd (upd x d1 (le_dec (rd m (ea b i) 8))) d2 (le_dec (rd m (ea b i + 8) 8))) v pc4 m)
    else None
  | LdpPost d1 d2 b i =>
    if fits (x b) 16 then
      Some (St (upd (upd (upd x b (ea b i)) d1 (le_dec (rd m (x b) 8))) d2 (le_dec (rd m (x b + 8) 8))) v pc4 m)
    else None
  | Stp r1 r2 b i => mem (ea b i) 16 (le_enc 8 (x r1) ++ le_enc 8 (x r2))
  | StpPre r1 r2 b i =>
    if fits (ea b i) 16 then
      Some (St (upd x b (ea b i)) v pc4 (wr m (ea b i) (le_enc 8 (x r1) ++ le_enc 8 (x r2))))
    else None
  | LdV n d b i => if fits (ea b i) (Z.of_nat n) then setv d (vext (rd m (ea b i) n)) else None
  | LdpV n d1 d2 b i =>
    if fits (ea b i) (2 * Z.of_nat n) then
      Some (St x (upd (upd v d1 (vext (rd m (ea b i) n))) d2 (vext (rd m (ea b i + Z.of_nat n) n))) pc4 m)
    else None
  | StV n r b i => mem (ea b i) (Z.of_nat n) (firstn n (v r))
  | StpV n r1 r2 b i => mem (ea b i) (2 * Z.of_nat n) (firstn n (v r1) ++ firstn n (v r2))
  | StLane n k b => mem (x b) (Z.of_nat (n * k)) (lanes v n k)
  | Tbz r bit l => Some (St x v (if Z.testbit (x r) bit then pc4 else rel l) m)
  | B l => Some (St x v (rel l) m)
  | Br r => Some (St x v (x r) m)
  | Blr r => Some (St (upd x LR pc4) v (x r) m)
  | Blraaz r => Some (St (upd x LR pc4) v (auth e 0 (x r) 0) m)
  | BlInner => Some (St (upd x LR pc4) v (inner e) m)
  | Ret => Some (St x v (x LR) m)
  | Sign key r => set LR (sign e key (x LR) (x r))
  | Auth key r => set LR (auth e key (x LR) (x r))
  end.

(** Fetch from the text at [org], then execute (src/aarch64/sysv.S:92-675); the text cannot
    be changed by stores. *)
Definition step (e : env) (t : list instr) (org : Z) (s : st) : option st :=
  let o := spc s - org in
  if (o mod 4 =? 0) && (0 <=? o) then
    match nth_error t (Z.to_nat (o / 4)) with Some i => exec e i s | None => None end
  else None.
(** Execution of [n] instructions (src/aarch64/sysv.S:92-675). *)
Fixpoint steps (e : env) (t : list instr) (org : Z) (n : nat) (s : st) : option st :=
  match n with
  | O => Some s
  | S k => match step e t org s with Some s' => steps e t org k s' | None => None end
  end.

(** ** Macros *)

(** src/aarch64/internal.h:86, 104-110, 135 SIGN_LR *)
Definition SIGN_LR (p : pac) : list line :=
  match p with NoPac => [] | LinuxPac k => [I (Sign k SP)] | Arm64e => [I (Sign 1 SP)] end.
(** src/aarch64/internal.h:91, 102, 141 SIGN_LR_LINUX_ONLY *)
Definition SIGN_LR_LINUX_ONLY (p : pac) : list line := match p with LinuxPac _ => SIGN_LR p | _ => [] end.
(** src/aarch64/internal.h:87, 118-124, 136 SIGN_LR_WITH_REG *)
Definition SIGN_LR_WITH_REG (p : pac) (r : Z) : list line :=
  match p with
  | NoPac => []
  | LinuxPac k => [I (Mov 9 SP); I (Mov SP r); I (Sign k SP); I (Mov SP 9)]
  | Arm64e => [I (Sign 1 r)]
  end.
(** src/aarch64/internal.h:89, 111-117, 138 AUTH_LR_WITH_REG *)
Definition AUTH_LR_WITH_REG (p : pac) (r : Z) : list line :=
  match p with
  | NoPac => []
  | LinuxPac k => [I (Mov 9 SP); I (Mov SP r); I (Auth k SP); I (Mov SP 9)]
  | Arm64e => [I (Auth 1 r)]
  end.
(** src/aarch64/internal.h:88, 125-129, 137 AUTH_LR_AND_RET *)
Definition AUTH_LR_AND_RET (p : pac) : list line :=
  match p with NoPac => [I Ret] | LinuxPac k => [I (Auth k SP); I Ret] | Arm64e => [I (Auth 1 SP); I Ret] end.
(** src/aarch64/internal.h:90, 101, 139 BRANCH_AND_LINK_TO_REG *)
Definition BRANCH_AND_LINK_TO_REG (p : pac) (r : Z) : list line :=
  match p with Arm64e => [I (Blraaz r)] | _ => [I (Blr r)] end.

(** src/aarch64/internal.h:67 N_V_ARG_REG *)
Definition N_V := 8.
(** src/aarch64/internal.h:68 CALL_CONTEXT_SIZE *)
Definition CTX := 192.

(** ** ffi_call_SYSV *)

(** An unused entry of the table (src/aarch64/sysv.S:176-195). *)
Definition unused : list line := [I Brk; I (B 99); I Nop; I Nop].
(** A reserved entry (src/aarch64/sysv.S:239-242, 247-250, ...). *)
Definition reserved : list line := [I (B 99); I Nop; I Nop; I Nop].
(** An entry with one store (src/aarch64/sysv.S:168-175, 196-223, 230-237). *)
Definition one (i : instr) : list line := [I Nop; I i; I (B 99); I Nop].
(** src/aarch64/sysv.S:92-294; label 1 is that of line 130, 100 stands for 0 of line 164.  [go]:
    FFI_GO_CLOSURES. *)
Definition call_src (p : pac) (go : bool) : list line :=
  [I Nop] ++ SIGN_LR_WITH_REG p 1 ++
  [I (Stp 29 30 1 0);
   I (Mov 9 SP);
   I (Str 8 9 1 32);
   I (Mov 29 1);
   I (Mov SP 0);
   I (Mov 9 2);
   I (Mov 8 3)] ++
  (if go then [I (Mov 18 5)] else []) ++
  [I (Stp 3 4 29 16);
   I (Tbz 4 7 1);
   I (LdpV 16 0 1 SP 0);
   I (LdpV 16 2 3 SP 32);
   I (LdpV 16 4 5 SP 64);
   I (LdpV 16 6 7 SP 96);
   L 1;
   I (Ldp 0 1 SP (16 * N_V + 0));
   I (Ldp 2 3 SP (16 * N_V + 16));
   I (Ldp 4 5 SP (16 * N_V + 32));
   I (Ldp 6 7 SP (16 * N_V + 48));
   I (Add SP SP CTX)] ++
  BRANCH_AND_LINK_TO_REG p 9 ++
  [L 2;
   I (Ldp 3 4 29 16);
   I (Ldr 8 9 29 32);
   I (Mov SP 9);
   I (Mov 2 29);
   I (Ldp 29 30 29 0);
   I (Adr 5 100);
   I (AndW 4 4 31);
   I (AddL 5 5 4 4);
   I (Br 5);
   Align;
   L 100; I Nop; I (B 99); I Nop; I Nop] ++
  one (Str 8 0 3 0) ++
  one (Stp 0 1 3 0) ++
  unused ++ unused ++ unused ++ unused ++ unused ++
  one (StLane 4 4 3) ++
  one (StLane 4 3 3) ++
  one (StpV 4 0 1 3 0) ++
  one (StV 4 0 3 0) ++
  one (StLane 8 4 3) ++
  one (StLane 8 3 3) ++
  one (StpV 8 0 1 3 0) ++
  one (StV 8 0 3 0) ++
  [I Nop; I (StV 16 3 3 48); I Nop; I Nop] ++
  [I Nop; I (StV 16 2 3 32); I Nop; I Nop] ++
  one (StpV 16 0 1 3 0) ++
  one (StV 16 0 3 0) ++
  [I Nop; I (Uxt 8 0 0); I (Str 8 0 3 0); I Nop] ++ reserved ++
  [I Nop; I (Uxt 16 0 0); I (Str 8 0 3 0); I Nop] ++ reserved ++
  [I Nop; I (Uxt 32 0 0); I (Str 8 0 3 0); I Nop] ++ reserved ++
  [I Nop; I (Sxt 8 0 0); I (Str 8 0 3 0); I Nop] ++ reserved ++
  [I Nop; I (Sxt 16 0 0); I (Str 8 0 3 0); I Nop] ++ reserved ++
  [I Nop; I (Sxt 32 0 0); I (Str 8 0 3 0); I Nop] ++ reserved ++
  [L 99] ++ AUTH_LR_WITH_REG p 2 ++ [I Ret].
(** The code of src/aarch64/sysv.S:92-294 as assembled. *)
Definition call_text (p : pac) (go : bool) : list instr := assemble (call_src p go) (call_src p go) 0.

(** ** Closures *)

(** src/aarch64/sysv.S:322 ffi_closure_SYSV_FS *)
Definition FS := 8 * 2 + CTX + 64.
(** src/aarch64/ffitarget.h:66, 73 FFI_TRAMPOLINE_CLOSURE_OFFSET: 16 with trampoline tables,
    else 24.  *)
Definition clo_off (table : bool) : Z := if table then 16 else 24.

(** A table entry that traps (src/aarch64/sysv.S:404-423, 474-477, ...). *)
Definition trap : list line := [I Brk; I Nop; I Nop; I Nop].

(** Saving the vector registers, src/aarch64/sysv.S:335-338, 635-638 *)
Definition save_v : list line :=
  [I (StpV 16 0 1 SP (16 + 0)); I (StpV 16 2 3 SP (16 + 32)); I (StpV 16 4 5 SP (16 + 64)); I (StpV 16 6 7 SP (16 + 96))].
(** Saving the general registers, src/aarch64/sysv.S:361-367, 656-662 *)
Definition save_x : list line :=
  [I (Mov 29 SP);
   I (Stp 0 1 SP (16 + 16 * N_V + 0)); I (Stp 2 3 SP (16 + 16 * N_V + 16));
   I (Stp 4 5 SP (16 + 16 * N_V + 32)); I (Stp 6 7 SP (16 + 16 * N_V + 48))].

(** Labels of entry points: 201 ffi_closure_SYSV_V, 202 ffi_closure_SYSV, 203
    ffi_closure_SYSV_V_alt, 204 ffi_closure_SYSV_alt, 205 ffi_go_closure_SYSV_V, 206
    ffi_go_closure_SYSV; 207 is do_closure; 102 and 103 stand for 0 of lines 360 and 655, 100 for
    0 of line 394.  src/aarch64/sysv.S:324-519, 529-556 (if [alt]: FFI_EXEC_STATIC_TRAMP), 625-675
    (if [go]). *)
Definition closure_src (p : pac) (table alt go : bool) : list line :=
  [L 201; I Nop] ++ SIGN_LR p ++ [I (StpPre 29 30 SP (- FS))] ++ save_v ++ [I (B 102)] ++
  [Align; L 202; I Nop] ++ SIGN_LR p ++ [I (StpPre 29 30 SP (- FS)); L 102] ++ save_x ++
  [I (Ldp 0 1 17 (clo_off table));
   I (Ldr 8 2 17 (clo_off table + 16));
   L 207;
   I (Add 3 SP 16);
   I (Add 4 SP FS);
   I (Add 5 SP (16 + CTX));
   I (Mov 6 8);
   I BlInner;
   L 208;
   I (Adr 1 100);
   I (AndW 0 0 31);
   I (AddL 1 1 0 4);
   I (Add 3 SP (16 + CTX));
   I (Br 1);
   Align;
   L 100; I Nop; I (B 99); I Nop; I Nop] ++
  one (Ldr 8 0 3 0) ++
  one (Ldp 0 1 3 0) ++
  trap ++ trap ++ trap ++ trap ++ trap ++
  [I Nop; I (LdV 4 3 3 12); I Nop; I Nop] ++
  [I Nop; I (LdV 4 2 3 8); I Nop; I Nop] ++
  one (LdpV 4 0 1 3 0) ++
  one (LdV 4 0 3 0) ++
  [I Nop; I (LdV 8 3 3 24); I Nop; I Nop] ++
  [I Nop; I (LdV 8 2 3 16); I Nop; I Nop] ++
  one (LdpV 8 0 1 3 0) ++
  one (LdV 8 0 3 0) ++
  [I Nop; I (LdV 16 3 3 48); I Nop; I Nop] ++
  [I Nop; I (LdV 16 2 3 32); I Nop; I Nop] ++
  one (LdpV 16 0 1 3 0) ++
  one (LdV 16 0 3 0) ++
  one (Ldr 1 0 3 0) ++ trap ++
  one (Ldr 2 0 3 0) ++ trap ++
  one (Ldr 4 0 3 0) ++ trap ++
  one (LdrS 1 0 3 0) ++ trap ++
  one (LdrS 2 0 3 0) ++ trap ++
  [I Nop; I (LdrS 4 0 3 0); I Nop; I Nop] ++
  [L 99; I (LdpPost 29 30 SP FS)] ++ AUTH_LR_AND_RET p ++
  (if alt then
     [Align; L 203; I Nop; I (Ldr 8 17 SP 8); I (Add SP SP 16); I (B 201);
      Align; L 204; I Nop; I (Ldr 8 17 SP 8); I (Add SP SP 16); I (B 202)]
   else []) ++
  (if go then
     [Align; L 205; I Nop; I (StpPre 29 30 SP (- FS))] ++ save_v ++ [I (B 103)] ++
     [Align; L 206; I Nop] ++ SIGN_LR_LINUX_ONLY p ++ [I (StpPre 29 30 SP (- FS)); L 103] ++ save_x ++
     [I (Ldp 0 1 18 8);
      I (Mov 2 18);
      I (B 207)]
   else []).
(** The code of src/aarch64/sysv.S:324-556, 625-675 as assembled. *)
Definition closure_text (p : pac) (table alt go : bool) : list instr :=
  assemble (closure_src p table alt go) (closure_src p table alt go) 0.
(** The address of a label of a text loaded at [org] (src/aarch64/sysv.S:324-675). *)
Definition at_label (t : list line) (org n : Z) : Z := org + 4 * find_label t n 0.

(** ** Trampolines *)

(** src/aarch64/sysv.S:580-590 one trampoline of the static table *)
Definition static_slot : list instr :=
  [Add SP SP (-16); Str 8 17 SP 0; AdrI 17 16376; Ldr 8 17 17 0; Str 8 17 SP 8; AdrI 17 16372; Ldr 8 17 17 0; Br 17].
(** src/aarch64/internal.h:76-77 AARCH64_TRAMP_MAP_SIZE *)
Definition TRAMP_MAP_SIZE := 16384.
(** src/aarch64/internal.h:78 AARCH64_TRAMP_SIZE *)
Definition TRAMP_SIZE := 32.
(** src/aarch64/sysv.S:581, 590 the table *)
Definition static_table : list instr := concat (repeat static_slot (Z.to_nat (TRAMP_MAP_SIZE / TRAMP_SIZE))).

(** src/aarch64/sysv.S:607-612 one trampoline of the table page for Mach, with PAGE_MAX_SIZE *)
Definition mach_slot (page : Z) : list instr := [AdrI 16 (- page); Ldp 17 16 16 0; Br 16; Nop].
(** src/aarch64/sysv.S:605-615 the page of them *)
Definition mach_table (page : Z) : list instr := concat (repeat (mach_slot page) (Z.to_nat (page / 16))).

(** src/aarch64/ffi.c:892-896 the bytes of a dynamic trampoline; the array has 16 elements *)
Definition trampoline : list Z := [144; 0; 0; 88; 241; 255; 255; 16; 0; 2; 31; 214; 0; 0; 0; 0].
(** The instructions of a dynamic trampoline, src/aarch64/ffi.c:892-896: ldr (literal, 64
    bits), adr, br. *)
Inductive winstr : Type := WLdr (d i : Z) | WAdr (d i : Z) | WBr (r : Z).
(** Decoding of instruction words, as far as needed for src/aarch64/ffi.c:892-896. *)
Definition decode (w : Z) : option winstr :=
  let d := w mod 32 in
  if w / 2 ^ 24 =? 88 then Some (WLdr d (4 * to_signed 19 (w / 2 ^ 5)))
  else if (w / 2 ^ 31 =? 0) && (w / 2 ^ 24 mod 32 =? 16) then
    Some (WAdr d (to_signed 21 (w / 2 ^ 5 mod 2 ^ 19 * 4 + w / 2 ^ 29 mod 4)))
  else if (w / 2 ^ 10 =? 3508160) && (w mod 32 =? 0) then Some (WBr (w / 2 ^ 5 mod 32))
  else None.
(** One instruction fetched from memory (src/aarch64/ffi.c:892-896). *)
Definition wstep (s : st) : option st :=
  if negb (fits (spc s) 4) then None
  else
    match decode (le_dec (rd (sm s) (spc s) 4)) with
    | Some (WLdr d i) =>
      let a := wrap64 (spc s + i) in
      if fits a 8 then Some (St (upd (sx s) d (le_dec (rd (sm s) a 8))) (sv s) (wrap64 (spc s + 4)) (sm s)) else None
    | Some (WAdr d i) => Some (St (upd (sx s) d (wrap64 (spc s + i))) (sv s) (wrap64 (spc s + 4)) (sm s))
    | Some (WBr r) => Some (St (sx s) (sv s) (sx s r) (sm s))
    | None => None
    end.
(** [n] of them (src/aarch64/ffi.c:892-896). *)
Fixpoint wsteps (n : nat) (s : st) : option st :=
  match n with O => Some s | S k => match wstep s with Some s' => wsteps k s' | None => None end end.
