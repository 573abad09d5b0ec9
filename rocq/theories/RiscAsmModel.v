(** src/riscv/sysv.S (64 bits) and src/loongarch64/sysv.S instruction by instruction, with the
    trampolines and the preparation of closures.  The two files consist of the same code but for
    names of registers and instructions and the static trampolines. *)
From Verif Require Import Base Types ByteMem.
Local Open Scope Z_scope.

(** src/riscv/sysv.S:1-293 or src/loongarch64/sysv.S:1-327 *)
Inductive arch : Type := RV | LA.

(** ** Registers, by number *)

(** The return address ra (src/riscv/sysv.S:90, src/loongarch64/sysv.S:91). *)
Definition RA (a : arch) : Z := 1.
(** The stack pointer (src/riscv/sysv.S:94, src/loongarch64/sysv.S:97). *)
Definition SP (a : arch) : Z := match a with RV => 2 | LA => 3 end.
(** The frame pointer: s0 (src/riscv/sysv.S:56), fp (src/loongarch64/sysv.S:96). *)
Definition FP (a : arch) : Z := match a with RV => 8 | LA => 22 end.
(** t0 (src/loongarch64/sysv.S:193). *)
Definition T0 (a : arch) : Z := match a with RV => 5 | LA => 12 end.
(** t1 (src/riscv/sysv.S:99, src/loongarch64/sysv.S:100). *)
Definition T1 (a : arch) : Z := match a with RV => 6 | LA => 13 end.
(** t2 (src/riscv/sysv.S:100, src/loongarch64/sysv.S:101). *)
Definition T2 (a : arch) : Z := match a with RV => 7 | LA => 14 end.
(** a0 to a7 (src/riscv/sysv.S:113-120, src/loongarch64/sysv.S:116-123). *)
Definition AR (a : arch) (i : Z) : Z := match a with RV => 10 + i | LA => 4 + i end.
(** fa0 to fa7 (src/riscv/sysv.S:102-109, src/loongarch64/sysv.S:104-111). *)
Definition FR (a : arch) (i : Z) : Z := match a with RV => 10 + i | LA => i end.
(** Where ffi_closure_asm expects the closure (src/riscv/sysv.S:146, src/loongarch64/sysv.S:150). *)
Definition CLO (a : arch) : Z := match a with RV => T1 RV | LA => T0 LA end.

(** ** The processor *)

(** General registers, floating point registers of eight bytes, program counter and memory
    (src/riscv/sysv.S:76-291, src/loongarch64/sysv.S:80-321). *)
Record st : Type := St { sx : Z -> Z; sf : Z -> list Z; spc : Z; sm : Z -> Z }.

(** The instructions of src/riscv/sysv.S:76-291 and src/loongarch64/sysv.S:80-321: addition of
    a constant, move, loads and stores of general registers (eight bytes) and floating point
    registers ([n] bytes), jumps to an address in a register without and with link, the call of
    ffi_closure_inner (on RISC-V auipc and jalr, here one instruction), and addition to the
    program counter (auipc, pcaddi, pcaddu12i). *)
Inductive instr : Type :=
| Nop
| Addi (d s i : Z)
| Mv (d s : Z)
| Ld (d b i : Z)
| Sd (s b i : Z)
| Fl (n : nat) (d b i : Z)
| Fs (n : nat) (s b i : Z)
| Jr (r : Z)
| Jalr (r : Z)
| CallInner
| AddPc (d i : Z).

(** Change of a register (the instructions with a destination, src/riscv/sysv.S:76-291,
    src/loongarch64/sysv.S:80-321). *)
Definition upd {A} (f : Z -> A) (r : Z) (v : A) : Z -> A := fun x => if x =? r then v else f x.
(** A memory access of [n] bytes lies inside the address space (accesses of
    src/riscv/sysv.S:76-291, src/loongarch64/sysv.S:80-321; others are taken as faults). *)
Definition fits (a : Z) (n : Z) : bool := (0 <=? a) && (a + n <=? 2 ^ 64).
(** A loaded floating point register: flw of RISC-V fills up with ones (src/riscv/sysv.S:102-109). *)
Definition fext (d : list Z) : list Z := d ++ repeat 255 (8 - length d).
(** The address a jump to a register's contents goes to: jalr of RISC-V clears the lowest bit
    (src/riscv/sysv.S:124, 142, src/loongarch64/sysv.S:127, 145). *)
Definition target (a : arch) (v : Z) : Z := match a with RV => v - v mod 2 | LA => v end.

(** One instruction (src/riscv/sysv.S:76-291, src/loongarch64/sysv.S:80-321), four bytes long;
    [inner]: the address of ffi_closure_inner.  [None]: a fault. *)
Definition exec (a : arch) (inner : Z) (i : instr) (s : st) : option st :=
  let x := sx s in
  let f := sf s in
  let m := sm s in
  let pc4 := wrap64 (spc s + 4) in
  let ea b i := wrap64 (x b + i) in
  match i with
  | Nop => Some (St x f pc4 m)
  | Addi d r i => Some (St (upd x d (wrap64 (x r + i))) f pc4 m)
  | Mv d r => Some (St (upd x d (x r)) f pc4 m)
  | Ld d b i => if fits (ea b i) 8 then Some (St (upd x d (le_dec (rd m (ea b i) 8))) f pc4 m) else None
  | Sd r b i => if fits (ea b i) 8 then Some (St x f pc4 (wr m (ea b i) (le_enc 8 (x r)))) else None
  | Fl n d b i => if fits (ea b i) (Z.of_nat n) then Some (St x (upd f d (fext (rd m (ea b i) n))) pc4 m) else None
  | Fs n r b i => if fits (ea b i) (Z.of_nat n) then Some (St x f pc4 (wr m (ea b i) (firstn n (f r)))) else None
  | Jr r => Some (St x f (target a (x r)) m)
  | Jalr r => Some (St (upd x (RA a) pc4) f (target a (x r)) m)
  | CallInner => Some (St (upd x (RA a) pc4) f inner m)
  | AddPc d i => Some (St (upd x d (wrap64 (spc s + i))) f pc4 m)
  end.

(** Fetch from the text at [org], then execute (src/riscv/sysv.S:76-291,
    src/loongarch64/sysv.S:80-321); the text cannot be changed by stores. *)
Definition step (a : arch) (inner : Z) (t : list instr) (org : Z) (s : st) : option st :=
  let o := spc s - org in
  if (o mod 4 =? 0) && (0 <=? o) then
    match nth_error t (Z.to_nat (o / 4)) with Some i => exec a inner i s | None => None end
  else None.
(** Execution of [n] instructions (src/riscv/sysv.S:76-291, src/loongarch64/sysv.S:80-321). *)
Fixpoint steps (a : arch) (inner : Z) (t : list instr) (org : Z) (n : nat) (s : st) : option st :=
  match n with
  | O => Some s
  | S k => match step a inner t org s with Some s' => steps a inner t org k s' | None => None end
  end.

(** ** The code *)

(** src/riscv/sysv.S:74, src/loongarch64/sysv.S:78 FRAME_LEN; [fl] is FLTS
    (src/riscv/sysv.S:44-54, src/loongarch64/sysv.S:44-56) *)
Definition FRAME_LEN (fl : Z) : Z := 8 * fl + 10 * 8.
(** The numbers of the argument registers (src/riscv/sysv.S:102-120, src/loongarch64/sysv.S:104-123). *)
Definition eight : list Z := [0; 1; 2; 3; 4; 5; 6; 7].
(** Lines between #if FLTS and #endif (src/riscv/sysv.S:102-111, src/loongarch64/sysv.S:103-113). *)
Definition if_flts (fl : Z) (l : list instr) : list instr := if fl =? 0 then [] else l.

(** src/riscv/sysv.S:89-142, src/loongarch64/sysv.S:90-145 ffi_call_asm *)
Definition call_text (a : arch) (fl : Z) : list instr :=
  let w := Z.to_nat fl in
  let F := FRAME_LEN fl in
  [Sd (FP a) (AR a 1) (F - 16);
   Sd (RA a) (AR a 1) (F - 8);
   Addi (FP a) (AR a 1) F;
   Mv (SP a) (AR a 0);
   Mv (T1 a) (AR a 2);
   Mv (T2 a) (AR a 3)] ++
  if_flts fl (map (fun i => Fl w (FR a i) (FP a) (- F + i * fl)) eight) ++
  map (fun i => Ld (AR a i) (FP a) (- F + 8 * fl + i * 8)) eight ++
  [Jalr (T1 a)] ++
  if_flts fl [Fs w (FR a 0) (FP a) (- F + 0 * fl); Fs w (FR a 1) (FP a) (- F + 1 * fl)] ++
  [Sd (AR a 0) (FP a) (- F + 8 * fl + 0 * 8);
   Sd (AR a 1) (FP a) (- F + 8 * fl + 1 * 8);
   Addi (SP a) (FP a) (- F);
   Ld (RA a) (FP a) (-8);
   Ld (FP a) (FP a) (-16);
   Jr (RA a)].

(** The start of both closure entry points (src/riscv/sysv.S:161-190, 235-264,
    src/loongarch64/sysv.S:161-190, 264-293). *)
Definition clo_enter (a : arch) (fl : Z) : list instr :=
  let w := Z.to_nat fl in
  let F := FRAME_LEN fl in
  [Addi (SP a) (SP a) (- F);
   Sd (FP a) (SP a) (F - 16);
   Sd (RA a) (SP a) (F - 8);
   Addi (FP a) (SP a) F] ++
  if_flts fl (map (fun i => Fs w (FR a i) (SP a) (i * fl)) eight) ++
  map (fun i => Sd (AR a i) (SP a) (8 * fl + i * 8)) eight.
(** Their end (src/riscv/sysv.S:196-217, 270-291, src/loongarch64/sysv.S:196-218, 299-321). *)
Definition clo_leave (a : arch) (fl : Z) : list instr :=
  let w := Z.to_nat fl in
  let F := FRAME_LEN fl in
  [Addi (AR a 3) (SP a) F;
   Mv (AR a 4) (SP a);
   CallInner] ++
  if_flts fl [Fl w (FR a 0) (SP a) (0 * fl); Fl w (FR a 1) (SP a) (1 * fl)] ++
  [Ld (AR a 0) (SP a) (8 * fl + 0 * 8);
   Ld (AR a 1) (SP a) (8 * fl + 1 * 8);
   Ld (RA a) (SP a) (F - 8);
   Ld (FP a) (SP a) (F - 16);
   Addi (SP a) (SP a) F;
   Jr (RA a)].

(** src/riscv/ffitarget.h:63, src/loongarch64/ffitarget.h:76 FFI_TRAMPOLINE_SIZE *)
Definition TRAMPOLINE_SIZE := 24.
(** src/riscv/sysv.S:158-217, src/loongarch64/sysv.S:160-218 ffi_closure_asm *)
Definition closure_text (a : arch) (fl : Z) : list instr :=
  clo_enter a fl ++
  [Ld (AR a 0) (CLO a) (TRAMPOLINE_SIZE + 0 * 8);
   Ld (AR a 1) (CLO a) (TRAMPOLINE_SIZE + 1 * 8);
   Ld (AR a 2) (CLO a) (TRAMPOLINE_SIZE + 2 * 8)] ++
  clo_leave a fl.
(** src/riscv/sysv.S:232-291, src/loongarch64/sysv.S:263-321 ffi_go_closure_asm *)
Definition go_text (a : arch) (fl : Z) : list instr :=
  clo_enter a fl ++
  [Ld (AR a 0) (T2 a) (1 * 8);
   Ld (AR a 1) (T2 a) (2 * 8);
   Mv (AR a 2) (T2 a)] ++
  clo_leave a fl.

(** ** Trampolines *)

(** src/loongarch64/sysv.S:243-246 one trampoline of the static table *)
Definition static_slot : list instr := [AddPc (T1 LA) (16 * 2 ^ 12); Ld (T0 LA) (T1 LA) 0; Ld (T1 LA) (T1 LA) 8; Jr (T1 LA)].
(** src/loongarch64/ffi.c:621 *map_size *)
Definition MAP_SIZE := 2 ^ 16.
(** src/loongarch64/sysv.S:240-247 the table *)
Definition static_table : list instr := concat (repeat static_slot (Z.to_nat (65536 / 16))).

(** src/riscv/ffi.c:436-443, src/loongarch64/ffi.c:535-538 the instructions of a dynamic
    trampoline *)
Definition tramp_words (a : arch) : list Z :=
  match a with
  | RV => [0x00000317; 0x01033383; 0x00038067; 0x00000013]
  | LA => [0x1800000c; 0x28c0418d; 0x4c0001a0; 0x03400000]
  end.
(** Decoding of instruction words, as far as needed for src/riscv/ffi.c:436-442 (auipc, ld, jalr
    without link) and src/loongarch64/ffi.c:535-537 (pcaddi, ld.d, jirl without link). *)
Definition decode (a : arch) (w : Z) : option instr :=
  match a with
  | RV =>
    let d := w / 2 ^ 7 mod 32 in
    let f3 := w / 2 ^ 12 mod 8 in
    let s := w / 2 ^ 15 mod 32 in
    let i := to_signed 12 (w / 2 ^ 20) in
    if d =? 0 then
      if (w mod 128 =? 103) && (f3 =? 0) && (i =? 0) then Some (Jr s) else None
    else if w mod 128 =? 23 then Some (AddPc d (to_signed 32 (w / 2 ^ 12 * 2 ^ 12)))
    else if (w mod 128 =? 3) && (f3 =? 3) then Some (Ld d s i)
    else None
  | LA =>
    let d := w mod 32 in
    let j := w / 2 ^ 5 mod 32 in
    if d =? 0 then
      if (w / 2 ^ 26 =? 19) && (w / 2 ^ 10 mod 2 ^ 16 =? 0) then Some (Jr j) else None
    else if w / 2 ^ 25 =? 12 then Some (AddPc d (4 * to_signed 20 (w / 2 ^ 5 mod 2 ^ 20)))
    else if w / 2 ^ 22 =? 163 then Some (Ld d j (to_signed 12 (w / 2 ^ 10 mod 2 ^ 12)))
    else None
  end.
(** One instruction fetched from memory (src/riscv/ffi.c:436-442, src/loongarch64/ffi.c:535-537). *)
Definition wstep (a : arch) (s : st) : option st :=
  if negb (fits (spc s) 4) then None
  else match decode a (le_dec (rd (sm s) (spc s) 4)) with Some i => exec a 0 i s | None => None end.
(** [n] of them (src/riscv/ffi.c:436-442, src/loongarch64/ffi.c:535-537). *)
Fixpoint wsteps (a : arch) (n : nat) (s : st) : option st :=
  match n with O => Some s | S k => match wstep a s with Some s' => wsteps a k s' | None => None end end.

(** ** Preparation of closures *)

(** src/riscv/ffitarget.h:46-55, src/loongarch64/ffitarget.h:47-53 FFI_LAST_ABI *)
Definition LAST_ABI (a : arch) : Z := match a with RV => 5 | LA => 4 end.

(** src/riscv/ffi.c:425-456, src/loongarch64/ffi.c:514-553 ffi_prep_closure_loc; [entry]: the
    address of ffi_closure_asm; [parm]: on LoongArch the parameter block of the static trampoline,
    if there is one, with the two stores of src/tramp.c:643-651.  The code location is only used to
    flush caches, which does nothing here. *)
Definition prep_closure_loc (a : arch) (entry : Z) (parm : option Z) (abi closure cif fn user_data : Z) (m : Z -> Z)
  : status * (Z -> Z) :=
  if (abi <=? 0) || (LAST_ABI a <=? abi) then (FFI_BAD_ABI, m)
  else
    let m1 := match parm with
              | Some p => wr (wr m (p + 8) (le_enc 8 entry)) p (le_enc 8 closure)
              | None =>
                let w k := nth k (tramp_words a) 0 in
                wr (wr (wr (wr (wr (wr m closure (le_enc 4 (w 0%nat))) (closure + 4) (le_enc 4 (w 1%nat))) (closure + 8) (le_enc 4 (w 2%nat)))
                  (closure + 12) (le_enc 4 (w 3%nat))) (closure + 16) (le_enc 4 entry)) (closure + 20) (le_enc 4 (entry / 2 ^ 32))
              end in
    (FFI_OK, wr (wr (wr m1 (closure + 24) (le_enc 8 cif)) (closure + 32) (le_enc 8 fn)) (closure + 40) (le_enc 8 user_data)).

(** src/riscv/ffi.c:460-474, src/loongarch64/ffi.c:556-568 ffi_prep_go_closure; [entry]: the
    address of ffi_go_closure_asm *)
Definition prep_go_closure (a : arch) (entry abi closure cif fn : Z) (m : Z -> Z) : status * (Z -> Z) :=
  if (abi <=? 0) || (LAST_ABI a <=? abi) then (FFI_BAD_ABI, m)
  else (FFI_OK, wr (wr (wr m closure (le_enc 8 entry)) (closure + 8) (le_enc 8 cif)) (closure + 16) (le_enc 8 fn)).
