(** Execution of the trampoline code of the x86-64 backend, byte by byte: the dynamic
    trampoline written into closures, the static trampoline table and the entry points
    behind it.  The instruction semantics (Intel SDM) covers the instructions occurring
    there; condition flags are not modelled, no code involved reads them. *)
From Verif Require Import Base.

(** General registers (by their number), instruction pointer and byte memory of a thread
    executing src/x86/unix64.S:458-545 or the bytes of src/x86/ffi64.c:763-772. *)
Record mach : Type := Mach {
  m_reg : Z -> Z;
  m_rip : Z;
  m_mem : Z -> Z
}.

(** Register numbers used by src/x86/unix64.S:465-545. *)
Definition RSP : Z := 4.
(** src/x86/unix64.S:465-545, %r10. *)
Definition R10 : Z := 10.

(** Update of a register (any instruction of src/x86/unix64.S:465-545 with a register
    destination). *)
Definition set_reg (f : Z -> Z) (r v : Z) : Z -> Z := fun x => if x =? r then v else f x.

(** Bytes [a], [a+1], ... of memory, as loaded by src/x86/unix64.S:522-535. *)
Fixpoint mbytes (m : Z -> Z) (a : Z) (n : nat) : list Z :=
  match n with O => [] | S k => m (wrap64 a) :: mbytes m (a + 1) k end.

(** Loads of src/x86/unix64.S:468, 522-535. *)
Definition load (m : Z -> Z) (a : Z) (n : nat) : Z := le_dec (mbytes m a n).

(** Stores of src/x86/unix64.S:520, 527: the bytes of [d] at [a]. *)
Fixpoint store (m : Z -> Z) (a : Z) (d : list Z) : Z -> Z :=
  match d with
  | [] => m
  | b :: r => fun x => if x =? wrap64 a then b else store m (a + 1) r x
  end.

(** Operands of the instructions in src/x86/unix64.S:465-545: a register, base register
    plus displacement, displacement from the next instruction. *)
Inductive operand : Type :=
| OReg (r : Z)
| OMem (base disp : Z)
| ORip (disp : Z).

(** The instructions of src/x86/unix64.S:465-545 and src/x86/ffi64.c:763-772; [w] tells
    64-bit from 32-bit operand size. *)
Inductive instr : Type :=
| INop
| IStore (w : bool) (o : operand) (r : Z)
| ILoad (w : bool) (r : Z) (o : operand)
| ILea (r : Z) (o : operand)
| IAddImm (o : operand) (i : Z)
| IJmpInd (o : operand)
| IJmpRel (d : Z).

(** 32-bit displacements of the encodings in src/x86/ffi64.c:767-769. *)
Definition disp32 (a b c d : Z) : Z := to_signed 32 (le_dec [a; b; c; d]).

(** ModRM, SIB and displacement bytes of an instruction (src/x86/ffi64.c:767-771), with
    the B bit of its REX prefix: the reg field, the operand and the remaining bytes.
    Index registers are not needed and not decoded. *)
Definition decode_rm (rexb : Z) (bs : list Z) : option (Z * operand * list Z) :=
  match bs with
  | [] => None
  | mb :: r =>
    let md := mb / 64 in
    let reg := mb / 8 mod 8 in
    let rm := mb mod 8 in
    if md =? 3 then Some (reg, OReg (rm + 8 * rexb), r)
    else if (md =? 0) && (rm =? 5) then
      match r with
      | a :: b :: c :: d :: r' => Some (reg, ORip (disp32 a b c d), r')
      | _ => None
      end
    else
      let base :=
        if rm =? 4 then
          match r with
          | sib :: r' =>
            if (sib / 8 mod 8 =? 4) && negb ((md =? 0) && (sib mod 8 =? 5))
            then Some (sib mod 8 + 8 * rexb, r') else None
          | [] => None
          end
        else Some (rm + 8 * rexb, r) in
      match base with
      | None => None
      | Some (bs, r') =>
        if md =? 0 then Some (reg, OMem bs 0, r')
        else if md =? 1 then
          match r' with d :: r'' => Some (reg, OMem bs (to_signed 8 d), r'') | [] => None end
        else
          match r' with
          | a :: b :: c :: d :: r'' => Some (reg, OMem bs (disp32 a b c d), r'')
          | _ => None
          end
      end
  end.

(** Decoding of the instruction at the head of a byte list (encodings as listed in
    src/x86/ffi64.c:763-772 and, for src/x86/unix64.S:465-545, as GNU as emits them); the
    instruction and the bytes after it. *)
Definition decode (bs : list Z) : option (instr * list Z) :=
  match bs with
  | [] => None
  | p :: r0 =>
    if p =? 243 then
      match r0 with
      | a :: b :: c :: r => if (a =? 15) && (b =? 30) && (c =? 250) then Some (INop, r) else None
      | _ => None
      end
    else
      let isrex := (64 <=? p) && (p <? 80) in
      let rex := if isrex then p - 64 else 0 in
      let w := 8 <=? rex in
      let rr := rex / 4 mod 2 in
      let rb := rex mod 2 in
      if rex / 2 mod 2 =? 1 then None else
      match (if isrex then r0 else bs) with
      | [] => None
      | op :: r1 =>
        if op =? 137 then
          match decode_rm rb r1 with Some (reg, o, r2) => Some (IStore w o (reg + 8 * rr), r2) | None => None end
        else if op =? 139 then
          match decode_rm rb r1 with Some (reg, o, r2) => Some (ILoad w (reg + 8 * rr) o, r2) | None => None end
        else if op =? 141 then
          match decode_rm rb r1 with
          | Some (reg, o, r2) => if w then Some (ILea (reg + 8 * rr) o, r2) else None
          | None => None
          end
        else if op =? 131 then
          match decode_rm rb r1 with
          | Some (reg, o, i :: r2) =>
            if w && (reg =? 0) then Some (IAddImm o (to_signed 8 i), r2)
            else if w && (reg =? 5) then Some (IAddImm o (- to_signed 8 i), r2)
            else None
          | _ => None
          end
        else if op =? 255 then
          match decode_rm rb r1 with
          | Some (reg, o, r2) => if reg =? 4 then Some (IJmpInd o, r2) else None
          | None => None
          end
        else if op =? 15 then
          match r1 with
          | a :: r1' =>
            if a =? 31 then match decode_rm rb r1' with Some (_, _, r2) => Some (INop, r2) | None => None end
            else None
          | [] => None
          end
        else if op =? 233 then
          match r1 with a :: b :: c :: d :: r2 => Some (IJmpRel (disp32 a b c d), r2) | _ => None end
        else if op =? 235 then
          match r1 with a :: r2 => Some (IJmpRel (to_signed 8 a), r2) | [] => None end
        else None
      end
  end.

(** Address of a memory operand; [next] is the address of the following instruction
    (src/x86/unix64.S:493-509 counts on it). *)
Definition ea (s : mach) (next : Z) (o : operand) : option Z :=
  match o with
  | OReg _ => None
  | OMem b d => Some (wrap64 (m_reg s b + d))
  | ORip d => Some (wrap64 (next + d))
  end.

(** Value of an operand of [n] bytes (src/x86/unix64.S:465-545). *)
Definition operand_value (s : mach) (next : Z) (o : operand) (n : nat) : option Z :=
  match o with
  | OReg r => Some (m_reg s r mod 2 ^ (8 * Z.of_nat n))
  | _ => match ea s next o with Some a => Some (load (m_mem s) a n) | None => None end
  end.

(** Effect of one instruction of src/x86/unix64.S:465-545; 32-bit loads clear the upper
    half of the register. *)
Definition exec (i : instr) (next : Z) (s : mach) : option mach :=
  match i with
  | INop => Some (Mach (m_reg s) next (m_mem s))
  | IStore w o r =>
    match ea s next o with
    | Some a => Some (Mach (m_reg s) next (store (m_mem s) a (le_enc (if w then 8 else 4) (m_reg s r))))
    | None => None
    end
  | ILoad w r o =>
    match operand_value s next o (if w then 8 else 4) with
    | Some v => Some (Mach (set_reg (m_reg s) r v) next (m_mem s))
    | None => None
    end
  | ILea r o =>
    match ea s next o with
    | Some a => Some (Mach (set_reg (m_reg s) r a) next (m_mem s))
    | None => None
    end
  | IAddImm (OReg r) i => Some (Mach (set_reg (m_reg s) r (wrap64 (m_reg s r + i))) next (m_mem s))
  | IAddImm _ _ => None
  | IJmpInd o =>
    match operand_value s next o 8 with
    | Some v => Some (Mach (m_reg s) v (m_mem s))
    | None => None
    end
  | IJmpRel d => Some (Mach (m_reg s) (wrap64 (next + d)) (m_mem s))
  end.

(** One step of the processor on src/x86/unix64.S:465-545: no instruction is longer than
    15 bytes. *)
Definition step (s : mach) : option mach :=
  let bs := mbytes (m_mem s) (m_rip s) 15 in
  match decode bs with
  | Some (i, r) => exec i (wrap64 (m_rip s + (15 - zlen r))) s
  | None => None
  end.

(** [n] steps (runs of the code of src/x86/ffi64.c:763-773, src/x86/unix64.S:526-545). *)
Fixpoint steps (n : nat) (s : mach) : option mach :=
  match n with O => Some s | S k => match step s with Some s' => steps k s' | None => None end end.

(** src/x86/ffi64.c:763-772 and src/x86/ffiw64.c:232-241  the 24 bytes of a dynamic
    trampoline. *)
Definition dynamic_tramp : list Z :=
  [243; 15; 30; 250;
   76; 141; 21; 245; 255; 255; 255;
   255; 37; 7; 0; 0; 0;
   15; 31; 128; 0; 0; 0; 0].

(** src/x86/ffi64.c:801-803, src/x86/ffiw64.c:262-264  contents of closure->tramp after
    ffi_prep_closure_loc. *)
Definition dynamic_closure_code (dest : Z) : list Z := dynamic_tramp ++ le_enc 8 dest.

(** src/x86/internal64.h:31-35 UNIX64_TRAMP_SIZE. *)
Definition tramp_size (endbr : bool) : Z := if endbr then 40 else 32.
(** src/x86/internal64.h:29-30 UNIX64_TRAMP_MAP_SIZE. *)
Definition tramp_map_size : Z := 4096.

(** src/x86/unix64.S:492-509 X86_DATA_OFFSET. *)
Definition x86_data_offset (endbr : bool) : Z := if endbr then 4077 else 4081.
(** src/x86/unix64.S:492-509 X86_CODE_OFFSET. *)
Definition x86_code_offset (endbr ilp32 : bool) : Z :=
  if endbr then (if ilp32 then 4069 else 4073) else (if ilp32 then 4073 else 4077).

(** src/x86/unix64.S:517-538  one slot of trampoline_code_table, without the padding of
    the .align.  _CET_ENDBR is endbr64 if the compiler defines it and nothing otherwise. *)
Definition static_slot (endbr ilp32 : bool) : list Z :=
  (if endbr then [243; 15; 30; 250] else []) ++
  [72; 131; 236; 16] ++
  [76; 137; 20; 36] ++
  (if ilp32 then 68 else 76) :: 139 :: 21 :: le_enc 4 (x86_data_offset endbr) ++
  [76; 137; 84; 36; 8] ++
  (if ilp32 then 68 else 76) :: 139 :: 21 :: le_enc 4 (x86_code_offset endbr ilp32) ++
  [65; 255; 226].

(** src/x86/unix64.S:464-470, 477-483 and src/x86/win64.S:240-247  the code behind a static trampoline;
    the jump has its 8-bit or its 32-bit form, [rel] its displacement. *)
Definition alt_entry (endbr short : bool) (rel : Z) : list Z :=
  (if endbr then [243; 15; 30; 250] else []) ++
  [76; 139; 84; 36; 8] ++
  [72; 131; 196; 16] ++
  (if short then 235 :: le_enc 1 rel else 233 :: le_enc 4 rel).

(** src/tramp.c:107-121 struct tramp_parm: data, then target. *)
Definition parm_words (ilp32 : bool) : nat := if ilp32 then 4%nat else 8%nat.
