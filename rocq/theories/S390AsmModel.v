(** src/s390/sysv.S instruction by instruction, the part for 64-bit z/Architecture: the code around
    a call, closure entry and exit, Go closures, the table of static trampolines; and the code of
    a dynamic trampoline, decoded from its bytes. *)
From Verif Require Import Base ByteMem S390Model.
Local Open Scope Z_scope.

(** General registers, floating point registers as 64-bit values, address of the next instruction
    and memory (src/s390/sysv.S:202-348).  The condition code is never used. *)
Record st : Type := St { sx : Z -> Z; sf : Z -> Z; spc : Z; sm : Z -> Z }.

(** The instructions of src/s390/sysv.S:202-348.  Jump targets: label numbers in source text,
    distances from the instruction itself after assembling.  [Brasl] is the call of
    ffi_closure_helper_SYSV; [Basr] has 0 as second operand. *)
Inductive instr : Type :=
| Stg (r d b : Z)
| Stmg (r1 r3 d b : Z)
| Lgr (d s : Z)
| Larl (d l : Z)
| Slag (d s n : Z)
| Agr (d s : Z)
| Aghi (d i : Z)
| Lg (r d b : Z)
| Lmg (r1 r3 d b : Z)
| La (r d b : Z)
| Ld (f d b : Z)
| Std (f d b : Z)
| Ste (f d b : Z)
| Br (r : Z)
| J (l : Z)
| Nop
| Nopr
| Brasl (r : Z)
| Basr (r : Z).

(** A line of source text: a label, .balign, or an instruction (src/s390/sysv.S:198-204). *)
Inductive line : Type := L (n : Z) | Balign (k : Z) | I (i : instr).

(** Length of the encodings (src/s390/sysv.S:202-348). *)
Definition len (i : instr) : Z :=
  match i with
  | Stg _ _ _ | Stmg _ _ _ _ | Larl _ _ | Slag _ _ _ | Lg _ _ _ | Lmg _ _ _ _ | Brasl _ => 6
  | Lgr _ _ | Agr _ _ | Aghi _ _ | La _ _ _ | Ld _ _ _ | Std _ _ _ | Ste _ _ _ | J _ | Nop => 4
  | Br _ | Nopr | Basr _ => 2
  end.

(** ** Assembling *)

(** The next multiple of [k] (.balign, src/s390/sysv.S:198). *)
Definition up (k a : Z) : Z := (a + k - 1) / k * k.
(** Padding in text sections consists of instructions that do nothing, taken as 2 bytes each
    (.balign, src/s390/sysv.S:241). *)
Fixpoint pad (n : nat) (pos : Z) : list (Z * instr) :=
  match n with O => [] | S k => (pos, Nopr) :: pad k (pos + 2) end.
(** Position of a label (labels of src/s390/sysv.S:202-340). *)
Fixpoint label (ls : list (Z * Z)) (n : Z) : option Z :=
  match ls with [] => None | (m, p) :: r => if m =? n then Some p else label r n end.
(** Instructions with their positions, and the positions of labels (src/s390/sysv.S:198-348). *)
Fixpoint layout (t : list line) (pos : Z) (ls : list (Z * Z)) : list (Z * instr) * list (Z * Z) :=
  match t with
  | [] => ([], ls)
  | L n :: r => layout r pos ((n, pos) :: ls)
  | Balign k :: r =>
    let (t', ls') := layout r (up k pos) ls in (pad (Z.to_nat ((up k pos - pos) / 2)) pos ++ t', ls')
  | I i :: r => let (t', ls') := layout r (pos + len i) ls in ((pos, i) :: t', ls')
  end.
(** Labels replaced by distances from the instruction at [p] (src/s390/sysv.S:213, 230, 276). *)
Definition resolve (ls : list (Z * Z)) (p : Z) (i : instr) : option instr :=
  let rel n k := match label ls n with Some q => Some (k (q - p)) | None => None end in
  match i with Larl d n => rel n (Larl d) | J n => rel n J | _ => Some i end.
(** Resolving all instructions (src/s390/sysv.S:202-348). *)
Fixpoint resolve_all (ls : list (Z * Z)) (t : list (Z * instr)) : option (list (Z * instr)) :=
  match t with
  | [] => Some []
  | (p, i) :: r => match resolve ls p i, resolve_all ls r with Some j, Some q => Some ((p, j) :: q) | _, _ => None end
  end.
(** The assembled text (src/s390/sysv.S:202-348); empty when a label is missing. *)
Definition assemble (t : list line) : list (Z * instr) :=
  let (r, ls) := layout t 0 [] in match resolve_all ls r with Some q => q | None => [] end.
(** Address of a label of a text at [org]; -1: none (symbols of src/s390/sysv.S:199-350). *)
Definition at_label (t : list line) (org n : Z) : Z :=
  match label (snd (layout t 0 [])) n with Some p => org + p | None => -1 end.

(** ** Execution *)

(** Change of a register (src/s390/sysv.S:202-348). *)
Definition upd (f : Z -> Z) (r v : Z) : Z -> Z := fun x => if x =? r then v else f x.
(** A memory access of [n] bytes lies inside the address space (accesses of
    src/s390/sysv.S:202-348; others are taken as faults). *)
Definition fits (a n : Z) : bool := (0 <=? a) && (a + n <=? 2 ^ 64).
(** The registers r, r+1, ..., n of them (lmg and stmg, src/s390/sysv.S:205, 219; none of the
    uses wraps from 15 to 0). *)
Fixpoint stmg (x : Z -> Z) (r a : Z) (n : nat) (m : Z -> Z) : Z -> Z :=
  match n with O => m | S k => stmg x (r + 1) (a + 8) k (wr m a (be_enc 8 (x r))) end.
(** lmg (src/s390/sysv.S:219, 315, 343) *)
Fixpoint lmg (m : Z -> Z) (r a : Z) (n : nat) (x : Z -> Z) : Z -> Z :=
  match n with O => x | S k => lmg m (r + 1) (a + 8) k (upd x r (be_dec (rd m a 8))) end.

(** One instruction (src/s390/sysv.S:202-348); [helper] is the address of
    ffi_closure_helper_SYSV.  [None]: a fault.  Register 0 as base means no base. *)
Definition exec (helper : Z) (i : instr) (s : st) : option st :=
  let x := sx s in
  let f := sf s in
  let m := sm s in
  let next := wrap64 (spc s + len i) in
  let ea d b := wrap64 ((if b =? 0 then 0 else x b) + d) in
  let set r v := Some (St (upd x r v) f next m) in
  let go p := Some (St x f p m) in
  match i with
  | Stg r d b => if fits (ea d b) 8 then Some (St x f next (wr m (ea d b) (be_enc 8 (x r)))) else None
  | Stmg r1 r3 d b =>
    let n := r3 - r1 + 1 in
    if (0 <? n) && fits (ea d b) (8 * n) then Some (St x f next (stmg x r1 (ea d b) (Z.to_nat n) m)) else None
  | Lgr d r => set d (x r)
  | Larl d l => set d (wrap64 (spc s + l))
  | Slag d r n => set d (wrap64 (Z.shiftl (x r) n))
  | Agr d r => set d (wrap64 (x d + x r))
  | Aghi d i => set d (wrap64 (x d + i))
  | Lg r d b => if fits (ea d b) 8 then set r (be_dec (rd m (ea d b) 8)) else None
  | Lmg r1 r3 d b =>
    let n := r3 - r1 + 1 in
    if (0 <? n) && fits (ea d b) (8 * n) then Some (St (lmg m r1 (ea d b) (Z.to_nat n) x) f next m) else None
  | La r d b => set r (ea d b)
  | Ld r d b => if fits (ea d b) 8 then Some (St x (upd f r (be_dec (rd m (ea d b) 8))) next m) else None
  | Std r d b => if fits (ea d b) 8 then Some (St x f next (wr m (ea d b) (be_enc 8 (f r)))) else None
  | Ste r d b => if fits (ea d b) 4 then Some (St x f next (wr m (ea d b) (be_enc 4 (Z.shiftr (f r) 32)))) else None
  | Br r => go (x r)
  | J l => go (wrap64 (spc s + l))
  | Nop | Nopr => go next
  | Brasl r => Some (St (upd x r next) f helper m)
  | Basr r => set r next
  end.

(** The instruction at an offset (fetches of src/s390/sysv.S:202-348). *)
Fixpoint at_off (t : list (Z * instr)) (c : Z) : option instr :=
  match t with [] => None | (p, i) :: r => if p =? c then Some i else at_off r c end.
(** Fetch from the text at [org], then execute (src/s390/sysv.S:202-348); the text cannot be
    changed by stores. *)
Definition step (helper : Z) (t : list (Z * instr)) (org : Z) (s : st) : option st :=
  match at_off t (spc s - org) with Some i => exec helper i s | None => None end.
(** Execution of [n] instructions (src/s390/sysv.S:202-348). *)
Fixpoint steps (helper : Z) (t : list (Z * instr)) (org : Z) (n : nat) (s : st) : option st :=
  match n with
  | O => Some s
  | S k => match step helper t org s with Some s' => steps helper t org k s' | None => None end
  end.
(** Execution arrives at [s'] (src/s390/sysv.S:202-348). *)
Definition reach (helper : Z) (t : list (Z * instr)) (org : Z) (s s' : st) : Prop :=
  exists n, steps helper t org n s = Some s'.

(** ** The text *)

(** Labels: 1 ffi_call_SYSV, 2 .Ltable, 3 .Ldone, 4 ffi_go_closure_SYSV, 5 ffi_closure_SYSV,
    6 .Ldoclosure, 7 the address brasl leaves in %r14; src/s390/sysv.S:198-319. *)
Definition src : list line :=
  [ Balign 8; L 1;
    I (Stg 6 88 2); I (Stmg 12 14 96 2); I (Lgr 13 2); I (Stg 2 0 15); I (Larl 14 2); I (Slag 3 3 3); I (Lgr 12 4);
    I (Lgr 1 5); I (Lgr 0 6); I (Agr 14 3); I (Lmg 2 6 16 13); I (Ld 0 128 13); I (Ld 2 136 13); I (Ld 4 144 13);
    I (Ld 6 152 13); I (Br 1);
    Balign 8; L 2; I (Std 0 0 12); I (J 3);
    Balign 8; I (Ste 0 0 12); I (J 3);
    Balign 8; I (Stg 2 0 12);
    Balign 8; I Nop; I Nop;
    Balign 8; L 3; I (Lg 14 112 13); I (Lg 12 96 13); I (Lg 6 88 13); I (Lg 13 104 13); I (Br 14);
    Balign 8; L 4; I (Stmg 2 6 16 15); I (Lgr 4 0); I (Lg 2 8 4); I (Lg 3 16 4); I (J 6);
    Balign 8; L 5; I (Stmg 2 6 16 15); I (Lgr 4 0); I (Lg 2 32 4); I (Lg 3 40 4); I (Lg 4 48 4);
    L 6; I (Stmg 13 15 104 15); I (Lgr 13 15); I (Aghi 15 (-176)); I (Stg 13 0 15); I (Std 0 128 13); I (Std 2 136 13);
    I (Std 4 144 13); I (Std 6 152 13); I (La 5 160 13); I (Stg 5 160 15); I (La 6 128 13); I (La 5 16 13); I (Brasl 14);
    L 7; I (Lgr 15 13); I (Lmg 13 14 104 13); I (Lg 6 48 15); I (Ld 0 128 15); I (Lg 2 16 15); I (Br 14) ].
(** src/s390/sysv.S:198-319 assembled *)
Definition text : list (Z * instr) := assemble src.

(** src/s390/internal.h:19 FFI390_TRAMP_MAP_SIZE *)
Definition MAP_SIZE := 4096.
(** src/s390/internal.h:20 FFI390_TRAMP_SIZE *)
Definition TRAMP_SIZE := 16.
(** .rept of src/s390/sysv.S:341-348: [n] trampolines *)
Fixpoint rept (n : nat) (l : list line) : list line := match n with O => [] | S k => l ++ rept k l end.
(** src/s390/sysv.S:340-348 trampoline_code_table, at a multiple of the map size *)
Definition table_src : list line := rept (Z.to_nat (MAP_SIZE / TRAMP_SIZE)) [I (Basr 1); I (Lmg 0 1 4094 1); I (Br 1); Balign 8].
(** src/s390/sysv.S:340-348 assembled *)
Definition table_text : list (Z * instr) := assemble table_src.

(** ** Code in memory *)

(** The three instructions of the template, from bytes (src/s390/ffi.c:715-723): BASR (RR format,
    second register 0), LMG (RSY format: 20-bit signed displacement, low 12 bits first), BCR 15. *)
Definition decode (m : Z -> Z) (p : Z) : option instr :=
  let b i := m (p + i) in
  if (b 0 =? 13) && (b 1 mod 16 =? 0) then Some (Basr (b 1 / 16))
  else if (b 0 =? 7) && (b 1 / 16 =? 15) && negb (b 1 mod 16 =? 0) then Some (Br (b 1 mod 16))
  else if (b 0 =? 235) && (b 5 =? 4) then
    Some (Lmg (b 1 / 16) (b 1 mod 16) (to_signed 20 (b 4 * 4096 + b 2 mod 16 * 256 + b 3)) (b 2 / 16))
  else None.
(** Execution of [n] instructions fetched from memory (the code written by
    src/s390/ffi.c:741-743). *)
Fixpoint msteps (n : nat) (s : st) : option st :=
  match n with
  | O => Some s
  | S k => match decode (sm s) (spc s) with
           | Some i => match exec 0 i s with Some s' => msteps k s' | None => None end
           | None => None
           end
  end.
