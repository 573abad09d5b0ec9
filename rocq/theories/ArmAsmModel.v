(** src/arm/sysv.S instruction by instruction (ARM mode, not Windows, without
    FFI_EXEC_TRAMPOLINE_TABLE), with the trampolines of closures and what ffi_prep_closure_loc
    and ffi_prep_go_closure write. *)
From Verif Require Import Base Types ByteMem ArmModel.
Local Open Scope Z_scope.

(** ** The processor *)

(** Core registers by number (13 is sp, 14 is lr, 11 is fp, 12 is ip; 15 has no meaning here),
    the bytes of the floating point registers (s[i] at [4 * i], d[i] at [8 * i]), the condition
    "less or equal", program counter and memory (src/arm/sysv.S:139-413).  The bit of a code
    address that selects Thumb is part of the address. *)
Record st : Type := St { sx : Z -> Z; sf : Z -> Z; sle : bool; spc : Z; sm : Z -> Z }.

(** Conditions of instructions (src/arm/sysv.S:145-146). *)
Inductive cond : Type := Al | Le | Gt.

(** The instructions of src/arm/sysv.S:139-413 and 445-449; offsets in branches, adr and loads
    relative to the program counter are from the instruction itself. *)
Inductive instr : Type :=
| Nop
| Cmp (r i : Z)                  (* cmp r, #i *)
| Addi (d s i : Z)               (* add or sub d, s, #i *)
| Mov (d s : Z)
| Ldr (d b i : Z)
| Str (s b i : Z)
| Stm (b : Z) (l : list Z)       (* stm b, {l} *)
| Push (l : list Z)              (* stmdb sp!, {l} *)
| Ldm (b : Z) (w : bool) (l : list Z) (* ldmia b or b!, {l} *)
| Vld (c : cond) (n : nat) (b : Z)  (* ldc: [n] bytes to the registers from s0 on *)
| Vst (n : nat) (b : Z)          (* stc *)
| Blx (r : Z)
| B (o : Z)
| BlInner (vfp : bool)           (* bl ffi_closure_inner_SYSV or _VFP *)
| Adr (d o : Z)
| AddPc (b r : Z)                (* add pc, b, r, lsl #3; [b] 15: pc, the instruction plus 8 *)
| LdrPc (d o : Z).               (* ldr d, [pc, #...]; [d] 15: jump *)

(** Change of a register (src/arm/sysv.S:139-413). *)
Definition upd {A} (f : Z -> A) (r : Z) (v : A) : Z -> A := fun x => if x =? r then v else f x.
(** An access of [n] bytes inside the address space at a multiple of four; others are taken as
    faults (src/arm/sysv.S:139-413). *)
Definition fits (a n : Z) : bool := (0 <=? a) && (a + n <=? 2 ^ 32) && (a mod 4 =? 0).
(** Registers loaded one after the other from address [a] (src/arm/sysv.S:166, 192, 361). *)
Fixpoint loads (m : Z -> Z) (a : Z) (l : list Z) (x : Z -> Z) : Z -> Z :=
  match l with [] => x | r :: l' => loads m (a + 4) l' (upd x r (le_dec (rd m a 4))) end.
(** The contents of registers (src/arm/sysv.S:152, 223, 238, 251). *)
Definition words_of (x : Z -> Z) (l : list Z) : list Z := concat (map (fun r => le_enc 4 (x r)) l).
(** The first [n] bytes of the floating point registers replaced (src/arm/sysv.S:145-146,
    340-346). *)
Definition vload (f : Z -> Z) (d : list Z) : Z -> Z := wr f 0 d.
(** src/arm/sysv.S:145-146 *)
Definition holds (c : cond) (le : bool) : bool := match c with Al => true | Le => le | Gt => negb le end.

(** One instruction (src/arm/sysv.S:139-413, 445-449), four bytes long; [inner]: the addresses of
    ffi_closure_inner_SYSV ([false]) and ffi_closure_inner_VFP.  [None]: a fault. *)
Definition exec (inner : bool -> Z) (i : instr) (s : st) : option st :=
  let x := sx s in
  let f := sf s in
  let le := sle s in
  let m := sm s in
  let pc4 := wrap32 (spc s + 4) in
  match i with
  | Nop => Some (St x f le pc4 m)
  | Cmp r i => Some (St x f (to_signed 32 (x r) <=? i) pc4 m)
  | Addi d r i => Some (St (upd x d (wrap32 (x r + i))) f le pc4 m)
  | Mov d r => Some (St (upd x d (x r)) f le pc4 m)
  | Ldr d b i =>
    let a := wrap32 (x b + i) in
    if fits a 4 then Some (St (upd x d (le_dec (rd m a 4))) f le pc4 m) else None
  | Str r b i =>
    let a := wrap32 (x b + i) in
    if fits a 4 then Some (St x f le pc4 (wr m a (le_enc 4 (x r)))) else None
  | Stm b l =>
    if fits (x b) (4 * zlen l) then Some (St x f le pc4 (wr m (x b) (words_of x l))) else None
  | Push l =>
    let a := wrap32 (x 13 - 4 * zlen l) in
    if fits a (4 * zlen l) then Some (St (upd x 13 a) f le pc4 (wr m a (words_of x l))) else None
  | Ldm b w l =>
    if fits (x b) (4 * zlen l) then
      let x1 := loads m (x b) l (if w then upd x b (wrap32 (x b + 4 * zlen l)) else x) in
      Some (St x1 f le (if existsb (Z.eqb 15) l then x1 15 else pc4) m)
    else None
  | Vld c n b =>
    if holds c le then
      if fits (x b) (Z.of_nat n) then Some (St x (vload f (rd m (x b) n)) le pc4 m) else None
    else Some (St x f le pc4 m)
  | Vst n b => if fits (x b) (Z.of_nat n) then Some (St x f le pc4 (wr m (x b) (rd f 0 n))) else None
  | Blx r => Some (St (upd x 14 pc4) f le (x r) m)
  | B o => Some (St x f le (wrap32 (spc s + o)) m)
  | BlInner v => Some (St (upd x 14 pc4) f le (inner v) m)
  | Adr d o => Some (St (upd x d (wrap32 (spc s + o))) f le pc4 m)
  | AddPc b r => Some (St x f le (wrap32 ((if b =? 15 then spc s + 8 else x b) + x r * 8)) m)
  | LdrPc d o =>
    let a := wrap32 (spc s + o) in
    if fits a 4 then
      let v := le_dec (rd m a 4) in
      Some (if d =? 15 then St x f le v m else St (upd x d v) f le pc4 m)
    else None
  end.

(** Fetch from the text at [org], then execute (src/arm/sysv.S:139-413); the text cannot be
    changed by stores. *)
Definition step (inner : bool -> Z) (t : list instr) (org : Z) (s : st) : option st :=
  let o := spc s - org in
  if (o mod 4 =? 0) && (0 <=? o) then
    match nth_error t (Z.to_nat (o / 4)) with Some i => exec inner i s | None => None end
  else None.
(** Execution of [n] instructions (src/arm/sysv.S:139-413). *)
Fixpoint steps (inner : bool -> Z) (t : list instr) (org : Z) (n : nat) (s : st) : option st :=
  match n with
  | O => Some s
  | S k => match step inner t org s with Some s' => steps inner t org k s' | None => None end
  end.

(** ** The code *)

(** src/arm/sysv.S:139-149 ffi_call_VFP, at offset 0; it runs into ffi_call_SYSV *)
Definition call_vfp_text : list instr :=
  [Cmp 3 3; Vld Le 8 0; Vld Gt 64 0; Addi 0 0 64].
(** src/arm/sysv.S:151-213 ffi_call_SYSV, at offset 16, with the fill up to a multiple of 8
    bytes *)
Definition call_sysv_text : list instr :=
  [Stm 1 [11; 14]; Mov 11 1; Mov 13 0; Mov 14 2; Ldr 12 11 16; Ldm 13 true [0; 1; 2; 3]; Blx 14;
   Ldr 2 11 8; Ldr 3 11 12; Mov 13 11; AddPc 15 3; Nop;
   Vst 4 2; Ldm 13 true [11; 15];
   Vst 8 2; Ldm 13 true [11; 15];
   Vst 32 2; Ldm 13 true [11; 15];
   Str 1 2 4; Nop;
   Str 0 2 0; Ldm 13 true [11; 15];
   Ldm 13 true [11; 15]; Nop;
   Ldm 13 true [11; 15]; Nop].
(** src/arm/sysv.S:221-230, 276-285 ffi_go_closure_SYSV and ffi_go_closure_VFP, with the fill *)
Definition go_text : list instr :=
  [Push [0; 1; 2; 3]; Ldr 0 12 4; Ldr 1 12 8; Mov 2 12; B 24; Nop].
(** src/arm/sysv.S:232-274 ffi_closure_SYSV, at offset 144 *)
Definition closure_sysv_text : list instr :=
  [Push [0; 1; 2; 3]; Ldr 0 12 12; Ldr 1 12 16; Ldr 2 12 20;
   Addi 12 13 16; Addi 13 13 (-96); Push [12; 14]; Addi 3 13 8; BlInner false;
   Addi 2 13 72; Adr 3 88; AddPc 3 0].
(** src/arm/sysv.S:287-328 ffi_closure_VFP, at offset 216, with the fill *)
Definition closure_vfp_text : list instr :=
  [Push [0; 1; 2; 3]; Ldr 0 12 12; Ldr 1 12 16; Ldr 2 12 20;
   Addi 12 13 16; Addi 13 13 (-96); Vst 64 13; Push [12; 14]; Addi 3 13 8; BlInner true;
   Addi 2 13 72; Adr 3 12; AddPc 3 0; Nop].
(** src/arm/sysv.S:334-368 ffi_closure_ret, at offset 272; call_epilogue is at 324 *)
Definition closure_ret_text : list instr :=
  [Vld Al 4 2; B 48;
   Vld Al 8 2; B 40;
   Vld Al 32 2; B 32;
   Ldr 1 2 4; Nop;
   Ldr 0 2 0; B 16;
   B 12; Nop;
   B 4;
   Ldm 13 false [13; 15]].
(** src/arm/sysv.S:371-383 ffi_closure_SYSV_alt, at offset 328, with the fill, and
    ffi_closure_VFP_alt, at offset 344 *)
Definition alt_text : list instr :=
  [Ldr 12 13 4; Addi 13 13 8; B (-192); Nop; Ldr 12 13 4; Addi 13 13 8; B (-136)].
(** src/arm/sysv.S:139-383 *)
Definition text : list instr :=
  call_vfp_text ++ call_sysv_text ++ go_text ++ closure_sysv_text ++ go_text ++ closure_vfp_text ++ closure_ret_text ++ alt_text.

(** src/arm/sysv.S:405-413 an element of trampoline_code_table *)
Definition static_text : list instr :=
  [Addi 13 13 (-8); Str 12 13 0; LdrPc 12 4088; Str 12 13 4; LdrPc 15 4084].
(** src/arm/sysv.S:445-449 ffi_arm_trampoline, copied into the closure (src/arm/ffi.c:644), at
    [codeloc] *)
Definition dynamic_text : list instr := [Adr 12 0; LdrPc 15 4].

(** ** Closures *)

(** Offset in the text of the entry point that ffi_prep_closure_loc takes (src/arm/ffi.c:612-618,
    633-636): [alt] for static trampolines *)
Definition closure_entry (c : acif) (alt : bool) : Z :=
  if use_vfp c then (if alt then 344 else 216) else (if alt then 328 else 144).
(** src/arm/ffi.c:606-674 ffi_prep_closure_loc: memory, the closure at [clo] with a dynamic
    trampoline, the instructions not being part of it; [org]: where the text is; cif, fun and
    user_data are at FFI_TRAMPOLINE_SIZE (12) and behind (include/ffi.h.in:324-341) *)
Definition prep_dynamic (c : acif) (org clo cif func user : Z) (m : Z -> Z) : Z -> Z :=
  wr (wr m (clo + 8) (le_enc 4 (org + closure_entry c false))) (clo + 12) (le_enc 4 cif ++ le_enc 4 func ++ le_enc 4 user).
(** src/arm/ffi.c:629-640, 669-671 the same with a static trampoline, whose parameters are at
    [parm] (src/tramp.c:110-114, ffi_tramp_set_parms src/tramp.c:642-651) *)
Definition prep_static (c : acif) (org clo parm cif func user : Z) (m : Z -> Z) : Z -> Z :=
  wr (wr m parm (le_enc 4 clo ++ le_enc 4 (org + closure_entry c true))) (clo + 12) (le_enc 4 cif ++ le_enc 4 func ++ le_enc 4 user).
(** src/arm/ffi.c:677-697 ffi_prep_go_closure: tramp, cif and fun (include/ffi.h.in:460-464) *)
Definition prep_go (c : acif) (org clo cif func : Z) (m : Z -> Z) : Z -> Z :=
  wr m clo (le_enc 4 (org + (if use_vfp c then 192 else 120)) ++ le_enc 4 cif ++ le_enc 4 func).

(** Offset of the function that ffi_call_int calls (src/arm/ffi.c:415-425). *)
Definition call_label (c : acif) : Z := if use_vfp c then 0 else 16.
(** The registers with the arguments of that call (src/arm/ffi.c:419-424). *)
Definition call_args (c : acif) (base fn : Z) (X : Z -> Z) : Prop :=
  X 0 = (if use_vfp c then base else stack_at c base) /\ X 1 = frame_at c base /\ X 2 = fn /\
  (use_vfp c = true -> X 3 = v_used (k_vfp c)).
