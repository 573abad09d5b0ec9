(** The x87 instructions flds, fldl, fldt, fstps, fstpl and fstpt that src/x86/sysv.S uses for
    floating point results (src/x86/sysv.S:141-149, 363-371, 513-524): conversion between memory
    formats and the 80-bit register format, with the default control word (exceptions masked,
    rounding to nearest even).  This is a model of the processor, written from the architecture
    manual; libffi has no code for it. *)
From Verif Require Import Base.
Local Open Scope Z_scope.

(** A register: sign, biased exponent of 15 bits, significand of 64 bits with explicit integer
    bit (used by src/x86/sysv.S:141-149). *)
Record ext : Type := Ext { x_sign : Z; x_exp : Z; x_man : Z }.

(** Quotient by 2^s rounded to nearest, ties to even (rounding of fstps and fstpl,
    src/x86/sysv.S:142, 145). *)
Definition rne (m s : Z) : Z :=
  let q := m / 2 ^ s in
  let r := m mod 2 ^ s in
  if (2 ^ s <? 2 * r) || ((2 * r =? 2 ^ s) && Z.odd q) then q + 1 else q.

(** Format parameters: exponent bits and fraction bits; 8 and 23 for flds and fstps, 11 and 52
    for fldl and fstpl (src/x86/sysv.S:142, 145). *)
Definition bias (eb : Z) : Z := 2 ^ (eb - 1) - 1.

(** flds and fldl (src/x86/sysv.S:364, 367): signalling NaNs become quiet. *)
Definition ld (eb mb x : Z) : ext :=
  let s := x / 2 ^ (eb + mb) in
  let e := (x / 2 ^ mb) mod 2 ^ eb in
  let m := x mod 2 ^ mb in
  if e =? 2 ^ eb - 1 then
    if m =? 0 then Ext s 32767 (2 ^ 63)
    else Ext s 32767 (2 ^ 63 + (if m <? 2 ^ (mb - 1) then m + 2 ^ (mb - 1) else m) * 2 ^ (63 - mb))
  else if e =? 0 then
    if m =? 0 then Ext s 0 0
    else Ext s (16383 - bias eb + 1 - mb + Z.log2 m) (m * 2 ^ (63 - Z.log2 m))
  else Ext s (e - bias eb + 16383) ((2 ^ mb + m) * 2 ^ (63 - mb)).

(** fstps and fstpl (src/x86/sysv.S:142, 145).  A significand without integer bit and with a
    nonzero exponent is invalid and gives the default NaN. *)
Definition st (eb mb : Z) (x : ext) : Z :=
  let top := x_sign x * 2 ^ (eb + mb) in
  let inf := (2 ^ eb - 1) * 2 ^ mb in
  if x_exp x =? 32767 then
    if x_man x <? 2 ^ 63 then 2 ^ (eb + mb) + inf + 2 ^ (mb - 1)
    else
      let f := x_man x - 2 ^ 63 in
      if f =? 0 then top + inf
      else
        let g := f / 2 ^ (63 - mb) in
        top + inf + (if g <? 2 ^ (mb - 1) then g + 2 ^ (mb - 1) else g)
  else if x_man x =? 0 then (if x_exp x =? 0 then top else 2 ^ (eb + mb) + inf + 2 ^ (mb - 1))
  else if (x_man x <? 2 ^ 63) && negb (x_exp x =? 0) then 2 ^ (eb + mb) + inf + 2 ^ (mb - 1)
  else
    let e := Z.max 1 (x_exp x) - 16383 in
    let low := 1 - bias eb in
    if e <? low then top + rne (x_man x) (63 - mb + (low - e))
    else top + Z.min inf ((e - low) * 2 ^ mb + rne (x_man x) (63 - mb)).

(** fldt and fstpt (src/x86/sysv.S:148, 370) copy 10 bytes. *)
Definition ld80 (x : Z) : ext := Ext (x / 2 ^ 79) ((x / 2 ^ 64) mod 2 ^ 15) (x mod 2 ^ 64).
(** fstpt (src/x86/sysv.S:148) *)
Definition st80 (x : ext) : Z := (x_sign x * 2 ^ 15 + x_exp x) * 2 ^ 64 + x_man x.

(** Loading from and storing to [n] bytes of memory: src/x86/sysv.S:364, 367, 370 and 142, 145,
    148. *)
Definition fld (n : Z) (d : list Z) : ext :=
  if n =? 4 then ld 8 23 (le_dec d) else if n =? 8 then ld 11 52 (le_dec d) else ld80 (le_dec d).
(** Storing to [n] bytes: src/x86/sysv.S:142, 145, 148. *)
Definition fstp (n : Z) (x : ext) : list Z :=
  if n =? 4 then le_enc 4 (st 8 23 x) else if n =? 8 then le_enc 8 (st 11 52 x) else le_enc 10 (st80 x).
