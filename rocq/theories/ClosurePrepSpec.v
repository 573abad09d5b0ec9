(** What a closure has to do when called, and the memory it lives in. *)
From Verif Require Import Base Types Unix64Model TrampCodeModel TrampCodeSpec ClosurePrepModel.

(** [n] bytes of memory at [p], all different. *)
Definition own_memory (phys : Z -> Z) (p n : Z) : Prop :=
  0 <= p /\ p + n <= 2 ^ 64 /\ forall i j, 0 <= i < n -> 0 <= j < n -> phys (p + i) = phys (p + j) -> i = j.

(** The [n] bytes at [a] and the [k] bytes at [b] do not share memory. *)
Definition apart (phys : Z -> Z) (a n b k : Z) : Prop :=
  forall i j, 0 <= i < n -> 0 <= j < k -> phys (a + i) <> phys (b + j).

(** A closure of [n] bytes whose code address shows the same bytes. *)
Definition dynamic_alloc (phys : Z -> Z) (cl : calloc) (n : Z) : Prop :=
  ca_parm cl = None /\ own_memory phys (ca_ptr cl) n /\ 0 <= ca_code cl /\ ca_code cl + n <= 2 ^ 64 /\
  forall i, 0 <= i < n -> phys (ca_code cl + i) = phys (ca_ptr cl + i).

(** A closure of [n] bytes whose code address is the [i]-th slot of a static trampoline
    table mapped at [base]. *)
Definition static_alloc (phys pm : Z -> Z) (cl : calloc) (n : Z) (endbr : bool) (base i : Z) : Prop :=
  let slot := base + i * tramp_size endbr in
  let parm := base + tramp_map_size + i * tramp_size endbr in
  ca_parm cl = Some parm /\ ca_code cl = slot /\
  0 <= i < tramp_map_size / tramp_size endbr /\ 0 <= base /\ base + 2 * tramp_map_size <= 2 ^ 64 /\
  own_memory phys (ca_ptr cl) n /\ own_memory phys parm 16 /\ apart phys parm 16 (ca_ptr cl) n /\
  apart phys slot (tramp_size endbr) (ca_ptr cl) n /\ apart phys slot (tramp_size endbr) parm 16 /\
  code_at (view_of phys pm) slot (static_slot endbr false).

(** At [alt] there is code restoring the stack, loading the closure address and jumping to
    [entry]; it is not part of the closure or its parameters. *)
Definition alt_code (phys pm : Z -> Z) (cl : calloc) (n alt entry : Z) (endbr short : bool) (rel : Z) : Prop :=
  let len := zlen (alt_entry endbr short rel) in
  0 <= alt /\ alt + len < 2 ^ 64 /\ - 2 ^ (if short then 7 else 31) <= rel < 2 ^ (if short then 7 else 31) /\
  wrap64 (alt + len + rel) = entry /\
  apart phys alt len (ca_ptr cl) n /\
  (forall parm, ca_parm cl = Some parm -> apart phys alt len parm 16) /\
  code_at (view_of phys pm) alt (alt_entry endbr short rel).

(** Called in state [s], the closure reaches [entry] in a state where the entry code finds
    [cif], [fn] and [ud]; stack pointer, argument registers and memory are as in [s]
    except for %r10 and the sixteen bytes below the stack pointer. *)
Definition invokes (s : mach) (entry cif fn ud : Z) : Prop :=
  exists s' clo, arrives_in s s' entry clo /\ closure_call (m_mem s') clo = (cif, fn, ud).

(** The same with the handler finally called. *)
Definition invokes_raw (s : mach) (translate entry cif fn ud : Z) : Prop :=
  exists s' clo, arrives_in s s' entry clo /\ handler_called (m_mem s') translate clo = (cif, fn, ud).

Definition word_ok (x : Z) : Prop := 0 <= x < 2 ^ 64.

Definition entry_ok (en : entries) : Prop :=
  word_ok (en_unix en) /\ word_ok (en_sse en) /\ word_ok (en_win en) /\
  word_ok (en_unix_alt en) /\ word_ok (en_sse_alt en) /\ word_ok (en_win_alt en).

(** Which entry point serves which ABI: on System V the one saving the vector registers when
    the call interface has arguments in them (bit 11 of its flags), on Windows the one
    entry point. [st]: the variant for static trampolines. *)
Inductive entry_for (en : entries) : Z -> Z -> bool -> Z -> Prop :=
| entry_unix flags : Z.testbit flags 11 = false -> entry_for en 2 flags false (en_unix en)
| entry_sse flags : Z.testbit flags 11 = true -> entry_for en 2 flags false (en_sse en)
| entry_win abi flags : abi = 3 \/ abi = 4 -> entry_for en abi flags false (en_win en)
| entry_unix_alt flags : Z.testbit flags 11 = false -> entry_for en 2 flags true (en_unix_alt en)
| entry_sse_alt flags : Z.testbit flags 11 = true -> entry_for en 2 flags true (en_sse_alt en)
| entry_win_alt abi flags : abi = 3 \/ abi = 4 -> entry_for en abi flags true (en_win_alt en).

(** Room on the stack for a call of a closure with a static trampoline. *)
Definition static_stack (s : mach) (cl : calloc) (n base alt : Z) (len : Z) : Prop :=
  stack_apart s base (2 * tramp_map_size) /\ stack_apart s (ca_ptr cl) n /\ stack_apart s alt len.
