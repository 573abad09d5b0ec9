(** What the trampolines have to do, in terms of machine states. *)
From Verif Require Import Base TrampCodeModel.

(** The bytes [bs] are at address [a]. *)
Definition code_at (m : Z -> Z) (a : Z) (bs : list Z) : Prop := mbytes m a (length bs) = bs.

(** [s'] agrees with [s] on all registers but those in [rs], and on all memory outside
    [n] bytes from [a] on. *)
Definition keeps (rs : list Z) (a n : Z) (s s' : mach) : Prop :=
  (forall r, ~ In r rs -> m_reg s' r = m_reg s r) /\
  (forall x, ~ (a <= x < a + n) -> m_mem s' x = m_mem s x).

(** From [s], the processor reaches [entry] in state [s'] with [data] in %r10; at most
    %r10 and the sixteen bytes below the stack pointer are changed. *)
Definition arrives_in (s s' : mach) (entry data : Z) : Prop :=
  (exists n, steps n s = Some s') /\ m_rip s' = entry /\ m_reg s' R10 = data /\
    m_reg s' RSP = m_reg s RSP /\ keeps [R10] (m_reg s RSP - 16) 16 s s'.
Definition arrives (s : mach) (entry data : Z) : Prop := exists s', arrives_in s s' entry data.

(** Room below the stack pointer, apart from [n] bytes at [a]. *)
Definition stack_apart (s : mach) (a n : Z) : Prop :=
  16 <= m_reg s RSP < 2 ^ 64 /\ (m_reg s RSP <= a \/ a + n <= m_reg s RSP - 16).

(** The parameter block at [p] holds [data] and [target]. *)
Definition parm_at (ilp32 : bool) (m : Z -> Z) (p data target : Z) : Prop :=
  load m p (parm_words ilp32) = data /\ load m (p + Z.of_nat (parm_words ilp32)) (parm_words ilp32) = target.
