(** What the segments of the closure allocator should provide. *)
From Verif Require Import Base SegModel.
Local Open Scope Z_scope.

(** A lawful system maps memory where nothing was mapped. *)
Definition free_range (st : sgs) (p len : Z) : Prop := forall x, p <= x < p + len -> vm st x = None.
Definition lawful (st : sgs) (len : Z) (k : kmap) : Prop :=
  match k with
  | KFail => True
  | KAnon p => free_range st p len
  | KDual _ _ code data => free_range st code len /\ free_range st data len /\ (code + len <= data \/ data + len <= code)
  end.

(** The top chunk and the fence behind it lie in a segment (allocator invariant). *)
Definition top_inside (st : sgs) (top topsize pad : Z) : Prop :=
  exists sp, In sp (segs st) /\ sg_base sp <= top /\ 0 <= topsize /\ 0 <= pad /\ top + topsize < sg_base sp + sg_size sp.

(** Histories of the memory of the allocator.  [both]: a second munmap does not fail when
    the first one of a dual mapping succeeded. *)
Inductive seg_history (both : bool) : sgs -> Prop :=
| sh_start : seg_history both sgs0
| sh_alloc st len k top b st' : seg_history both st -> 8 <= len -> lawful st len k ->
    sys_alloc len k top st = Ok (b, st') -> seg_history both st'
| sh_trim st top topsize pad unit linked ok1 ok2 st' : seg_history both st ->
    top_inside st top topsize pad -> 0 < unit -> (both = true -> ok1 = true -> ok2 = true) ->
    sys_trim top topsize pad unit linked ok1 ok2 st = Ok st' -> seg_history both st'
| sh_release st unused ans : seg_history both st ->
    (both = true -> forall k, fst (ans k) = true -> snd (ans k) = true) ->
    seg_history both (release_unused unused ans st)
| sh_scribble st f : seg_history both st -> seg_history both (scribble f st).

(** The executable address of [a] shows the byte that [a] shows. *)
Definition same_byte (st : sgs) (a c : Z) : Prop := exists b, vm st a = Some b /\ vm st c = Some b.

(** An address inside a segment. *)
Definition in_segment (st : sgs) (sp : seg) (a : Z) : Prop :=
  In sp (segs st) /\ sg_base sp <= a < sg_base sp + sg_size sp.
