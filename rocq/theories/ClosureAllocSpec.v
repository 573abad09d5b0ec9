(** What ffi_closure_alloc and ffi_closure_free should provide, and what they may rely on. *)
From Verif Require Import Base SegModel SegSpec ClosureAllocModel.
Local Open Scope Z_scope.

(** A closure handed out: writable address, usable size, code address. *)
Record live : Type := Live { lv_ptr : Z; lv_size : Z; lv_code : Z }.

Definition apart2 (p n q m : Z) : Prop := p + n <= q \/ q + m <= p.

(** The requests for memory get lawful answers. *)
Fixpoint lawful_ext (l : list extend) (sg : sgs) : Prop :=
  match l with
  | [] => True
  | x :: r => 8 <= x_len x /\ lawful sg (x_len x) (x_ans x) /\
              forall b sg', sys_alloc (x_len x) (x_ans x) (x_top x) sg = Ok (b, sg') -> lawful_ext r sg'
  end.

(** Contract of dlmalloc: a block lies in a segment and is apart from the blocks in use. *)
Definition malloc_contract (m : mans) (st : cst) : Prop :=
  lawful_ext (ma_ext m) (c_sg st) /\
  forall sg, extend_all (ma_ext m) (c_sg st) = Ok sg ->
  match ma_blk m with
  | None => True
  | Some (p, n) => 0 < n /\
      (exists sp, In sp (segs sg) /\ sg_base sp <= p /\ p + n <= sg_base sp + sg_size sp) /\
      Forall (fun b => apart2 p n (fst b) (snd b)) (c_blocks st)
  end.

(** Contract of dlfree: memory of other blocks in use is neither trimmed nor released.
    [both]: the munmap of the second mapping does not fail alone. *)
Definition free_contract (both : bool) (f : fans) (bs : list (Z * Z)) (sg : sgs) : Prop :=
  match fa_trim f with
  | Some (top, topsize, pad, unit, linked, ok1, ok2) =>
      top_inside sg top topsize pad /\ 0 < unit /\ (both = true -> ok1 = true -> ok2 = true) /\
      Forall (fun b => forall sp, In sp (segs sg) -> sg_base sp <= top < sg_base sp + sg_size sp ->
                 sg_base sp <= fst b -> fst b + snd b <= sg_base sp + sg_size sp -> fst b + snd b <= top) bs
  | None => True
  end /\
  match fa_release f with
  | Some (unused, ans) =>
      (both = true -> forall k, fst (ans k) = true -> snd (ans k) = true) /\
      Forall (fun b => forall sp, sg_base sp <= fst b < sg_base sp + sg_size sp -> unused sp = false) bs
  | None => True
  end.

(** Contract of ffi_tramp_alloc (properties C31 to C35): a new handle with a new address. *)
Definition tramp_contract (g : cacfg) (t : option Z) (st : cst) : Prop :=
  match t with
  | None => True
  | Some h => ~ In (ca_addr g h) (map (ca_addr g) (c_tramps st))
  end.

(** The blocks left when the one at [p] is freed. *)
Definition others (p : Z) (bs : list (Z * Z)) : list (Z * Z) := filter (fun b => negb (fst b =? p)) bs.

(** Histories of allocations, frees and stores, with the closures in use; the program does not
    change the ftramp field of a closure. *)
Inductive ca_history (g : cacfg) (both : bool) : cst -> list live -> Prop :=
| ch_start : ca_history g both cst0 []
| ch_alloc st ls hascode m t f p code st' : ca_history g both st ls ->
    malloc_contract m st -> tramp_contract g t st ->
    (forall sg, extend_all (ma_ext m) (c_sg st) = Ok sg -> free_contract both f (c_blocks st) sg) ->
    closure_alloc g hascode m t f st = Ok (Some p, Some code, st') ->
    forall n, ma_blk m = Some (p, n) ->
    ca_history g both st' (Live p n code :: ls)
| ch_fail st ls hascode m t f c st' : ca_history g both st ls ->
    malloc_contract m st -> tramp_contract g t st ->
    (forall sg, extend_all (ma_ext m) (c_sg st) = Ok sg -> free_contract both f (c_blocks st) sg) ->
    closure_alloc g hascode m t f st = Ok (None, c, st') ->
    ca_history g both st' ls
| ch_free st a l b f st' : ca_history g both st (a ++ l :: b) ->
    free_contract both f (others (lv_ptr l) (c_blocks st)) (c_sg st) ->
    closure_free g f (lv_ptr l) st = Ok st' ->
    ca_history g both st' (a ++ b)
| ch_write st ls w ft : ca_history g both st ls ->
    Forall (fun l => ft (lv_ptr l) = c_ft st (lv_ptr l)) ls ->
    ca_history g both (Cst (scribble w (c_sg st)) (c_blocks st) (c_tramps st) ft) ls.

(** Closures do not overlap. *)
Definition live_apart (l k : live) : Prop := apart2 (lv_ptr l) (lv_size l) (lv_ptr k) (lv_size k).
(** Neither do their code addresses, when code is part of the closure. *)
Definition code_apart (l k : live) : Prop := apart2 (lv_code l) (lv_size l) (lv_code k) (lv_size k).
