(** The trampoline tables of src/closures.c for Mach systems (FFI_EXEC_TRAMPOLINE_TABLE):
    table and entry records linked by pointers, with memory that can be given back. *)
From Verif Require Import Base.
Local Open Scope Z_scope.

(** FFI_TRAMPOLINE_COUNT, PAGE_MAX_SIZE and FFI_TRAMPOLINE_SIZE (src/closures.c:198;
    src/aarch64/ffitarget.h:66). *)
Record mcfg : Type := MCfg { mc_count : nat; mc_page : Z; mc_size : Z }.

(** Address of an entry: the table whose pool has it, and its index
    (src/closures.c:190-194, 265-266). *)
Definition eptr : Type := (nat * nat)%type.

(** src/closures.c:176-194 struct ffi_trampoline_table; [tb_links] are the next fields of the
    entries in its pool. *)
Record tbl : Type := Tbl {
  tb_page : Z;
  tb_count : Z;
  tb_free : option eptr;
  tb_links : nat -> option eptr;
  tb_prev : option nat;
  tb_next : option nat
}.

(** The tables in memory ([None]: given back or never allocated), ffi_trampoline_tables, the
    config pages mapped, the closures (src/closures.c:200-201, 318-335). *)
Record mst : Type := MSt {
  m_tables : nat -> option tbl;
  m_head : option nat;
  m_pages : list Z;
  m_closures : Z -> option (nat * eptr)
}.

(** Nothing allocated (src/closures.c:201). *)
Definition mst0 : mst := MSt (fun _ => None) None [] (fun _ => None).

(** Load and store of a table record (src/closures.c:290-379). *)
Definition get_tbl (st : mst) (t : nat) : res tbl := of_option (m_tables st t).
(** A table record is stored or given back (src/closures.c:283-303). *)
Definition set_tbl (t : nat) (x : option tbl) (st : mst) : mst :=
  MSt (fun k => if Nat.eqb k t then x else m_tables st k) (m_head st) (m_pages st) (m_closures st).
(** ffi_trampoline_tables = ... (src/closures.c:329, 379). *)
Definition set_head (h : option nat) (st : mst) : mst := MSt (m_tables st) h (m_pages st) (m_closures st).

(** Stores to single fields of a table (src/closures.c:290-294, 328-332, 338-340, 357-373). *)
Definition set_prev (t : nat) (v : option nat) (st : mst) : res mst :=
  let* x := get_tbl st t in
  Ok (set_tbl t (Some (Tbl (tb_page x) (tb_count x) (tb_free x) (tb_links x) v (tb_next x))) st).
(** table->next = ... (src/closures.c:325, 375). *)
Definition set_next (t : nat) (v : option nat) (st : mst) : res mst :=
  let* x := get_tbl st t in
  Ok (set_tbl t (Some (Tbl (tb_page x) (tb_count x) (tb_free x) (tb_links x) (tb_prev x) v)) st).
(** table->free_list and table->free_count (src/closures.c:334-335, 361-362). *)
Definition set_free (t : nat) (v : option eptr) (c : Z) (st : mst) : res mst :=
  let* x := get_tbl st t in
  Ok (set_tbl t (Some (Tbl (tb_page x) c v (tb_links x) (tb_prev x) (tb_next x))) st).

(** entry->next, load and store; the entry must lie in a pool that is still there
    (src/closures.c:338, 340, 357). *)
Definition get_link (g : mcfg) (e : eptr) (st : mst) : res (option eptr) :=
  let* x := get_tbl st (fst e) in
  if Nat.ltb (snd e) (mc_count g) then Ok (tb_links x (snd e)) else UB.
(** entry->next = ... (src/closures.c:336, 360). *)
Definition set_link (g : mcfg) (e : eptr) (v : option eptr) (st : mst) : res mst :=
  let* x := get_tbl st (fst e) in
  if Nat.ltb (snd e) (mc_count g) then
    Ok (set_tbl (fst e) (Some (Tbl (tb_page x) (tb_count x) (tb_free x)
        (fun i => if Nat.eqb i (snd e) then v else tb_links x i) (tb_prev x) (tb_next x))) st)
  else UB.

(** The answers of the system in ffi_trampoline_table_alloc: pages mapped at an address or
    not (vm_allocate, vm_remap, vm_protect; on failure nothing stays mapped), then the table
    record and the pool by calloc (src/closures.c:216-263). *)
Record tans : Type := TAns { ta_page : option Z; ta_table : option nat; ta_pool : bool }.

(** src/closures.c:203-283 ffi_trampoline_table_alloc; results of calloc are used unchecked *)
Definition table_alloc (g : mcfg) (a : tans) (st : mst) : res (option nat * mst) :=
  match ta_page a with
  | None => Ok (None, st)
  | Some page =>
    match ta_table a with
    | None => UB
    | Some t =>
      if negb (ta_pool a) then UB
      else
        let links i := if Nat.ltb (S i) (mc_count g) then Some (t, S i) else None in
        let x := Tbl page (Z.of_nat (mc_count g)) (Some (t, O)) links None None in
        let st1 := set_tbl t (Some x) st in
        Ok (Some t, MSt (m_tables st1) (m_head st1) (page :: m_pages st1) (m_closures st1))
    end
  end.

(** src/closures.c:285-302 ffi_trampoline_table_free *)
Definition table_free (t : nat) (st : mst) : res mst :=
  let* x := get_tbl st t in
  let* st1 := match tb_prev x with None => Ok st | Some p => set_next p (tb_next x) st end in
  let* x1 := get_tbl st1 t in
  let* st2 := match tb_next x1 with None => Ok st1 | Some n => set_prev n (tb_prev x1) st1 end in
  let* x2 := get_tbl st2 t in
  Ok (MSt (fun k => if Nat.eqb k t then None else m_tables st2 k) (m_head st2)
          (remove Z.eq_dec (tb_page x2) (m_pages st2)) (m_closures st2)).

(** The address of the trampoline of an entry (src/closures.c:224, 268-269). *)
Definition tramp_addr (g : mcfg) (page : Z) (i : nat) : Z := page + mc_page g + Z.of_nat i * mc_size g.

(** src/closures.c:304-346 ffi_closure_alloc; [c] answers malloc.  The result is the closure
    and the code address. *)
Definition mach_alloc (g : mcfg) (c : option Z) (a : tans) (st : mst) : res (option (Z * Z) * mst) :=
  match c with
  | None => Ok (None, st)
  | Some ptr =>
    let* full := match m_head st with
                 | None => Ok true
                 | Some t => let* x := get_tbl st t in Ok (match tb_free x with None => true | Some _ => false end)
                 end in
    let* (table, st1) :=
      if full then
        let* (o, s) := table_alloc g a st in
        match o with
        | None => Ok (None, s)
        | Some t =>
          let* s1 := set_next t (m_head s) s in
          let* s2 := match m_head s with None => Ok s1 | Some n => set_prev n (Some t) s1 end in
          Ok (Some t, set_head (Some t) s2)
        end
      else Ok (m_head st, st) in
    match table with
    | None => Ok (None, st1)
    | Some t =>
      let* h := of_option (m_head st1) in
      let* x := get_tbl st1 h in
      let* e := of_option (tb_free x) in
      let* n := get_link g e st1 in
      let* st2 := set_free h n (tb_count x - 1) st1 in
      let* st3 := set_link g e None st2 in
      let* y := get_tbl st3 (fst e) in
      Ok (Some (ptr, tramp_addr g (tb_page y) (snd e)),
          MSt (m_tables st3) (m_head st3) (m_pages st3)
              (fun q => if q =? ptr then Some (t, e) else m_closures st3 q))
    end
  end.

(** src/closures.c:348-384 ffi_closure_free *)
Definition mach_free (g : mcfg) (ptr : Z) (st : mst) : res mst :=
  let* (t, e) := of_option (m_closures st ptr) in
  let* x := get_tbl st t in
  let* st1 := set_link g e (tb_free x) st in
  let* st2 := set_free t (Some e) (tb_count x + 1) st1 in
  let head_is := match m_head st2 with Some h => Nat.eqb h t | None => false end in
  let* st3 :=
    if (tb_count x + 1 =? Z.of_nat (mc_count g)) && negb head_is then table_free t st2
    else if negb head_is then
      let* s1 := set_prev t None st2 in
      let* s2 := set_next t (m_head s1) s1 in
      let* s3 := match m_head s2 with None => Ok s2 | Some h => set_prev h (Some t) s2 end in
      Ok (set_head (Some t) s3)
    else Ok st2 in
  Ok (MSt (m_tables st3) (m_head st3) (m_pages st3) (fun q => if q =? ptr then None else m_closures st3 q)).
