(** The static trampoline allocator (src/tramp.c), as programs over a typed heap whose
    single steps are the loads, stores and external calls of the C code, and a machine
    running any number of threads that call it. *)
From Verif Require Import Base.

(** ** Values and memory *)

(** Values of C variables and fields: NULL, numbers, pointers to a struct tramp_table, to
    element [i] of an array of struct tramp, and addresses in mapped memory
    (src/tramp.c:91-140). *)
Inductive val : Type := Null | Num (z : Z) | PTab (id : Z) | PTr (arr i : Z) | Addr (a : Z).

(** Comparison of values (the pointer comparisons of src/tramp.c:541, 588). *)
Definition val_eqb (u v : val) : bool :=
  match u, v with
  | Null, Null => true
  | Num a, Num b => a =? b
  | PTab a, PTab b => a =? b
  | PTr a i, PTr b j => (a =? b) && (i =? j)
  | Addr a, Addr b => a =? b
  | _, _ => false
  end.

(** Fields of struct tramp_globals (src/tramp.c:160-171). *)
Inductive gfield : Type := GFd | GOffset | GText | GMap | GSize | GNtramp | GFree | GNfree | GStatus.
(** Fields of struct tramp_table (src/tramp.c:91-100). *)
Inductive tfield : Type := TPrev | TNext | TCode | TParm | TArray | TFree | TNfree.
(** Fields of struct tramp (src/tramp.c:126-133). *)
Inductive afield : Type := APrev | ANext | ATable | ACode | AParm.

(** The fields the code accesses: of the globals, of a table record, of an array element
    (src/tramp.c:52-716). *)
Inductive loc : Type := G (f : gfield) | T (id : Z) (f : tfield) | A (arr i : Z) (f : afield).

(** Protection of a byte: not mapped by this code, anonymous memory, code table
    (src/tramp.c:345-359). *)
Inductive perm : Type := Unmapped | RW | RX.

(** What ffi_tramp_arch gives (src/x86/ffi64.c:941-951): size of a trampoline, size of
    the code table, and its bytes. *)
Record tcfg : Type := TCfg { tc_size : Z; tc_map : Z; tc_code : Z -> Z }.

(** Memory: record fields, which records are allocated (for arrays: how many elements), and
    mapped memory. Models what src/tramp.c reaches through its globals (142-173). *)
Record st : Type := St {
  s_val : loc -> val;
  s_tlive : Z -> bool;
  s_alive : Z -> option Z;
  s_perm : Z -> perm;
  s_mem : Z -> Z
}.

(** ** Steps *)

(** The operations src/tramp.c is made of: field loads and stores, stores of a word into
    mapped memory (641-642), malloc of a table and of an array (441, 448), free, the two
    mmap calls (345, 353), munmap, environment queries (sysconf, the search of
    /proc/<pid>/maps, open, write), the mutex (302-315), and dereferencing a value that is
    not a pointer to a record. *)
Inductive op : Type :=
| Rd (l : loc) | Wr (l : loc) (v : val) | WrW (a : val) (v : Z)
| MallocTab | MallocArr (n : val) | Free (v : val)
| MmapAnon (n : val) | MmapCode (a n : val) | Munmap (a n : val)
| Env | Lock | Unlock | Crash.

(** Programs of src/tramp.c (src/tramp.c:52-716). *)
Inductive prog : Type := Ret (v : val) | Do (o : op) (k : val -> prog).

(** Sequencing of statements in src/tramp.c (src/tramp.c:52-716). *)
Fixpoint bind (p : prog) (k : val -> prog) : prog :=
  match p with Ret v => k v | Do o k' => Do o (fun v => bind (k' v) k) end.
Notation "p >>= k" := (bind p k) (at level 50, left associativity).
Notation "p >> q" := (bind p (fun _ => q)) (at level 50, left associativity).

(** Single statements (src/tramp.c throughout) (src/tramp.c:52-716). *)
Definition rd (l : loc) : prog := Do (Rd l) Ret.
(** A store to a field (src/tramp.c throughout) (src/tramp.c:52-716). *)
Definition wr (l : loc) (v : val) : prog := Do (Wr l v) Ret.
(** Undefined behaviour: a garbage pointer is dereferenced (src/tramp.c throughout)
    (src/tramp.c:52-716). *)
Definition crash : prog := Do Crash Ret.
(** Dereferencing a table pointer (e.g. src/tramp.c:552). *)
Definition deref_t (v : val) (k : Z -> prog) : prog := match v with PTab t => k t | _ => crash end.
(** Dereferencing a trampoline pointer (e.g. src/tramp.c:557). *)
Definition deref_a (v : val) (k : Z -> Z -> prog) : prog := match v with PTr a i => k a i | _ => crash end.
(** Using an int or size_t (e.g. src/tramp.c:559).  Overflow of the counters is not
    modelled: nfree is at most ntramp, and nfree_tables would have to pass 2^31 tables. *)
Definition num (v : val) (k : Z -> prog) : prog := match v with Num n => k n | _ => crash end.
(** Address arithmetic (e.g. src/tramp.c:487-488). *)
Definition addr (v : val) (k : Z -> prog) : prog := match v with Addr a => k a | _ => crash end.
(** if (p != NULL) ... (e.g. src/tramp.c:523). *)
Definition if_ptr (v : val) (p : prog) : prog := match v with Null => Ret Null | _ => p end.
(** field += d (src/tramp.c:527, 536, 559, 584). *)
Definition add_to (l : loc) (d : Z) : prog := rd l >>= fun v => num v (fun n => wr l (Num (n + d))).

(** ** src/tramp.c *)

(** src/tramp.c:518-528 tramp_table_add *)
Definition tramp_table_add (t : Z) : prog :=
  rd (G GFree) >>= fun h =>
  wr (T t TNext) h >> wr (T t TPrev) Null >>
  (rd (G GFree) >>= fun h => if_ptr h (deref_t h (fun h => wr (T h TPrev) (PTab t)))) >>
  wr (G GFree) (PTab t) >> add_to (G GNfree) 1.

(** src/tramp.c:533-543 tramp_table_del *)
Definition tramp_table_del (t : Z) : prog :=
  add_to (G GNfree) (-1) >>
  (rd (T t TPrev) >>= fun p => if_ptr p (rd (T t TNext) >>= fun n => deref_t p (fun p => wr (T p TNext) n))) >>
  (rd (T t TNext) >>= fun n => if_ptr n (rd (T t TPrev) >>= fun p => deref_t n (fun n => wr (T n TPrev) p))) >>
  (rd (G GFree) >>= fun h => if val_eqb h (PTab t) then rd (T t TNext) >>= fun n => wr (G GFree) n else Ret Null).

(** src/tramp.c:364-369 tramp_table_unmap *)
Definition tramp_table_unmap (t : Z) : prog :=
  (rd (T t TCode) >>= fun a => rd (G GMap) >>= fun n => Do (Munmap a n) Ret) >>
  (rd (T t TParm) >>= fun a => rd (G GMap) >>= fun n => Do (Munmap a n) Ret).

(** src/tramp.c:508-514 tramp_table_free *)
Definition tramp_table_free (t : Z) : prog :=
  tramp_table_unmap t >> (rd (T t TArray) >>= fun a => Do (Free a) Ret) >> Do (Free (PTab t)) Ret.

(** src/tramp.c:550-574 tramp_add *)
Definition tramp_add (a i : Z) : prog :=
  rd (A a i ATable) >>= fun t => deref_t t (fun t =>
  (rd (T t TFree) >>= fun f => wr (A a i ANext) f) >>
  wr (A a i APrev) Null >>
  (rd (T t TFree) >>= fun f => if_ptr f (deref_a f (fun a' i' => wr (A a' i' APrev) (PTr a i)))) >>
  wr (T t TFree) (PTr a i) >>
  add_to (T t TNfree) 1 >>
  (rd (T t TNfree) >>= fun n => num n (fun n => if n =? 1 then tramp_table_add t else Ret Null)) >>
  (rd (T t TNfree) >>= fun n => num n (fun n => rd (G GNtramp) >>= fun m => num m (fun m =>
   if n =? m then
     rd (G GNfree) >>= fun k => num k (fun k => if 1 <? k then tramp_table_del t >> tramp_table_free t else Ret Null)
   else Ret Null)))).

(** src/tramp.c:579-594 tramp_del *)
Definition tramp_del (a i : Z) : prog :=
  rd (A a i ATable) >>= fun t => deref_t t (fun t =>
  add_to (T t TNfree) (-1) >>
  (rd (A a i APrev) >>= fun p => if_ptr p (rd (A a i ANext) >>= fun n => deref_a p (fun a' i' => wr (A a' i' ANext) n))) >>
  (rd (A a i ANext) >>= fun n => if_ptr n (rd (A a i APrev) >>= fun p => deref_a n (fun a' i' => wr (A a' i' APrev) p))) >>
  (rd (T t TFree) >>= fun f => if val_eqb f (PTr a i) then rd (A a i ANext) >>= fun n => wr (T t TFree) n else Ret Null) >>
  (rd (T t TNfree) >>= fun n => num n (fun n => if n =? 0 then tramp_table_del t else Ret Null))).

(** src/tramp.c:335-362 tramp_table_map: 1 or 0. MAP_FAILED is [Num (-1)]. *)
Definition tramp_table_map (t : Z) : prog :=
  rd (G GMap) >>= fun m => num m (fun mz =>
  Do (MmapAnon (Num (mz * 2))) (fun a =>
  match a with
  | Num _ => Ret (Num 0)
  | _ =>
    Do (MmapCode a m) (fun c =>
    wr (T t TCode) c >>
    match c with
    | Num _ => Do (Munmap a (Num (mz * 2))) (fun _ => Ret (Num 0))
    | _ => (rd (T t TCode) >>= fun c => addr c (fun c => wr (T t TParm) (Addr (c + mz)))) >> Ret (Num 1)
    end)
  end)).

(** src/tramp.c:478-489: the loop filling the free list; [k] iterations are left. *)
Fixpoint populate (k : nat) (t arr i size code parm : Z) : prog :=
  match k with
  | O => Ret Null
  | S k =>
    wr (A arr i ATable) (PTab t) >> wr (A arr i ACode) (Addr code) >> wr (A arr i AParm) (Addr parm) >>
    tramp_add arr i >> populate k t arr (i + 1) size (code + size) (parm + size)
  end.

(** src/tramp.c:427-503 tramp_table_alloc: 1 or 0. *)
Definition tramp_table_alloc : prog :=
  rd (G GNfree) >>= fun n => num n (fun n =>
  if 0 <? n then Ret (Num 1) else
  Do MallocTab (fun t => if val_eqb t Null then Ret (Num 0) else deref_t t (fun t =>
  rd (G GNtramp) >>= fun nt =>
  Do (MallocArr nt) (fun ar =>
  if val_eqb ar Null then Do (Free (PTab t)) (fun _ => Ret (Num 0)) else deref_a ar (fun arr _ =>
  tramp_table_map t >>= fun ok => num ok (fun ok =>
  if ok =? 0 then Do (Free ar) (fun _ => Do (Free (PTab t)) (fun _ => Ret (Num 0)))
  else
    wr (T t TArray) ar >> wr (T t TFree) Null >> wr (T t TNfree) (Num 0) >>
    (rd (G GSize) >>= fun sz => num sz (fun sz =>
     rd (T t TCode) >>= fun c => addr c (fun c =>
     rd (T t TParm) >>= fun p => addr p (fun p =>
     num nt (fun nt => populate (Z.to_nat nt) t arr 0 sz c p))))) >>
    Ret (Num 1))))))).

(** src/tramp.c:203-254 ffi_tramp_get_libffi.  The search of /proc/<pid>/maps (208-238) is
    one query of the environment: [Num 0] when the text is not found. *)
Definition get_libffi : prog :=
  Do Env (fun found => if val_eqb found (Num 0) then Ret (Num 0) else
  wr (G GOffset) found >>
  Do Env (fun fd => wr (G GFd) fd >>
  (if val_eqb fd (Num (-1)) then Ret (Num 0) else
   tramp_table_alloc >>= fun ok => num ok (fun ok =>
   if ok =? 0 then wr (G GFd) (Num (-1)) >> Ret (Num 0) else Ret (Num 1))))).

(** src/tramp.c:259-279 ffi_tramp_get_temp_file.  The result of write is a query of the
    environment; what the file then shows is [tc_code]. *)
Definition get_temp_file : prog :=
  wr (G GOffset) (Num 0) >>
  Do Env (fun fd => wr (G GFd) fd >>
  Do Env (fun count => num count (fun count => rd (G GMap) >>= fun m => num m (fun m =>
  (if (0 <=? count) && (count =? m) then tramp_table_alloc else Ret (Num 0)) >>= fun ok => num ok (fun ok =>
  if ok =? 0 then wr (G GFd) (Num (-1)) >> Ret (Num 0) else Ret (Num 1)))))).

(** src/tramp.c:287-292 ffi_tramp_init_os *)
Definition init_os : prog :=
  get_libffi >>= fun ok => num ok (fun ok => if ok =? 0 then get_temp_file else Ret (Num 1)).

(** src/tramp.c:377-417 ffi_tramp_init; ffi_tramp_arch is present.  Status: 0 uninitialized,
    1 passed, 2 failed (src/tramp.c:135-139). *)
Definition tramp_init (c : tcfg) : prog :=
  rd (G GStatus) >>= fun s => num s (fun s =>
  if s =? 1 then Ret (Num 1) else
  if s =? 2 then Ret (Num 0) else
  wr (G GFree) Null >> wr (G GNfree) (Num 0) >>
  wr (G GText) (Num 1) >> wr (G GSize) (Num (tc_size c)) >> wr (G GMap) (Num (tc_map c)) >>
  (rd (G GMap) >>= fun m => num m (fun m => rd (G GSize) >>= fun z => num z (fun z => wr (G GNtramp) (Num (m / z))))) >>
  Do Env (fun page => num page (fun page => rd (G GMap) >>= fun m => num m (fun m =>
  if (0 <=? page) && (m <? page) then Ret (Num 0) else
  init_os >>= fun ok => num ok (fun ok =>
  if ok =? 0 then wr (G GStatus) (Num 2) >> Ret (Num 0) else wr (G GStatus) (Num 1) >> Ret (Num 1)))))).

(** src/tramp.c:598-607 ffi_tramp_is_supported *)
Definition ffi_tramp_is_supported (c : tcfg) : prog :=
  Do Lock (fun _ => tramp_init c >>= fun r => Do Unlock (fun _ => Ret r)).

(** src/tramp.c:612-637 ffi_tramp_alloc *)
Definition ffi_tramp_alloc (c : tcfg) (flags : Z) : prog :=
  Do Lock (fun _ =>
  tramp_init c >>= fun ok => num ok (fun ok =>
  if (ok =? 0) || negb (flags =? 0) then Do Unlock (fun _ => Ret Null) else
  tramp_table_alloc >>= fun ok => num ok (fun ok =>
  if ok =? 0 then Do Unlock (fun _ => Ret Null) else
  rd (G GFree) >>= fun t => deref_t t (fun t =>
  rd (T t TFree) >>= fun tr => deref_a tr (fun a i =>
  tramp_del a i >> Do Unlock (fun _ => Ret tr)))))).

(** src/tramp.c:642-652 ffi_tramp_set_parms; target is the second word. *)
Definition ffi_tramp_set_parms (a i target data : Z) : prog :=
  Do Lock (fun _ =>
  (rd (A a i AParm) >>= fun p => addr p (fun p => Do (WrW (Addr (p + 8)) target) Ret)) >>
  (rd (A a i AParm) >>= fun p => Do (WrW p data) Ret) >>
  Do Unlock (fun _ => Ret Null)).

(** src/tramp.c:657-668 ffi_tramp_get_addr *)
Definition ffi_tramp_get_addr (a i : Z) : prog :=
  Do Lock (fun _ => rd (A a i ACode) >>= fun c => Do Unlock (fun _ => Ret c)).

(** src/tramp.c:673-681 ffi_tramp_free *)
Definition ffi_tramp_free (a i : Z) : prog :=
  Do Lock (fun _ => tramp_add a i >> Do Unlock (fun _ => Ret Null)).

(** ** Meaning of the steps *)

(** Same location (src/tramp.c: distinct fields of distinct records are distinct memory)
    (src/tramp.c:52-716). *)
Definition loc_eq_dec (x y : loc) : {x = y} + {x <> y}.
Proof. repeat decide equality. Defined.

(** A store (src/tramp.c throughout) (src/tramp.c:52-716). *)
Definition set_val (s : st) (l : loc) (v : val) : st :=
  St (fun l' => if loc_eq_dec l' l then v else s_val s l') (s_tlive s) (s_alive s) (s_perm s) (s_mem s).

(** Is the record holding a field allocated (src/tramp.c throughout)? (src/tramp.c:52-716) *)
Definition valid (s : st) (l : loc) : Prop :=
  match l with
  | G _ => True
  | T id _ => s_tlive s id = true
  | A arr i _ => exists n, s_alive s arr = Some n /\ 0 <= i < n
  end.

(** Membership in a byte range (src/tramp.c:345-368). *)
Definition inside (a n x : Z) : bool := (a <=? x) && (x <? a + n).

(** Undefined behaviour of a step: access to records not allocated, freeing what is not
    allocated, writing to memory not writable, mapping over or unmapping memory that is
    not mapped (src/tramp.c throughout) (src/tramp.c:52-716). *)
Definition bad (s : st) (o : op) : Prop :=
  match o with
  | Rd l => ~ valid s l
  | Wr l _ => ~ valid s l
  | WrW (Addr a) _ => exists x, inside a 8 x = true /\ s_perm s x <> RW
  | WrW _ _ => True
  | MallocTab | Env | Lock | Unlock => False
  | MallocArr (Num _) => False
  | MallocArr _ => True
  | Free (PTab id) => s_tlive s id <> true
  | Free (PTr arr 0) => s_alive s arr = None
  | Free Null => False
  | Free _ => True
  | MmapAnon (Num _) => False
  | MmapAnon _ => True
  | MmapCode (Addr a) (Num n) | Munmap (Addr a) (Num n) => exists x, inside a n x = true /\ s_perm s x = Unmapped
  | MmapCode _ _ | Munmap _ _ => True
  | Crash => True
  end.

(** Little-endian store of a 64-bit word (src/tramp.c:647-648). *)
Definition set_word (m : Z -> Z) (a v : Z) : Z -> Z :=
  fun x => if inside a 8 x then (v / 2 ^ (8 * (x - a))) mod 256 else m x.

(** The effect of a step: result and new state; malloc and mmap may fail, fresh records
    hold arbitrary values, fresh anonymous memory is zero and the code mapping shows the
    code table (src/tramp.c throughout; 345-359 for the mappings). *)
Inductive does (c : tcfg) (s : st) : op -> val -> st -> Prop :=
| d_rd l : does c s (Rd l) (s_val s l) s
| d_wr l v : does c s (Wr l v) Null (set_val s l v)
| d_wrw a v : does c s (WrW (Addr a) v) Null (St (s_val s) (s_tlive s) (s_alive s) (s_perm s) (set_word (s_mem s) a v))
| d_mtab_fail : does c s MallocTab Null s
| d_mtab id vs : s_tlive s id = false -> (forall l, (forall f, l <> T id f) -> vs l = s_val s l) ->
    does c s MallocTab (PTab id)
      (St vs (fun x => if x =? id then true else s_tlive s x) (s_alive s) (s_perm s) (s_mem s))
| d_marr_fail n : does c s (MallocArr (Num n)) Null s
| d_marr arr n vs : s_alive s arr = None -> (forall l, (forall i f, l <> A arr i f) -> vs l = s_val s l) ->
    does c s (MallocArr (Num n)) (PTr arr 0)
      (St vs (s_tlive s) (fun x => if x =? arr then Some n else s_alive s x) (s_perm s) (s_mem s))
| d_free_tab id : does c s (Free (PTab id)) Null
    (St (s_val s) (fun x => if x =? id then false else s_tlive s x) (s_alive s) (s_perm s) (s_mem s))
| d_free_arr arr : does c s (Free (PTr arr 0)) Null
    (St (s_val s) (s_tlive s) (fun x => if x =? arr then None else s_alive s x) (s_perm s) (s_mem s))
| d_free_null : does c s (Free Null) Null s
| d_anon_fail n : does c s (MmapAnon (Num n)) (Num (-1)) s
| d_anon n a : 0 < a -> a + n <= 2 ^ 64 -> (forall x, inside a n x = true -> s_perm s x = Unmapped) ->
    does c s (MmapAnon (Num n)) (Addr a)
      (St (s_val s) (s_tlive s) (s_alive s) (fun x => if inside a n x then RW else s_perm s x)
          (fun x => if inside a n x then 0 else s_mem s x))
| d_code_fail a n : does c s (MmapCode (Addr a) (Num n)) (Num (-1)) s
| d_code a n : does c s (MmapCode (Addr a) (Num n)) (Addr a)
    (St (s_val s) (s_tlive s) (s_alive s) (fun x => if inside a n x then RX else s_perm s x)
        (fun x => if inside a n x then tc_code c (x - a) else s_mem s x))
| d_unmap a n : does c s (Munmap (Addr a) (Num n)) Null
    (St (s_val s) (s_tlive s) (s_alive s) (fun x => if inside a n x then Unmapped else s_perm s x) (s_mem s))
| d_env z : does c s Env (Num z) s.

(** ** Threads *)

(** A live trampoline in the hands of the clients: array and index (the opaque pointer of
    src/tramp.c:610-637) and the data and target last set. *)
Record entry : Type := Entry { e_arr : Z; e_i : Z; e_parm : option (Z * Z) }.

(** Calls of the interface (src/tramp.c:598-681). *)
Inductive call : Type :=
| CSupported | CAlloc (flags : Z) | CSet (a i target data : Z) | CGet (a i : Z) | CFree (a i : Z).

(** The program of a call (src/tramp.c:598-681). *)
Definition code (c : tcfg) (cl : call) : prog :=
  match cl with
  | CSupported => ffi_tramp_is_supported c
  | CAlloc flags => ffi_tramp_alloc c flags
  | CSet a i target data => ffi_tramp_set_parms a i target data
  | CGet a i => ffi_tramp_get_addr a i
  | CFree a i => ffi_tramp_free a i
  end.

(** What a call returns to the clients (src/tramp.c:598-681). *)
Definition result (cl : call) (v : val) : list entry :=
  match cl, v with
  | CAlloc _, PTr a i => [Entry a i None]
  | CSet a i target data, _ => [Entry a i (Some (data, target))]
  | _, _ => []
  end.

(** A thread: idle, or running a call of src/tramp.c:598-681, with the entries it took over for it. *)
Inductive tstate : Type := Idle | Run (cl : call) (own : list entry) (p : prog).

(** Everything: memory, the holder of tramp_globals_mutex (src/tramp.c:300), the threads,
    the trampolines in the hands of the clients. *)
Record sys : Type := Sys { y_st : st; y_owner : option nat; y_thr : list tstate; y_pool : list entry }.

(** Is a thread asking for the address of trampoline [(a, i)] (src/tramp.c:657-668)? *)
Definition gets (a i : Z) (x : tstate) : Prop := match x with Run (CGet a' i') _ _ => a' = a /\ i' = i | _ => False end.

(** When clients may make a call, and what they hand over for it: setting parameters and
    freeing need the trampoline for themselves (its use after ffi_tramp_free, or
    concurrently with these, would be their fault), see src/closures.c:1005-1055. *)
Definition may_call (y : sys) (cl : call) (own pool : list entry) : Prop :=
  match cl with
  | CSupported | CAlloc _ => own = [] /\ pool = y_pool y
  | CGet a i => own = [] /\ pool = y_pool y /\ exists p, In (Entry a i p) pool
  | CSet a i _ _ | CFree a i =>
    exists p l r, own = [Entry a i p] /\ y_pool y = l ++ Entry a i p :: r /\ pool = l ++ r /\
      Forall (fun x => ~ gets a i x) (y_thr y)
  end.

(** Replacement of the state of a thread (of the callers of src/tramp.c:598-681). *)
Definition set_thr (l : list tstate) (t : nat) (x : tstate) : list tstate := firstn t l ++ x :: skipn (S t) l.

(** One step of one thread: it starts a call, takes or releases the mutex
    (src/tramp.c:302-315), does any other operation, or returns. *)
Inductive ystep (c : tcfg) (y : sys) : sys -> Prop :=
| y_call t cl own pool : nth_error (y_thr y) t = Some Idle -> may_call y cl own pool ->
    ystep c y (Sys (y_st y) (y_owner y) (set_thr (y_thr y) t (Run cl own (code c cl))) pool)
| y_lock t cl own k : nth_error (y_thr y) t = Some (Run cl own (Do Lock k)) -> y_owner y = None ->
    ystep c y (Sys (y_st y) (Some t) (set_thr (y_thr y) t (Run cl own (k Null))) (y_pool y))
| y_unlock t cl own k : nth_error (y_thr y) t = Some (Run cl own (Do Unlock k)) -> y_owner y = Some t ->
    ystep c y (Sys (y_st y) None (set_thr (y_thr y) t (Run cl own (k Null))) (y_pool y))
| y_do t cl own o k v s' : nth_error (y_thr y) t = Some (Run cl own (Do o k)) -> does c (y_st y) o v s' ->
    ystep c y (Sys s' (y_owner y) (set_thr (y_thr y) t (Run cl own (k v))) (y_pool y))
| y_ret t cl own v : nth_error (y_thr y) t = Some (Run cl own (Ret v)) ->
    ystep c y (Sys (y_st y) (y_owner y) (set_thr (y_thr y) t Idle) (result cl v ++ y_pool y)).

(** Undefined behaviour of the system: a thread is about to do something undefined, or to
    release a mutex it does not hold (src/tramp.c:302-315). *)
Definition ybad (y : sys) : Prop :=
  exists t cl own o k, nth_error (y_thr y) t = Some (Run cl own (Do o k)) /\
    (bad (y_st y) o \/ o = Unlock /\ y_owner y <> Some t).

(** The start of the process: zero globals (src/tramp.c:173), nothing allocated or mapped. *)
Definition start (y : sys) : Prop :=
  s_val (y_st y) (G GStatus) = Num 0 /\ (forall id, s_tlive (y_st y) id = false) /\
  (forall arr, s_alive (y_st y) arr = None) /\ (forall x, s_perm (y_st y) x = Unmapped) /\
  y_owner y = None /\ Forall (eq Idle) (y_thr y) /\ y_pool y = [].

(** Reachable states of the process using src/tramp.c:598-681, under every schedule. *)
Inductive reach (c : tcfg) : sys -> Prop :=
| reach_start y : start y -> reach c y
| reach_step y y' : reach c y -> ystep c y y' -> reach c y'.
