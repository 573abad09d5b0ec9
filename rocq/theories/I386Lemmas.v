(** i386: samples and witnesses. *)
From Verif Require Import Base Types LayoutSpec BaseFacts NaturalTypes NaturalFacts.
From Verif Require Import X87Model X87Facts I386Model I386Spec I386RetSpec I386RawSpec I386Facts I386Call I386CallOk I386Closure I386Ret I386Raw.
Local Open Scope Z_scope.
Local Arguments Z.mul : simpl never.
Local Arguments Z.add : simpl never.
Local Arguments Z.sub : simpl never.

Fixpoint list_eqb (x y : list Z) : bool :=
  match x, y with [], [] => true | a :: r, b :: s => (a =? b) && list_eqb r s | _, _ => false end.
Lemma list_eqb_eq x : forall y, list_eqb x y = true <-> x = y.
Proof.
  induction x as [|a x IH]; intros [|b y]; cbn; split; try discriminate; auto.
  - intros H. apply Bool.andb_true_iff in H as [H1 H2]. apply Z.eqb_eq in H1. apply IH in H2. congruence.
  - intros H. injection H as -> ->. rewrite Z.eqb_refl. apply IH. reflexivity.
Qed.

(** Sample objects: bytes counting up. *)
Definition x_obj (k n : nat) : list Z := map (fun i => Z.of_nat (k + i) mod 256) (seq 0 n).
Fixpoint x_objs (k : nat) (ts : list ftype) : list (list Z) :=
  match ts with [] => [] | t :: r => x_obj k (Z.to_nat (ty_size t)) :: x_objs (k + Z.to_nat (ty_size t)) r end.
Lemma x_objects o : forall ts k, Forall (ctype32 o) ts -> objects_ok ts (x_objs k ts).
Proof.
  induction ts as [|t ts IH]; intros k C; [constructor|]. apply Forall_cons_iff in C as [C1 C2]. cbn [x_objs]. constructor; [|apply IH; auto].
  apply ctype32_basic in C1. destruct C1 as (P & _). split.
  - unfold x_obj, zlen. rewrite map_length, seq_length. lia.
  - unfold x_obj. apply Forall_forall. intros x I. apply in_map_iff in I as (i & <- & _). apply Z.mod_pos_bound. lia.
Qed.

Lemma struct32_ok o es : es <> [] -> Forall (ctype32 o) es -> ctype32 o (c_struct_of es).
Proof.
  intros NE F. assert (B : Forall basic es) by (eapply Forall_impl; [|exact F]; intros t; apply ctype32_basic).
  unfold c_struct_of. apply c32_struct with (offs := offs_at 0 es); auto.
  exists (end_at 0 es). split; [apply members_of_end; auto|]. split; [reflexivity|].
  apply round_least_multiple. pose proof (max_align_map es B) as [P _]. apply is_pow2_pos in P. lia.
Qed.

Ltac c32_tac := repeat first
  [ apply Forall_nil | apply Forall_cons
  | apply struct32_ok; [discriminate|]
  | apply c32_pointer
  | apply c32_number; cbn; tauto
  | apply (c32_complex _ ty_uint8); cbn; tauto ].

Definition s_12 : ftype := c_struct_of [ty_sint32; ty_sint32; ty_sint32].
Definition s_4 : ftype := c_struct_of [ty_sint16; ty_uint8].
Definition s_20 : ftype := c_struct_of [s_12; ty_sint32; ty_float].
Definition s_f : ftype := c_struct_of [ty_float].
Definition cx_8 : ftype := FT T_COMPLEX 2 1 [ty_uint8].

(** A signature with every kind of argument. *)
Definition x_args (o : sys) : list ftype := [ty_sint8; ty_ptr; s_12; ty_float; ty_dbl o; ty_uint16; ty_s64 o; ty_ldbl o].
Lemma x_args_ok o : Forall (ctype32 o) (x_args o).
Proof. unfold x_args, s_12. destruct o; c32_tac. Qed.
Lemma x_args_pass o : Forall passable (x_args o).
Proof. unfold x_args. destruct o; repeat (apply Forall_cons || apply Forall_nil); intros H; discriminate H. Qed.
(** Nothing aligned to more than a word. *)
Definition x_flat : list ftype := [ty_ptr; ty_sint8; ty_float; ty_uint16; ty_dbl Linux; ty_ldbl Linux; ty_sint32].
Lemma x_flat_ok : Forall (ctype32 Linux) x_flat.
Proof. unfold x_flat. c32_tac. Qed.
Lemma x_flat_pass : Forall passable x_flat.
Proof. unfold x_flat. repeat (apply Forall_cons || apply Forall_nil); intros H; discriminate H. Qed.
Lemma x_flat_flat a : Forall (flat Linux a) x_flat.
Proof. unfold x_flat. destruct a; repeat (apply Forall_cons || apply Forall_nil); (split; [left; vm_compute; discriminate|reflexivity]). Qed.
Lemma x_flat_ns : Forall no_struct x_flat.
Proof. unfold x_flat. repeat (apply Forall_cons || apply Forall_nil); intros H; discriminate H. Qed.

(** ** Arguments *)

Definition blk_of (c : cif) (rv : option Z) : list Z := repeat 0 (Z.to_nat (call_size c rv)).
Definition cif_of (o : sys) (a : abi) (rt : ftype) (ts : list ftype) : cif :=
  match prep o a rt ts with Some c => c | None => Cif a ts rt 0 R_VOID end.

(** An int passed for PASCAL. *)
Definition p_int : cif := cif_of Linux PASCAL ty_void [ty_sint32].
Lemma pascal_run : exists m b, call p_int None [[1; 2; 3; 4]] 100 200 65536 (blk_of p_int None) 300 400 = Ok (m, b) /\
  s_sp m = 65536 /\ s_read m 65536 4 = Some [0; 0; 0; 0].
Proof.
  assert (W : match call p_int None [[1; 2; 3; 4]] 100 200 65536 (blk_of p_int None) 300 400 with
    | Ok (m, b) => (s_sp m =? 65536) && match s_read m 65536 4 with Some x => list_eqb x [0; 0; 0; 0] | None => false end
    | _ => false end = true) by (vm_compute; reflexivity).
  destruct (call _ _ _ _ _ _ _ _ _) as [[m b]| |]; try discriminate W. exists m, b. split; [reflexivity|].
  apply Bool.andb_true_iff in W as [W1 W2]. apply Z.eqb_eq in W1. split; [exact W1|].
  destruct (s_read m 65536 4) as [x|]; [|discriminate W2]. apply list_eqb_eq in W2. congruence.
Qed.

Theorem call_refuted : exists o a rt ts c objs fn chain base blk ebp ra m b,
  Forall (ctype32 o) ts /\ Forall passable ts /\ (ctype32 o rt \/ ty_code rt = T_VOID) /\ objects_ok ts objs /\ total ts < 2 ^ 28 /\
  prep o a rt ts = Some c /\ (16 | base) /\ 0 <= base /\ zlen blk = call_size c None /\ block_end base blk < 2 ^ 32 /\
  call c None objs fn chain base blk ebp ra = Ok (m, b) /\ in_memory o rt = false /\
  ~ held (s_regs m) (s_sp m) (s_read m) ts (places o a rt ts) objs.
Proof.
  destruct pascal_run as (m & b & C & SP & RD).
  exists Linux, PASCAL, ty_void, [ty_sint32], p_int, [[1; 2; 3; 4]], 100, 200, 65536, (blk_of p_int None), 300, 400, m, b.
  split; [c32_tac|]. split; [apply Forall_cons; [intros H; discriminate H|apply Forall_nil]|]. split; [right; reflexivity|].
  split; [constructor; [split; [reflexivity|repeat constructor; unfold byte_ok; lia]|constructor]|]. split; [reflexivity|].
  split; [reflexivity|]. split; [exists 4096; reflexivity|]. split; [lia|]. split; [vm_compute; reflexivity|]. split; [vm_compute; reflexivity|].
  split; [exact C|]. split; [reflexivity|].
  change (places Linux PASCAL ty_void [ty_sint32]) with [Stk 0]. cbn [held at_loc]. intros ((H & _) & _). rewrite SP in H.
  change (65536 + 0) with 65536 in H. change (ty_size ty_sint32) with 4 in H. rewrite RD in H. discriminate H.
Qed.

(** A caller that follows PASCAL, and a closure. *)
Theorem closure_refuted : exists o a rt ts c objs regs sp rd vs n,
  Forall (ctype32 o) ts /\ Forall passable ts /\ (ctype32 o rt \/ ty_code rt = T_VOID) /\ objects_ok ts objs /\ total ts < 2 ^ 28 /\
  prep o a rt ts = Some c /\ (16 | sp) /\ 0 <= sp /\ in_memory o rt = false /\
  held regs sp rd ts (places o a rt ts) objs /\ closure_args c regs sp rd = Ok (vs, n, RTemp) /\ ~ seen regs rd ts vs objs.
Proof.
  exists Linux, PASCAL, ty_void, [ty_sint32], p_int, [[1; 2; 3; 4]], (fun _ => 0), 65536,
    (fun p n => get_range ([1; 2; 3; 4] ++ repeat 0 28) (p - 65536) n), [AMem 65548], 0.
  split; [c32_tac|]. split; [apply Forall_cons; [intros H; discriminate H|apply Forall_nil]|]. split; [right; reflexivity|].
  split; [constructor; [split; [reflexivity|repeat constructor; unfold byte_ok; lia]|constructor]|]. split; [reflexivity|].
  split; [reflexivity|]. split; [exists 4096; reflexivity|]. split; [lia|]. split; [reflexivity|].
  split. { change (places Linux PASCAL ty_void [ty_sint32]) with [Stk 0]. cbn [held at_loc]. repeat split; vm_compute; reflexivity. }
  split; [vm_compute; reflexivity|]. cbn [seen seen1]. intros (H & _). vm_compute in H. discriminate H.
Qed.

(** The REGISTER entry. *)
Theorem register_refuted : exists o rt ts c objs fn chain base blk ebp ra m b,
  Forall (ctype32 o) ts /\ Forall passable ts /\ (ctype32 o rt \/ ty_code rt = T_VOID) /\ objects_ok ts objs /\ total ts < 2 ^ 28 /\
  prep o REGISTER rt ts = Some c /\ (16 | base) /\ 0 <= base /\ zlen blk = call_size c None /\ block_end base blk < 2 ^ 32 /\
  call c None objs fn chain base blk ebp ra = Ok (m, b) /\ in_memory o rt = false /\
  forall clo rad, clo <> rad -> forall clo' rad' regs, entry REGISTER clo rad (s_regs m) = (clo', rad', regs) -> clo' <> clo /\ rad' <> rad.
Proof.
  assert (W : match call (cif_of Linux REGISTER ty_void [ty_sint32]) None [[1; 2; 3; 4]] 100 200 65536 (blk_of (cif_of Linux REGISTER ty_void [ty_sint32]) None) 300 400 with
    | Ok _ => true | _ => false end = true) by (vm_compute; reflexivity).
  destruct (call _ _ _ _ _ _ _ _ _) as [[m b]| |] eqn:E; try discriminate W.
  exists Linux, ty_void, [ty_sint32], (cif_of Linux REGISTER ty_void [ty_sint32]), [[1; 2; 3; 4]], 100, 200, 65536, (blk_of (cif_of Linux REGISTER ty_void [ty_sint32]) None), 300, 400, m, b.
  split; [c32_tac|]. split; [apply Forall_cons; [intros H; discriminate H|apply Forall_nil]|]. split; [right; reflexivity|].
  split; [constructor; [split; [reflexivity|repeat constructor; unfold byte_ok; lia]|constructor]|]. split; [reflexivity|].
  split; [reflexivity|]. split; [exists 4096; reflexivity|]. split; [lia|]. split; [vm_compute; reflexivity|]. split; [vm_compute; reflexivity|].
  split; [exact E|]. split; [reflexivity|]. intros clo rad N clo' rad' regs H. cbn in H. injection H as <- <- _. auto.
Qed.

(** PASCAL with a result in memory: pointer and first argument share a word, which ffi_call_i386
    then overwrites. *)
Definition p_str : cif := cif_of Linux PASCAL s_12 [ty_sint32].
Theorem struct_result_refuted : exists o rt ts c rv objs fn chain base blk ebp ra m b vs n q,
  Forall (ctype32 o) ts /\ Forall passable ts /\ (ctype32 o rt \/ ty_code rt = T_VOID) /\ objects_ok ts objs /\ total ts < 2 ^ 28 /\
  prep o PASCAL rt ts = Some c /\ (16 | base) /\ 0 <= base /\ zlen blk = call_size c (Some rv) /\ block_end base blk < 2 ^ 32 /\
  0 <= rv < 2 ^ 32 /\
  call c (Some rv) objs fn chain base blk ebp ra = Ok (m, b) /\ in_memory o rt = true /\
  closure_args c (s_regs m) (s_sp m) (s_read m) = Ok (vs, n, q) /\ q <> RCaller rv /\ ~ seen (s_regs m) (s_read m) ts vs objs.
Proof.
  assert (W : match call p_str (Some 7777) [[1; 2; 3; 4]] 100 200 65536 (blk_of p_str (Some 7777)) 300 400 with
    | Ok (m, b) => match closure_args p_str (s_regs m) (s_sp m) (s_read m) with
        | Ok ([AMem p], _, RCaller x) => (x =? 300) && match s_read m p 4 with Some x => list_eqb x (le_enc 4 300) | None => false end
        | _ => false end
    | _ => false end = true) by (vm_compute; reflexivity).
  destruct (call _ _ _ _ _ _ _ _ _) as [[m b]| |] eqn:E; try discriminate W.
  destruct (closure_args _ _ _ _) as [[[vs n] q]| |] eqn:CA; try discriminate W.
  destruct vs as [|[|p] [|]]; try discriminate W. destruct q as [|x]; try discriminate W.
  apply Bool.andb_true_iff in W as [W1 W2]. apply Z.eqb_eq in W1. subst x.
  exists Linux, s_12, [ty_sint32], p_str, 7777, [[1; 2; 3; 4]], 100, 200, 65536, (blk_of p_str (Some 7777)), 300, 400, m, b, [AMem p], n, (RCaller 300).
  split; [c32_tac|]. split; [apply Forall_cons; [intros H; discriminate H|apply Forall_nil]|]. split; [left; unfold s_12; c32_tac|].
  split; [constructor; [split; [reflexivity|repeat constructor; unfold byte_ok; lia]|constructor]|]. split; [reflexivity|].
  split; [vm_compute; reflexivity|]. split; [exists 4096; reflexivity|]. split; [lia|]. split; [vm_compute; reflexivity|]. split; [vm_compute; reflexivity|].
  split; [lia|]. split; [exact E|]. split; [reflexivity|]. split; [exact CA|]. split; [discriminate|].
  cbn [seen seen1]. change (ty_size ty_sint32) with 4. intros (H & _). rewrite H in W2. vm_compute in W2. discriminate W2.
Qed.

(** Complex numbers of one word. *)
Theorem complex_refuted : exists o a rt ts c objs fn chain base blk ebp ra,
  Forall (ctype32 o) ts /\ (ctype32 o rt \/ ty_code rt = T_VOID) /\ objects_ok ts objs /\ total ts < 2 ^ 28 /\
  prep o a rt ts = Some c /\ (16 | base) /\ 0 <= base /\ zlen blk = call_size c None /\ block_end base blk < 2 ^ 32 /\
  last_lowest a = false /\ call c None objs fn chain base blk ebp ra = Abort.
Proof.
  exists Linux, SYSV, ty_void, [cx_8], (cif_of Linux SYSV ty_void [cx_8]), [[1; 2]], 100, 200, 65536, (blk_of (cif_of Linux SYSV ty_void [cx_8]) None), 300, 400.
  split; [constructor; [apply (c32_complex Linux ty_uint8); cbn; tauto|constructor]|]. split; [right; reflexivity|].
  split; [constructor; [split; [reflexivity|repeat constructor; unfold byte_ok; lia]|constructor]|]. split; [reflexivity|].
  split; [reflexivity|]. split; [exists 4096; reflexivity|]. split; [lia|]. split; [vm_compute; reflexivity|]. split; [vm_compute; reflexivity|].
  split; [reflexivity|]. vm_compute. reflexivity.
Qed.

(** ** Popping *)

Definition pops_wrong (plain : bool) (o : sys) (a : abi) (ts : list ftype) : Prop :=
  exists c regs sp rd vs n p tmp edx af,
    Forall (ctype32 o) ts /\ Forall passable ts /\ total ts < 2 ^ 27 /\ prep o a ty_void ts = Some c /\
    closure_args c regs sp rd = Ok (vs, n, p) /\ closure_ret plain c n tmp edx = Ok af /\ r_pop af <> pops o a ty_void ts.

Ltac pops_tac :=
  eexists _, (fun _ => 0), 65536, (fun _ _ => None), _, _, _, (repeat 0 16), 0, _;
  split; [c32_tac|]; split; [repeat (apply Forall_cons || apply Forall_nil); intros H; discriminate H|]; split; [reflexivity|];
  split; [reflexivity|]; split; [vm_compute; reflexivity|]; split; [vm_compute; reflexivity|]; vm_compute; discriminate.

Theorem pops_refuted :
  pops_wrong (plain_entry FASTCALL) Linux FASTCALL [ty_s64 Linux] /\ pops_wrong (plain_entry FASTCALL) Linux FASTCALL [s_4] /\
  pops_wrong (plain_entry PASCAL) Linux PASCAL [ty_sint32] /\
  pops_wrong (plain_entry REGISTER) Linux REGISTER [ty_sint32; ty_sint32; ty_sint32; ty_sint32] /\
  pops_wrong (plain_entry THISCALL) Win32 THISCALL [ty_ptr; ty_dbl Win32] /\
  pops_wrong (plain_entry STDCALL) Darwin STDCALL [ty_sint32; ty_ldbl Darwin].
Proof.
  split; [pops_tac|]. split; [unfold s_4; pops_tac|]. split; [pops_tac|]. split; [pops_tac|]. split; pops_tac.
Qed.
(** The closure for the 4-byte struct. *)
Theorem pops_huge : exists c vs n, prep Linux FASTCALL ty_void [s_4] = Some c /\
  closure_args c (fun _ => 0) 65536 (fun _ _ => None) = Ok (vs, n, RTemp) /\ pop_count c n = 2 ^ 28 - 4 /\ pops Linux FASTCALL ty_void [s_4] = 4.
Proof. eexists _, _, _. split; [reflexivity|]. split; [vm_compute; reflexivity|]. split; vm_compute; reflexivity. Qed.

Theorem go_refuted : exists pl, go_plain THISCALL = Some pl /\ pops_wrong pl Linux THISCALL [ty_ptr; ty_sint32] /\
  pops_wrong pl Linux FASTCALL [ty_ptr; ty_ptr; ty_sint32] /\ go_plain FASTCALL = Some pl.
Proof. exists true. split; [reflexivity|]. split; [pops_tac|]. split; [pops_tac|reflexivity]. Qed.

(** ** Results *)

Definition nan4 : list Z := [1; 0; 128; 127].
Theorem call_result_refuted : exists o a rt ts c d eax edx st0 buf b,
  ctype32 o rt /\ in_memory o rt = false /\ prep o a rt ts = Some c /\ zlen d = ty_size rt /\ bytes_ok d /\
  returned o rt d eax edx st0 /\ result_size rt <= zlen buf /\ call_ret (k_flags c) eax edx st0 buf = Ok b /\ ~ result_in rt d b.
Proof.
  exists Darwin, SYSV, s_f, [], (cif_of Darwin SYSV s_f []), [0; 0; 128; 63], 0, 0, (fld 4 [0; 0; 128; 63]), [0; 0; 0; 0], [0; 0; 0; 0].
  split; [unfold s_f; c32_tac|]. split; [reflexivity|]. split; [vm_compute; reflexivity|]. split; [reflexivity|].
  split; [repeat constructor; unfold byte_ok; lia|]. split; [vm_compute; reflexivity|]. split; [vm_compute; discriminate|].
  split; [vm_compute; reflexivity|]. intros [H _]. vm_compute in H. discriminate H.
Qed.

Theorem closure_result_refuted : exists o a rt ts c d tmp edx af,
  ctype32 o rt /\ in_memory o rt = false /\ prep o a rt ts = Some c /\ zlen d = ty_size rt /\ bytes_ok d /\
  zlen tmp = 16 /\ bytes_ok tmp /\ get_range tmp 0 (zlen (meaning rt d)) = Some (meaning rt d) /\
  (forall n, in_x87 o rt = Some n -> signalling n (meaning rt d) = false) /\
  closure_ret (plain_entry a) c 0 tmp edx = Ok af /\ ~ handed o rt d af.
Proof.
  exists Darwin, SYSV, s_f, [], (cif_of Darwin SYSV s_f []), [0; 0; 128; 63], ([0; 0; 128; 63] ++ repeat 0 12), 0, (After 1065353216 0 None 0).
  split; [unfold s_f; c32_tac|]. split; [reflexivity|]. split; [vm_compute; reflexivity|]. split; [reflexivity|].
  split; [repeat constructor; unfold byte_ok; lia|]. split; [reflexivity|]. split; [cbn; repeat constructor; unfold byte_ok; lia|]. split; [reflexivity|].
  split. { intros n H. vm_compute in H. injection H as <-. vm_compute. reflexivity. }
  split; [vm_compute; reflexivity|]. intros (_ & (_ & H) & _). cbn [r_st] in H. specialize (H eq_refl). vm_compute in H. discriminate H.
Qed.

(** A signalling NaN. *)
Theorem snan_refuted : exists o a rt ts c d tmp edx af,
  ctype32 o rt /\ in_memory o rt = false /\ x87_struct o rt /\ prep o a rt ts = Some c /\ zlen d = ty_size rt /\ bytes_ok d /\
  zlen tmp = 16 /\ bytes_ok tmp /\ get_range tmp 0 (zlen (meaning rt d)) = Some (meaning rt d) /\
  closure_ret (plain_entry a) c 0 tmp edx = Ok af /\ ~ handed o rt d af.
Proof.
  exists Linux, SYSV, ty_float, [], (cif_of Linux SYSV ty_float []), nan4, (nan4 ++ repeat 0 12), 0.
  eexists. split; [c32_tac|]. split; [reflexivity|]. split; [intros H; discriminate H|]. split; [reflexivity|]. split; [reflexivity|].
  split; [repeat constructor; unfold byte_ok; lia|]. split; [reflexivity|]. split; [cbn; repeat constructor; unfold byte_ok; lia|]. split; [reflexivity|].
  split; [vm_compute; reflexivity|]. intros (H & _). specialize (H (fld 4 nan4)). vm_compute in H. discriminate H.
Qed.

(** ** Raw calls *)

Definition r_int : cif := cif_of Linux SYSV ty_void [ty_sint32].
Definition raw_blk (c : cif) : list Z := repeat 0 (Z.to_nat (raw_size c None)).

Theorem raw_bit_refuted : exists o a rt ts c raw objs fn low blk ebp ra,
  stack_abi a /\ Forall (ctype32 o) ts /\ Forall no_struct ts /\ (ctype32 o rt \/ ty_code rt = T_VOID) /\ total ts < 2 ^ 28 /\
  prep o a rt ts = Some c /\ (16 | low) /\ 0 <= low /\ zlen blk = raw_size c None /\ low + zlen blk < 2 ^ 32 /\
  raw_has (get_range raw) 0 ts objs /\ raw_need o c rt <= zlen raw /\ raw_call c None raw fn low blk ebp ra = UB.
Proof.
  exists Linux, SYSV, ty_void, [ty_sint32], r_int, ([1; 2; 3; 4] ++ repeat 0 12), [[1; 2; 3; 4]], 100, 65552, (raw_blk r_int), 300, 400.
  split; [left; reflexivity|]. split; [c32_tac|]. split; [apply Forall_cons; [intros H; discriminate H|apply Forall_nil]|]. split; [right; reflexivity|].
  split; [reflexivity|]. split; [reflexivity|]. split; [exists 4097; reflexivity|]. split; [lia|]. split; [vm_compute; reflexivity|]. split; [vm_compute; reflexivity|].
  split; [cbn [raw_has]; repeat split; vm_compute; reflexivity|]. split; [vm_compute; discriminate|]. vm_compute. reflexivity.
Qed.

Theorem raw_read_refuted : exists o a rt ts c raw objs fn low blk ebp ra,
  stack_abi a /\ Forall (ctype32 o) ts /\ Forall no_struct ts /\ (ctype32 o rt \/ ty_code rt = T_VOID) /\ total ts < 2 ^ 28 /\
  prep o a rt ts = Some c /\ Z.testbit low 4 = false /\ 0 <= low /\ zlen blk = raw_size c None /\ low + zlen blk < 2 ^ 32 /\
  raw_has (get_range raw) 0 ts objs /\ zlen raw = raw_bytes ts /\ raw_call c None raw fn low blk ebp ra = UB.
Proof.
  exists Linux, SYSV, ty_void, [ty_sint32], r_int, [1; 2; 3; 4], [[1; 2; 3; 4]], 100, 65536, (raw_blk r_int), 300, 400.
  split; [left; reflexivity|]. split; [c32_tac|]. split; [apply Forall_cons; [intros H; discriminate H|apply Forall_nil]|]. split; [right; reflexivity|].
  split; [reflexivity|]. split; [reflexivity|]. split; [reflexivity|]. split; [lia|]. split; [vm_compute; reflexivity|]. split; [vm_compute; reflexivity|].
  split; [cbn [raw_has]; repeat split; vm_compute; reflexivity|]. split; [reflexivity|]. vm_compute. reflexivity.
Qed.

Definition r_this : cif := cif_of Linux THISCALL ty_void [ty_ptr; ty_sint32].
Definition this_raw : list Z := [1; 0; 0; 0; 2; 0; 0; 0] ++ repeat 7 24.
Theorem raw_this_refuted : exists o rt ts c raw objs fn low blk ebp ra m b,
  Forall (ctype32 o) ts /\ Forall no_struct ts /\ (ctype32 o rt \/ ty_code rt = T_VOID) /\ total ts < 2 ^ 28 /\
  prep o THISCALL rt ts = Some c /\ Z.testbit low 4 = false /\ 0 <= low /\ zlen blk = raw_size c None /\ low + zlen blk < 2 ^ 32 /\
  raw_has (get_range raw) 0 ts objs /\ raw_need o c rt <= zlen raw /\ raw_call c None raw fn low blk ebp ra = Ok (m, b) /\ in_memory o rt = false /\
  ~ held (s_regs m) (s_sp m) (s_read m) ts (places o THISCALL rt ts) objs.
Proof.
  assert (W : match raw_call r_this None this_raw 100 65536 (raw_blk r_this) 300 400 with
    | Ok (m, b) => (s_sp m =? 65536) && match s_read m 65536 4 with Some x => list_eqb x [7; 7; 7; 7] | None => false end
    | _ => false end = true) by (vm_compute; reflexivity).
  destruct (raw_call _ _ _ _ _ _ _ _) as [[m b]| |] eqn:E; try discriminate W.
  apply Bool.andb_true_iff in W as [W1 W2]. apply Z.eqb_eq in W1.
  exists Linux, ty_void, [ty_ptr; ty_sint32], r_this, this_raw, [[1; 0; 0; 0]; [2; 0; 0; 0]], 100, 65536, (raw_blk r_this), 300, 400, m, b.
  split; [c32_tac|]. split; [repeat (apply Forall_cons || apply Forall_nil); intros H; discriminate H|]. split; [right; reflexivity|].
  split; [reflexivity|]. split; [reflexivity|]. split; [reflexivity|]. split; [lia|]. split; [vm_compute; reflexivity|]. split; [vm_compute; reflexivity|].
  split; [cbn [raw_has]; repeat split; vm_compute; reflexivity|]. split; [vm_compute; discriminate|]. split; [exact E|]. split; [reflexivity|].
  change (places Linux THISCALL ty_void [ty_ptr; ty_sint32]) with [Reg 2; Stk 0]. cbn [held at_loc]. intros (_ & (H & _) & _).
  rewrite W1 in H. change (65536 + 0) with 65536 in H. change (ty_size ty_sint32) with 4 in H. rewrite H in W2. discriminate W2.
Qed.

(** Raw memory for a signature. *)
Definition x_raw : list Z := le_enc 4 4096 ++ [254; 255; 255; 255] ++ [0; 0; 128; 63] ++ [1; 2; 3; 4; 5; 6; 7; 8] ++ repeat 0 16.

(** ** Raw closures *)

Definition q_mem : list Z := le_enc 4 9999 ++ [1; 2; 3; 4].
Theorem raw_closure_refuted : exists o rt ts c objs hp regs sp rd,
  Forall (ctype32 o) ts /\ Forall no_struct ts /\ ctype32 o rt /\ prep o SYSV rt ts = Some c /\ raw_closure_ok c = true /\
  held regs sp rd (hidden o rt ++ ts) (places o SYSV rt ts) (hidden_obj o rt hp ++ objs) /\
  ~ raw_has (raw_view SYSV regs sp rd) 0 ts objs /\ raw_res_size < ty_size rt.
Proof.
  exists Linux, s_20, [ty_sint32], (cif_of Linux SYSV s_20 [ty_sint32]), [[1; 2; 3; 4]], 9999, (fun _ => 0), 65536, (fun p n => get_range q_mem (p - 65536) n).
  split; [c32_tac|]. split; [apply Forall_cons; [intros H; discriminate H|apply Forall_nil]|]. split; [unfold s_20, s_12; c32_tac|].
  split; [vm_compute; reflexivity|]. split; [vm_compute; reflexivity|].
  split. { change (places Linux SYSV s_20 [ty_sint32]) with [Stk 0; Stk 4]. change (hidden Linux s_20 ++ [ty_sint32]) with [ty_ptr; ty_sint32].
    change (hidden_obj Linux s_20 9999 ++ [[1; 2; 3; 4]]) with [le_enc 4 9999; [1; 2; 3; 4]]. cbn [held at_loc]. repeat split; vm_compute; reflexivity. }
  split; [|vm_compute; reflexivity]. cbn [raw_has]. intros (H & _). vm_compute in H. discriminate H.
Qed.

Theorem raw_closure_pop_refuted : exists o ts c res edx af,
  Forall (ctype32 o) ts /\ Forall no_struct ts /\ prep o THISCALL ty_void ts = Some c /\ raw_closure_ok c = true /\ zlen res = raw_res_size /\
  raw_closure_ret c res edx = Ok af /\ r_pop af <> pops o THISCALL ty_void ts.
Proof.
  exists Linux, [ty_ptr; ty_sint32], r_this, (repeat 0 16), 0. eexists.
  split; [c32_tac|]. split; [repeat (apply Forall_cons || apply Forall_nil); intros H; discriminate H|]. split; [reflexivity|]. split; [reflexivity|].
  split; [reflexivity|]. split; [vm_compute; reflexivity|]. vm_compute. discriminate.
Qed.

Lemma raw_closure_pops o rt ts c res edx af : (ctype32 o rt \/ ty_code rt = T_VOID) -> prep o SYSV rt ts = Some c ->
  raw_closure_ret c res edx = Ok af -> r_pop af = pops o SYSV rt ts.
Proof.
  intros RT PR CR. unfold raw_closure_ret in CR. apply load_pop in CR. rewrite CR. unfold prep in PR.
  destruct (ret_flags o SYSV rt) as [g|] eqn:RF; [|discriminate]. injection PR as <-. cbn [k_flags].
  destruct (flags_memory o SYSV rt g RT RF) as [P1 P2]. cbn [pops]. unfold plain_pop. rewrite <- P1.
  destruct g; try reflexivity. cbn in P2. discriminate (P2 eq_refl).
Qed.

(** A handler's result through a closure and ffi_call. *)
Theorem result_trip o a rt ts c d tmp edx narg pl st buf :
  ctype32 o rt -> in_memory o rt = false -> x87_struct o rt -> prep o a rt ts = Some c -> zlen d = ty_size rt -> bytes_ok d ->
  16 <= zlen tmp -> bytes_ok tmp -> get_range tmp 0 (zlen (meaning rt d)) = Some (meaning rt d) ->
  (forall n, in_x87 o rt = Some n -> signalling n (meaning rt d) = false) -> result_size rt <= zlen buf ->
  exists af b, closure_ret pl c narg tmp edx = Ok af /\
    call_ret (k_flags c) (r_eax af) (r_edx af) (match r_st af with Some y => y | None => st end) buf = Ok b /\
    result_in rt d b /\ forall q n, result_size rt <= q -> get_range b q n = get_range buf q n.
Proof.
  intros C MEM XS PR ZD BD ZT BT GT SN ZB.
  destruct (closure_result o a rt c ts d tmp edx narg pl C MEM XS PR ZD BD ZT BT GT SN) as (af & E & HA & HX & _).
  destruct (call_result o a rt c ts d (r_eax af) (r_edx af) (match r_st af with Some y => y | None => st end) buf C MEM XS PR ZD (HA _) ZB) as (b & CR & _ & RI & FR).
  exists af, b. auto.
Qed.

(** Go closures: ffi_call_go leaves the closure where the entry code looks for it. *)
Theorem go_chain o a rt ts c rv objs fn chain base blk ebp ra pl :
  go_plain a = Some pl -> (last_lowest a = true -> in_memory o rt = false) ->
  Forall (ctype32 o) ts -> Forall passable ts -> (ctype32 o rt \/ ty_code rt = T_VOID) ->
  objects_ok ts objs -> total ts < 2 ^ 28 -> prep o a rt ts = Some c ->
  (16 | base) -> 0 <= base -> zlen blk = call_size c rv -> block_end base blk < 2 ^ 32 ->
  exists m b, call c rv objs fn chain base blk ebp ra = Ok (m, b) /\ s_regs m (go_reg a) = chain mod 2 ^ 32.
Proof.
  intros GP LM CT PS RT OK TB PR AL BP ZB EB. assert (GR : go_reg a = chain_reg a) by (destruct a; reflexivity). rewrite GR.
  destruct (last_lowest a) eqn:LL.
  - destruct (call_down o a rt ts c rv objs fn chain base blk ebp ra LL (LM eq_refl) CT PS RT OK TB PR BP ZB EB) as (m & b & gap & CL & _ & _ & _ & _ & _ & _ & CH).
    exists m, b. split; [exact CL|]. apply CH. destruct a; try discriminate LL; try discriminate GP. cbn. auto.
  - destruct (call_up o a rt ts c rv objs fn chain base blk ebp ra LL CT PS RT OK TB PR AL BP ZB EB) as (m & b & hp & CL & _ & _ & _ & _ & _ & CH).
    exists m, b. auto.
Qed.
