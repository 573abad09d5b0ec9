(** Sample states for the statements about or1k, and runs where calls go wrong. *)
From Coq Require Import ZifyBool ZifyNat.
From Verif Require Import Base BaseFacts Types ByteMem S390Model S390Facts Or1kModel Or1kSpec Or1kFacts Or1kCall Or1kAsmModel Or1kAsmRun Or1kClo Or1kTop.
Local Open Scope Z_scope.
Local Arguments Z.mul : simpl never.
Local Arguments Z.add : simpl never.
Local Arguments Z.sub : simpl never.
Local Arguments Z.pow : simpl never.
Local Arguments Z.of_nat : simpl never.

(** ** Checks by computation *)

Definition same (a b : list Z) : bool := if list_eq_dec Z.eq_dec a b then true else false.
Lemma same_iff a b : same a b = true <-> a = b.
Proof. unfold same. destruct (list_eq_dec Z.eq_dec a b); split; congruence. Qed.
Definition byte_b (b : Z) : bool := (0 <=? b) && (b <? 256).
Lemma bytes_b d : forallb byte_b d = true -> bytes_ok d.
Proof. rewrite forallb_forall. intros H. apply Forall_forall. intros x I. specialize (H x I). unfold byte_b in H. unfold byte_ok. lia. Qed.
Definition value_b (t : ftype) (v : list Z) : bool := (zlen v =? ty_size t) && forallb byte_b v.
Lemma value_ok t v : value_b t v = true -> is_value t v.
Proof. intros H. apply andb_prop in H as [H1 H2]. split; [lia|apply bytes_b, H2]. Qed.
Definition otype_b (t : ftype) : bool :=
  match ty_code t with
  | T_UINT8 | T_SINT8 => ty_size t =? 1
  | T_UINT16 | T_SINT16 => ty_size t =? 2
  | T_UINT32 | T_SINT32 | T_FLOAT | T_POINTER => ty_size t =? 4
  | T_UINT64 | T_SINT64 | T_DOUBLE => ty_size t =? 8
  | T_STRUCT => (0 <? ty_size t) && (ty_size t <? 2 ^ 32)
  | _ => false
  end.
Lemma otype_ok t : otype_b t = true -> otype t.
Proof. unfold otype_b, otype. destruct (ty_code t); lia || discriminate. Qed.
Fixpoint objects_b (M : Z -> Z) (lo hi : Z) (ts : list ftype) (args : list Z) (vs : list (list Z)) : bool :=
  match ts, args, vs with
  | [], [], [] => true
  | t :: ts', a :: as', v :: vs' =>
    otype_b t && value_b t v && same (bytes_at M a (ty_size t)) v && (0 <=? a) && (a <? 2 ^ 32) && ((a + ty_size t <=? lo) || (hi <=? a)) &&
    objects_b M lo hi ts' as' vs'
  | _, _, _ => false
  end.
Lemma objects_ok M lo hi ts : forall args vs, objects_b M lo hi ts args vs = true -> objects M lo hi ts args vs.
Proof.
  induction ts as [|t ts IH]; intros [|a args] [|v vs] H; cbn [objects_b objects] in *; try discriminate H; [exact Logic.I|].
  do 6 (apply andb_prop in H as [H ?]).
  split; [apply otype_ok; assumption|]. split; [apply value_ok; assumption|]. split; [apply same_iff; assumption|]. split; [lia|]. split; [lia|apply IH; assumption].
Qed.
Fixpoint clear_b (p n : Z) (ts : list ftype) (cps : list Z) : bool :=
  match ts, cps with
  | t :: ts', q :: cps' => (negb (aggregate t) || (p + n <=? q) || (q + ty_size t <=? p)) && clear_b p n ts' cps'
  | _, _ => true
  end.
Lemma clear_ok p n ts : forall cps, clear_b p n ts cps = true -> clear_of p n ts cps.
Proof.
  induction ts as [|t ts IH]; intros [|q cps] H; cbn [clear_b clear_of] in *; auto. apply andb_prop in H as [H1 H2]. split; [|apply IH, H2]. intros Ag. rewrite Ag in H1. cbn [negb orb] in H1. lia.
Qed.
Fixpoint copies_b (lo hi : Z) (ts : list ftype) (cps : list Z) : bool :=
  match ts, cps with
  | [], [] => true
  | t :: ts', q :: cps' => (negb (aggregate t) || (lo <=? q) && (q + ty_size t <=? hi) && clear_b q (ty_size t) ts' cps') && copies_b lo hi ts' cps'
  | _, _ => false
  end.
Lemma copies_b_ok lo hi ts : forall cps, copies_b lo hi ts cps = true -> copies_ok lo hi ts cps.
Proof.
  induction ts as [|t ts IH]; intros [|q cps] H; cbn [copies_b copies_ok] in *; auto; try discriminate. apply andb_prop in H as [H1 H2]. split; [|apply IH, H2].
  intros Ag. rewrite Ag in H1. cbn [negb orb] in H1. apply andb_prop in H1 as [H1 H3]. split; [lia|]. split; [lia|apply clear_ok, H3].
Qed.
Definition setup_b (rt : ftype) (ts : list ftype) (fixed rv : Z) (args : list Z) (vs : list (list Z)) (cps : list Z) (m : Z -> Z) (bot sp top : Z) : bool :=
  (otype_b rt || match ty_code rt with T_VOID => ty_size rt =? 1 | _ => false end) && ((0 <=? fixed) && (fixed <=? zlen ts) && (0 <=? rv) && (rv <? 2 ^ 32)) &&
  objects_b m bot top ts args vs && copies_b sp top ts cps &&
  ((0 <=? bot) && (bot + 24 + call_size (machdep_var rt fixed ts) <=? sp) && (sp <=? top) && (sp <? 2 ^ 32) && (top <=? 2 ^ 32)).
Lemma setup_ok rt ts fixed rv args vs cps m bot sp top : bytes_in m -> setup_b rt ts fixed rv args vs cps m bot sp top = true -> setup rt ts fixed rv args vs cps m bot sp top.
Proof.
  intros B H. unfold setup_b in H. do 4 (apply andb_prop in H as [H ?]). unfold setup.
  split; [apply orb_prop in H as [H|H]; [right; apply otype_ok, H|left; destruct (ty_code rt); try discriminate H; split; [reflexivity|lia]]|].
  split; [lia|]. split; [lia|]. split; [apply objects_ok; assumption|]. split; [apply copies_b_ok; assumption|]. split; [exact B|]. lia.
Qed.

(** Memory holding some pieces, registers with some values, zero elsewhere. *)
Fixpoint put (l : list (Z * list Z)) : Z -> Z := match l with [] => fun _ => 0 | (a, d) :: r => wr (put r) a d end.
Fixpoint rg (l : list (Z * Z)) : Z -> Z := match l with [] => fun _ => 0 | (r, v) :: t => upd (rg t) r v end.
Lemma put_ok l : forallb (fun q => forallb byte_b (snd q)) l = true -> bytes_in (put l).
Proof.
  induction l as [|[a d] l IH]; cbn [forallb put snd]; intros H; [intros x; lia|]. apply andb_prop in H as [H1 H2].
  apply wr_bytes; [apply IH, H2|apply bytes_b, H1].
Qed.
Lemma rg_ok l : forallb (fun q => (0 <=? snd q) && (snd q <? 2 ^ 32)) l = true -> words_in (rg l).
Proof.
  induction l as [|[a d] l IH]; cbn [forallb rg snd]; intros H; [intros x; lia|]. apply andb_prop in H as [H1 H2].
  intros r. unfold upd. destruct (r =? a); [lia|apply IH, H2].
Qed.

(** ** Runs by computation *)

Lemma steps_bytes org n : forall s s', steps org n s = Some s' -> bytes_in (sm s) -> bytes_in (sm s').
Proof.
  induction n as [|n IH]; intros s s' H B; cbn [steps] in H; [injection H as <-; exact B|]. destruct (step org s) as [s1|] eqn:E; [|discriminate]. apply (IH s1 s' H).
  unfold step in E. destruct (_ && _) eqn:Q in E; try discriminate E; clear Q.
  all: try (destruct (nth_error text _) as [i|]; [|discriminate]).
  all: unfold exec in E; destruct i; try (injection E as <-; exact B); destruct (fits _); try discriminate; injection E as <-; try exact B; cbn [sm]; apply wr_bytes; [exact B|apply be_enc_ok].
Qed.
Definition run (org : Z) (n : nat) (s : st) : st := match steps org n s with Some s' => s' | None => s end.
Definition goes (org : Z) (n : nat) (s : st) (p : Z) : bool := match steps org n s with Some s' => (spc s' =? p) && (snpc s' =? p + 4) | None => false end.
Lemma goes_ok org n s p : goes org n s p = true -> bytes_in (sm s) -> let s' := run org n s in reach org s (St (sx s') p (p + 4) (sfl s') (sm s')) /\ bytes_in (sm s').
Proof.
  unfold goes, run. intros H B. destruct (steps org n s) as [s'|] eqn:E; [|discriminate]. apply andb_prop in H as [H1 H2]. cbv zeta. split; [|eapply steps_bytes; eassumption].
  exists n. rewrite E. destruct s' as [x pc npc f mm]. cbn in *. f_equal. f_equal; lia.
Qed.

Lemma copy_bytes ts : forall args cps m, bytes_in m -> bytes_in (fst (copy_structs ts args cps m)).
Proof.
  induction ts as [|t ts IH]; intros [|a args] [|q cps] m B; cbn [copy_structs fst]; auto.
  specialize (IH args cps (if is_struct t then wr m q (rd m a (Z.to_nat (ty_size t))) else m)). destruct (copy_structs ts args cps _) as [m2 l]. cbn [fst] in *. apply IH.
  destruct (is_struct t); [apply wr_bytes; [exact B|apply rd_ok, B]|exact B].
Qed.

Section Runs.
Variables (rt : ftype) (ts : list ftype) (fixed rv : Z) (args : list Z) (vs : list (list Z)) (cps : list Z) (m : Z -> Z) (bot sp top r11 r12 : Z).
Let c := machdep_var rt fixed ts.
Let org := 65536.
Let prep := 70000.
Let fn := 80000.
Let cp := copy_structs ts args cps m.
Definition r_X : Z -> Z := rg [(1, sp); (3, call_size c); (5, prep); (6, rv); (7, fn); (8, oc_flags c); (9, 90000); (2, 222); (14, 1414); (16, 1616); (18, 1818); (20, 2020)].
Definition r_s1 : st := run org 15 (St r_X org (org + 4) false (fst cp)).
Definition r_M2 : Z -> Z := fst (prep_args c rv (snd cp) (sx r_s1 3) (sm r_s1)).
Definition r_X2 : Z -> Z := upd (sx r_s1) 11 (snd (prep_args c rv (snd cp) (sx r_s1 3) (sm r_s1))).
Definition r_s3 : st := run org 9 (St r_X2 (sx r_s1 9) (sx r_s1 9 + 4) false r_M2).
(** The function sets %r11 and %r12 and returns. *)
Definition r_X4 : Z -> Z := upd (upd (sx r_s3) 11 r11) 12 r12.
Variable n : nat.
Definition r_s5 : st := run org n (St r_X4 (sx r_s3 9) (sx r_s3 9 + 4) false (sm r_s3)).
Definition run_b : bool :=
  goes org 15 (St r_X org (org + 4) false (fst cp)) prep && goes org 9 (St r_X2 (sx r_s1 9) (sx r_s1 9 + 4) false r_M2) fn &&
  goes org n (St r_X4 (sx r_s3 9) (sx r_s3 9 + 4) false (sm r_s3)) 90000 &&
  ((0 <=? rv) && (rv <? 2 ^ 32) && (0 <=? sp) && (sp <? 2 ^ 32) && (0 <=? call_size c) && (call_size c <? 2 ^ 32) && (0 <=? oc_flags c) && (oc_flags c <? 2 ^ 32)) &&
  objects_b (sm r_s1) (sx r_s1 3) sp ts (snd cp) vs && (sx r_s1 3 + extent (hidden rt) 0 fixed ts <=? sp) && (0 <=? fixed).
Lemma run_of : bytes_in m -> run_b = true -> whole_run c rv args cps m bot sp prep fn org r_X (sx r_s3) (sm r_s3) r_X4 (sm r_s3) (sx r_s5) (sm r_s5).
Proof.
  intros B0 H. pose proof (copy_bytes ts args cps m B0) as B. fold cp in B. unfold run_b in H. do 6 (apply andb_prop in H as [H ?]).
  destruct (goes_ok _ _ _ _ H B) as (R1 & B1). fold r_s1 in R1, B1. cbn [sm] in B1.
  assert (BM : bytes_in r_M2).
  { unfold r_M2. destruct (prep_args_inv rt ts fixed (ret_code rt) rv (snd cp) vs (sx r_s1 3) (sm r_s1) sp ltac:(lia) ltac:(lia) ltac:(apply objects_ok; assumption) ltac:(lia)) as (m' & PA & _ & _ & _ & PB).
    unfold c. change (machdep_var rt fixed ts) with (OCif ts rt fixed (ret_code rt)). rewrite PA. apply PB, B1. }
  match goal with K : goes org 9 _ _ = true |- _ => destruct (goes_ok _ _ _ _ K BM) as (R3 & B3) end. fold r_s3 in R3, B3.
  match goal with K : goes org n _ _ = true |- _ => destruct (goes_ok _ _ _ _ K B3) as (R5 & B5) end. fold r_s5 in R5, B5.
  unfold whole_run, call_prepare. change (oc_args c) with ts. fold cp. rewrite (surjective_pairing cp).
  split.
  - unfold entry, r_X. split; [apply rg_ok; cbn [forallb snd]; unfold prep, fn; lia|]. repeat split; unfold prep, fn; reflexivity || lia.
  - exists (sx r_s1), (sm r_s1), r_X2, r_M2, false, (sfl r_s1), false, (sfl r_s3), false, (sfl r_s5).
    split; [exact R1|]. split; [|split; [exact R3|split; [|exact R5]]].
    + unfold prep_done. rewrite (surjective_pairing (prep_args c rv _ _ _)). split; [reflexivity|]. split; [reflexivity|]. split; [|exact BM].
      intros r Sr. apply upd_other. unfold saved in Sr. destruct Sr as [->|[->|(Q1 & Q2)]]; try reflexivity. lia.
    + split; [|reflexivity]. intros r Sr. unfold r_X4. rewrite !upd_other; [reflexivity| |]; unfold saved in Sr; lia.
Qed.
End Runs.

(** ** A call with everything *)

Definition ty_s3 : ftype := FT T_STRUCT 3 1 [ty_uint8; ty_uint8; ty_uint8].
Definition ty_s12 : ftype := FT T_STRUCT 12 4 [ty_sint32; ty_sint32; ty_sint32].
(** Returns a struct: -2 in a byte, a struct of three bytes, a double, a short, and behind the
    fixed ones a double and a struct. *)
Definition a_ts : list ftype := [ty_sint8; ty_s3; ty_double; ty_sint16; ty_double; ty_s12].
Definition a_args : list Z := [8192; 8200; 8208; 8216; 8224; 8232].
Definition a_vs : list (list Z) := [[254]; [1; 2; 3]; [64; 8; 1; 2; 3; 4; 5; 6]; [255; 0]; [63; 240; 0; 0; 0; 0; 0; 1]; [1; 2; 3; 4; 5; 6; 7; 8; 9; 10; 11; 12]].
Definition a_cps : list Z := [0; 16392; 0; 0; 0; 16400].
Definition a_mem : Z -> Z := put (combine a_args a_vs).
Lemma a_bytes : bytes_in a_mem.
Proof. apply put_ok. vm_compute. reflexivity. Qed.
Lemma a_setup : setup ty_s12 a_ts 4 12000 a_args a_vs a_cps a_mem 12288 16384 16412.
Proof. apply setup_ok; [exact a_bytes|vm_compute; reflexivity]. Qed.
Lemma a_text : text_at 65536.
Proof. unfold text_at. lia. Qed.
Lemma a_run : exists X X3 M3 X4 M4 X5 M5, whole_run (machdep_var ty_s12 4 a_ts) 12000 a_args a_cps a_mem 12288 16384 70000 80000 65536 X X3 M3 X4 M4 X5 M5 /\
  map X3 [3; 4; 5; 6; 7; 8] = [12000; 2 ^ 32 - 2; 16392; 1074266370; 50595078; 2 ^ 32 - 256] /\ rd M3 (X3 1) 12 = [63; 240; 0; 0; 0; 0; 0; 1; 0; 0; 64; 16] /\
  map X5 [1; 2; 14; 16; 18; 20] = map X [1; 2; 14; 16; 18; 20].
Proof.
  do 7 eexists. split; [apply (run_of ty_s12 a_ts 4 12000 a_args a_vs a_cps a_mem 12288 16384 5 6 12)|].
  - exact a_bytes.
  - vm_compute. reflexivity.
  - split; [vm_compute; reflexivity|]. split; vm_compute; reflexivity.
Qed.

(** ** Five words and a double word: no space for the last word *)

Definition g_ts : list ftype := [ty_sint32; ty_sint32; ty_sint32; ty_sint32; ty_sint32; ty_sint64].
Definition g_args : list Z := [8192; 8196; 8200; 8204; 8208; 8216].
Definition g_vs : list (list Z) := [[0; 0; 0; 1]; [0; 0; 0; 2]; [0; 0; 0; 3]; [0; 0; 0; 4]; [0; 0; 0; 5]; [1; 2; 3; 4; 5; 6; 7; 8]].
Definition g_cps : list Z := [0; 0; 0; 0; 0; 0].
Definition g_mem : Z -> Z := put (combine g_args g_vs).
Lemma g_bytes : bytes_in g_mem.
Proof. apply put_ok. vm_compute. reflexivity. Qed.
Lemma g_setup : setup ty_sint32 g_ts 6 8224 g_args g_vs g_cps g_mem 12288 16384 16384.
Proof. apply setup_ok; [exact g_bytes|vm_compute; reflexivity]. Qed.
Lemma room_bad : exists rt ts fixed rv args vs stack m hi,
  0 <= fixed /\ 0 <= rv < 2 ^ 32 /\ objects m stack hi ts args vs /\ stack + call_size (machdep_var rt fixed ts) <= hi /\
  exists x, ~ (stack <= x < stack + call_size (machdep_var rt fixed ts)) /\ fst (prep_args (machdep_var rt fixed ts) rv args stack m) x <> m x.
Proof.
  exists ty_sint32, g_ts, 6, 8224, g_args, g_vs, 12288, g_mem, 12320. split; [lia|]. split; [lia|]. split; [apply objects_ok; vm_compute; reflexivity|].
  change (call_size (machdep_var ty_sint32 6 g_ts)) with 28. split; [lia|]. exists 12316. split; [lia|]. vm_compute. discriminate.
Qed.
Lemma return_bad : exists rt ts fixed rv args vs cps m bot sp top prep fn org,
  setup rt ts fixed rv args vs cps m bot sp top /\ text_at org /\ result_place rt rv sp /\
  exists X X3 M3 X4 M4 X5 M5, whole_run (machdep_var rt fixed ts) rv args cps m bot sp prep fn org X X3 M3 X4 M4 X5 M5 /\
    exists r, saved r /\ X5 r <> X r.
Proof.
  exists ty_sint32, g_ts, 6, 8224, g_args, g_vs, g_cps, g_mem, 12288, 16384, 16384, 70000, 80000, 65536.
  split; [exact g_setup|]. split; [exact a_text|]. split; [intros _; vm_compute; split; [congruence|left; congruence]|].
  do 7 eexists. split; [apply (run_of ty_sint32 g_ts 6 8224 g_args g_vs g_cps g_mem 12288 16384 5 6 16); [exact g_bytes|vm_compute; reflexivity]|].
  exists 20. split; [right; right; split; [lia|reflexivity]|]. vm_compute. discriminate.
Qed.
(** What %r20 is: the second word of the last argument. *)
Lemma g_run : exists X X3 M3 X4 M4 X5 M5, whole_run (machdep_var ty_sint32 6 g_ts) 8224 g_args g_cps g_mem 12288 16384 70000 80000 65536 X X3 M3 X4 M4 X5 M5 /\
  X 20 = 2020 /\ X5 20 = 84281096.
Proof.
  do 7 eexists. split; [apply (run_of ty_sint32 g_ts 6 8224 g_args g_vs g_cps g_mem 12288 16384 5 6 16); [exact g_bytes|vm_compute; reflexivity]|].
  split; vm_compute; reflexivity.
Qed.

(** ** A void function without a result pointer *)

Definition v_mem : Z -> Z := put [(8192, [0; 0; 0; 1])].
Lemma v_bytes : bytes_in v_mem.
Proof. apply put_ok. vm_compute. reflexivity. Qed.
Lemma v_setup : setup ty_void [ty_sint32] 1 0 [8192] [[0; 0; 0; 1]] [0] v_mem 12288 16384 16384.
Proof. apply setup_ok; [exact v_bytes|vm_compute; reflexivity]. Qed.
Lemma result_bad : exists rt ts fixed rv args vs cps m bot sp top prep fn org,
  setup rt ts fixed rv args vs cps m bot sp top /\ text_at org /\ result_place rt rv sp /\ ty_code rt = T_VOID /\ rv = 0 /\
  exists X X3 M3 X4 M4 X5 M5, whole_run (machdep_var rt fixed ts) rv args cps m bot sp prep fn org X X3 M3 X4 M4 X5 M5 /\
    exists x, M5 x <> M4 x.
Proof.
  exists ty_void, [ty_sint32], 1, 0, [8192], [[0; 0; 0; 1]], [0], v_mem, 12288, 16384, 16384, 70000, 80000, 65536.
  split; [exact v_setup|]. split; [exact a_text|]. split; [intros _; vm_compute; split; [congruence|left; congruence]|]. split; [reflexivity|]. split; [reflexivity|].
  do 7 eexists. split; [apply (run_of ty_void [ty_sint32] 1 0 [8192] [[0; 0; 0; 1]] [0] v_mem 12288 16384 5 6 16); [exact v_bytes|vm_compute; reflexivity]|].
  exists 3. vm_compute. discriminate.
Qed.

(** ** A call that returns a double word *)

Lemma d_setup : setup ty_sint64 [ty_sint32] 1 8200 [8192] [[0; 0; 0; 1]] [0] v_mem 12288 16384 16384 /\ result_place ty_sint64 8200 16384 /\
  gap (hidden ty_sint64) 1 [ty_sint32] = false.
Proof.
  split; [apply setup_ok; [exact v_bytes|vm_compute; reflexivity]|]. split; [intros _; vm_compute; split; [congruence|left; congruence]|]. reflexivity.
Qed.
Lemma d_run : exists X X3 M3 X4 M4 X5 M5, whole_run (machdep_var ty_sint64 1 [ty_sint32]) 8200 [8192] [0] v_mem 12288 16384 70000 80000 65536 X X3 M3 X4 M4 X5 M5 /\
  returned ty_sint64 [1; 2; 3; 4; 5; 6; 7; 8] X4 /\ bytes_at M5 8200 8 = [1; 2; 3; 4; 5; 6; 7; 8] /\ X5 20 = X 20.
Proof.
  do 7 eexists. split; [apply (run_of ty_sint64 [ty_sint32] 1 8200 [8192] [[0; 0; 0; 1]] [0] v_mem 12288 16384 16909060 84281096 17); [exact v_bytes|vm_compute; reflexivity]|].
  split; [|split]; vm_compute; reflexivity.
Qed.

(** ** The array avalue *)

Lemma avalue_bad : exists rt ts fixed rv args vs cps m bot sp top,
  setup rt ts fixed rv args vs cps m bot sp top /\ let '(m1, av, _, _) := call_prepare (machdep_var rt fixed ts) args cps m in av <> args.
Proof.
  exists ty_s12, a_ts, 4, 12000, a_args, a_vs, a_cps, a_mem, 12288, 16384, 16412. split; [exact a_setup|]. vm_compute. discriminate.
Qed.
Lemma g_avalue : existsb aggregate g_ts = false /\ length g_args = length g_ts /\ length g_cps = length g_ts.
Proof. repeat split. Qed.

(** ** Closures *)

(** The arguments of a_run as a closure finds them: the same function called. *)
Lemma c_in : exists X M, Forall otype a_ts /\ Forall2 is_value a_ts a_vs /\ bytes_in M /\ 13000 + 24 <= X 1 /\ passed ty_s12 4 a_ts a_vs X M /\
  refs_outside X M 13000 13024 (places (hidden ty_s12) 0 4 a_ts) a_ts /\
  snd (closure_args (machdep_var ty_s12 4 a_ts) (arg_regs X) (X 1) 13000 99 M) = [13007; 16392; 13012; 13022; 16324; 16400].
Proof.
  set (s := r_s3 ty_s12 a_ts 4 12000 a_args a_cps a_mem 16384).
  exists (sx s), (put [(16324, rd (sm s) 16324 12); (16392, rd (sm s) 16392 20)]).
  split; [repeat (constructor; [apply otype_ok; vm_compute; reflexivity|]); constructor|].
  split; [repeat (constructor; [apply value_ok; vm_compute; reflexivity|]); constructor|].
  split; [apply put_ok; vm_compute; reflexivity|]. split; [vm_compute; congruence|]. split; [vm_compute; repeat split|]. split; [|vm_compute; reflexivity].
  cbn [refs_outside places a_ts]. repeat split; intros Ag; try discriminate Ag; right; vm_compute; congruence.
Qed.
(** A closure that returns -2 as a byte. *)
Lemma c_result : let M := put [(4096, [255; 255; 255; 254])] in
  rtype_ok ty_sint8 /\ is_value ty_sint8 [254] /\ bytes_in M /\ bytes_at M 4096 (zlen (stored ty_sint8 [254])) = stored ty_sint8 [254] /\
  closure_result (machdep ty_sint8 []) 4096 M = Some (2 ^ 32 - 2, 0).
Proof.
  cbv zeta. split; [right; reflexivity|]. split; [apply value_ok; vm_compute; reflexivity|]. split; [apply put_ok; vm_compute; reflexivity|]. split; vm_compute; reflexivity.
Qed.
(** A closure at 20000 whose code is executed at 28192. *)
Lemma t_in : exists m', prep_closure true 20000 111 222 333 28192 100000 (fun _ => 0) = Some m' /\
  rd m' 20000 36 = [25; 160; 0; 0; 169; 173; 110; 32; 25; 224; 0; 1; 169; 239; 134; 160; 68; 0; 120; 0; 170; 33; 0; 0; 0; 0; 0; 111; 0; 0; 0; 222; 0; 0; 1; 77].
Proof. eexists. split; [reflexivity|]. vm_compute. reflexivity. Qed.
(** The call of a_run to such a closure. *)
Definition t_mem : Z -> Z := put ((28192, [25; 160; 0; 0; 169; 173; 110; 32; 25; 224; 0; 1; 169; 239; 134; 160; 68; 0; 120; 0; 170; 33; 0; 0]) :: combine a_args a_vs).
Lemma t_round : setup ty_s12 a_ts 4 12000 a_args a_vs a_cps t_mem 12288 16384 16412 /\ text_at 65536 /\
  exists m', prep_closure true 20000 111 222 333 28192 100000 (fun _ => 0) = Some m' /\ (forall k, 0 <= k < 24 -> t_mem (28192 + k) = m' (20000 + k)).
Proof.
  split; [apply setup_ok; [apply put_ok; vm_compute; reflexivity|vm_compute; reflexivity]|]. split; [exact a_text|].
  eexists. split; [reflexivity|]. intros k Hk. rewrite <- (Z2Nat.id k) by lia. assert (H : (Z.to_nat k < 24)%nat) by lia. revert H. generalize (Z.to_nat k). clear.
  intros n H. do 24 (destruct n as [|n]; [vm_compute; reflexivity|]). lia.
Qed.
(** Space for the arguments: of the variadic call, of one that is not. *)
Lemma r_in : objects a_mem 12288 16384 a_ts a_args a_vs /\ 12288 + call_size (machdep_var ty_s12 4 a_ts) <= 16384 /\ 4 <> zlen a_ts /\
  objects v_mem 12288 16384 [ty_sint32] [8192] [[0; 0; 0; 1]] /\ gap (hidden ty_sint64) 1 [ty_sint32] = false.
Proof. split; [apply objects_ok; vm_compute; reflexivity|]. split; [vm_compute; congruence|]. split; [vm_compute; congruence|]. split; [apply objects_ok; vm_compute; reflexivity|reflexivity]. Qed.
