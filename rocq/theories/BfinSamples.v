(** Sample states for the statements about Blackfin, and runs where calls go wrong. *)
From Coq Require Import ZifyBool ZifyNat.
From Verif Require Import Base BaseFacts Types ByteMem S390Facts ArmModel BfinModel BfinSpec BfinFacts BfinAsm BfinTop.
Local Open Scope Z_scope.
Local Arguments Z.mul : simpl never.
Local Arguments Z.add : simpl never.
Local Arguments Z.sub : simpl never.
Local Arguments Z.pow : simpl never.
Local Arguments Z.of_nat : simpl never.
Local Arguments le_enc : simpl never.
Local Arguments le_dec : simpl never.
Local Arguments rd : simpl never.

(** ** Checks by computation *)

Definition same (a b : list Z) : bool := if list_eq_dec Z.eq_dec a b then true else false.
Lemma same_iff a b : same a b = true <-> a = b.
Proof. unfold same. destruct (list_eq_dec Z.eq_dec a b); split; congruence. Qed.
Definition byte_b (b : Z) : bool := (0 <=? b) && (b <? 256).
Lemma bytes_b d : forallb byte_b d = true -> bytes_ok d.
Proof. rewrite forallb_forall. intros H. apply Forall_forall. intros x I. specialize (H x I). unfold byte_b in H. unfold byte_ok. lia. Qed.
Definition value_b (t : ftype) (v : list Z) : bool := (zlen v =? ty_size t) && forallb byte_b v.
Lemma value_ok t v : value_b t v = true -> is_value t v.
Proof. intros H. apply andb_prop in H as [H1 H2]. split; [lia|apply bytes_b, H2]. Qed.
Definition btype_b (t : ftype) : bool :=
  ((ty_align t =? 1) || (ty_align t =? 2) || (ty_align t =? 4)) &&
  match ty_code t with
  | T_UINT8 | T_SINT8 => ty_size t =? 1
  | T_UINT16 | T_SINT16 => ty_size t =? 2
  | T_UINT32 | T_SINT32 | T_FLOAT | T_POINTER => ty_size t =? 4
  | T_UINT64 | T_SINT64 | T_DOUBLE => ty_size t =? 8
  | T_STRUCT => 0 <? ty_size t
  | _ => false
  end.
Lemma btype_ok t : btype_b t = true -> btype t.
Proof. unfold btype_b, btype. intros H. apply andb_prop in H as [H1 H2]. split; [lia|]. destruct (ty_code t); lia || discriminate. Qed.
Fixpoint objects_b (M : Z -> Z) (lo hi : Z) (ts : list ftype) (args : list Z) (vs : list (list Z)) : bool :=
  match ts, args, vs with
  | [], [], [] => true
  | t :: ts', a :: as', v :: vs' =>
    btype_b t && value_b t v && same (bytes_at M a (ty_size t)) v && ((a + ty_size t <=? lo) || (hi <=? a)) && objects_b M lo hi ts' as' vs'
  | _, _, _ => false
  end.
Lemma objects_ok M lo hi ts : forall args vs, objects_b M lo hi ts args vs = true -> objects M lo hi ts args vs.
Proof.
  induction ts as [|t ts IH]; intros [|a args] [|v vs] H; cbn [objects_b objects] in *; try discriminate H; [exact Logic.I|].
  do 4 (apply andb_prop in H as [H ?]).
  split; [apply btype_ok; assumption|]. split; [apply value_ok; assumption|]. split; [apply same_iff; assumption|]. split; [lia|apply IH; assumption].
Qed.
(** Memory holding some pieces, registers with some values, zero elsewhere. *)
Fixpoint put (l : list (Z * list Z)) : Z -> Z := match l with [] => fun _ => 0 | (a, d) :: r => wr (put r) a d end.
Fixpoint rg (l : list (Z * Z)) : Z -> Z := match l with [] => fun _ => 0 | (r, v) :: t => upd (rg t) r v end.
Lemma put_ok l : forallb (fun q => forallb byte_b (snd q)) l = true -> bytes_in (put l).
Proof.
  induction l as [|[a d] l IH]; cbn [forallb put snd]; intros H; [intros x; lia|]. apply andb_prop in H as [H1 H2].
  apply wr_bytes; [apply IH, H2|apply bytes_b, H1].
Qed.
Lemma rg_ok l : forallb (fun q => (0 <=? snd q) && (snd q <? 2 ^ 32)) l = true -> words_in (rg l).
Proof.
  induction l as [|[a d] l IH]; cbn [forallb rg snd]; intros H; [intros x; lia|]. apply andb_prop in H as [H1 H2].
  intros r. unfold upd. destruct (r =? a); [lia|apply IH, H2].
Qed.
Definition table_b (org : Z) (m : Z -> Z) : bool :=
  forallb (fun k => match nth_error text k with Some (Word w) => ld m (org + 4 * Z.of_nat k) =? 4 * w | _ => true end) (seq 0 72).
Lemma table_ok org m : table_b org m = true -> table_in org m.
Proof.
  unfold table_b. rewrite forallb_forall. intros H k w E. assert (L : (k < length text)%nat) by (apply nth_error_Some; congruence). change (length text) with 72%nat in L.
  specialize (H k). rewrite E in H. apply Z.eqb_eq, H, in_seq. lia.
Qed.
Definition away_b (bot sp a n : Z) : bool := (0 <=? a) && (a + n <=? 2 ^ 32) && ((a + n <=? bot) || (sp + 12 <=? a)).
Lemma away_ok bot sp a n : away_b bot sp a n = true -> away bot sp a n.
Proof. unfold away_b, away. lia. Qed.

(** ** States *)

(** The code is at 4096, the global offset table at 6000; the descriptor of ffi_prep_args is at 6100,
    that of the function at 6200; the result goes to 30000. *)
Definition conf (sign : bool) : cfg := Cfg 8 12 sign.
Definition pieces (flags s24 : Z) (objs : list (Z * list Z)) : list (Z * list Z) :=
  (4284, word_bytes 76 ++ word_bytes 20 ++ word_bytes 36 ++ word_bytes 52 ++ word_bytes 68) :: (6008, word_bytes 6100 ++ word_bytes 4284) ::
  (6100, word_bytes 7000 ++ word_bytes 6000) :: (6200, word_bytes 8000 ++ word_bytes 6300) ::
  (20012, word_bytes flags ++ word_bytes 30000 ++ word_bytes 6200 ++ word_bytes s24) :: objs.
Definition keep : list (Z * Z) := [(4, 104); (5, 105); (6, 106); (7, 107); (12, 112); (13, 113)].
Definition regs0 (rt : ftype) (ts : list ftype) : list (Z * Z) := (0, cif_bytes rt ts) :: (1, 12345) :: (11, 6000) :: (14, 20000) :: (15, 25000) :: (16, 9000) :: keep.
Definition setup_b (rt : ftype) (ts : list ftype) (args : list Z) (vs : list (list Z)) (flags s24 : Z) (objs : list (Z * list Z)) : bool :=
  let M := put (pieces flags s24 objs) in
  forallb (fun q => (0 <=? snd q) && (snd q <? 2 ^ 32)) (regs0 rt ts) && forallb (fun q => forallb byte_b (snd q)) (pieces flags s24 objs) &&
  (btype_b rt || match ty_code rt with T_VOID => ty_size rt =? 1 | _ => false end) && (4 + slots ts <? 2 ^ 32) && (10000 + cif_bytes rt ts + 32 <=? 20000) &&
  match ret_flags rt with Some f => f =? flags | None => false end && (ld M 20012 =? flags) && (ld M 20016 =? 30000) && (ld M 20020 =? 6200) &&
  (ld M 6008 =? 6100) && (ld M 6012 =? 4284) && table_b 4096 M && objects_b M 10000 20012 ts args vs.
Lemma setup_ok sign rt ts args vs flags s24 objs : setup_b rt ts args vs flags s24 objs = true ->
  setup (conf sign) 4096 rt ts args vs (rg (regs0 rt ts)) (put (pieces flags s24 objs)) 20000 10000 flags 30000 6200 6008 6100 6012.
Proof.
  unfold setup_b. cbv zeta. intros H. do 12 (apply andb_prop in H as [H ?]).
  assert (NB : 0 <= cif_bytes rt ts) by (cbn [regs0 forallb snd] in H; lia).
  constructor; try reflexivity; try (apply Z.eqb_eq; assumption); try lia.
  - apply rg_ok, H.
  - apply put_ok. assumption.
  - match goal with H : btype_b rt || _ = true |- _ => apply orb_prop in H as [G|G] end; [right; apply btype_ok, G|left; destruct (ty_code rt); try discriminate G; split; [reflexivity|lia]].
  - destruct (ret_flags rt); [f_equal; lia|discriminate].
  - apply away_ok. reflexivity.
  - split; [reflexivity|]. split; [apply away_ok; reflexivity|lia].
  - apply away_ok. reflexivity.
  - split; [reflexivity|]. split; [apply away_ok; reflexivity|]. change (4096 + 188) with 4284. lia.
  - split; [apply table_ok; assumption|apply away_ok; reflexivity].
  - change (20000 + 12) with 20012. apply objects_ok. assumption.
Qed.

(** ** Runs *)

Definition run (c : cfg) (n : nat) (s : st) : st := match steps c 4096 n s with Some s' => s' | None => s end.
Definition goes (c : cfg) (n : nat) (s : st) (p : Z) : bool := match steps c 4096 n s with Some s' => spc s' =? p | None => false end.
Lemma goes_ok c n s p : goes c n s p = true -> let s' := run c n s in reach c 4096 s (St (sx s') p (sm s')).
Proof.
  unfold goes, run. intros H. destruct (steps c 4096 n s) as [s'|] eqn:E; [|discriminate]. apply Z.eqb_eq in H. cbv zeta. exists n. rewrite E. destruct s' as [x pc mm]. cbn in *. congruence.
Qed.
Definition pick (o : option (Z -> Z)) (d : Z -> Z) : Z -> Z := match o with Some m => m | None => d end.
Definition is_some (o : option (Z -> Z)) : bool := match o with Some _ => true | None => false end.
Lemma pick_ok o d : is_some o = true -> o = Some (pick o d).
Proof. destruct o; [reflexivity|discriminate]. Qed.
Definition at_prep (sign : bool) rt ts flags s24 objs : st := run (conf sign) 19 (St (rg (regs0 rt ts)) 4096 (put (pieces flags s24 objs))).
Definition prepped sign rt ts (args : list Z) flags s24 objs : Z -> Z :=
  let s := at_prep sign rt ts flags s24 objs in pick (prep_args ts args (sm s) (sx s 0)) (sm s).
Definition at_fn sign rt ts args flags s24 objs : st := run (conf sign) 11 (St (sx (at_prep sign rt ts flags s24 objs)) 4172 (prepped sign rt ts args flags s24 objs)).
(** Registers when the function returns, with R0 and R1 as given. *)
Definition back (rt : ftype) (ts : list ftype) (lo hi : Z) : Z -> Z := rg ((0, lo) :: (1, hi) :: (14, 20000 - 32 - cif_bytes rt ts) :: (15, 19992) :: keep).
Definition at_end sign rt ts args flags s24 objs (lo hi : Z) (n : nat) : st := run (conf sign) n (St (back rt ts lo hi) 4216 (prepped sign rt ts args flags s24 objs)).

Lemma steps_bytes c org n : forall s s', steps c org n s = Some s' -> bytes_in (sm s) -> bytes_in (sm s').
Proof.
  induction n as [|n IH]; intros s s' H B; cbn [steps] in H; [injection H as <-; exact B|]. destruct (step c org s) as [s1|] eqn:E; [|discriminate]. apply (IH s1 s' H).
  unfold step in E. destruct (_ && _) eqn:Q in E; try discriminate E; clear Q.
  destruct (nth_error text _) as [i|]; [|discriminate].
  unfold exec in E; destruct i; cbv zeta in E; try (injection E as <-; exact B); try discriminate E;
    try (destruct (fits _); [|discriminate]; injection E as <-; cbn [sm]; try apply stw_bytes; exact B);
    (destruct (fits _ && fits _); [|discriminate]; injection E as <-; cbn [sm]; repeat apply stw_bytes; exact B).
Qed.
(** Runs without stores. *)
Definition store_i (i : instr) : bool := match i with Link _ | Stw _ _ _ => true | _ => false end.
Fixpoint quiet (c : cfg) (n : nat) (s : st) : bool :=
  match n with
  | O => true
  | S k => match nth_error text (Z.to_nat ((spc s - 4096) / 4)) with Some i => negb (store_i i) | None => false end && match step c 4096 s with Some s' => quiet c k s' | None => false end
  end.
Lemma step_quiet c s s' i : nth_error text (Z.to_nat ((spc s - 4096) / 4)) = Some i -> store_i i = false -> step c 4096 s = Some s' -> sm s' = sm s.
Proof.
  intros E N H. unfold step in H. destruct (_ && _) in H; [|discriminate]. rewrite E in H. unfold exec in H. cbv zeta in H.
  destruct i; try discriminate N; try discriminate H; repeat (destruct (fits _) in H; cbn [andb] in H); try discriminate H; injection H as <-; reflexivity.
Qed.
Lemma steps_quiet c n : forall s s', quiet c n s = true -> steps c 4096 n s = Some s' -> sm s' = sm s.
Proof.
  induction n as [|n IH]; intros s s' Q H; cbn [quiet steps] in *; [congruence|]. apply andb_prop in Q as [Q1 Q2]. destruct (step c 4096 s) as [s1|] eqn:E; [|discriminate].
  destruct (nth_error text _) as [i|] eqn:EI; [|discriminate]. rewrite (IH _ _ Q2 H). apply (step_quiet c s s1 i EI); [destruct (store_i i); [discriminate|reflexivity]|exact E].
Qed.
Lemma goes_quiet c n s p : goes c n s p && quiet c n s = true -> reach c 4096 s (St (sx (run c n s)) p (sm s)).
Proof.
  intros H. apply andb_prop in H as [H Q]. pose proof (goes_ok _ _ _ _ H) as R. cbv zeta in R. replace (sm s) with (sm (run c n s)); [exact R|].
  unfold goes in H. unfold run. destruct (steps c 4096 n s) as [s'|] eqn:E; [|discriminate]. exact (steps_quiet _ _ _ _ Q E).
Qed.
Lemma run_bytes c n s : bytes_in (sm s) -> bytes_in (sm (run c n s)).
Proof. intros B. unfold run. destruct (steps c 4096 n s) as [s'|] eqn:E; [exact (steps_bytes _ _ _ _ _ E B)|exact B]. Qed.
Lemma prep_bytes ts : forall args m p m', bytes_in m -> prep_args ts args m p = Some m' -> bytes_in m'.
Proof.
  induction ts as [|t ts IH]; intros [|a args] m p m' B H; cbn [prep_args] in H; try (injection H as <-; exact B); try discriminate.
  destruct (prep_arg t a m p) as [[m1 q]|] eqn:E; [|discriminate]. apply (IH _ _ _ _) with (2 := H). unfold prep_arg in E. cbv zeta in E.
  destruct (ty_size t <? 4); [destruct (ty_code t); try discriminate|destruct (ty_size t =? 4)]; injection E as <- _; (apply wr_bytes; [exact B|]); first [apply le_enc_ok|apply rd_ok, B].
Qed.
Definition run_b sign rt ts args vs flags s24 objs lo hi n : bool :=
  let c := conf sign in let s1 := at_prep sign rt ts flags s24 objs in let m := prepped sign rt ts args flags s24 objs in
  setup_b rt ts args vs flags s24 objs && goes c 19 (St (rg (regs0 rt ts)) 4096 (put (pieces flags s24 objs))) 7000 && (sx s1 16 =? 4172) &&
  is_some (prep_args ts args (sm s1) (sx s1 0)) && (goes c 11 (St (sx s1) 4172 m) 8000 && quiet c 11 (St (sx s1) 4172 m)) &&
  (let X3 := sx (at_fn sign rt ts args flags s24 objs) in (X3 16 =? 4216) && forallb (fun r => X3 r =? back rt ts lo hi r) [4; 5; 6; 7; 12; 13; 14; 15]) &&
  ((0 <=? lo) && (lo <? 2 ^ 32) && (0 <=? hi) && (hi <? 2 ^ 32)) && goes c n (St (back rt ts lo hi) 4216 m) 9000 && (ld (put (pieces flags s24 objs)) 6100 =? 7000) && (ld (put (pieces flags s24 objs)) 6200 =? 8000).
Local Opaque steps prep_args.
Lemma run_ok sign rt ts args vs flags s24 objs lo hi n : run_b sign rt ts args vs flags s24 objs lo hi n = true ->
  let c := conf sign in let X := rg (regs0 rt ts) in let M := put (pieces flags s24 objs) in
  let s1 := at_prep sign rt ts flags s24 objs in let m := prepped sign rt ts args flags s24 objs in let X3 := sx (at_fn sign rt ts args flags s24 objs) in
  let X4 := back rt ts lo hi in let s5 := at_end sign rt ts args flags s24 objs lo hi n in
  setup c 4096 rt ts args vs X M 20000 10000 flags 30000 6200 6008 6100 6012 /\
  reach c 4096 (St X 4096 M) (St (sx s1) (ld M 6100) (sm s1)) /\ prep_args ts args (sm s1) (sx s1 0) = Some m /\ prep_back 10000 (sx s1) m (sx s1) m /\
  reach c 4096 (St (sx s1) (sx s1 16) m) (St X3 (ld M 6200) m) /\ fn_back 4096 20000 6012 X3 m X4 m /\
  reach c 4096 (St X4 (X3 16) m) (St (sx s5) (X 16) (sm s5)).
Proof.
  intros H c X M s1 m X3 X4 s5. unfold run_b in H. cbv zeta in H. do 9 (apply andb_prop in H as [H ?]).
  repeat match goal with G : (_ =? _) = true |- _ => apply Z.eqb_eq in G end.
  assert (SU : setup c 4096 rt ts args vs X M 20000 10000 flags 30000 6200 6008 6100 6012) by (apply setup_ok, H).
  assert (PA : prep_args ts args (sm s1) (sx s1 0) = Some m) by (match goal with G : is_some _ = true |- _ => exact (pick_ok _ _ G) end).
  assert (B1 : bytes_in (sm s1)) by exact (run_bytes _ _ (St _ _ _) (su_mem _ _ _ _ _ _ _ _ _ _ _ _ _ _ _ _ SU)).
  assert (Bm : bytes_in m) by exact (prep_bytes _ _ _ _ _ B1 PA).
  match goal with G : (_ =? 4216) && forallb _ _ = true |- _ => apply andb_prop in G as [G1 G2] end. apply Z.eqb_eq in G1.
  split; [exact SU|]. split; [|split; [exact PA|split; [|split; [|split]]]].
  - replace (ld M 6100) with 7000 by (symmetry; assumption). match goal with G : goes _ 19 _ _ = true |- _ => exact (goes_ok _ _ _ _ G) end.
  - split; [reflexivity|]. split; [exact Bm|reflexivity].
  - replace (ld M 6200) with 8000 by (symmetry; assumption). match goal with G : _ = 4172 |- _ => change (sx s1 16 = 4172) in G; rewrite G end. match goal with G : goes _ 11 _ _ && _ = true |- _ => exact (goes_quiet _ _ _ _ G) end.
  - split; [|split; [|split; [exact Bm|reflexivity]]].
    + intros r Hr. unfold X3, X4. rewrite forallb_forall in G2. symmetry. apply Z.eqb_eq, G2. unfold saved in Hr. cbn [In]. lia.
    + apply rg_ok. pose proof (su_bot _ _ _ _ _ _ _ _ _ _ _ _ _ _ _ _ SU) as SB. pose proof (su_regs _ _ _ _ _ _ _ _ _ _ _ _ _ _ _ _ SU 0) as S0. change (X 0) with (cif_bytes rt ts) in S0. cbn [forallb snd keep]. lia.
  - change (X3 16 = 4216) in G1. rewrite G1. change (X 16) with 9000. match goal with G : goes _ n _ _ = true |- _ => exact (goes_ok _ _ _ _ G) end.
Qed.
Local Transparent steps prep_args.

(** A call with small, large and struct arguments and a double-word result. *)
Definition i8 : ftype := FT T_SINT8 1 1 [].
Definition u8 : ftype := FT T_UINT8 1 1 [].
Definition u16 : ftype := FT T_UINT16 2 2 [].
Definition s16 : ftype := FT T_SINT16 2 2 [].
Definition u32 : ftype := FT T_UINT32 4 4 [].
Definition i64 : ftype := FT T_SINT64 8 4 [].
Definition s3 : ftype := FT T_STRUCT 3 1 [u8; u8; u8].
Definition s6 : ftype := FT T_STRUCT 6 2 [u16; u16; u16].
Definition s8 : ftype := FT T_STRUCT 8 4 [u32; u32].
Definition a_ts : list ftype := [i8; s8; s3; i64; s6].
Definition a_vs : list (list Z) := [[254]; [1; 2; 3; 4; 5; 6; 7; 8]; [9; 10; 11]; [12; 13; 14; 15; 16; 17; 18; 19]; [20; 21; 22; 23; 24; 25]].
Definition a_args : list Z := [31000; 31008; 31016; 31024; 31032].
Definition a_objs : list (Z * list Z) := combine a_args a_vs.
Definition a_v : list Z := [1; 0; 0; 0; 254; 255; 255; 255].
Lemma a_setup :
  setup (conf true) 4096 i64 a_ts a_args a_vs (rg (regs0 i64 a_ts)) (put (pieces 3 6300 a_objs)) 20000 10000 3 30000 6200 6008 6100 6012 /\
  tidy a_ts = true /\ plain_result true i64 = true /\ away 10000 20000 30000 (result_room i64) /\ ld (put (pieces 3 6300 a_objs)) (20000 + 24) = ld (put (pieces 3 6300 a_objs)) (6200 + 4).
Proof.
  split; [apply setup_ok; vm_compute; reflexivity|]. split; [reflexivity|]. split; [reflexivity|]. split; [apply away_ok; reflexivity|]. vm_compute. reflexivity.
Qed.
(** The run of this call: ffi_prep_args and the function come back with what they must keep. *)
Lemma a_run : let c := conf true in let M := put (pieces 3 6300 a_objs) in let X := rg (regs0 i64 a_ts) in
  exists X1 M1 m X3 X4 X5 M5,
    reach c 4096 (St X 4096 M) (St X1 (ld M 6100) M1) /\ prep_args a_ts a_args M1 (X1 0) = Some m /\ prep_back 10000 X1 m X1 m /\
    reach c 4096 (St X1 (X1 16) m) (St X3 (ld M 6200) m) /\ fn_back 4096 20000 6012 X3 m X4 m /\ is_value i64 a_v /\ returned i64 a_v X4 /\
    reach c 4096 (St X4 (X3 16) m) (St X5 (X 16) M5) /\
    X3 0 = 2 ^ 32 - 2 /\ bytes_at m (X3 14 + 12) 3 = [9; 10; 11] /\ bytes_at M5 30000 8 = a_v.
Proof.
  assert (B : run_b true i64 a_ts a_args a_vs 3 6300 a_objs 1 (2 ^ 32 - 2) 27 = true) by (vm_compute; reflexivity).
  pose proof (run_ok _ _ _ _ _ _ _ _ _ _ _ B) as (_ & R1 & PA & PB & R3 & FB & R5). intros c M X.
  do 7 eexists. split; [exact R1|]. split; [exact PA|]. split; [exact PB|]. split; [exact R3|]. split; [exact FB|]. split; [apply value_ok; reflexivity|]. split; [vm_compute; reflexivity|].
  split; [exact R5|]. split; [vm_compute; reflexivity|]. split; vm_compute; reflexivity.
Qed.

(** A struct of six bytes followed by a word: the word is not where the function looks for it. *)
Definition b_vs : list (list Z) := [[1; 2; 3; 4; 5; 6]; [7; 8; 9; 10]].
Definition b_objs : list (Z * list Z) := combine [31000; 31008] b_vs.
Lemma args_bad : exists c org rt ts args vs X M sp bot flags rv fd ga D ta X1 M1 m X2 M2 X3,
  setup c org rt ts args vs X M sp bot flags rv fd ga D ta /\
  reach c org (St X org M) (St X1 (ld M D) M1) /\ prep_args ts args M1 (X1 0) = Some m /\ prep_back bot X1 m X2 M2 /\
  reach c org (St X2 (X1 16) M2) (St X3 (ld M fd) M2) /\ ~ passed X3 M2 0 ts vs.
Proof.
  assert (B : run_b true i64 [s6; u32] [31000; 31008] b_vs 3 6300 b_objs 1 2 27 = true) by (vm_compute; reflexivity).
  pose proof (run_ok _ _ _ _ _ _ _ _ _ _ _ B) as (SU & R1 & PA & PB & R3 & _).
  do 22 eexists. split; [exact SU|]. split; [exact R1|]. split; [exact PA|]. split; [exact PB|]. split; [exact R3|].
  intros (_ & P & _). vm_compute in P. discriminate P.
Qed.

(** A function returning a struct of six bytes: nothing is stored. *)
Lemma result_bad : exists c org rt ts args vs X M sp bot flags rv fd ga D ta X1 M1 m X2 M2 X3 X4 M4 v X5 M5,
  setup c org rt ts args vs X M sp bot flags rv fd ga D ta /\ away bot sp rv (result_room rt) /\
  reach c org (St X org M) (St X1 (ld M D) M1) /\ prep_args ts args M1 (X1 0) = Some m /\ prep_back bot X1 m X2 M2 /\
  reach c org (St X2 (X1 16) M2) (St X3 (ld M fd) M2) /\ fn_back org sp ta X3 M2 X4 M4 /\ is_value rt v /\ returned rt v X4 /\
  reach c org (St X4 (X3 16) M4) (St X5 (X 16) M5) /\ bytes_at M5 rv (zlen (stored rt v)) <> stored rt v.
Proof.
  assert (B : run_b true s6 [u32] [31008] [[7; 8; 9; 10]] 0 6300 b_objs (1 + 256 * 2) (3 + 256 * 4) 23 = true) by (vm_compute; reflexivity).
  pose proof (run_ok _ _ _ _ _ _ _ _ _ _ _ B) as (SU & R1 & PA & PB & R3 & FB & R5).
  exists (conf true), 4096, s6, [u32], [31008], [[7; 8; 9; 10]]. do 18 eexists. exists [1; 2; 0; 0; 3; 4]. do 2 eexists.
  split; [exact SU|]. split; [apply away_ok; reflexivity|]. split; [exact R1|]. split; [exact PA|]. split; [exact PB|]. split; [exact R3|]. split; [exact FB|].
  split; [apply value_ok; reflexivity|]. split; [vm_compute; reflexivity|]. split; [exact R5|]. vm_compute. discriminate.
Qed.
(** A struct of three bytes: the byte after it is overwritten. *)
Lemma result_over : exists c org rt ts args vs X M sp bot flags rv fd ga D ta X1 M1 m X2 M2 X3 X4 M4 v X5 M5,
  setup c org rt ts args vs X M sp bot flags rv fd ga D ta /\ away bot sp rv (result_room rt) /\
  reach c org (St X org M) (St X1 (ld M D) M1) /\ prep_args ts args M1 (X1 0) = Some m /\ prep_back bot X1 m X2 M2 /\
  reach c org (St X2 (X1 16) M2) (St X3 (ld M fd) M2) /\ fn_back org sp ta X3 M2 X4 M4 /\ is_value rt v /\ returned rt v X4 /\
  reach c org (St X4 (X3 16) M4) (St X5 (X 16) M5) /\ M5 (rv + ty_size rt) <> M4 (rv + ty_size rt).
Proof.
  assert (B : run_b true s3 [u32] [31008] [[7; 8; 9; 10]] 4 6300 b_objs (2 ^ 24 * 5 + 1) 0 25 = true) by (vm_compute; reflexivity).
  pose proof (run_ok _ _ _ _ _ _ _ _ _ _ _ B) as (SU & R1 & PA & PB & R3 & FB & R5).
  exists (conf true), 4096, s3, [u32], [31008], [[7; 8; 9; 10]]. do 18 eexists. exists [1; 0; 0]. do 2 eexists.
  split; [exact SU|]. split; [apply away_ok; reflexivity|]. split; [exact R1|]. split; [exact PA|]. split; [exact PB|]. split; [exact R3|]. split; [exact FB|].
  split; [apply value_ok; reflexivity|]. split; [vm_compute; reflexivity|]. split; [exact R5|]. vm_compute. discriminate.
Qed.
(** Half-words: one of the two signednesses is extended wrongly, whichever way the machine extends. *)
Lemma result_half : forall sign, exists c org rt ts args vs X M sp bot flags rv fd ga D ta X1 M1 m X2 M2 X3 X4 M4 v X5 M5,
  g_sign c = sign /\ (ty_code rt = T_UINT16 \/ ty_code rt = T_SINT16) /\
  setup c org rt ts args vs X M sp bot flags rv fd ga D ta /\ away bot sp rv (result_room rt) /\
  reach c org (St X org M) (St X1 (ld M D) M1) /\ prep_args ts args M1 (X1 0) = Some m /\ prep_back bot X1 m X2 M2 /\
  reach c org (St X2 (X1 16) M2) (St X3 (ld M fd) M2) /\ fn_back org sp ta X3 M2 X4 M4 /\ is_value rt v /\ returned rt v X4 /\
  reach c org (St X4 (X3 16) M4) (St X5 (X 16) M5) /\ bytes_at M5 rv (zlen (stored rt v)) <> stored rt v.
Proof.
  intros [|].
  - assert (B : run_b true u16 [u32] [31008] [[7; 8; 9; 10]] 2 6300 b_objs 65535 0 27 = true) by (vm_compute; reflexivity).
    pose proof (run_ok _ _ _ _ _ _ _ _ _ _ _ B) as (SU & R1 & PA & PB & R3 & FB & R5).
    exists (conf true), 4096, u16, [u32], [31008], [[7; 8; 9; 10]]. do 18 eexists. exists [255; 255]. do 2 eexists. split; [reflexivity|]. split; [left; reflexivity|].
    split; [exact SU|]. split; [apply away_ok; reflexivity|]. split; [exact R1|]. split; [exact PA|]. split; [exact PB|]. split; [exact R3|]. split; [exact FB|].
    split; [apply value_ok; reflexivity|]. split; [vm_compute; reflexivity|]. split; [exact R5|]. vm_compute. discriminate.
  - assert (B : run_b false s16 [u32] [31008] [[7; 8; 9; 10]] 2 6300 b_objs (2 ^ 32 - 1) 0 27 = true) by (vm_compute; reflexivity).
    pose proof (run_ok _ _ _ _ _ _ _ _ _ _ _ B) as (SU & R1 & PA & PB & R3 & FB & R5).
    exists (conf false), 4096, s16, [u32], [31008], [[7; 8; 9; 10]]. do 18 eexists. exists [255; 255]. do 2 eexists. split; [reflexivity|]. split; [right; reflexivity|].
    split; [exact SU|]. split; [apply away_ok; reflexivity|]. split; [exact R1|]. split; [exact PA|]. split; [exact PB|]. split; [exact R3|]. split; [exact FB|].
    split; [apply value_ok; reflexivity|]. split; [vm_compute; reflexivity|]. split; [exact R5|]. vm_compute. discriminate.
Qed.
(** The function is entered with another value than its descriptor has. *)
Lemma got_bad : exists c org rt ts args vs X M sp bot flags rv fd ga D ta X1 M1 m X2 M2 X3,
  setup c org rt ts args vs X M sp bot flags rv fd ga D ta /\
  reach c org (St X org M) (St X1 (ld M D) M1) /\ prep_args ts args M1 (X1 0) = Some m /\ prep_back bot X1 m X2 M2 /\
  reach c org (St X2 (X1 16) M2) (St X3 (ld M fd) M2) /\ X3 11 <> ld M (fd + 4).
Proof.
  assert (B : run_b true i64 a_ts a_args a_vs 3 77 a_objs 1 2 27 = true) by (vm_compute; reflexivity).
  pose proof (run_ok _ _ _ _ _ _ _ _ _ _ _ B) as (SU & R1 & PA & PB & R3 & _).
  do 22 eexists. split; [exact SU|]. split; [exact R1|]. split; [exact PA|]. split; [exact PB|]. split; [exact R3|]. vm_compute. discriminate.
Qed.
