(** Sample states for the statements about s390x. *)
From Coq Require Import ZifyBool ZifyNat.
From Verif Require Import TypeHeapExamples Base BaseFacts Types LayoutSpec NaturalTypes NaturalFacts ByteMem S390Model S390Spec S390Facts S390Arg S390Call S390Clo S390AsmModel S390AsmRun S390Top S390Back.
Local Open Scope Z_scope.
Local Arguments Z.mul : simpl never.
Local Arguments Z.add : simpl never.
Local Arguments Z.sub : simpl never.
Local Arguments Z.pow : simpl never.
Local Arguments Z.of_nat : simpl never.

(** ** Checks by computation *)

Definition same (a b : list Z) : bool := if list_eq_dec Z.eq_dec a b then true else false.
Lemma same_iff a b : same a b = true <-> a = b.
Proof. unfold same. destruct (list_eq_dec Z.eq_dec a b); split; congruence. Qed.
Definition byte_b (b : Z) : bool := (0 <=? b) && (b <? 256).
Lemma bytes_b d : forallb byte_b d = true -> bytes_ok d.
Proof. rewrite forallb_forall. intros H. apply Forall_forall. intros x I. specialize (H x I). unfold byte_b in H. unfold byte_ok. lia. Qed.
Definition value_b (t : ftype) (v : list Z) : bool := (zlen v =? ty_size t) && forallb byte_b v.
Lemma value_ok t v : value_b t v = true -> is_value t v.
Proof. intros H. apply andb_prop in H as [H1 H2]. split; [lia|apply bytes_b, H2]. Qed.
Definition carries_b (M : Z -> Z) (t : ftype) (l : loc) (w : Z) (v : list Z) : bool :=
  if by_ref t then same (bytes_at M w (ty_size t)) v
  else if floating t then
    match l with
    | LF _ => same (word_bytes 0 (Z.to_nat (ty_size t)) w) v
    | _ => same (word_bytes (Z.to_nat (8 - ty_size t)) (Z.to_nat (ty_size t)) w) v
    end
  else match ty_code t with
       | T_STRUCT => same (word_bytes (Z.to_nat (8 - ty_size t)) (Z.to_nat (ty_size t)) w) v
       | _ => w mod 2 ^ 64 =? extended t v mod 2 ^ 64
       end.
Lemma carries_ok M t l w v : carries_b M t l w v = true -> carries M t l w v.
Proof.
  unfold carries_b, carries. destruct (by_ref t); [apply same_iff|]. destruct (floating t); [destruct l; apply same_iff|].
  destruct (ty_code t); try apply same_iff; apply Z.eqb_eq.
Qed.
Fixpoint passed_b (h : Z) (pre ts : list ftype) (vs : list (list Z)) (X F M : Z -> Z) : bool :=
  match ts, vs with
  | t :: ts', v :: vs' => carries_b M t (place h pre t) (word X F M (place h pre t)) v && passed_b h (pre ++ [t]) ts' vs' X F M
  | _, _ => true
  end.
Lemma passed_from h X F M ts : forall pre vs, passed_b h pre ts vs X F M = true -> forall i t v, nth_error ts i = Some t -> nth_error vs i = Some v ->
  carries M t (place h (pre ++ firstn i ts) t) (word X F M (place h (pre ++ firstn i ts) t)) v.
Proof.
  induction ts as [|t0 ts IH]; intros pre [|v0 vs] H [|i] t v Nt Nv; try discriminate; cbn [passed_b] in H; apply andb_prop in H as [H1 H2].
  - injection Nt as <-. injection Nv as <-. cbn [firstn]. rewrite app_nil_r. apply carries_ok, H1.
  - specialize (IH _ _ H2 i t v Nt Nv). rewrite <- app_assoc in IH. exact IH.
Qed.
Lemma passed_ok h ts vs X F M : passed_b h [] ts vs X F M = true -> passed h ts vs X F M.
Proof. intros H i t v Nt Nv. exact (passed_from _ _ _ _ _ _ _ H i t v Nt Nv). Qed.
Fixpoint refs_b (h : Z) (pre ts : list ftype) (X F M : Z -> Z) (lo hi : Z) : bool :=
  match ts with
  | t :: ts' => let w := word X F M (place h pre t) in (negb (by_ref t) || (w + ty_size t <=? lo) || (hi <=? w)) && refs_b h (pre ++ [t]) ts' X F M lo hi
  | _ => true
  end.
Lemma refs_from h X F M lo hi ts : forall pre, refs_b h pre ts X F M lo hi = true -> forall i t, nth_error ts i = Some t -> by_ref t = true ->
  let w := word X F M (place h (pre ++ firstn i ts) t) in w + ty_size t <= lo \/ hi <= w.
Proof.
  induction ts as [|t0 ts IH]; intros pre H [|i] t Nt B; try discriminate; cbn [refs_b] in H; apply andb_prop in H as [H1 H2].
  - injection Nt as <-. cbn [firstn]. rewrite app_nil_r. rewrite B in H1. cbn [negb orb] in H1. lia.
  - specialize (IH _ H2 i t Nt B). rewrite <- app_assoc in IH. exact IH.
Qed.
Lemma refs_ok h ts X F M lo hi : refs_b h [] ts X F M lo hi = true -> refs_outside h ts X F M lo hi.
Proof. intros H i t Nt B. exact (refs_from _ _ _ _ _ _ _ _ H i t Nt B). Qed.
Fixpoint objects_b (M : Z -> Z) (lo hi : Z) (ts : list ftype) (args : list Z) (vs : list (list Z)) : bool :=
  match ts, args, vs with
  | [], [], [] => true
  | t :: ts', a :: as', v :: vs' =>
    value_b t v && same (bytes_at M a (ty_size t)) v && ((a + ty_size t <=? lo) || (hi <=? a)) && objects_b M lo hi ts' as' vs'
  | _, _, _ => false
  end.
Lemma objects_ok M lo hi ts : Forall ctype ts -> forall args vs, objects_b M lo hi ts args vs = true -> objects M lo hi ts args vs.
Proof.
  induction 1 as [|t ts C _ IH]; intros [|a args] [|v vs] H; cbn [objects_b objects] in *; try discriminate H; [exact Logic.I|].
  apply andb_prop in H as [H H4]. apply andb_prop in H as [H H3]. apply andb_prop in H as [H1 H2].
  split; [exact C|]. split; [apply value_ok, H1|]. split; [apply same_iff, H2|]. split; [lia|apply IH, H4].
Qed.
Definition get {A} (d : A) (r : res A) : A := match r with Ok x => x | _ => d end.
Definition is_ok {A} (r : res A) : bool := match r with Ok _ => true | _ => false end.
Lemma get_ok {A} (d : A) r : is_ok r = true -> r = Ok (get d r).
Proof. destruct r; cbn; congruence. Qed.

(** Memory holding some pieces, registers with some values, zero elsewhere. *)
Fixpoint put (l : list (Z * list Z)) : Z -> Z := match l with [] => fun _ => 0 | (a, d) :: r => wr (put r) a d end.
Fixpoint rg (l : list (Z * Z)) : Z -> Z := match l with [] => fun _ => 0 | (r, v) :: t => upd (rg t) r v end.
Lemma put_ok l : forallb (fun q => forallb byte_b (snd q)) l = true -> bytes_in (put l).
Proof.
  induction l as [|[a d] l IH]; cbn [forallb put snd]; intros H; [intros x; lia|]. apply andb_prop in H as [H1 H2].
  apply wr_bytes; [apply IH, H2|apply bytes_b, H1].
Qed.
Lemma rg_ok l : forallb (fun q => (0 <=? snd q) && (snd q <? 2 ^ 64)) l = true -> words_in (rg l).
Proof.
  induction l as [|[a d] l IH]; cbn [forallb rg snd]; intros H; [intros x; lia|]. apply andb_prop in H as [H1 H2].
  intros r. unfold upd. destruct (r =? a); [lia|apply IH, H2].
Qed.

(** ** Types *)

Definition ty_one : ftype := FT T_STRUCT 4 4 [ty_float].
Definition ty_rgb : ftype := FT T_STRUCT 3 1 [ty_uint8; ty_uint8; ty_uint8].
Definition ty_pair : ftype := FT T_STRUCT 4 2 [ty_sint16; ty_sint16].
Ltac num := apply ct_number; cbn; tauto.
Lemma one_ok : ctype ty_one.
Proof.
  apply ct_struct with (offs := [0]); [discriminate|repeat (constructor; [num|]); constructor|].
  exists 4. split; [|split; [reflexivity|apply (lm 4 4 4 1); lia]].
  constructor; [apply (lm 4 0 0 0); lia|]. constructor.
Qed.
Lemma rgb_ok : ctype ty_rgb.
Proof.
  apply ct_struct with (offs := [0; 1; 2]); [discriminate|repeat (constructor; [num|]); constructor|].
  exists 3. split; [|split; [reflexivity|apply (lm 1 3 3 3); lia]].
  constructor; [apply (lm 1 0 0 0); lia|]. constructor; [apply (lm 1 1 1 1); lia|]. constructor; [apply (lm 1 2 2 2); lia|]. constructor.
Qed.
Lemma pair_ok : ctype ty_pair.
Proof.
  apply ct_struct with (offs := [0; 2]); [discriminate|repeat (constructor; [num|]); constructor|].
  exists 4. split; [|split; [reflexivity|apply (lm 2 4 4 2); lia]].
  constructor; [apply (lm 2 0 0 0); lia|]. constructor; [apply (lm 2 2 2 1); lia|]. constructor.
Qed.
Ltac ct := repeat first [apply Forall_nil | apply Forall_cons | apply one_ok | apply rgb_ok | apply pair_ok | apply ct_pointer | num].

Definition s_ts : list ftype := [ty_sint8; ty_double; ty_quad; ty_rgb; ty_one; ty_pair; ty_sint32; ty_pointer].
Lemma s_ok : Forall ctype s_ts.
Proof. unfold s_ts. ct. Qed.
Definition s_vs : list (list Z) :=
  [[200]; [64; 9; 33; 251; 84; 68; 45; 24]; [1; 2; 3; 4; 5; 6; 7; 8; 9; 10; 11; 12; 13; 14; 15; 16]; [17; 18; 19]; [66; 40; 0; 1]; [255; 254; 1; 2]; [128; 0; 0; 3]; [0; 0; 0; 0; 0; 18; 52; 86]].
Definition s_args : list Z := [4096; 4104; 4112; 4128; 4132; 4136; 4140; 4144].
Definition s_m : Z -> Z := put (combine s_args s_vs).
Definition no_cif : zcif := ZCif [] ty_void 0 0.
Definition cif_of (rt : ftype) (ts : list ftype) : zcif := get no_cif (machdep rt ts).
Lemma quad_ok : rtype_ok ty_quad.
Proof. right. num. Qed.
Lemma double_ok : rtype_ok ty_double.
Proof. right. num. Qed.

(** The places of the arguments and the space set aside. *)
Lemma s_places :
  map (fun i => place 1 (firstn i s_ts) (nth i s_ts ty_void)) (seq 0 8) = [LG 3; LF 0; LG 4; LG 5; LF 2; LG 6; LS 0; LS 1] /\
  map (fun i => place 0 (firstn i s_ts) (nth i s_ts ty_void)) (seq 0 8) = [LG 2; LF 0; LG 3; LG 4; LF 2; LG 5; LG 6; LS 0] /\
  room 1 s_ts = 48 /\ room 0 s_ts = 48 /\ rtype_ok ty_quad /\ Forall ctype s_ts /\ map by_ref s_ts = [false; false; true; true; false; false; false; false] /\ map floating s_ts = [false; true; false; false; true; false; false; false].
Proof. split; [reflexivity|]. split; [reflexivity|]. split; [reflexivity|]. split; [reflexivity|]. split; [apply quad_ok|]. split; [apply s_ok|]. split; reflexivity. Qed.

Definition s_sp : Z := 1048576.
Definition top_of (rt : ftype) (ts : list ftype) (rv : Z) : Z := s_sp + 160 + tc_bytes (cif_of rt ts) + 160 + (if (rv =? 0) && (hidden rt =? 1) then ty_size rt else 0).
Lemma setup_by rt ts rv args vs m : rtype_ok rt -> Forall ctype ts ->
  is_ok (machdep rt ts) && (room (hidden rt) ts <? 2 ^ 32) && (top_of rt ts rv <=? 2 ^ 64) && objects_b m s_sp (top_of rt ts rv) ts args vs && (0 <=? rv) && (rv <? 2 ^ 64) = true ->
  setup rt ts (cif_of rt ts) rv args vs m s_sp (top_of rt ts rv).
Proof.
  intros R C H. apply andb_prop in H as [H H6]. apply andb_prop in H as [H H5]. apply andb_prop in H as [H H4]. apply andb_prop in H as [H H3]. apply andb_prop in H as [H1 H2].
  split; [exact R|]. split; [apply get_ok, H1|]. split; [lia|]. split; [reflexivity|]. split; [vm_compute; congruence|]. split; [lia|]. split; [apply objects_ok; assumption|]. lia.
Qed.
Lemma s_call : setup ty_quad s_ts (cif_of ty_quad s_ts) 8192 s_args s_vs s_m s_sp (top_of ty_quad s_ts 8192) /\
  setup ty_quad s_ts (cif_of ty_quad s_ts) 0 s_args s_vs s_m s_sp (top_of ty_quad s_ts 0) /\
  setup ty_double s_ts (cif_of ty_double s_ts) 8192 s_args s_vs s_m s_sp (top_of ty_double s_ts 8192).
Proof.
  split; [|split]; apply setup_by; try apply s_ok; try apply quad_ok; try apply double_ok; vm_compute; reflexivity.
Qed.
Definition s_org : Z := 8388608.
Definition s_e : Z := 9437184.
Definition s_fn : Z := 2097152.
(** What call_int hands to the assembly code. *)
Definition s_out (rt : ftype) (rv : Z) : (Z -> Z) * Z * Z * Z := get (fun _ => 0, 0, 0, 0) (call_int (cif_of rt s_ts) rv s_args (s_sp + 160) 5000000 s_m).
Definition s_regs (rt : ftype) (rv fn : Z) : Z -> Z :=
  let '(_, fr, cd, p) := s_out rt rv in rg [(2, fr); (3, cd); (4, p); (5, fn); (6, 77); (12, 12012); (13, 13013); (14, 3000000); (15, s_sp)].
Definition s_enter (rt : ftype) (rv : Z) (n : nat) : option st :=
  let '(m1, _, _, _) := s_out rt rv in steps s_e text s_org n (St (s_regs rt rv s_fn) (fun _ => 0) (at_label src s_org 1) m1).
Lemma s_entered : option_map (fun s => (spc s, map (sx s) [0; 2; 3; 4; 5; 6; 15], map (sf s) [0; 2], rd (sm s) (s_sp + 160) 48)) (s_enter ty_quad 8192 16) =
  Some (s_fn, [77; 8192; 2 ^ 64 - 56; 1048768; 1048752; 4294836482; s_sp], [4614256656552045848; 66 * 2 ^ 56 + 40 * 2 ^ 48 + 2 ^ 32],
        [255; 255; 255; 255; 128; 0; 0; 3; 0; 0; 0; 0; 0; 18; 52; 86; 17; 18; 19; 0; 0; 0; 0; 0; 0; 0; 0; 0; 0; 0; 0; 0; 1; 2; 3; 4; 5; 6; 7; 8; 9; 10; 11; 12; 13; 14; 15; 16]).
Proof. vm_compute. reflexivity. Qed.

(** ** Closures *)

Fixpoint values_b (ts : list ftype) (vs : list (list Z)) : bool :=
  match ts, vs with [], [] => true | t :: ts', v :: vs' => value_b t v && values_b ts' vs' | _, _ => false end.
Lemma values_ok ts : forall vs, values_b ts vs = true -> Forall2 is_value ts vs.
Proof. induction ts as [|t ts IH]; intros [|v vs] H; cbn [values_b] in H; try discriminate H; constructor; apply andb_prop in H as [H1 H2]; [apply value_ok, H1|apply IH, H2]. Qed.
Definition c_clo : Z := 589824.
Lemma incoming_by rt ts vs xs fs ms : rtype_ok rt -> Forall ctype ts ->
  let X := rg xs in let F := rg fs in let M := put ms in
  is_ok (machdep rt ts) && (room (hidden rt) ts <? 2 ^ 32) && values_b ts vs && forallb (fun q => forallb byte_b (snd q)) ms &&
  forallb (fun q => (0 <=? snd q) && (snd q <? 2 ^ 64)) xs && forallb (fun q => (0 <=? snd q) && (snd q <? 2 ^ 64)) fs &&
  (X 15 =? s_sp) && passed_b (hidden rt) [] ts vs X F M && refs_b (hidden rt) [] ts X F M (s_sp - 176) (s_sp + 160) = true ->
  incoming rt ts vs (cif_of rt ts) c_clo X F M.
Proof.
  intros R C X F M H. apply andb_prop in H as [H H9]. apply andb_prop in H as [H H8]. apply andb_prop in H as [H H7]. apply andb_prop in H as [H H6]. apply andb_prop in H as [H H5]. apply andb_prop in H as [H H4]. apply andb_prop in H as [H H3]. apply andb_prop in H as [H1 H2].
  assert (E15 : X 15 = s_sp) by lia. unfold incoming. rewrite E15.
  split; [exact R|]. split; [exact C|]. split; [lia|]. split; [apply get_ok, H1|]. split; [apply values_ok, H3|]. split; [apply put_ok, H4|].
  split; [intros r _; apply rg_ok, H5|]. split; [intros r _; apply rg_ok, H6|]. split; [vm_compute; congruence|]. split; [vm_compute; congruence|]. split; [vm_compute; congruence|]. split; [vm_compute; congruence|].
  split; [left; vm_compute; congruence|]. split; [apply passed_ok, H8|apply refs_ok, H9].
Qed.
Definition c_xs : list (Z * Z) := [(0, c_clo); (2, 8192); (3, 2 ^ 64 - 56); (4, 500000); (5, 500016); (6, 4294836482); (13, 13013); (14, 3000000); (15, s_sp)].
Definition c_fs : list (Z * Z) := [(0, 4614256656552045848); (2, 4767060209866637312)].
Definition c_ms : list (Z * list Z) :=
  [(c_clo, be_enc 8 s_e ++ be_enc 8 333 ++ be_enc 8 444); (c_clo + 32, be_enc 8 111 ++ be_enc 8 222 ++ be_enc 8 999); (500000, [1; 2; 3; 4; 5; 6; 7; 8; 9; 10; 11; 12; 13; 14; 15; 16]); (500016, [17; 18; 19]);
   (s_sp + 160, [255; 255; 255; 255; 128; 0; 0; 3; 0; 0; 0; 0; 0; 18; 52; 86])].
Lemma c_in : incoming ty_quad s_ts s_vs (cif_of ty_quad s_ts) c_clo (rg c_xs) (rg c_fs) (put c_ms) /\ rg c_xs 0 = c_clo.
Proof. split; [|reflexivity]. apply incoming_by; [apply quad_ok|apply s_ok|vm_compute; reflexivity]. Qed.
(** With a result in a register. *)
Definition d_xs : list (Z * Z) := [(0, c_clo); (2, 2 ^ 64 - 56); (3, 500000); (4, 500016); (5, 4294836482); (6, 2 ^ 64 - 2 ^ 31 + 3); (13, 13013); (14, 3000000); (15, s_sp)].
Definition d_ms : list (Z * list Z) :=
  [(c_clo, be_enc 8 s_e ++ be_enc 8 333 ++ be_enc 8 444); (c_clo + 32, be_enc 8 111 ++ be_enc 8 222 ++ be_enc 8 999); (500000, [1; 2; 3; 4; 5; 6; 7; 8; 9; 10; 11; 12; 13; 14; 15; 16]); (500016, [17; 18; 19]);
   (s_sp + 160, [0; 0; 0; 0; 0; 18; 52; 86])].
Lemma sint_ok : rtype_ok ty_sint16.
Proof. right. num. Qed.
Lemma d_in : incoming ty_sint16 s_ts s_vs (cif_of ty_sint16 s_ts) c_clo (rg d_xs) (rg c_fs) (put d_ms) /\ rg d_xs 0 = c_clo /\
  is_value ty_sint16 [255; 7] /\ stored ty_sint16 [255; 7] = [255; 255; 255; 255; 255; 255; 255; 7].
Proof.
  split; [|split; [reflexivity|split; [apply value_ok; reflexivity|reflexivity]]]. apply incoming_by; [apply sint_ok|apply s_ok|vm_compute; reflexivity].
Qed.
(** What the handler is given there. *)
Lemma d_values : option_map (fun s => (spc s, map (sx s) [2; 3; 4], match closure_values (cif_of ty_sint16 s_ts) (sx s 5) (sx s 6) (be_dec (rd (sm s) (sx s 15 + 160) 8)) 444 (sm s) with
    | Ok (p, avs) => (p, map (fun q => rd (sm s) (fst q) (Z.to_nat (ty_size (snd q)))) (combine avs s_ts)) | _ => (0, []) end)) (steps s_e text s_org 18 (St (rg d_xs) (rg c_fs) (at_label src s_org 5) (put d_ms))) =
  Some (s_e, [111; 222; 999], (444, s_vs)).
Proof. vm_compute. reflexivity. Qed.
(** Five words, one of them in %r6. *)
Definition f_xs : list (Z * Z) := [(0, c_clo); (2, 11); (3, 22); (4, 33); (5, 44); (6, 55); (13, 13013); (14, 3000000); (15, s_sp)].
Definition f_vs : list (list Z) := map (be_enc 8) [11; 22; 33; 44; 55].
Lemma f_in : incoming ty_void five f_vs (cif_of ty_void five) c_clo (rg f_xs) (rg []) (put d_ms) /\ rg f_xs 0 = c_clo /\ rg f_xs 6 <> 0.
Proof.
  split; [|split; [reflexivity|vm_compute; congruence]]. apply incoming_by; [left; reflexivity|unfold five; ct|vm_compute; reflexivity].
Qed.

(** ** A prepared closure *)

Definition t_m : option (Z -> Z) := prep_closure true c_clo 111 222 999 c_clo (at_label src s_org 5) s_m.
Lemma prep_bytes clo cif func data loc entry m m' : bytes_in m -> prep_closure true clo cif func data loc entry m = Some m' -> bytes_in m'.
Proof.
  intros B H. unfold prep_closure in H. injection H as <-. repeat (apply wr_bytes; [|apply be_enc_ok]). apply wr_bytes; [exact B|]. apply bytes_b. reflexivity.
Qed.
Lemma t_trip : exists m, prep_closure true c_clo 111 222 999 c_clo (at_label src s_org 5) s_m = Some m /\ bytes_in m /\
  setup ty_sint16 s_ts (cif_of ty_sint16 s_ts) 8192 s_args s_vs m s_sp (top_of ty_sint16 s_ts 8192) /\
  (c_clo + 56 <= s_sp \/ top_of ty_sint16 s_ts 8192 <= c_clo) /\ (8192 <> 0 -> hidden ty_sint16 = 0 -> 8192 + 8 <= s_sp \/ top_of ty_sint16 s_ts 8192 <= 8192 /\ 8192 + 8 <= 2 ^ 64).
Proof.
  eexists. split; [reflexivity|]. split. { eapply prep_bytes; [|reflexivity]. apply put_ok. vm_compute. reflexivity. }
  split; [apply setup_by; [apply sint_ok|apply s_ok|vm_compute; reflexivity]|]. split; [left; vm_compute; congruence|]. intros _ _. left. vm_compute. congruence.
Qed.
(** The dynamic and the static trampoline in a sample memory. *)
Lemma t_dynamic : option_map (fun m => option_map (fun s => (spc s =? at_label src s_org 5, sx s 0, sx s 2)) (msteps 3 (St (rg c_xs) (rg c_fs) c_clo m))) t_m = Some (Some (true, c_clo, 8192)).
Proof. vm_compute. reflexivity. Qed.
Lemma t_static : exists m', prep_closure_static true c_clo 111 222 999 (2097152 + 4096 + 16 * 7) (at_label src s_org 5) s_m = Some m' /\
  (c_clo + 56 <= 2097152 \/ 2097152 + 8192 <= c_clo) /\
  option_map (fun s => (spc s =? at_label src s_org 5, sx s 0, sx s 2)) (steps s_e table_text 2097152 3 (St (rg c_xs) (rg c_fs) (2097152 + 16 * 7) m')) = Some (true, c_clo, 8192).
Proof. eexists. split; [reflexivity|]. split; [left; vm_compute; congruence|]. vm_compute. reflexivity. Qed.
