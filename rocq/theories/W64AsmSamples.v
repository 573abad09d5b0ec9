(** Sample states for the statements about src/x86/win64.S. *)
From Coq Require Import ZifyBool ZifyNat.
From Verif Require Import Base BaseFacts ByteMem Types LayoutSpec NaturalTypes NaturalFacts Unix64Model Unix64Spec Unix64Link
  Win64Model Win64Spec Win64Link PropsUnix64Lemmas PropsWin64Lemmas.
From Verif Require Import W64AsmModel W64AsmFacts W64AsmSpec W64AsmEnd.
Local Open Scope Z_scope.
Local Arguments Z.mul : simpl never.
Local Arguments Z.add : simpl never.
Local Arguments Z.sub : simpl never.
Local Arguments Z.pow : simpl never.
Local Arguments Z.of_nat : simpl never.
Local Arguments le_enc : simpl never.

Lemma wr_byte m a d : (forall x, byte_ok (m x)) -> bytes_ok d -> forall x, byte_ok (wr m a d x).
Proof.
  intros H B x. unfold wr. destruct ((a <=? x) && (x <? a + zlen d)) eqn:E; [|apply H].
  apply (proj1 (Forall_forall _ _) B). apply nth_In. unfold zlen in E. lia.
Qed.
Lemma bytes_okb l : forallb (fun b => (0 <=? b) && (b <? 256)) l = true -> bytes_ok l.
Proof. intros H. apply Forall_forall. intros x Hx. rewrite forallb_forall in H. specialize (H x Hx). unfold byte_ok. lia. Qed.

(** Memory with blocks. *)
Definition put (l : list (Z * list Z)) : Z -> Z := fold_right (fun ab M => wr M (fst ab) (snd ab)) (fun _ => 0) l.
Lemma put_ok l : forallb (fun ab => forallb (fun b => (0 <=? b) && (b <? 256)) (snd ab)) l = true -> forall x, byte_ok (put l x).
Proof.
  induction l as [|[a b] l IH]; intros H; cbn [put fold_right fst snd].
  - intros x. unfold byte_ok. lia.
  - cbn [forallb fst snd] in H. apply andb_prop in H. destruct H as [H1 H2]. apply wr_byte; [apply IH, H2|apply bytes_okb, H1].
Qed.

Definition lz_eqb (a b : list Z) : bool := if list_eq_dec Z.eq_dec a b then true else false.
Lemma lz_eq a b : lz_eqb a b = true -> a = b.
Proof. unfold lz_eqb. destruct (list_eq_dec Z.eq_dec a b); [auto|discriminate]. Qed.

Lemma has_b M m : forallb (fun b => lz_eqb (rd M (b_addr b) (length (b_bytes b))) (b_bytes b)) m = true -> memory_has M m.
Proof. intros H. apply Forall_forall. intros b Hb. rewrite forallb_forall in H. apply lz_eq, H, Hb. Qed.
Lemma outside_b m lo hi : forallb (fun b => (b_addr b + zlen (b_bytes b) <=? lo) || (hi <=? b_addr b)) m = true -> outside m lo hi.
Proof. intros H. apply Forall_forall. intros b Hb. rewrite forallb_forall in H. specialize (H b Hb). unfold apart. cbn [fst snd]. lia. Qed.

(** The call of PropsWin64Lemmas with its argument area at 65536, called from a stack at 32768. *)
Definition v_cfg : cfg := Cfg true true false.
Definition v_call := ffi_call_x86 wex_cif (Some 8192) 0 wex_ptrs [5000; 6000] 65536 [] [] (repeat 55 56) [] [] wex_mem.
Definition v_state : wstate := match v_call with Ok (EnterWin s, _, _, _, _) => s | _ => WState [] [] 0 0 [] end.
Definition v_mem' : mem := match v_call with Ok (_, _, _, _, m) => m | _ => [] end.
Definition v_regs : Z -> Z := fun i =>
  if i =? RDI then 65536 else if i =? RSI then 65592 else if i =? RDX then 0 else if i =? RSP then 32768 else if i =? RBP then 33000 else 5.
Definition v_vecs : Z -> list Z := fun _ => repeat 9 16.
Definition v_mem : Z -> Z :=
  put ([(32768, le_enc 8 40000); (65536, w_stack v_state); (65608, frame_bytes 50000 13 8192)] ++ map (fun b => (b_addr b, b_bytes b)) v_mem').

Lemma v_called :
  (exists av, v_call = Ok (EnterWin v_state, 13, Some 8192, av, v_mem')) /\ zlen (repeat 55 56) = c_bytes wex_cif /\
  text_ok v_cfg true 4096 /\ machine_ok v_regs v_vecs v_mem /\
  called v_cfg 65536 (65536 + c_bytes wex_cif) 0 (w_stack v_state) 50000 13 (Some 8192) 40000 v_regs v_mem /\
  memory_has v_mem v_mem' /\ outside v_mem' (65536 - 104) (65536 + 32) /\ outside v_mem' (65536 + c_bytes wex_cif) (65536 + c_bytes wex_cif + 16).
Proof.
  split; [eexists; vm_compute; reflexivity|]. split; [reflexivity|]. split; [unfold text_ok; cbn; lia|]. split.
  { split; [intros i; unfold v_regs; rn; repeat destruct (_ =? _); lia|]. split; [intros i; split; [reflexivity|apply bytes_okb; reflexivity]|].
    apply put_ok. vm_compute. reflexivity. }
  split.
  { change (65536 + c_bytes wex_cif) with 65592. split; [reflexivity|]. split; [reflexivity|]. split; [reflexivity|]. split; [change (v_regs RSP) with 32768; lia|]. split; [lia|].
    split; [vm_compute; reflexivity|]. split; [lia|]. split; [vm_compute; reflexivity|]. split; apply lz_eq; vm_compute; reflexivity. }
  split; [apply has_b; vm_compute; reflexivity|]. split; apply outside_b; vm_compute; reflexivity.
Qed.

(** A function has returned the 16-bit integer -2, with garbage above. *)
Definition v_ret : Z -> Z := fun i => if i =? RBP then 65592 else if i =? RSP then 65536 else if i =? RAX then 4294967294 + 2 ^ 40 - 65536 else 5.
Definition v_rmem : Z -> Z := put [(65592, le_enc 8 33000 ++ le_enc 8 40000); (65616, le_enc 8 8 ++ le_enc 8 8192)].
Lemma v_returned :
  natural ty_sint16 /\ win_hidden ty_sint16 = false /\ zlen [254; 255] = ty_size ty_sint16 /\ text_ok v_cfg true 4096 /\
  zlen (v_vecs 0) = 16 /\ v_ret RBP = 65592 /\ frame_at v_rmem 65592 33000 40000 (win_flags FFI_WIN64 ty_sint16) (Some 8192) /\
  8192 + result_width ty_sint16 <= 65592 /\ win_returned ty_sint16 (v_ret RAX) (v_vecs 0) [254; 255].
Proof.
  split; [apply natural_scalar; cbn; tauto|]. split; [reflexivity|]. split; [reflexivity|]. split; [unfold text_ok; cbn; lia|]. split; [reflexivity|]. split; [reflexivity|].
  split; [split; apply lz_eq; vm_compute; reflexivity|]. split; [vm_compute; discriminate|]. vm_compute. reflexivity.
Qed.

Definition v_vmem : Z -> Z := put [(65592, le_enc 8 33000 ++ le_enc 8 40000); (65616, le_enc 8 13 ++ le_enc 8 8192)].
Lemma v_unstored :
  rt_ok wex_ret /\ win_ret_ok FFI_GNUW64 wex_ret /\ win_hidden wex_ret = true /\ 13 = win_flags FFI_GNUW64 wex_ret /\
  v_ret RBP = 65592 /\ frame_at v_vmem 65592 33000 40000 13 (Some 8192).
Proof.
  destruct wex_ok as (_ & R & Ho & _). split; [exact R|]. split; [exact Ho|]. split; [reflexivity|]. split; [reflexivity|]. split; [reflexivity|].
  split; apply lz_eq; vm_compute; reflexivity.
Qed.

(** A closure of the signature of the call, entered with its arguments: return address at 65528,
    closure at 4096 (or a Go closure there). *)
Definition v_clo : Z -> Z := fun i =>
  if i =? RCX then nth 0 (w_gpr v_state) 0 else if i =? RDX then nth 1 (w_gpr v_state) 0 else if i =? R8 then nth 2 (w_gpr v_state) 0
  else if i =? R9 then nth 3 (w_gpr v_state) 0 else if i =? RSP then 65528 else if i =? R10 then 4096 else 5.
Definition v_cvec : Z -> list Z := fun i => nth (Z.to_nat i) (w_xmm v_state) (repeat 0 16).
Definition v_cmem (go : bool) : Z -> Z :=
  let M := put ([(65528, le_enc 8 40000 ++ w_stack v_state)] ++ map (fun b => (b_addr b, b_bytes b)) v_mem') in
  if go then prep_go 4096 777 1 2 M else prep_closure 4096 777 1 2 3 (repeat 144 24) M.

Lemma v_clo_range i : 0 <= v_clo i < 2 ^ 64.
Proof.
  assert (Bg : forallb (fun x => (0 <=? x) && (x <? 2 ^ 64)) (w_gpr v_state) = true) by (vm_compute; reflexivity).
  assert (Lg : length (w_gpr v_state) = 4%nat) by (vm_compute; reflexivity).
  rewrite forallb_forall in Bg.
  assert (Hn : forall j, (j < 4)%nat -> 0 <= nth j (w_gpr v_state) 0 < 2 ^ 64).
  { intros j Hj. assert (Hi : In (nth j (w_gpr v_state) 0) (w_gpr v_state)) by (apply nth_In; rewrite Lg; exact Hj). specialize (Bg _ Hi). lia. }
  clear Bg Lg. unfold v_clo. rn.
  repeat (match goal with |- context[if i =? ?k then _ else _] => destruct (i =? k) end; [match goal with |- context[nth ?j _ _] => apply (Hn j); repeat constructor | _ => lia end|]). lia.
Qed.

Lemma v_entered go :
  text_ok v_cfg true 8192 /\ machine_ok v_clo v_cvec (v_cmem go) /\ v_clo RSP = 65528 /\ v_clo R10 = 4096 /\
  clo_holds go (v_cmem go) 4096 1 2 (if go then 4096 else 3) /\
  Forall2 (fun t v => zlen v = ty_size t) wex_args wex_vals /\
  win_all (win_holds (wstate_of v_clo v_cvec (v_cmem go) (65528 + 8) (Z.to_nat 56)) v_mem') wex_args wex_vals (win_first wex_ret) /\
  memory_has (v_cmem go) v_mem' /\ outside v_mem' (65528 - 96) 65528 /\ outside v_mem' (65528 + 8) (65528 + 40) /\ le_dec (rd (v_cmem go) 65528 8) = 40000.
Proof.
  split; [unfold text_ok; cbn; lia|]. split.
  { split; [exact v_clo_range|]. split.
    { intros i. unfold v_cvec. destruct (lt_dec (Z.to_nat i) (length (w_xmm v_state))) as [L|L].
      - assert (Bx : forallb (fun x => (zlen x =? 16) && forallb (fun b => (0 <=? b) && (b <? 256)) x) (w_xmm v_state) = true) by (vm_compute; reflexivity).
        rewrite forallb_forall in Bx. specialize (Bx _ (nth_In _ (repeat 0 16) L)). apply andb_prop in Bx. destruct Bx as [B1 B2].
        split; [lia|apply bytes_okb, B2].
      - rewrite nth_overflow by lia. split; [reflexivity|apply bytes_okb; reflexivity]. }
    unfold v_cmem. destruct go; (apply wr_byte; [apply put_ok; vm_compute; reflexivity|apply bytes_okb; vm_compute; reflexivity]). }
  split; [reflexivity|]. split; [reflexivity|]. split.
  { pose proof (clo_prepared go (put ([(65528, le_enc 8 40000 ++ w_stack v_state)] ++ map (fun b => (b_addr b, b_bytes b)) v_mem')) 4096 1 2 3 777 (repeat 144 24)
      eq_refl ltac:(lia) ltac:(lia) ltac:(lia)) as H. destruct go; exact H. }
  split; [repeat constructor|]. split.
  { assert (E : wstate_of v_clo v_cvec (v_cmem go) (65528 + 8) (Z.to_nat 56) =
      WState (w_gpr v_state) (w_xmm v_state) 4096 65536 (w_stack v_state)).
    { unfold wstate_of. f_equal. apply lz_eq; destruct go; vm_compute; reflexivity. }
    rewrite E. unfold win_holds. cbn [w_gpr w_xmm w_stack].
    destruct wex_ok as (A & R & Ho & N & Sz & P & At & Al & _).
    destruct (ffi_call_win FFI_GNUW64 wex_args wex_ret wex_vals wex_ptrs 0 0 wex_cif (Some 8192) 0 [5000; 6000] 65536 [] [] (repeat 55 56) [] [] wex_mem) as
      (s & fl & rv' & av & m' & Ec & _ & _ & H & _); auto; try lia; try reflexivity.
    { intros p Ep. injection Ep as <-. lia. }
    fold v_call in Ec. unfold v_state, v_mem'. rewrite Ec. exact H. }
  split; [apply has_b; destruct go; vm_compute; reflexivity|]. split; [apply outside_b; vm_compute; reflexivity|]. split; [apply outside_b; vm_compute; reflexivity|].
  destruct go; vm_compute; reflexivity.
Qed.

(** The handler has left -2 as a 16-bit integer, widened. *)
Definition v_done : Z -> Z := fun i => if i =? RSP then 65528 - 88 else if i =? RBP then 65592 else 5.
Definition v_dmem (ra : Z) : Z -> Z := put [(65528, le_enc 8 ra); (65528 - 48, le_enc 8 (-2) ++ repeat 1 8);
  (65592, le_enc 8 33000 ++ le_enc 8 40000); (65616, le_enc 8 8 ++ le_enc 8 8192)].
Lemma v_left :
  let ra := at_label (src v_cfg) 4096 5 in
  natural ty_sint16 /\ win_hidden ty_sint16 = false /\ zlen [254; 255] = ty_size ty_sint16 /\ bytes_ok [254; 255] /\
  text_ok v_cfg true 4096 /\ machine_ok v_done v_vecs (v_dmem ra) /\ v_done RSP = 65528 - 88 /\ v_done RBP = 65536 + 56 /\
  rd (v_dmem ra) 65528 8 = le_enc 8 ra /\ frame_at (v_dmem ra) (65536 + 56) 33000 40000 (win_flags FFI_WIN64 ty_sint16) (Some 8192) /\
  win_result_holds ty_sint16 [254; 255] (rd (v_dmem ra) (65528 - 48) 16).
Proof.
  cbv zeta. split; [apply natural_scalar; cbn; tauto|]. split; [reflexivity|]. split; [reflexivity|]. split; [apply bytes_okb; reflexivity|]. split; [unfold text_ok; cbn; lia|].
  split. { split; [intros i; unfold v_done; rn; repeat destruct (_ =? _); lia|]. split; [intros i; split; [reflexivity|apply bytes_okb; reflexivity]|].
    apply put_ok. vm_compute. reflexivity. }
  split; [reflexivity|]. split; [reflexivity|]. split; [apply lz_eq; vm_compute; reflexivity|]. split; [split; apply lz_eq; vm_compute; reflexivity|].
  vm_compute. reflexivity.
Qed.

(** Five arguments: the stack pointer comes back unaligned. *)
Lemma unaligned :
  exists ts c, Forall natural ts /\ machdep_x86 (TCif FFI_WIN64 ts ty_void 0 0) = Ok (FFI_OK, c) /\
    forall base g ib inner org X V cf zf M rbp ra,
      base mod 16 = 0 -> 0 <= base -> base + c_bytes c + 40 <= 2 ^ 64 ->
      text_ok g ib org -> zlen (V 0) = 16 -> X RBP = base + c_bytes c ->
      frame_at M (base + c_bytes c) rbp ra (c_flags c) None -> 0 <= rbp < 2 ^ 64 -> 0 <= ra < 2 ^ 64 ->
      exists X1 c1 z1 M1, reach ib inner (text g) org (St X V cf zf false (at_label (src g) org 5) M) (St X1 V c1 z1 false ra M1) /\
        X1 RSP mod 16 = 8.
Proof.
  exists (repeat ty_sint32 5), (TCif FFI_WIN64 (repeat ty_sint32 5) ty_void 40 0). split; [repeat (constructor; [apply natural_scalar; cbn; tauto|]); constructor|]. split; [vm_compute; reflexivity|].
  cbn [c_bytes c_flags]. intros base g ib inner org X V cf zf M rbp ra A B0 B1 Tx Lv Xb Fr Br Ba.
  destruct (no_result_stored FFI_WIN64 ty_void g ib inner org X V cf zf M (base + 40) rbp ra 0 None) as (X1 & c1 & z1 & M1 & R & Sp & _);
    auto; try lia; try (right; reflexivity); try (right; discriminate).
  { intros p E. discriminate E. }
  exists X1, c1, z1, M1. split; [exact R|]. rewrite Sp. apply Z.mod_divide in A; [|lia]. destruct A as [q ->].
  replace (q * 16 + 40 + 16) with (8 + (q + 3) * 16) by lia. rewrite Z.mod_add by lia. reflexivity.
Qed.

(** long double, 16 bytes, under FFI_WIN64. *)
Lemma long_double_aborts :
  exists rt c, natural rt /\ machdep_x86 (TCif FFI_WIN64 [] rt 0 0) = Ok (FFI_OK, c) /\
    forall g ib inner org X V cf zf M P rbp ra rv,
      text_ok g ib org -> X RBP = P -> 0 <= P -> P + 40 <= 2 ^ 64 -> frame_at M P rbp ra (c_flags c) rv ->
      0 <= rbp < 2 ^ 64 -> 0 <= ra < 2 ^ 64 -> (forall p, rv = Some p -> 0 <= p < 2 ^ 64) ->
      exists s1, reach ib inner (text g) org (St X V cf zf false (at_label (src g) org 5) M) s1 /\ step ib inner (text g) org s1 = None.
Proof.
  exists ty_longdouble, (TCif FFI_WIN64 [] ty_longdouble 32 4). split; [apply natural_scalar; cbn; tauto|]. split; [vm_compute; reflexivity|].
  cbn [c_flags]. intros. eapply abort_reached; eauto.
Qed.
