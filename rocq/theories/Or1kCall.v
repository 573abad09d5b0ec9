(** ffi_prep_args and ffi_call of the or1k backend: arguments are where the ABI wants them. *)
From Coq Require Import ZifyBool ZifyNat.
From Verif Require Import Base BaseFacts Types ByteMem S390Model S390Facts Or1kModel Or1kSpec Or1kFacts.
Local Open Scope Z_scope.
Local Arguments Z.mul : simpl never.
Local Arguments Z.add : simpl never.
Local Arguments Z.sub : simpl never.
Local Arguments Z.pow : simpl never.
Local Arguments Z.div : simpl never.
Local Arguments Z.modulo : simpl never.
Local Arguments Z.of_nat : simpl never.
Local Arguments be_enc : simpl never.
Local Arguments rd : simpl never.

(** Where ffi_prep_args puts the contents of a place. *)
Definition spot (stack : Z) (l : loc) : Z := match l with LR r => stack + 4 * (r - 3) | LS o => stack + 24 + o end.
Fixpoint laid (m : Z -> Z) (stack e : Z) (ls : list loc) (ts : list ftype) (args : list Z) (vs : list (list Z)) : Prop :=
  match ls, ts, args, vs with
  | [], [], [], [] => True
  | l :: ls', t :: ts', a :: args', v :: vs' =>
    rd m (spot stack l) (Z.to_nat (4 * words t)) = image t a v /\
    match l with LR r => 3 <= r /\ r + words t <= 9 | LS o => 0 <= o /\ 24 + o + 4 * words t <= e end /\
    laid m stack e ls' ts' args' vs'
  | _, _, _, _ => False
  end.

Lemma objects_ext M M' lo hi ts : forall args vs, (forall x, ~ (lo <= x < hi) -> M' x = M x) -> objects M lo hi ts args vs -> objects M' lo hi ts args vs.
Proof.
  induction ts as [|t ts IH]; intros [|a args] [|v vs] E H; cbn [objects] in *; try contradiction; auto.
  destruct H as (O & V & R & A & D & H). split; [exact O|]. split; [exact V|]. split.
  { rewrite bytes_at_rd in *. rewrite <- R. apply rd_ext. intros x Hx. apply E. lia. }
  split; [exact A|]. split; [exact D|]. apply IH; auto.
Qed.
Lemma objects_sub M lo hi lo' hi' ts : forall args vs, lo <= lo' -> hi' <= hi -> objects M lo hi ts args vs -> objects M lo' hi' ts args vs.
Proof.
  induction ts as [|t ts IH]; intros [|a args] [|v vs] L H K; cbn [objects] in *; try contradiction; auto.
  destruct K as (O & V & R & A & D & K). split; [exact O|]. split; [exact V|]. split; [exact R|]. split; [exact A|]. split; [lia|]. apply IH; auto.
Qed.

Lemma extent_le ts : forall g s fixed, 0 <= g <= 6 -> 4 * g + s <= extent g s fixed ts.
Proof.
  induction ts as [|t ts IH]; intros g s fixed G; cbn [extent]; [lia|]. destruct (words_cases t) as [W|W]; rewrite W;
    destruct ((0 <? fixed) && _) eqn:E;
    match goal with |- _ <= extent ?g' ?s' ?f' ts => pose proof (IH g' s' f') end; lia.
Qed.

(** One step of the invariant. *)
Lemma prep_arg_inv stack t arg v st g s fixed :
  otype t -> is_value t v -> rd (p_m st) arg (Z.to_nat (ty_size t)) = v ->
  0 <= g <= 6 -> 0 <= s -> (g < 6 -> s = 0) -> (fixed < 0 -> g = 6) ->
  p_count st = 4 * g + s -> p_at st = stack + (4 * g + s) -> p_fixed st = fixed ->
  let '(l, g', s') := if (0 <? fixed) && (g + words t <=? 6) then (LR (3 + g), g + words t, s) else (LS s, 6, s + 4 * words t) in
  prep_arg stack t arg st = PSt (wr (p_m st) (spot stack l) (image t arg v)) (stack + (4 * g' + s')) (4 * g' + s') (fixed - 1) /\
  spot stack l + 4 * words t = stack + (4 * g' + s') /\ p_at st <= spot stack l /\ 0 <= g' <= 6 /\ 0 <= s' /\ (g' < 6 -> s' = 0) /\ (fixed - 1 < 0 -> g' = 6).
Proof.
  intros O V R G S GS FX C A F. rewrite (prep_arg_eq stack t arg v st O V R). unfold skip_regs. rewrite F, C, A.
  destruct (words_cases t) as [W|W]; rewrite W; cbn [Z.eqb Pos.eqb andb];
    destruct ((fixed =? 0) && (4 * g + s <? 24)) eqn:E1; cbn [p_at p_count];
    match goal with |- context [(0 <? fixed) && ?b] => destruct ((0 <? fixed) && b) eqn:E2 end; cbn [spot];
    try (match goal with |- context [?b =? 20] => destruct (b =? 20) eqn:E3 end);
    try lia; (split; [f_equal; try lia; f_equal; lia|lia]).
Qed.

Lemma prep_loop_inv stack ts : forall args vs st g s fixed hi,
  0 <= g <= 6 -> 0 <= s -> (g < 6 -> s = 0) -> (fixed < 0 -> g = 6) ->
  p_count st = 4 * g + s -> p_at st = stack + (4 * g + s) -> p_fixed st = fixed ->
  objects (p_m st) stack hi ts args vs -> stack + extent g s fixed ts <= hi ->
  let st' := prep_loop stack ts args st in let e := extent g s fixed ts in
  p_count st' = e /\ (forall x, ~ (p_at st <= x < stack + e) -> p_m st' x = p_m st x) /\
  laid (p_m st') stack e (places g s fixed ts) ts args vs /\ (bytes_in (p_m st) -> bytes_in (p_m st')).
Proof.
  induction ts as [|t ts IH]; intros [|a args] [|v vs] st g s fixed hi G S GS FX C A F OB HI; cbn [objects] in OB; try contradiction.
  { cbn. auto. }
  destruct OB as (O & V & R & Aa & D & OB). rewrite bytes_at_rd in R.
  pose proof (prep_arg_inv stack t a v st g s fixed O V R G S GS FX C A F) as P.
  cbn [prep_loop extent places] in *. pose proof (words_cases t) as WC.
  assert (L : zlen (image t a v) = 4 * words t) by (unfold zlen; rewrite image_length by assumption; destruct (words_cases t); lia).
  destruct ((0 <? fixed) && (g + words t <=? 6)) eqn:E; destruct P as (P1 & P2 & P3 & P4 & P5 & P6 & P7); rewrite P1.
  - set (m1 := wr (p_m st) (spot stack (LR (3 + g))) (image t a v)).
    pose proof (extent_le ts (g + words t) s (fixed - 1) P4) as EL.
    destruct (IH args vs (PSt m1 (stack + (4 * (g + words t) + s)) (4 * (g + words t) + s) (fixed - 1)) (g + words t) s (fixed - 1) hi) as (I1 & I2 & I3 & I4); cbn [p_m p_at p_count p_fixed]; auto.
    { eapply objects_ext; [|exact OB]. intros x Hx. unfold m1. apply wr_out. lia. }
    cbn [p_m p_at p_count p_fixed] in *. split; [exact I1|]. split.
    { intros x Hx. rewrite I2 by lia. unfold m1. apply wr_out. lia. }
    split; [|intros B; apply I4; unfold m1; apply wr_bytes; [exact B|apply image_ok, V]].
    cbn [laid]. split; [|split; [cbn match; lia|exact I3]]. rewrite <- (image_length t a v O V).
    rewrite (rd_ext m1). { apply rd_wr_same. reflexivity. } intros x Hx. apply I2. fold (zlen (image t a v)) in Hx. lia.
  - set (m1 := wr (p_m st) (spot stack (LS s)) (image t a v)).
    pose proof (extent_le ts 6 (s + 4 * words t) (fixed - 1) P4) as EL.
    destruct (IH args vs (PSt m1 (stack + (4 * 6 + (s + 4 * words t))) (4 * 6 + (s + 4 * words t)) (fixed - 1)) 6 (s + 4 * words t) (fixed - 1) hi) as (I1 & I2 & I3 & I4); cbn [p_m p_at p_count p_fixed]; auto.
    { eapply objects_ext; [|exact OB]. intros x Hx. unfold m1. apply wr_out. lia. }
    cbn [p_m p_at p_count p_fixed] in *. split; [exact I1|]. split.
    { intros x Hx. rewrite I2 by lia. unfold m1. apply wr_out. lia. }
    split; [|intros B; apply I4; unfold m1; apply wr_bytes; [exact B|apply image_ok, V]].
    cbn [laid]. split; [|split; [cbn match; lia|exact I3]]. rewrite <- (image_length t a v O V).
    rewrite (rd_ext m1). { apply rd_wr_same. reflexivity. } intros x Hx. apply I2. fold (zlen (image t a v)) in Hx. lia.
Qed.

(** The same for ffi_prep_args. *)
Lemma prep_args_inv rt ts fixed flags rv args vs stack m hi :
  0 <= fixed -> 0 <= rv < 2 ^ 32 -> objects m stack hi ts args vs ->
  let e := extent (hidden rt) 0 fixed ts in stack + e <= hi ->
  let c := OCif ts rt fixed flags in
  exists m', prep_args c rv args stack m = (m', stack + (if 24 <? e then 24 else 0)) /\
    (forall x, ~ (stack <= x < stack + e) -> m' x = m x) /\
    laid m' stack e (places (hidden rt) 0 fixed ts) ts args vs /\
    (hidden rt = 1 -> rd m' stack 4 = be_enc 4 rv) /\ (bytes_in m -> bytes_in m').
Proof.
  intros F RV OB e HI c. unfold prep_args, c. cbn [oc_args]. unfold prep_start. cbn [oc_rt oc_fixed]. rewrite is_struct_eq.
  assert (H0 : hidden rt = 0 /\ aggregate rt = false \/ hidden rt = 1 /\ aggregate rt = true) by (unfold hidden; destruct (aggregate rt); auto).
  destruct H0 as [(H0 & Ag)|(H0 & Ag)]; rewrite Ag; unfold e in *; rewrite H0 in *; clear e.
  - destruct (prep_loop_inv stack ts args vs (PSt m stack 0 fixed) 0 0 fixed hi) as (I1 & I2 & I3 & I4); cbn [p_m p_at p_count p_fixed] in *; auto; try lia.
    exists (p_m (prep_loop stack ts args (PSt m stack 0 fixed))). rewrite I1. split; [reflexivity|]. split; [exact I2|]. split; [exact I3|]. split; [discriminate|exact I4].
  - pose proof (extent_le ts 1 0 fixed ltac:(lia)) as EL.
    unfold put_word. cbn [p_m p_at p_count p_fixed].
    set (m1 := wr m stack (be_enc 4 rv)).
    destruct (prep_loop_inv stack ts args vs (PSt m1 (stack + 4) (0 + 4) fixed) 1 0 fixed hi) as (I1 & I2 & I3 & I4); cbn [p_m p_at p_count p_fixed] in *; auto; try lia.
    { eapply objects_ext; [|exact OB]. intros x Hx. unfold m1. apply wr_out. rewrite be_enc_zlen. lia. }
    exists (p_m (prep_loop stack ts args (PSt m1 (stack + 4) (0 + 4) fixed))). rewrite I1. split; [reflexivity|]. split.
    { intros x Hx. rewrite I2 by lia. unfold m1. apply wr_out. rewrite be_enc_zlen. lia. }
    split; [exact I3|]. split.
    { intros _. rewrite (rd_ext m1). { apply rd_wr_same. rewrite be_enc_length. reflexivity. } intros x Hx. apply I2. lia. }
    intros B. apply I4. unfold m1. apply wr_bytes; [exact B|apply be_enc_ok].
Qed.

(** From the image in memory to registers and the stack. *)
Lemma laid_passed X M stack e ts : forall ls args vs lo hi,
  bytes_in M -> laid M stack e ls ts args vs -> objects M lo hi ts args vs ->
  (forall r, 3 <= r <= 8 -> X r = be_dec (rd M (stack + 4 * (r - 3)) 4)) -> (24 < e -> X 1 = stack + 24) ->
  passed_in X M ls ts vs /\ refs_outside X M lo hi ls ts.
Proof.
  induction ts as [|t ts IH]; intros [|l ls] [|a args] [|v vs] lo hi B L OB XR X1; cbn [objects laid passed_in refs_outside] in *; try contradiction; auto.
  destruct OB as (O & V & R & Aa & D & OB). destruct L as (L1 & L2 & L3).
  destruct (IH ls args vs lo hi B L3 OB XR X1) as (I1 & I2).
  assert (CE : content X M l (words t) = image t a v).
  { rewrite <- L1. destruct l as [r|o]; cbn [content spot].
    - destruct (words_cases t) as [W|W]; rewrite W in *; cbn [Z.eqb Pos.eqb].
      + rewrite word_enc, XR by lia. apply rd_word, B.
      + change (Z.to_nat (4 * 2)) with 8%nat. rewrite rd_8, !word_enc, !XR by lia. rewrite !rd_word by exact B. f_equal. f_equal. lia.
    - rewrite bytes_at_rd. f_equal. rewrite X1; [lia|]. destruct (words_cases t); lia. }
  split; (split; [|assumption]).
  2: { intros Ag. assert (W : words t = 1) by (unfold words; rewrite Ag; reflexivity). rewrite W in CE. rewrite CE. unfold image. rewrite Ag.
    rewrite value_dec, be_dec_enc. change (2 ^ (8 * Z.of_nat 4)) with (2 ^ 32). rewrite Z.mod_small by lia. exact D. }
  rewrite CE. unfold carries, image. destruct (aggregate t).
  - rewrite value_dec, be_dec_enc. change (2 ^ (8 * Z.of_nat 4)) with (2 ^ 32). rewrite Z.mod_small by lia. exact R.
  - destruct (_ <? _); [|reflexivity]. rewrite value_dec, be_dec_enc. reflexivity.
Qed.

(** Space. *)
Lemma extent_size ts : forall g s fixed, Forall otype ts -> 0 <= g <= 6 -> 0 <= s -> (g < 6 -> s = 0) ->
  let z := fold_right (fun t n => arg_room t + n) 0 ts in
  extent g s fixed ts <= 4 * g + s + z + (if fixed =? zlen ts then 4 else 24).
Proof.
  induction ts as [|t ts IH]; intros g s fixed OT G S GS z; [unfold z; cbn [extent fold_right]; destruct (_ =? _); lia|].
  inversion OT as [|? ? O OT']; subst. cbn [extent]. unfold z. cbn [fold_right].
  assert (AR : arg_room t = 4 * words t).
  { unfold arg_room, words, otype, is_struct, aggregate in *. destruct (ty_code t); try contradiction; rewrite ?O; reflexivity. }
  assert (Zl : zlen (t :: ts) = zlen ts + 1) by (unfold zlen; cbn [length]; lia).
  assert (Full : forall s' f, 0 <= s' -> extent 6 s' f ts = 24 + s' + fold_right (fun t n => arg_room t + n) 0 ts).
  { clear IH Zl z S GS. revert OT'. clear OT. induction ts as [|u us IHu]; intros OT' s' f Hs; [cbn; lia|].
    inversion OT' as [|? ? Ou OTu]; subst. cbn [extent fold_right].
    assert (AU : arg_room u = 4 * words u).
    { unfold arg_room, words, otype, is_struct, aggregate in *. destruct (ty_code u); try contradiction; rewrite ?Ou; reflexivity. }
    replace ((0 <? f) && (6 + words u <=? 6)) with false by (destruct (words_cases u); lia).
    rewrite IHu; auto; destruct (words_cases u); lia. }
  destruct ((0 <? fixed) && (g + words t <=? 6)) eqn:E.
  - pose proof (IH (g + words t) s (fixed - 1) OT') as I. cbv zeta in I. rewrite Zl.
    replace (fixed =? zlen ts + 1) with (fixed - 1 =? zlen ts) by lia. destruct (words_cases t); lia.
  - rewrite Full by (destruct (words_cases t); lia). rewrite Zl. assert (0 <= zlen ts) by (unfold zlen; lia).
    destruct (fixed =? zlen ts + 1) eqn:E2; destruct (words_cases t); lia.
Qed.

Lemma extent_room ts : forall g s fixed, Forall otype ts -> 0 <= g <= 6 -> 0 <= s -> (g < 6 -> s = 0) ->
  let z := fold_right (fun t n => arg_room t + n) 0 ts in
  gap g fixed ts = false \/ fixed <> zlen ts -> extent g s fixed ts <= 4 * g + s + z + (if fixed =? zlen ts then 0 else 24).
Proof.
  intros g s fixed OT G S GS z H.
  destruct (fixed =? zlen ts) eqn:E0; [|unfold z; pose proof (extent_size ts g s fixed OT G S GS) as K; cbv zeta in K; rewrite E0 in K; lia].
  assert (NG : gap g fixed ts = false) by (destruct H; [auto|lia]). clear H. unfold z. clear z.
  revert g s fixed OT G S GS E0 NG. induction ts as [|t ts IH]; intros g s fixed OT G S GS E0 NG; [cbn; lia|].
  inversion OT as [|? ? O OT']; subst. cbn [extent fold_right gap] in *.
  assert (AR : arg_room t = 4 * words t).
  { unfold arg_room, words, otype, is_struct, aggregate in *. destruct (ty_code t); try contradiction; rewrite ?O; reflexivity. }
  assert (Zl : zlen (t :: ts) = zlen ts + 1) by (unfold zlen; cbn [length]; lia).
  assert (P : 0 <= zlen ts) by (unfold zlen; lia).
  destruct ((0 <? fixed) && (g + words t <=? 6)) eqn:E.
  - assert (NG' : gap (g + words t) (fixed - 1) ts = false) by (destruct (gap (g + words t) (fixed - 1) ts); [lia|reflexivity]).
    pose proof (words_cases t) as WC. specialize (IH (g + words t) s (fixed - 1) OT' ltac:(lia) ltac:(lia) ltac:(lia) ltac:(lia) NG'). lia.
  - assert (G6 : g = 6) by (destruct (words_cases t) as [W|W]; rewrite W in *; lia).
    pose proof (IH 6 (s + 4 * words t) (fixed - 1) OT') as I. destruct (words_cases t) as [W|W]; rewrite W in *;
      (assert (NG' : gap 6 (fixed - 1) ts = false) by (destruct ts as [|u us]; [reflexivity|cbn [gap]; destruct (words_cases u) as [U|U]; rewrite U; destruct (0 <? fixed - 1); reflexivity]);
       specialize (I ltac:(lia) ltac:(lia) ltac:(lia) ltac:(lia) NG'); lia).
Qed.
