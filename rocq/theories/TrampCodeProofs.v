(** Execution of the trampolines. *)
From Coq Require Import ZifyBool ZifyNat.
From Verif Require Import Base BaseFacts TrampCodeModel TrampCodeSpec.
Local Arguments Z.mul : simpl never.
Local Arguments Z.add : simpl never.
Local Arguments Z.sub : simpl never.
Local Arguments Z.pow : simpl never.
Local Arguments Z.eqb : simpl never.

Lemma wrap64_idem a : wrap64 (wrap64 a) = wrap64 a.
Proof. unfold wrap64, wrap. apply Z.mod_mod. lia. Qed.
Lemma wrap64_add a b : wrap64 (wrap64 a + b) = wrap64 (a + b).
Proof. unfold wrap64, wrap. apply Zplus_mod_idemp_l. Qed.
Lemma wrap64_add2 a b c : wrap64 (wrap64 a + b + c) = wrap64 (a + b + c).
Proof. rewrite <- !Z.add_assoc. apply wrap64_add. Qed.
Lemma wrap64_small a : 0 <= a < 2 ^ 64 -> wrap64 a = a.
Proof. unfold wrap64, wrap. apply Z.mod_small. Qed.

Lemma mbytes_cong m n : forall a b, wrap64 a = wrap64 b -> mbytes m a n = mbytes m b n.
Proof.
  induction n as [|n IH]; intros a b E; cbn [mbytes]; [reflexivity|]. rewrite E. f_equal. apply IH.
  rewrite <- (wrap64_add a), <- (wrap64_add b), E. reflexivity.
Qed.
Lemma mbytes_wrap m a n : mbytes m (wrap64 a) n = mbytes m a n.
Proof. apply mbytes_cong, wrap64_idem. Qed.
Lemma mbytes_length m n : forall a, length (mbytes m a n) = n.
Proof. induction n; intros; cbn [mbytes length]; auto. Qed.
Lemma mbytes_add m n k : forall a, mbytes m a (n + k) = mbytes m a n ++ mbytes m (a + Z.of_nat n) k.
Proof.
  induction n as [|n IH]; intros a.
  - cbn [Nat.add mbytes app]. f_equal. lia.
  - cbn [Nat.add mbytes app]. rewrite IH. do 3 f_equal. lia.
Qed.

Lemma app_inj {A} (a b c d : list A) : length a = length c -> a ++ b = c ++ d -> a = c /\ b = d.
Proof.
  revert c. induction a as [|x a IH]; intros [|y c] L E; try discriminate; [auto|].
  injection L as L. injection E as -> E. destruct (IH c L E) as [-> ->]. auto.
Qed.

Lemma code_app m a x y : code_at m a (x ++ y) <-> code_at m a x /\ code_at m (a + zlen x) y.
Proof.
  unfold code_at, zlen. rewrite app_length, mbytes_add. split.
  - intros H. apply app_inj in H; [exact H|apply mbytes_length].
  - intros [-> ->]. reflexivity.
Qed.

Lemma step_ok s ib i : code_at (m_mem s) (m_rip s) ib -> (length ib <= 15)%nat ->
  (forall rest, decode (ib ++ rest) = Some (i, rest)) ->
  step s = exec i (wrap64 (m_rip s + zlen ib)) s.
Proof.
  intros C L D. unfold step. replace 15%nat with (length ib + (15 - length ib))%nat at 1 by lia.
  rewrite mbytes_add, C, D. do 2 f_equal. unfold zlen. rewrite mbytes_length. lia.
Qed.

(** ** Loads and stores *)

Lemma store_other m d : forall a x, 0 <= a -> a + zlen d <= 2 ^ 64 -> ~ (a <= x < a + zlen d) -> store m a d x = m x.
Proof.
  induction d as [|b d IH]; intros a x Ha Hl Hx; cbn [store]; [reflexivity|]. unfold zlen in *. cbn [length] in *.
  rewrite wrap64_small by lia. destruct (Z.eqb_spec x a); [lia|]. apply IH; lia.
Qed.

Lemma mbytes_ext m m' n : forall a, 0 <= a -> a + Z.of_nat n <= 2 ^ 64 ->
  (forall x, a <= x < a + Z.of_nat n -> m' x = m x) -> mbytes m' a n = mbytes m a n.
Proof.
  induction n as [|n IH]; intros a Ha Hl E; cbn [mbytes]; [reflexivity|]. rewrite wrap64_small by lia. rewrite E by lia.
  f_equal. apply IH; try lia. intros x Hx. apply E. lia.
Qed.

Lemma store_same m d : forall a, 0 <= a -> a + zlen d <= 2 ^ 64 -> mbytes (store m a d) a (length d) = d.
Proof.
  induction d as [|b d IH]; intros a Ha Hl; [reflexivity|]. unfold zlen in *. cbn [length] in *. cbn [mbytes].
  rewrite wrap64_small by lia. f_equal.
  - cbn [store]. rewrite wrap64_small by lia. rewrite Z.eqb_refl. reflexivity.
  - transitivity (mbytes (store m (a + 1) d) (a + 1) (length d)); [|apply IH; lia].
    apply mbytes_ext; try lia. intros x Hx. cbn [store]. rewrite wrap64_small by lia.
    destruct (Z.eqb_spec x a); [lia|reflexivity].
Qed.

Lemma le_dec_cases n x : le_dec (le_enc n x) = x mod 2 ^ (8 * Z.of_nat n).
Proof. apply le_dec_enc. Qed.

Lemma load_store m a v : 0 <= a -> a + 8 <= 2 ^ 64 -> load (store m a (le_enc 8 v)) a 8 = v mod 2 ^ 64.
Proof.
  intros H1 H2. unfold load. pose proof (store_same m (le_enc 8 v) a H1) as S.
  rewrite le_enc_length in S. rewrite S by (unfold zlen; rewrite le_enc_length; lia). rewrite le_dec_enc. reflexivity.
Qed.

Lemma load_ext m m' a n : 0 <= a -> a + Z.of_nat n <= 2 ^ 64 -> (forall x, a <= x < a + Z.of_nat n -> m' x = m x) ->
  load m' a n = load m a n.
Proof. intros. unfold load. f_equal. apply mbytes_ext; auto. Qed.

Lemma code_ext m m' a bs : 0 <= a -> a + zlen bs <= 2 ^ 64 -> (forall x, a <= x < a + zlen bs -> m' x = m x) ->
  code_at m a bs -> code_at m' a bs.
Proof. unfold code_at. intros H1 H2 H3 <-. rewrite mbytes_length. apply mbytes_ext; auto. Qed.

Lemma load_wrap m a n : load m (wrap64 a) n = load m a n.
Proof. unfold load. rewrite mbytes_wrap. reflexivity. Qed.

(** ** The dynamic trampoline *)

Lemma dynamic_ok s dest : 0 <= m_rip s < 2 ^ 64 -> 0 <= dest < 2 ^ 64 ->
  code_at (m_mem s) (m_rip s) (dynamic_closure_code dest) ->
  exists n s', steps n s = Some s' /\ m_rip s' = dest /\ m_reg s' R10 = m_rip s /\ keeps [R10] 0 0 s s'.
Proof.
  intros Hc Hd C. set (a := m_rip s) in *. unfold dynamic_closure_code in C. apply code_app in C as [C Cd].
  change dynamic_tramp with ([243; 15; 30; 250] ++ [76; 141; 21; 245; 255; 255; 255] ++ [255; 37; 7; 0; 0; 0] ++ [15; 31; 128; 0; 0; 0; 0]) in C.
  apply code_app in C as [C1 C]. apply code_app in C as [C2 C]. apply code_app in C as [C3 _].
  change (zlen dynamic_tramp) with 24 in Cd.
  change (zlen [243; 15; 30; 250]) with 4 in *. change (zlen [76; 141; 21; 245; 255; 255; 255]) with 7 in *.
  set (s1 := Mach (m_reg s) (wrap64 (a + 4)) (m_mem s)).
  assert (E1 : step s = Some s1).
  { rewrite (step_ok s _ INop C1); [reflexivity|cbn; lia|reflexivity]. }
  set (s2 := Mach (set_reg (m_reg s) R10 a) (wrap64 (a + 11)) (m_mem s)).
  assert (C2' : code_at (m_mem s1) (m_rip s1) [76; 141; 21; 245; 255; 255; 255]).
  { unfold code_at. cbn [m_rip m_mem s1]. rewrite mbytes_wrap. exact C2. }
  assert (E2 : step s1 = Some s2).
  { rewrite (step_ok s1 _ (ILea R10 (ORip (-11))) C2'); [|cbn; lia|reflexivity].
    cbn [exec ea m_mem m_rip m_reg s1]. rewrite ?wrap64_add, ?wrap64_add2. unfold s2. do 2 f_equal.
    - f_equal. change (zlen [76; 141; 21; 245; 255; 255; 255]) with 7. replace (a + 4 + 7 + -11) with a by lia. apply wrap64_small. lia.
    - f_equal. change (zlen [76; 141; 21; 245; 255; 255; 255]) with 7. lia. }
  assert (C3' : code_at (m_mem s2) (m_rip s2) [255; 37; 7; 0; 0; 0]).
  { unfold code_at. cbn [m_rip m_mem s2]. rewrite mbytes_wrap. replace (a + 11) with (a + 4 + 7) by lia. exact C3. }
  assert (E3 : step s2 = Some (Mach (set_reg (m_reg s) R10 a) dest (m_mem s))).
  { rewrite (step_ok s2 _ (IJmpInd (ORip 7)) C3'); [|cbn; lia|reflexivity].
    cbn [exec operand_value ea m_mem m_rip m_reg s2]. do 2 f_equal. rewrite ?wrap64_add, ?wrap64_add2, load_wrap.
    change (zlen [255; 37; 7; 0; 0; 0]) with 6. unfold load. replace (a + 11 + 6 + 7) with (a + 24) by lia.
    unfold code_at in Cd. rewrite le_enc_length in Cd. rewrite Cd, le_dec_enc. apply Z.mod_small. lia. }
  exists 3%nat. eexists. cbn [steps]. rewrite E1, E2, E3. split; [reflexivity|]. cbn [m_rip m_reg m_mem].
  split; [reflexivity|]. split; [reflexivity|]. split; cbn [m_reg m_mem].
  - intros r Hr. unfold set_reg. destruct (Z.eqb_spec r R10) as [->|]; [exfalso; apply Hr; left; reflexivity|reflexivity].
  - intros; reflexivity.
Qed.

(** ** The static trampoline *)

Ltac code_len := unfold zlen; cbn [length]; rewrite ?le_enc_length; cbn [length].

Ltac rip := match goal with |- Some (Mach _ ?x _) = Some (Mach _ ?y _) => replace x with y by lia end.

Lemma set_reg_same f r v : set_reg f r v r = v.
Proof. unfold set_reg. rewrite Z.eqb_refl. reflexivity. Qed.
Lemma set_reg_other f r v x : x <> r -> set_reg f r v x = f x.
Proof. intros H. unfold set_reg. destruct (Z.eqb_spec x r); [contradiction|reflexivity]. Qed.

Lemma steps_S n s s' : step s = Some s' -> steps (S n) s = steps n s'.
Proof. intros E. cbn [steps]. rewrite E. reflexivity. Qed.

Lemma steps_add n k s s' : steps n s = Some s' -> steps (n + k) s = steps k s'.
Proof.
  revert s. induction n as [|n IH]; intros s E; cbn [Nat.add steps] in *; [injection E as ->; reflexivity|].
  destruct (step s) as [s1|]; [|discriminate]. apply IH. exact E.
Qed.

Lemma decode_data (ilp32 : bool) v rest :
  0 <= v < 2 ^ 31 ->
  decode (((if ilp32 then 68 else 76) :: 139 :: 21 :: le_enc 4 v) ++ rest) = Some (ILoad (negb ilp32) R10 (ORip v), rest).
Proof.
  intros Hv. assert (E : to_signed 32 (le_dec (le_enc 4 v)) = v).
  { rewrite le_dec_enc. change (8 * Z.of_nat 4) with 32. unfold to_signed. rewrite Z.mod_mod by lia.
    rewrite Z.mod_small by lia. destruct (Z.ltb_spec v (2 ^ (32 - 1))); lia. }
  cbn [le_enc] in *. destruct ilp32; cbn -[le_dec to_signed Z.div Z.modulo]; unfold disp32; rewrite E; reflexivity.
Qed.

(** The part after the optional endbr64, from address [a] on. *)
Lemma static_body s ilp32 (a doff coff parm : Z) :
  m_rip s = a -> 0 <= a -> a + 30 <= 2 ^ 64 -> 0 <= parm -> parm + 16 <= 2 ^ 64 ->
  0 <= doff < 2 ^ 31 -> 0 <= coff < 2 ^ 31 ->
  a + 15 + doff = parm -> a + 27 + coff = parm + Z.of_nat (parm_words ilp32) ->
  16 <= m_reg s RSP < 2 ^ 64 -> (m_reg s RSP <= a \/ a + 30 <= m_reg s RSP - 16) ->
  (m_reg s RSP <= parm \/ parm + 16 <= m_reg s RSP - 16) ->
  code_at (m_mem s) a ([72; 131; 236; 16] ++ [76; 137; 20; 36] ++
     ((if ilp32 then 68 else 76) :: 139 :: 21 :: le_enc 4 doff) ++ [76; 137; 84; 36; 8] ++
     ((if ilp32 then 68 else 76) :: 139 :: 21 :: le_enc 4 coff) ++ [65; 255; 226]) ->
  (forall x, byte_ok (m_mem s x)) ->
  exists s', steps 6 s = Some s' /\
    m_rip s' = load (m_mem s) (parm + Z.of_nat (parm_words ilp32)) (parm_words ilp32) /\
    m_reg s' RSP = m_reg s RSP - 16 /\
    load (m_mem s') (m_reg s RSP - 16) 8 = m_reg s R10 mod 2 ^ 64 /\
    load (m_mem s') (m_reg s RSP - 8) 8 = load (m_mem s) parm (parm_words ilp32) /\
    keeps [R10; RSP] (m_reg s RSP - 16) 16 s s'.
Proof.
  intros Er Ha Hae Hp Hpe Hd Hc Ed Ec Hs Dc Dp C Bm. set (sp := m_reg s RSP) in *.
  assert (Pw : Z.of_nat (parm_words ilp32) <= 8) by (destruct ilp32; cbn; lia).
  assert (Ld : forall x, 0 <= load (m_mem s) x (parm_words ilp32) < 2 ^ 64).
  { intros x. unfold load. assert (B : bytes_ok (mbytes (m_mem s) x (parm_words ilp32))).
    { generalize (parm_words ilp32) as k. intros k. revert x. induction k; intros; cbn [mbytes]; [constructor|]. apply Forall_cons; [apply Bm|apply IHk]. }
    pose proof (le_dec_bound _ B) as H. unfold zlen in H. rewrite mbytes_length in H.
    assert (2 ^ (8 * Z.of_nat (parm_words ilp32)) <= 2 ^ 64) by (apply Z.pow_le_mono_r; lia). lia. }
  apply code_app in C as [C1 C]. apply code_app in C as [C2 C]. apply code_app in C as [C3 C].
  apply code_app in C as [C4 C]. apply code_app in C as [C5 C6].
  assert (Z1 : zlen [72; 131; 236; 16] = 4) by reflexivity.
  assert (Z2 : zlen [76; 137; 20; 36] = 4) by reflexivity.
  assert (Z3 : forall v, zlen ((if ilp32 then 68 else 76) :: 139 :: 21 :: le_enc 4 v) = 7) by (intros; code_len; lia).
  assert (Z4 : zlen [76; 137; 84; 36; 8] = 5) by reflexivity.
  assert (Z6 : zlen [65; 255; 226] = 3) by reflexivity.
  rewrite Z1, Z2, Z3, Z4 in *. rewrite Z3 in *.
  (* subq *)
  set (s1 := Mach (set_reg (m_reg s) RSP (sp - 16)) (a + 4) (m_mem s)).
  assert (E1 : step s = Some s1).
  { rewrite <- Er in C1. rewrite (step_ok s _ (IAddImm (OReg RSP) (-16)) C1); [|cbn; lia|reflexivity].
    cbn [exec]. rewrite Er, Z1. fold sp. unfold s1. rewrite !wrap64_small by lia. reflexivity. }
  (* save r10 *)
  set (m2 := store (m_mem s) (sp - 16) (le_enc 8 (m_reg s R10))).
  set (s2 := Mach (m_reg s1) (a + 8) m2).
  assert (E2 : step s1 = Some s2).
  { rewrite (step_ok s1 _ (IStore true (OMem RSP 0) R10) C2); [|cbn; lia|reflexivity].
    cbn [exec ea m_rip m_reg m_mem s1]. rewrite set_reg_same, (set_reg_other _ RSP _ R10) by discriminate.
    rewrite Z2. unfold s2, m2. rewrite !wrap64_small by lia. rip. replace (sp - 16 + 0) with (sp - 16) by lia. reflexivity. }
  assert (M2 : forall x, ~ (sp - 16 <= x < sp) -> m2 x = m_mem s x).
  { intros x Hx. unfold m2. apply store_other; unfold zlen; rewrite ?le_enc_length; lia. }
  (* data *)
  set (data := load (m_mem s) parm (parm_words ilp32)).
  set (s3 := Mach (set_reg (m_reg s1) R10 data) (a + 15) m2).
  assert (E3 : step s2 = Some s3).
  { assert (C3' : code_at (m_mem s2) (m_rip s2) ((if ilp32 then 68 else 76) :: 139 :: 21 :: le_enc 4 doff)).
    { cbn [m_mem m_rip s2]. replace (a + 8) with (a + 4 + 4) by lia.
      apply (code_ext (m_mem s)); [lia|rewrite Z3; lia|intros x Hx; rewrite Z3 in Hx; apply M2; lia|exact C3]. }
    rewrite (step_ok s2 _ (ILoad (negb ilp32) R10 (ORip doff)) C3'); [|code_len; lia|intros; apply decode_data; lia].
    cbn [exec operand_value ea m_rip m_reg m_mem s2]. rewrite Z3. unfold s3. rewrite ?wrap64_add, ?wrap64_add2, load_wrap.
    rewrite wrap64_small by lia. replace (a + 8 + 7 + doff) with parm by lia.
    replace (if negb ilp32 then 8%nat else 4%nat) with (parm_words ilp32) by (destruct ilp32; reflexivity).
    rewrite (load_ext (m_mem s) m2) by (try lia; intros; apply M2; lia). rip. reflexivity. }
  (* save data *)
  set (m4 := store m2 (sp - 8) (le_enc 8 data)).
  set (s4 := Mach (m_reg s3) (a + 20) m4).
  assert (E4 : step s3 = Some s4).
  { assert (C4' : code_at (m_mem s3) (m_rip s3) [76; 137; 84; 36; 8]).
    { cbn [m_mem m_rip s3]. replace (a + 15) with (a + 4 + 4 + 7) by lia.
      apply (code_ext (m_mem s)); [lia|rewrite Z4; lia|intros x Hx; rewrite Z4 in Hx; apply M2; lia|exact C4]. }
    rewrite (step_ok s3 _ (IStore true (OMem RSP 8) R10) C4'); [|cbn; lia|reflexivity].
    cbn [exec ea m_rip m_reg m_mem s3 s1]. rewrite set_reg_same, !(set_reg_other _ R10 _ RSP), set_reg_same by discriminate.
    rewrite Z4. unfold s4, m4. rewrite !wrap64_small by lia. rip. replace (sp - 16 + 8) with (sp - 8) by lia. reflexivity. }
  assert (M4 : forall x, ~ (sp - 16 <= x < sp) -> m4 x = m_mem s x).
  { intros x Hx. unfold m4. rewrite store_other by (unfold zlen; rewrite ?le_enc_length; lia). apply M2. lia. }
  (* target *)
  set (target := load (m_mem s) (parm + Z.of_nat (parm_words ilp32)) (parm_words ilp32)).
  set (s5 := Mach (set_reg (m_reg s3) R10 target) (a + 27) m4).
  assert (E5 : step s4 = Some s5).
  { assert (C5' : code_at (m_mem s4) (m_rip s4) ((if ilp32 then 68 else 76) :: 139 :: 21 :: le_enc 4 coff)).
    { cbn [m_mem m_rip s4]. replace (a + 20) with (a + 4 + 4 + 7 + 5) by lia.
      apply (code_ext (m_mem s)); [lia|rewrite Z3; lia|intros x Hx; rewrite Z3 in Hx; apply M4; lia|exact C5]. }
    rewrite (step_ok s4 _ (ILoad (negb ilp32) R10 (ORip coff)) C5'); [|code_len; lia|intros; apply decode_data; lia].
    cbn [exec operand_value ea m_rip m_reg m_mem s4]. rewrite Z3. unfold s5. rewrite ?wrap64_add, ?wrap64_add2, load_wrap.
    rewrite wrap64_small by lia. replace (a + 20 + 7 + coff) with (parm + Z.of_nat (parm_words ilp32)) by lia.
    replace (if negb ilp32 then 8%nat else 4%nat) with (parm_words ilp32) by (destruct ilp32; reflexivity).
    rewrite (load_ext (m_mem s) m4) by (try lia; intros; apply M4; lia). rip. reflexivity. }
  (* jmp *)
  set (s6 := Mach (m_reg s5) target m4).
  assert (E6 : step s5 = Some s6).
  { assert (C6' : code_at (m_mem s5) (m_rip s5) [65; 255; 226]).
    { cbn [m_mem m_rip s5]. replace (a + 27) with (a + 4 + 4 + 7 + 5 + 7) by lia.
      apply (code_ext (m_mem s)); [lia|rewrite Z6; lia|intros x Hx; rewrite Z6 in Hx; apply M4; lia|exact C6]. }
    rewrite (step_ok s5 _ (IJmpInd (OReg R10)) C6'); [|cbn; lia|reflexivity].
    cbn [exec operand_value m_reg m_mem s5]. rewrite set_reg_same. change (8 * Z.of_nat 8) with 64.
    rewrite Z.mod_small by apply Ld. reflexivity. }
  exists s6. cbn [steps]. rewrite E1, E2, E3, E4, E5, E6. split; [reflexivity|].
  cbn [m_rip m_reg m_mem s6 s5 s4 s3 s2 s1]. split; [reflexivity|]. split; [|split; [|split; [|split]]].
  - rewrite !(set_reg_other _ R10 _ RSP), set_reg_same by discriminate. reflexivity.
  - rewrite (load_ext m2) by (try lia; intros x Hx; apply store_other; unfold zlen; rewrite ?le_enc_length; lia).
    apply load_store; lia.
  - unfold m4. rewrite load_store by lia. apply Z.mod_small, Ld.
  - intros r Hr. cbn [m_rip m_reg m_mem s6 s5 s4 s3 s2 s1]. rewrite !set_reg_other; [reflexivity| | |]; intros ->; apply Hr; cbn; auto.
  - intros x Hx. cbn [m_mem s6]. apply M4. lia.
Qed.

Lemma endbr_ok s (endbr : bool) rest a : m_rip s = a -> 0 <= a -> a + (if endbr then 4 else 0) < 2 ^ 64 ->
  code_at (m_mem s) a ((if endbr then [243; 15; 30; 250] else []) ++ rest) ->
  exists n, steps n s = Some (Mach (m_reg s) (a + if endbr then 4 else 0) (m_mem s)) /\
    code_at (m_mem s) (a + if endbr then 4 else 0) rest.
Proof.
  intros Er H1 H2 C. destruct endbr; cbn [app] in C.
  - change (243 :: 15 :: 30 :: 250 :: rest) with ([243; 15; 30; 250] ++ rest) in C. apply code_app in C as [C1 C2].
    exists 1%nat. split; [|exact C2]. cbn [steps]. rewrite <- Er in C1.
    rewrite (step_ok s _ INop C1); [|cbn; lia|reflexivity]. cbn [exec]. rewrite Er. change (zlen [243; 15; 30; 250]) with 4.
    rewrite wrap64_small by lia. reflexivity.
  - exists 0%nat. replace (a + 0) with a by lia. split; [|exact C]. cbn [steps]. destruct s; cbn in *; subst; reflexivity.
Qed.

Lemma static_ok endbr ilp32 base i s :
  0 <= i < tramp_map_size / tramp_size endbr -> 0 <= base -> base + 2 * tramp_map_size <= 2 ^ 64 ->
  m_rip s = base + i * tramp_size endbr -> stack_apart s base (2 * tramp_map_size) ->
  (forall x, byte_ok (m_mem s x)) ->
  code_at (m_mem s) (base + i * tramp_size endbr) (static_slot endbr ilp32) ->
  exists n s', steps n s = Some s' /\
    parm_at ilp32 (m_mem s) (base + tramp_map_size + i * tramp_size endbr) (load (m_mem s') (m_reg s' RSP + 8) 8) (m_rip s') /\
    m_reg s' RSP = m_reg s RSP - 16 /\
    load (m_mem s') (m_reg s' RSP) 8 = m_reg s R10 mod 2 ^ 64 /\
    keeps [R10; RSP] (m_reg s RSP - 16) 16 s s'.
Proof.
  intros Hi Hb Hbe Er [Hs Ds] Bm C. unfold tramp_map_size in *.
  assert (Sl : i * tramp_size endbr + tramp_size endbr <= 4096).
  { destruct endbr; unfold tramp_size in *; [change (4096 / 40) with 102 in Hi|change (4096 / 32) with 128 in Hi]; lia. }
  assert (S32 : 32 + (if endbr then 4 else 0) <= tramp_size endbr <= 40) by (destruct endbr; unfold tramp_size; lia).
  set (a := base + i * tramp_size endbr) in *.
  assert (A0 : 0 <= i * tramp_size endbr) by nia.
  unfold static_slot in C.
  destruct (endbr_ok s endbr _ a Er ltac:(lia) ltac:(lia) C) as (n & E1 & C').
  pose (s1 := Mach (m_reg s) (a + if endbr then 4 else 0) (m_mem s)). fold s1 in E1.
  destruct (static_body s1 ilp32 (a + if endbr then 4 else 0) (x86_data_offset endbr) (x86_code_offset endbr ilp32) (a + 4096))
    as (s' & E2 & R1 & R2 & R3 & R4 & K).
  all: cbn [s1 m_rip m_reg m_mem]; try (destruct endbr, ilp32; unfold x86_data_offset, x86_code_offset, tramp_size in *; cbn [parm_words]; lia).
  - exact C'.
  - exact Bm.
  - cbn [s1 m_rip m_reg m_mem] in *.
    exists (n + 6)%nat, s'. split; [rewrite (steps_add _ _ _ _ E1); exact E2|].
    split; [|split; [exact R2|split; [rewrite R2; exact R3|exact K]]].
    replace (base + 4096 + i * tramp_size endbr) with (a + 4096) by lia. unfold parm_at.
    rewrite R1, R2. replace (m_reg s RSP - 16 + 8) with (m_reg s RSP - 8) by lia. rewrite R4. auto.
Qed.

(** The entry points behind a static trampoline. *)
Lemma alt_ok endbr short rel alt s :
  0 <= alt -> alt + zlen (alt_entry endbr short rel) < 2 ^ 64 -> m_rip s = alt ->
  - 2 ^ (if short then 7 else 31) <= rel < 2 ^ (if short then 7 else 31) ->
  0 <= m_reg s RSP -> m_reg s RSP + 16 < 2 ^ 64 ->
  code_at (m_mem s) alt (alt_entry endbr short rel) ->
  exists n s', steps n s = Some s' /\ m_rip s' = wrap64 (alt + zlen (alt_entry endbr short rel) + rel) /\
    m_reg s' R10 = load (m_mem s) (m_reg s RSP + 8) 8 /\ m_reg s' RSP = m_reg s RSP + 16 /\ keeps [R10; RSP] 0 0 s s'.
Proof.
  intros Ha Hae Er Hr Hs1 Hs2 C. unfold alt_entry in *.
  set (J := if short then 235 :: le_enc 1 rel else 233 :: le_enc 4 rel) in *.
  assert (ZJ : 2 <= zlen J <= 5) by (unfold J; destruct short; code_len; lia).
  assert (LJ : (length J <= 15)%nat) by (unfold zlen in ZJ; lia).
  assert (DJ : forall rest, decode (J ++ rest) = Some (IJmpRel rel, rest)).
  { intros rest. unfold J. destruct short.
    - assert (E : to_signed 8 (le_dec (le_enc 1 rel)) = rel).
      { rewrite le_dec_enc. change (8 * Z.of_nat 1) with 8. unfold to_signed. rewrite Z.mod_mod by lia.
        destruct (Z.ltb_spec (rel mod 2 ^ 8) (2 ^ (8 - 1))); lia. }
      cbn [le_enc] in *. cbn [le_dec] in E. replace (rel mod 256 + 256 * 0) with (rel mod 256) in E by lia.
      cbn -[le_dec to_signed Z.div Z.modulo]. rewrite E. reflexivity.
    - assert (E : to_signed 32 (le_dec (le_enc 4 rel)) = rel).
      { rewrite le_dec_enc. change (8 * Z.of_nat 4) with 32. unfold to_signed. rewrite Z.mod_mod by lia.
        destruct (Z.ltb_spec (rel mod 2 ^ 32) (2 ^ (32 - 1))); lia. }
      cbn [le_enc] in *. cbn -[le_dec to_signed Z.div Z.modulo]. unfold disp32. rewrite E. reflexivity. }
  assert (ZA : zlen ((if endbr then [243; 15; 30; 250] else []) ++ [76; 139; 84; 36; 8] ++ [72; 131; 196; 16] ++ J) = (if endbr then 4 else 0) + 9 + zlen J).
  { rewrite !zlen_app. destruct endbr; cbn [zlen length]; unfold zlen; cbn [length]; lia. }
  rewrite ZA in *.
  destruct (endbr_ok s endbr _ alt Er ltac:(lia) ltac:(lia) C) as (n & E1 & C').
  assert (Hb : 0 <= alt + (if endbr then 4 else 0) /\ alt + (if endbr then 4 else 0) + 9 + zlen J < 2 ^ 64) by (destruct endbr; lia).
  set (b := alt + if endbr then 4 else 0) in *.
  apply code_app in C' as [C1 C']. apply code_app in C' as [C2 C3].
  change (zlen [76; 139; 84; 36; 8]) with 5 in *. change (zlen [72; 131; 196; 16]) with 4 in *.
  pose (s1 := Mach (m_reg s) b (m_mem s)). fold s1 in E1.
  pose (s2 := Mach (set_reg (m_reg s) R10 (load (m_mem s) (m_reg s RSP + 8) 8)) (b + 5) (m_mem s)).
  assert (E2 : step s1 = Some s2).
  { rewrite (step_ok s1 _ (ILoad true R10 (OMem RSP 8)) C1); [|cbn; lia|reflexivity].
    cbn [exec operand_value ea m_rip m_reg m_mem s1]. rewrite load_wrap. change (zlen [76; 139; 84; 36; 8]) with 5.
    rewrite wrap64_small by lia. reflexivity. }
  pose (s3 := Mach (set_reg (m_reg s2) RSP (m_reg s RSP + 16)) (b + 9) (m_mem s)).
  assert (E3 : step s2 = Some s3).
  { rewrite (step_ok s2 _ (IAddImm (OReg RSP) 16) C2); [|cbn; lia|reflexivity].
    cbn [exec m_rip m_reg m_mem s2]. change (zlen [72; 131; 196; 16]) with 4. rewrite (set_reg_other _ R10 _ RSP) by discriminate.
    rewrite !wrap64_small by lia. unfold s3. rip. reflexivity. }
  assert (E4 : step s3 = Some (Mach (m_reg s3) (wrap64 (b + 9 + zlen J + rel)) (m_mem s))).
  { assert (C3' : code_at (m_mem s3) (m_rip s3) J).
    { cbn [m_mem m_rip s3]. replace (b + 9) with (b + 5 + 4) by lia. exact C3. }
    rewrite (step_ok s3 J (IJmpRel rel) C3'); [|exact LJ|exact DJ].
    cbn [exec m_rip m_reg m_mem s3]. rewrite wrap64_add. reflexivity. }
  exists (n + 3)%nat. eexists. rewrite (steps_add _ _ _ _ E1). cbn [steps]. rewrite E2, E3, E4. split; [reflexivity|].
  cbn [m_rip m_reg m_mem s3 s2]. split; [f_equal; unfold b; lia|].
  split; [rewrite (set_reg_other _ RSP _ R10) by discriminate; apply set_reg_same|].
  split; [apply set_reg_same|]. split; [|reflexivity].
  intros r Hr'. cbn [m_reg]. rewrite !set_reg_other; [reflexivity| |]; intros ->; apply Hr'; cbn; auto.
Qed.

(** Both together: from the trampoline to the closure entry. *)
Lemma static_arrives endbr ilp32 endbr' short rel base i s data alt :
  0 <= i < tramp_map_size / tramp_size endbr -> 0 <= base -> base + 2 * tramp_map_size <= 2 ^ 64 ->
  m_rip s = base + i * tramp_size endbr -> stack_apart s base (2 * tramp_map_size) ->
  (forall x, byte_ok (m_mem s x)) ->
  code_at (m_mem s) (base + i * tramp_size endbr) (static_slot endbr ilp32) ->
  parm_at ilp32 (m_mem s) (base + tramp_map_size + i * tramp_size endbr) data alt ->
  0 <= alt -> alt + zlen (alt_entry endbr' short rel) < 2 ^ 64 ->
  stack_apart s alt (zlen (alt_entry endbr' short rel)) ->
  - 2 ^ (if short then 7 else 31) <= rel < 2 ^ (if short then 7 else 31) ->
  code_at (m_mem s) alt (alt_entry endbr' short rel) ->
  arrives s (wrap64 (alt + zlen (alt_entry endbr' short rel) + rel)) data.
Proof.
  intros Hi Hb Hbe Er Sa Bm C [Pd Pt] Ha Hae Sb Hr Ca.
  destruct (static_ok endbr ilp32 base i s Hi Hb Hbe Er Sa Bm C) as (n & s1 & E1 & [P1 P2] & R1 & _ & K1 & K2).
  rewrite P1 in Pd. rewrite P2 in Pt. destruct Sa as [Hs _]. destruct Sb as [_ Sb].
  destruct (alt_ok endbr' short rel alt s1) as (k & s2 & E2 & Q1 & Q2 & Q3 & K3 & K4); auto; try lia.
  { eapply code_ext; [lia|lia| |exact Ca]. intros x Hx. apply K2. lia. }
  exists s2. split; [exists (n + k)%nat; rewrite (steps_add _ _ _ _ E1); exact E2|]. split; [exact Q1|].
  split; [rewrite Q2; exact Pd|]. split; [rewrite Q3, R1; lia|]. split.
  - intros r Hr'. destruct (Z.eq_dec r RSP) as [->|N]; [rewrite Q3, R1; lia|].
    rewrite K3, K1; [reflexivity| |]; intros [<-|[<-|[]]]; apply Hr'; cbn; auto; congruence.
  - intros x Hx. rewrite K4 by lia. apply K2. exact Hx.
Qed.

Lemma dynamic_arrives s dest : 0 <= m_rip s < 2 ^ 64 -> 0 <= dest < 2 ^ 64 ->
  code_at (m_mem s) (m_rip s) (dynamic_closure_code dest) -> arrives s dest (m_rip s).
Proof.
  intros H1 H2 C. destruct (dynamic_ok s dest H1 H2 C) as (n & s' & E & R & R10' & K1 & K2).
  exists s'. split; [exists n; exact E|]. split; [exact R|]. split; [exact R10'|]. split.
  - apply K1. intros [H|[]]. discriminate.
  - split; [exact K1|]. intros x _. apply K2. lia.
Qed.
