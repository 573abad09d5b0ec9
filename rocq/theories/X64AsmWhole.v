(** ffi_call_int and ffi_call_unix64 together. *)
From Coq Require Import ZifyBool ZifyNat.
From Verif Require Import Base BaseFacts ByteMem Types LayoutSpec NaturalTypes Unix64Model Unix64Spec Unix64Link Unix64Main Unix64Fill Unix64Call X64AsmModel X64AsmFacts X64AsmCall X64AsmRet X64AsmBlock X64AsmSpec.
Local Open Scope Z_scope.
Local Arguments Z.mul : simpl never.
Local Arguments Z.add : simpl never.
Local Arguments Z.sub : simpl never.
Local Arguments Z.pow : simpl never.
Local Arguments Z.of_nat : simpl never.
Local Arguments le_enc : simpl never.

(** ** Registers modulo 2^64 *)

Lemma znth_map {A B} (g : A -> B) l i : znth (map g l) i = option_map g (znth l i).
Proof. unfold znth. destruct (0 <=? i); [apply nth_error_map|reflexivity]. Qed.

Lemma enc_mod64 n x : (n <= 8)%nat -> le_enc n (x mod 2 ^ 64) = le_enc n x.
Proof.
  intros H. rewrite <- (le_enc_mod n x), <- (le_enc_mod n (x mod 2 ^ 64)). f_equal. symmetry. 
  apply Znumtheory.Zmod_div_mod; [apply Z.pow_pos_nonneg; lia|lia|].
  exists (2 ^ (64 - 8 * Z.of_nat n)). rewrite <- Z.pow_add_r by lia. f_equal. lia.
Qed.

Definition low64 (x : Z) : Z := x mod 2 ^ 64.

Lemma reg_low_64 gpr xmm r n : (n <= 8)%nat -> reg_low (map low64 gpr) xmm r n = reg_low gpr xmm r n.
Proof.
  intros H. destruct r as [i|i|]; cbn [reg_low]; [|reflexivity|reflexivity]. rewrite znth_map.
  destruct (znth gpr i); cbn [option_map]; [|reflexivity]. unfold low64. rewrite enc_mod64 by exact H. reflexivity.
Qed.

Lemma regs_hold_64 gpr xmm l : forall v, regs_hold gpr xmm l v -> regs_hold (map low64 gpr) xmm l v.
Proof.
  induction l as [|r l IH]; intros v H; cbn [regs_hold] in *; [exact H|]. destruct H as [H1 H2].
  split; [rewrite reg_low_64 by apply Nat.le_min_l; exact H1|apply IH, H2].
Qed.

Lemma all_held_64 gpr xmm stack ts ls vs : all_held gpr xmm stack ts ls vs -> all_held (map low64 gpr) xmm stack ts ls vs.
Proof.
  induction 1 as [|t ts l ls v vs (w & Hw & H) A IH]; constructor; [|exact IH]. exists w. split; [exact Hw|].
  destruct l; [apply regs_hold_64, H|exact H].
Qed.

Lemma passed_64 rt ts vs gpr xmm stack : args_passed rt ts vs gpr xmm stack -> args_passed rt ts vs (map low64 gpr) xmm stack.
Proof. unfold args_passed. destruct (assign _ _ _ _) as [[[? ?] ?] ?]. apply all_held_64. Qed.

Lemma arg_word_range t v k : bytes_ok v -> 0 <= arg_word t v k < 2 ^ 64.
Proof.
  intros B. unfold arg_word. destruct (signed_narrow t); [apply Z.mod_pos_bound; lia|].
  assert (Bk : bytes_ok (firstn 8 (skipn (8 * k) v))).
  { unfold bytes_ok in *. apply Forall_forall. intros x Hx. rewrite Forall_forall in B. apply B.
    rewrite <- (firstn_skipn (8 * k) v). apply in_or_app. right. rewrite <- (firstn_skipn 8 (skipn (8 * k) v)). apply in_or_app. left. exact Hx. }
  pose proof (le_dec_bound _ Bk) as D. assert (L : zlen (firstn 8 (skipn (8 * k) v)) <= 8) by (unfold zlen; rewrite firstn_length; lia).
  assert (P : 2 ^ (8 * zlen (firstn 8 (skipn (8 * k) v))) <= 2 ^ 64) by (apply Z.pow_le_mono_r; lia). lia.
Qed.

Lemma all_extended_64 gpr ts ls vs : Forall bytes_ok vs -> all_extended gpr ts ls vs -> all_extended (map low64 gpr) ts ls vs.
Proof.
  intros B A. revert B. induction A as [|t ts l ls v vs H A IH]; intros B; [constructor|]. inversion B as [|? ? B1 B2]; subst.
  constructor; [|apply IH, B2]. destruct l as [rs|o]; [|exact Logic.I]. cbn [extended_at] in *. intros k i E. rewrite znth_map, (H k i E).
  cbn [option_map]. unfold low64. rewrite Z.mod_small by (apply arg_word_range; exact B1). reflexivity.
Qed.

Lemma extended_64 rt ts vs gpr : Forall bytes_ok vs -> args_extended rt ts vs gpr -> args_extended rt ts vs (map low64 gpr).
Proof. unfold args_extended. destruct (assign _ _ _ _) as [[[? ?] ?] ?]. apply all_extended_64. Qed.

(** ** Parts of the block *)

Lemma zlen_map_enc l : zlen (concat (map (le_enc 8) l)) = 8 * zlen l.
Proof. induction l as [|x l IH]; cbn [map concat]; [reflexivity|]. rewrite zlen_app, zlen_enc, IH. unfold zlen. cbn [length]. lia. Qed.

Lemma zlen_concat16 (l : list (list Z)) : Forall (fun b => zlen b = 16) l -> zlen (concat l) = 16 * zlen l.
Proof. induction 1 as [|x l H _ IH]; cbn [concat]; [reflexivity|]. rewrite zlen_app, H, IH. unfold zlen. cbn [length]. lia. Qed.

Lemma app_inj_len {A} (a b c d : list A) : length a = length c -> a ++ b = c ++ d -> a = c /\ b = d.
Proof.
  revert c. induction a as [|x a IH]; intros [|y c] L H; try discriminate; [split; [reflexivity|exact H]|].
  cbn [app] in H. injection H as -> H. cbn [length] in L. apply IH in H; [|lia]. destruct H as [-> ->]. auto.
Qed.

Lemma rd_split m a n k x y : rd m a n = x ++ y -> length x = k -> (k <= n)%nat -> rd m a k = x /\ rd m (a + Z.of_nat k) (n - k) = y.
Proof.
  intros H Hk Hn. replace n with (k + (n - k))%nat in H by lia. rewrite rd_app in H.
  assert (L : length (rd m a k) = length x) by (rewrite rd_length; lia).
  exact (app_inj_len _ _ _ _ L H).
Qed.

(** ** The block and the state of call64 *)

Lemma call_shape rt ts vs b f c rv tmp closure base g_gpr g_sse g_area :
  rt_ok rt -> Forall natural ts -> objects_ok ts vs -> stack_used rt ts + 64 < 2 ^ 32 ->
  machdep64 (TCif FFI_UNIX64 ts rt b f) = Ok (FFI_OK, c) ->
  (16 | base) -> 0 <= base -> base + c_bytes c + 64 < 2 ^ 64 ->
  zlen g_gpr = 6 -> zlen g_sse = 8 -> Forall (fun b => zlen b = 16) g_sse -> zlen g_area = c_bytes c + 32 ->
  exists gpr sse sc area fl rv',
    call_int c rv tmp vs closure base g_gpr g_sse g_area = Ok (block_bytes gpr sse sc closure area, fl, rv') /\
    zlen gpr = 6 /\ zlen sse = 8 /\ Forall (fun b => zlen b = 16) sse /\ zlen area = c_bytes c + 32 /\
    0 <= sc <= 8 /\ 0 <= c_bytes c < 2 ^ 32 /\
    forall g_xmm frame, call64 c rv tmp vs closure base g_gpr g_sse g_area g_xmm frame =
      bind (of_option (set_range area (c_bytes c) frame)) (fun stack =>
        Ok (MState gpr (if sc =? 0 then g_xmm else sse) sc closure base stack, fl, rv')).
Proof.
  intros R N [L B] S P E1 E2 E3 E4 E5 E6 E7.
  destruct (machdep64_ok rt ts b f R N ltac:(lia)) as (c' & P' & _ & Ca & Cr & Cb & Cf).
  rewrite P in P'. injection P' as <-.
  pose proof (flags_in_mem _ _ _ Cf) as IM.
  unfold call_int, call64. rewrite IM.
  set (fl := match rv with Some p => c_flags c | None => if hidden_pointer rt then c_flags c else RET_VOID end).
  set (rv' := match rv with Some p => Some p | None => if hidden_pointer rt then Some tmp else None end).
  assert (EQ : match rv with
    | Some p => (c_flags c, Some p)
    | None => if hidden_pointer rt then (c_flags c, Some tmp) else (RET_VOID, None) end = (fl, rv')).
  { unfold fl, rv'. destruct rv; [reflexivity|]. destruct (hidden_pointer rt); reflexivity. }
  rewrite EQ. clear EQ. cbn beta iota.
  assert (IM' : negb (Z.land fl FLAG_RET_IN_MEM =? 0) = hidden_pointer rt).
  { unfold fl. destruct rv; [exact IM|]. destruct (hidden_pointer rt) eqn:Hh; [exact IM|reflexivity]. }
  rewrite IM'.
  assert (G : exists gpr0, (if hidden_pointer rt then Unix64Model.upd g_gpr 0 (match rv' with Some p => p | None => 0 end) else Ok g_gpr) = Ok gpr0 /\
    zlen gpr0 = 6).
  { destruct (hidden_pointer rt); [|exists g_gpr; auto].
    destruct (set_range_ok g_gpr 0 [match rv' with Some p => p | None => 0 end]) as (g1 & G1 & G2); [lia|change (zlen [?x]) with 1; lia|].
    exists g1. unfold Unix64Model.upd. rewrite G1. split; [reflexivity|lia]. }
  destruct G as (gpr0 & G1 & G2). rewrite G1. cbn [bind].
  change (if hidden_pointer rt then 1 else 0) with (first_gpr rt).
  unfold stack_used, vectors_used in *.
  destruct (assign ts (first_gpr rt) 0 0) as [[[l g'] x'] s'] eqn:As.
  pose proof (assign_mono _ N _ _ 0 _ _ _ _ (Z.le_refl 0) As) as (A1 & A2 & A3 & A4 & A5 & _).
  pose proof (round_up_le s' 8 ltac:(lia)). pose proof (round_up_lt s' 8 ltac:(lia)).
  assert (Hb : c_bytes c = round_up s' 8).
  { rewrite Cb. unfold wrap32, wrap. apply Z.mod_small. lia. }
  rewrite Ca.
  assert (Fg : 0 <= first_gpr rt <= 6) by (unfold first_gpr; destruct (hidden_pointer rt); lia).
  destruct (fill_args_ok base ts E1 E2 N vs (Fill gpr0 g_sse g_area (first_gpr rt) 0 base) 0 l g' x' s') as
    (f' & FE & Q1 & Q2 & Q3 & Q4 & Q5 & Q6 & Q7 & Q8 & Q9 & Q10 & Q11 & Q12);
    cbn [f_gpr f_sse f_area f_gc f_sc f_argp]; auto; try lia.
  rewrite FE. cbn [bind]. cbn [f_gpr f_sse f_area f_gc f_sc f_argp] in *.
  assert (W : wrap32 (f_sc f') = f_sc f') by (rewrite Q6; unfold wrap32, wrap; apply Z.mod_small; lia).
  exists (f_gpr f'), (f_sse f'), (f_sc f'), (f_area f'), fl, rv'.
  rewrite W. split; [reflexivity|]. repeat (split; [first [assumption|lia]|]). reflexivity.
Qed.
