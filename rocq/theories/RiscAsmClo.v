(** ffi_closure_asm and ffi_go_closure_asm of RISC-V and LoongArch. *)
From Coq Require Import ZifyBool ZifyNat.
From Verif Require Import Base BaseFacts ByteMem RiscAsmModel RiscAsmFacts RiscAsmCall RiscAsmLeave.
From Verif Require A64AsmCallAll.
Local Open Scope Z_scope.
Local Arguments Z.mul : simpl never.
Local Arguments Z.add : simpl never.
Local Arguments Z.sub : simpl never.
Local Arguments Z.pow : simpl never.
Local Arguments Z.of_nat : simpl never.

(** The state in which the C function is entered.  [f]: the frame. *)
Definition entered (a : arch) (fl : Z) (X : Z -> Z) (V : Z -> list Z) (M : Z -> Z) (f a0 a1 a2 back : Z) (X1 : Z -> Z) (M1 : Z -> Z) : Prop :=
  X1 (AR a 0) = a0 /\ X1 (AR a 1) = a1 /\ X1 (AR a 2) = a2 /\ X1 (AR a 3) = f + FRAME_LEN fl /\ X1 (AR a 4) = f /\
  X1 (SP a) = f /\ X1 (RA a) = back /\
  (forall i, saved a i = true -> i <> FP a -> X1 i = X i) /\
  rd M1 f (Z.to_nat (FRAME_LEN fl)) = fbytes a fl V ++ abytes a X ++ le_enc 8 (X (FP a)) ++ le_enc 8 (X (RA a)) /\
  (forall x, ~ (f <= x < f + FRAME_LEN fl) -> M1 x = M x).

(** The memory after the saves. *)
Fixpoint wall (m : Z -> Z) (p : Z) (l : list (list Z)) : Z -> Z :=
  match l with [] => m | d :: r => wall (wr m p d) (p + zlen d) r end.
Lemma wall_wr l : forall m p x, wall m p l x = wr m p (concat l) x.
Proof.
  induction l as [|d l IH]; intros m p x; cbn [wall concat]; [symmetry; apply wr_nil|].
  rewrite IH. apply wr_join. reflexivity.
Qed.
Lemma wall_ext l : forall m m' p x, (forall y, m y = m' y) -> wall m p l x = wall m' p l x.
Proof. intros. rewrite !wall_wr. apply wr_ext. assumption. Qed.

Lemma frame_mem a fl X V M f p q : width_ok a fl -> wide V ->
  let M0 := wr (wr M (f + 8 * fl + 64) (le_enc 8 p)) (f + 8 * fl + 72) (le_enc 8 q) in
  let M1 := wall (if fl =? 0 then M0 else wall M0 f (map (fun i => firstn (Z.to_nat fl) (V (FR a i))) eight))
              (f + 8 * fl) (map (fun i => le_enc 8 (X (AR a i))) eight) in
  rd M1 f (Z.to_nat (FRAME_LEN fl)) = fbytes a fl V ++ abytes a X ++ le_enc 8 p ++ le_enc 8 q /\
  (forall x, ~ (f <= x < f + FRAME_LEN fl) -> M1 x = M x).
Proof.
  intros W Wv M0 M1.
  assert (L0 : 0 <= fl <= 8) by (unfold width_ok in W; lia).
  assert (Lf : zlen (fbytes a fl V) = 8 * fl).
  { unfold fbytes, eight, zlen. cbn [map concat]. rewrite !app_length, !firstn_length, !Wv. cbn [length]. lia. }
  assert (La : zlen (abytes a X) = 64).
  { unfold abytes, eight, zlen. cbn [map concat]. rewrite !app_length, !le_enc_length. cbn [length]. lia. }
  assert (E : forall x, M1 x = wr M f (fbytes a fl V ++ abytes a X ++ le_enc 8 p ++ le_enc 8 q) x).
  { intros x. unfold M1. rewrite wall_wr. fold (abytes a X).
    rewrite (wr_ext _ (wr (wr (wr M (f + 8 * fl + 64) (le_enc 8 p)) (f + 8 * fl + 72) (le_enc 8 q)) f (fbytes a fl V))) .
    2: { intros y. destruct (Z.eqb_spec fl 0) as [->|_]; [symmetry; apply wr_nil|apply wall_wr]. }
    rewrite wr_join by (rewrite Lf; reflexivity).
    rewrite (wr_ext _ (wr M (f + zlen (fbytes a fl V ++ abytes a X)) (le_enc 8 p ++ le_enc 8 q))).
    - rewrite app_assoc, (wr_app M f (fbytes a fl V ++ abytes a X)). reflexivity.
    - intros y. rewrite zlen_app, Lf, La, wr_join by (rewrite zlen_enc; lia). f_equal. lia. }
  split.
  - rewrite (rd_ext (wr M f (fbytes a fl V ++ abytes a X ++ le_enc 8 p ++ le_enc 8 q))) by (intros; apply E).
    apply rd_wr_same. unfold FRAME_LEN. unfold zlen in *. rewrite !app_length, !le_enc_length. lia.
  - intros x Hx. rewrite E. apply wr_out. unfold FRAME_LEN in Hx. rewrite !zlen_app, Lf, La, !zlen_enc. lia.
Qed.


(** One more step: the stack pointer as frame plus length. *)
Ltac cstep org f Esp := step1 org; rewrite ?Esp; cnst f; rewrite ?Z.add_0_r.

Lemma closure_enter a e fl org X V M f :
  width_ok a fl -> 0 <= org -> org + 4 * zlen (closure_text a fl) <= 2 ^ 64 -> wide V ->
  X (SP a) = f + FRAME_LEN fl -> 0 <= f -> f + FRAME_LEN fl < 2 ^ 64 ->
  0 <= X (CLO a) -> X (CLO a) + 48 <= 2 ^ 64 -> f + FRAME_LEN fl <= X (CLO a) \/ X (CLO a) + 48 <= f ->
  exists X1 M1,
    reach a e (closure_text a fl) org (St X V org M) (St X1 V e M1) /\
    entered a fl X V M f (le_dec (rd M (X (CLO a) + 24) 8)) (le_dec (rd M (X (CLO a) + 32) 8)) (le_dec (rd M (X (CLO a) + 40) 8))
      (org + 4 * (if fl =? 0 then 18 else 26)) X1 M1.
Proof.
  intros W Ho1 Ho2 Wv Esp Hf1 Hf2 Hc1 Hc2 Hd.
  destruct (frame_mem a fl X V M f (X (FP a)) (X (RA a)) W Wv) as [G1 G2].
  assert (G3 : forall p n, p + Z.of_nat n <= f \/ f + FRAME_LEN fl <= p -> rd _ p n = rd M p n) by (intros p n Hp; apply rd_ext; intros x Hx; apply G2; lia).
  widths a W; nums; text_len Ho2; unfold eight in G1, G2, G3; cbn [Z.eqb map wall] in *; nums; rewrite ?zlen_enc, ?flen8, ?flen4 in G1, G2, G3 by assumption.
  all: unfold entered; cbn [saved Z.eqb]; nums; change (Z.of_nat 8) with 8 in G1, G2, G3; repeat match type of G1 with context [8 * ?n] => closed (8 * n) end; cnst f; rewrite ?Z.add_0_r in G1, G2, G3.
  all: eexists; eexists; split; [replace org with (org + 0) at 2 by lia; repeat cstep org f Esp; exact (reach_refl _ _ _ _ _)|].
  all: unfold RA in *; regs; rewrite ?Z.add_0_r, ?G3 by lia.
  all: repeat (split; [first [reflexivity|lia|exact G1|intros i Hi Hn; rewrite ?upd_other by lia; reflexivity]|]).
  all: exact G2.
Qed.

Lemma go_enter a e fl org X V M f :
  width_ok a fl -> 0 <= org -> org + 4 * zlen (go_text a fl) <= 2 ^ 64 -> wide V ->
  X (SP a) = f + FRAME_LEN fl -> 0 <= f -> f + FRAME_LEN fl < 2 ^ 64 ->
  0 <= X (T2 a) -> X (T2 a) + 24 <= 2 ^ 64 -> f + FRAME_LEN fl <= X (T2 a) \/ X (T2 a) + 24 <= f ->
  exists X1 M1,
    reach a e (go_text a fl) org (St X V org M) (St X1 V e M1) /\
    entered a fl X V M f (le_dec (rd M (X (T2 a) + 8) 8)) (le_dec (rd M (X (T2 a) + 16) 8)) (X (T2 a))
      (org + 4 * (if fl =? 0 then 18 else 26)) X1 M1.
Proof.
  intros W Ho1 Ho2 Wv Esp Hf1 Hf2 Hc1 Hc2 Hd.
  destruct (frame_mem a fl X V M f (X (FP a)) (X (RA a)) W Wv) as [G1 G2].
  assert (G3 : forall p n, p + Z.of_nat n <= f \/ f + FRAME_LEN fl <= p -> rd _ p n = rd M p n) by (intros p n Hp; apply rd_ext; intros x Hx; apply G2; lia).
  widths a W; nums; text_len Ho2; unfold eight in G1, G2, G3; cbn [Z.eqb map wall] in *; nums; rewrite ?zlen_enc, ?flen8, ?flen4 in G1, G2, G3 by assumption.
  all: unfold entered; cbn [saved Z.eqb]; nums; change (Z.of_nat 8) with 8 in G1, G2, G3; repeat match type of G1 with context [8 * ?n] => closed (8 * n) end; cnst f; rewrite ?Z.add_0_r in G1, G2, G3.
  all: eexists; eexists; split; [replace org with (org + 0) at 2 by lia; repeat cstep org f Esp; exact (reach_refl _ _ _ _ _)|].
  all: unfold RA in *; regs; rewrite ?Z.add_0_r, ?G3 by lia.
  all: repeat (split; [first [reflexivity|lia|exact G1|intros i Hi Hn; rewrite ?upd_other by lia; reflexivity]|]).
  all: exact G2.
Qed.

(** Back from the C function, [f] holding the context with the results. *)
Lemma exit_tail a e fl t org X V M f fp ra (c : Z) :
  width_ok a fl -> t = closure_text a fl \/ t = go_text a fl ->
  0 <= org -> org + 4 * zlen t <= 2 ^ 64 ->
  X (SP a) = f -> 0 <= f -> f + FRAME_LEN fl < 2 ^ 64 ->
  0 <= fp < 2 ^ 64 -> code_addr a ra -> rd M (f + 8 * fl + 64) 16 = le_enc 8 fp ++ le_enc 8 ra ->
  exists X1 V1,
    reach a e t org (St X V (org + 4 * (if fl =? 0 then 18 else 26)) M) (St X1 V1 ra M) /\
    X1 (AR a 0) = le_dec (rd M (f + 8 * fl) 8) /\ X1 (AR a 1) = le_dec (rd M (f + 8 * fl + 8) 8) /\
    (fl <> 0 -> V1 (FR a 0) = fext (rd M f (Z.to_nat fl)) /\ V1 (FR a 1) = fext (rd M (f + fl) (Z.to_nat fl))) /\
    X1 (SP a) = f + FRAME_LEN fl /\ X1 (FP a) = fp /\
    (forall i, saved a i = true -> i <> FP a -> X1 i = X i) /\ (forall i, fsaved a i = true -> V1 i = V i).
Proof.
  intros W Ht Ho1 Ho2 Esp Hf1 Hf2 Wfp Wra R16.
  assert (R : rd M (f + 8 * fl + 64) 8 = le_enc 8 fp /\ rd M (f + 8 * fl + 72) 8 = le_enc 8 ra).
  { change 16%nat with (8 + 8)%nat in R16. rewrite rd_app in R16. apply A64AsmCallAll.app_inj_len in R16; [|rewrite rd_length, le_enc_length; reflexivity].
    replace (f + 8 * fl + 72) with (f + 8 * fl + 64 + Z.of_nat 8) by lia. exact R16. }
  destruct R as [Rfp Rra]. clear R16.
  assert (Dra : le_dec (le_enc 8 ra) = ra) by apply A64AsmCallAll.dec_enc8, Wra.
  assert (Dfp : le_dec (le_enc 8 fp) = fp) by apply A64AsmCallAll.dec_enc8, Wfp.
  pose proof (target_code a ra Wra) as Ta.
  destruct Ht as [-> | ->]; widths a W; nums; text_len Ho2; cbn [Z.eqb target saved fsaved] in *.
  all: repeat match goal with H : context [8 * ?n] |- _ => closed (8 * n) end; cnst f; rewrite ?Z.add_0_r in *.
  all: eexists; eexists; split; [repeat cstep org f Esp; rewrite ?Rra, ?Rfp, ?Dra, ?Dfp, ?Ta; exact (reach_refl _ _ _ _ _)|].
  all: change (Z.to_nat 8) with 8%nat; change (Z.to_nat 4) with 4%nat; regs; rewrite ?Z.add_0_r.
  all: repeat (split; [first [reflexivity|lia|intros N; try (contradiction N; reflexivity); split; reflexivity]|]).
  all: split; [intros i Hi Hn|intros i Hi]; rewrite ?upd_other by lia; reflexivity.
Qed.
