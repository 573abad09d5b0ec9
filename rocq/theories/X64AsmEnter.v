(** The called function is entered with its arguments in place. *)
From Coq Require Import ZifyBool ZifyNat.
From Verif Require Import Base BaseFacts ByteMem Types LayoutSpec NaturalTypes Unix64Model Unix64Spec Unix64Link Unix64Main X64AsmModel X64AsmFacts X64AsmCall X64AsmRet X64AsmBlock X64AsmSpec X64AsmWhole.
Local Open Scope Z_scope.
Local Arguments Z.mul : simpl never.
Local Arguments Z.add : simpl never.
Local Arguments Z.sub : simpl never.
Local Arguments Z.pow : simpl never.
Local Arguments Z.of_nat : simpl never.
Local Arguments le_enc : simpl never.

(** What the block says about memory. *)
Lemma block_parts M A gpr sse sc r10 area :
  zlen gpr = 6 -> zlen sse = 8 -> Forall (fun b => zlen b = 16) sse ->
  rd M A (length (block_bytes gpr sse sc r10 area)) = block_bytes gpr sse sc r10 area ->
  gpr = map (fun i => nth i gpr 0) [0; 1; 2; 3; 4; 5]%nat /\
  rd M A 8 = le_enc 8 (nth 0 gpr 0) /\ rd M (A + 8) 8 = le_enc 8 (nth 1 gpr 0) /\ rd M (A + 16) 8 = le_enc 8 (nth 2 gpr 0) /\
  rd M (A + 24) 8 = le_enc 8 (nth 3 gpr 0) /\ rd M (A + 32) 8 = le_enc 8 (nth 4 gpr 0) /\ rd M (A + 40) 8 = le_enc 8 (nth 5 gpr 0) /\
  sse = map (fun i => rd M (A + 48 + 16 * i) 16) [0; 1; 2; 3; 4; 5; 6; 7] /\
  rd M (A + 176) 8 = le_enc 8 sc /\ rd M (A + 184) 8 = le_enc 8 r10 /\ rd M (A + 192) (length area) = area.
Proof.
  intros Lg Ls Fs H. unfold block_bytes in H.
  destruct gpr as [|g0 [|g1 [|g2 [|g3 [|g4 [|g5 [|]]]]]]]; try (exfalso; unfold zlen in Lg; cbn [length] in Lg; lia).
  destruct sse as [|s0 [|s1 [|s2 [|s3 [|s4 [|s5 [|s6 [|s7 [|]]]]]]]]]; try (exfalso; unfold zlen in Ls; cbn [length] in Ls; lia).
  repeat match goal with F : Forall _ (_ :: _) |- _ => inversion F; clear F; subst end. clear Lg Ls.
  cbn [map concat app nth] in *. rewrite ?app_nil_r, <- ?app_assoc in H. rewrite <- ?app_assoc in H.
  remember (length (le_enc 8 g0 ++ le_enc 8 g1 ++ le_enc 8 g2 ++ le_enc 8 g3 ++ le_enc 8 g4 ++ le_enc 8 g5 ++ s0 ++ s1 ++ s2 ++ s3 ++ s4 ++ s5 ++ s6 ++ s7 ++ le_enc 8 sc ++ le_enc 8 r10 ++ area)) as n eqn:En.
  assert (Hn : n = (192 + length area)%nat).
  { rewrite En, !app_length, !le_enc_length. unfold zlen in *. lia. }
  clear En.
  Ltac part H k := let H1 := fresh "P" in let H2 := fresh "Q" in
    apply (rd_split _ _ _ k) in H; [|rewrite ?le_enc_length; unfold zlen in *; lia|lia]; destruct H as [H1 H2];
    match type of H2 with rd _ ?a ?m = _ => idtac end; rename H2 into H.
  part H 8%nat. part H 8%nat. part H 8%nat. part H 8%nat. part H 8%nat. part H 8%nat.
  part H 16%nat. part H 16%nat. part H 16%nat. part H 16%nat. part H 16%nat. part H 16%nat. part H 16%nat. part H 16%nat.
  part H 8%nat. part H 8%nat.
  replace (n - 8 - 8 - 8 - 8 - 8 - 8 - 16 - 16 - 16 - 16 - 16 - 16 - 16 - 16 - 8 - 8)%nat with (length area) in H by lia.
  assert (Z8 : Z.of_nat 8 = 8) by reflexivity. assert (Z16 : Z.of_nat 16 = 16) by reflexivity.
  split; [reflexivity|].
  repeat match goal with |- _ /\ _ => split end;
    first [match goal with Q : rd M ?a ?m = ?x |- rd M ?b ?m = ?x => replace b with a by lia; exact Q end
          |repeat (apply f_equal2; [match goal with Q : rd M ?a 16 = ?x |- ?x = rd M ?b 16 => replace b with a by lia; symmetry; exact Q end|]); reflexivity].
Qed.

Lemma call_entered rt ts vs b f c rv tmp closure base g_gpr g_sse g_area :
  rt_ok rt -> Forall natural ts -> objects_ok ts vs -> stack_used rt ts + 64 < 2 ^ 32 ->
  machdep64 (TCif FFI_UNIX64 ts rt b f) = Ok (FFI_OK, c) ->
  (16 | base) -> 0 <= base -> base + c_bytes c + 64 < 2 ^ 64 ->
  zlen g_gpr = 6 -> zlen g_sse = 8 -> Forall (fun b => zlen b = 16) g_sse -> zlen g_area = c_bytes c + 32 ->
  0 <= closure < 2 ^ 64 ->
  exists blk fl rv', call_int c rv tmp vs closure base g_gpr g_sse g_area = Ok (blk, fl, rv') /\
    forall k inner org X V F cf zf M fn ra,
      0 <= org -> org + 2048 <= 2 ^ 64 -> machine_ok X V F M -> called (c_bytes c) base (fl mod 2 ^ 32) rv' blk fn ra X M ->
      exists X1 V1 c1 z1 M1,
        reach inner (text k) org (St X V F cf zf org M) (St X1 V1 F c1 z1 fn M1) /\
        args_passed rt ts vs (gpr_args X1) (xmm_args V1) (rd M1 base (Z.to_nat (c_bytes c + 32))) /\
        args_extended rt ts vs (gpr_args X1) /\
        X1 RAX = vectors_used rt ts /\ X1 R10 = closure /\
        (hidden_pointer rt = true -> X1 RDI = low64 (match rv with Some p => p | None => tmp end)) /\
        X1 RSP = base - 8 /\ rd M1 (base - 8) 8 = le_enc 8 (at_label (src k) org 8) /\
        X1 RBP = base + c_bytes c /\ rd M1 (base + c_bytes c) 32 = saved X ra /\
        (forall i, i = 3 \/ 12 <= i -> X1 i = X i) /\
        (forall x, ~ (base + c_bytes c <= x < base + c_bytes c + 32) -> ~ (base - 8 <= x < base) -> M1 x = M x).
Proof.
  intros R N O S P E1 E2 E3 E4 E5 E6 E7 Hcl.
  destruct (call_shape rt ts vs b f c rv tmp closure base g_gpr g_sse g_area) as
    (gpr & sse & sc & area & fl & rv' & Ci & L1 & L2 & L3 & L4 & Hsc & Hb & C64); auto.
  exists (block_bytes gpr sse sc closure area), fl, rv'. split; [exact Ci|].
  intros k inner org X V F cf zf M fn ra Ho Ho2 (HX & HV & HF & HF8 & HM) (C1 & C2 & C3 & C4 & C5 & C6 & C7 & C8 & C9).
  destruct (block_parts _ _ _ _ _ _ _ L1 L2 L3 C9) as (Eg & P0 & P1 & P2 & P3 & P4 & P5 & Es & Px & P10 & Pa).
  replace (base - 192 + 192) with base in Pa by lia.
  destruct (call64_ok rt ts vs b f c rv tmp closure base g_gpr g_sse g_area (xmm_args V) (saved X ra) R N (proj1 O) (proj2 O) S P) as
    (m & fl2 & rv2 & D0 & D1 & D2 & D3 & D4 & D5 & D6 & D7 & D8 & D9 & D10 & D11).
  { unfold env_ok. repeat (split; [first [assumption|lia]|]). split; [reflexivity|]. split; [|apply saved_len].
    unfold xmm_args. cbn [map]. repeat constructor; apply HV. }
  rewrite C64 in D0. destruct (set_range area (c_bytes c) (saved X ra)) as [stk|] eqn:Est; cbn [of_option bind] in D0; [|discriminate].
  injection D0 as <- <- <-. cbn [m_gpr m_xmm m_rax m_r10 m_sp m_stack] in *.
  destruct E1 as [bq Ebq].
  pose proof (HX RSP) as B4.
  destruct (call_enter k inner org X V F cf zf M (base - 192) (c_bytes c + 192) ra) as
    (X1 & V1 & c1 & z1 & M1 & Rr & G0 & G1 & G2 & G3 & G4 & G5 & Gx & G10 & Gsp & Gbp & Gk & V0 & V8 & Vk & Fr & Rt & Mk); auto;
    try (rewrite ?Ebq; lia).
  replace (base - 192 + (c_bytes c + 192)) with (base + c_bytes c) in * by lia.
  replace (base - 192 + 184) with (base - 8) in * by lia.
  replace (base - 192 + 192) with base in * by lia.
  rewrite P0, le_dec_enc in G0. rewrite P1, le_dec_enc in G1. rewrite P2, le_dec_enc in G2. rewrite P3, le_dec_enc in G3.
  rewrite P4, le_dec_enc in G4. rewrite P5, le_dec_enc in G5. rewrite P10, le_dec_enc in G10.
  change (2 ^ (8 * Z.of_nat 8)) with (2 ^ 64) in *. rewrite (Z.mod_small closure) in G10 by lia.
  assert (Erax : X1 RAX = sc).
  { rewrite Gx. replace (rd M (base - 192 + 176) 4) with (firstn 4 (rd M (base - 192 + 176) 8)).
    - rewrite Px, le_enc_firstn by lia. rewrite le_dec_enc. apply Z.mod_small. change (2 ^ (8 * Z.of_nat 4)) with 4294967296. lia.
    - change 8%nat with (4 + 4)%nat. rewrite rd_app. rewrite firstn_app, rd_length, Nat.sub_diag, app_nil_r. apply firstn_all2. rewrite rd_length. lia. }
  assert (Ega : gpr_args X1 = map low64 gpr).
  { unfold gpr_args. rewrite G0, G1, G2, G3, G4, G5, Eg. reflexivity. }
  assert (Exa : xmm_args V1 = if sc =? 0 then xmm_args V else sse).
  { destruct (Z.eqb_spec sc 0) as [H0|H0]; unfold xmm_args.
    - apply map_ext. intros i. apply V0. lia.
    - rewrite Es. apply map_ext_in. intros i Hi. apply V8; [lia|]. cbn in Hi. lia. }
  assert (Ea : rd M1 base (Z.to_nat (c_bytes c + 32)) = stk).
  { pose proof (set_range_inv _ _ _ _ Est) as (_ & _ & Q & _). rewrite Q.
    replace (Z.to_nat (c_bytes c + 32)) with (Z.to_nat (c_bytes c) + 32)%nat by lia. rewrite rd_app, Z2Nat.id by lia. f_equal.
    - rewrite (rd_ext M) by (intros x Hx; apply Mk; lia). rewrite <- Pa. unfold zlen in L4.
      replace (length area) with (Z.to_nat (c_bytes c) + 32)%nat by lia. rewrite rd_app, firstn_app, rd_length, Nat.sub_diag. rewrite firstn_O.
      rewrite app_nil_r, firstn_all2 by (rewrite rd_length; lia). reflexivity.
    - rewrite Fr. rewrite skipn_all2, app_nil_r; [reflexivity|]. rewrite saved_len. unfold zlen in L4. lia. }
  exists X1, V1, c1, z1, M1. rewrite Ega, Exa, Ea. rewrite C5 in Rr.
  split; [exact Rr|]. split; [apply passed_64, D1|]. split; [apply extended_64; [exact (proj2 O)|exact D2]|].
  split; [congruence|]. split; [exact G10|].
  split.
  { intros Hh. rewrite G0. specialize (D9 Hh). unfold znth in D9. cbn [Z.leb Z.to_nat] in D9.
    rewrite Eg in D9. cbn [map nth_error] in D9. injection D9 as ->. reflexivity. }
  split; [exact Gsp|]. split; [exact Rt|]. split; [exact Gbp|]. split; [exact Fr|]. split; [exact Gk|]. exact Mk.
Qed.
