(** Return flags and the two return tables on x86-64. *)
From Coq Require Import ZifyBool ZifyNat Znumtheory.
From Verif Require Import Base BaseFacts Types LayoutSpec NaturalTypes NaturalFacts Unix64Model Unix64Spec Unix64Classify Unix64Call Unix64Fill Unix64Closure.
Ltac Zify.zify_post_hook ::= Z.div_mod_to_equations.
Local Arguments Z.mul : simpl never.
Local Arguments Z.add : simpl never.
Local Arguments Z.sub : simpl never.
Local Arguments Z.pow : simpl never.
Local Arguments Z.div : simpl never.
Local Arguments Z.modulo : simpl never.
Local Arguments Z.leb : simpl never.
Local Arguments Z.ltb : simpl never.
Local Arguments Z.eqb : simpl never.
Local Arguments Z.gtb : simpl never.
Local Arguments le_enc : simpl never.

(** Flags of a result in registers: a code and, for structs, a size. *)
Definition mkflags (code size : Z) (xmm : bool) : Z :=
  code + 4096 * size + (if xmm then 2048 else 0).

Lemma size_16 s : 0 <= s <= 16 -> s = 0 \/ s = 1 \/ s = 2 \/ s = 3 \/ s = 4 \/ s = 5 \/ s = 6 \/ s = 7 \/ s = 8 \/
  s = 9 \/ s = 10 \/ s = 11 \/ s = 12 \/ s = 13 \/ s = 14 \/ s = 15 \/ s = 16.
Proof. lia. Qed.

Definition code_16 (c : Z) : Prop := 0 <= c < 16.

Lemma mkflags_code c s x : 0 <= c < 16 -> 0 <= s <= 16 -> mkflags c s x mod 256 = c.
Proof. unfold mkflags. destruct x; lia. Qed.
Lemma mkflags_size c s x : 0 <= c < 16 -> 0 <= s <= 16 -> Z.shiftr (wrap32 (mkflags c s x)) SIZE_SHIFT = s.
Proof.
  intros. unfold wrap32, wrap, SIZE_SHIFT. rewrite Z.shiftr_div_pow2 by lia. change (2 ^ 12) with 4096.
  change (2 ^ 32) with 4294967296. unfold mkflags. destruct x; lia.
Qed.
Lemma mkflags_bits c s x : 0 <= c < 16 -> 0 <= s <= 16 ->
  Z.land (mkflags c s x) FLAG_RET_IN_MEM = 0 /\ Z.land (mkflags c s x) FLAG_XMM_ARGS = (if x then 2048 else 0) /\
  Z.lor (mkflags c s false) FLAG_XMM_ARGS = mkflags c s true.
Proof.
  intros Hc Hs. unfold mkflags. 
  assert (Hc' : c = 0 \/ c = 1 \/ c = 2 \/ c = 3 \/ c = 4 \/ c = 5 \/ c = 6 \/ c = 7 \/ c = 8 \/
  c = 9 \/ c = 10 \/ c = 11 \/ c = 12 \/ c = 13 \/ c = 14 \/ c = 15) by lia. clear Hc.
  apply size_16 in Hs.
  repeat (destruct Hc' as [->|Hc']); try subst c;
  repeat (destruct Hs as [->|Hs]); try subst s; destruct x; repeat split; reflexivity.
Qed.

(** The code chosen for a register result, in terms of the specification. *)
Definition code_ok (rt : ftype) (code size : Z) : Prop :=
  match passing_of rt with
  | PMemory => False
  | PX87 => (code = RET_X87 /\ size = 0) \/ (ty_code rt = T_STRUCT /\ code = RET_ST_RAX_RDX /\ size = 16)
  | PX87x2 => code = RET_X87_2 /\ size = 0
  | PRegs l =>
    if integral rt then size = 0 /\ code =
      match ty_code rt with
      | T_UINT8 => RET_UINT8 | T_SINT8 => RET_SINT8 | T_UINT16 => RET_UINT16 | T_SINT16 => RET_SINT16
      | T_UINT32 => RET_UINT32 | T_SINT32 | T_INT => RET_SINT32 | _ => RET_INT64 end
    else
      (l = [ESse] /\ ty_size rt = 4 /\ code = RET_XMM32 /\ size = 0) \/
      (l = [ESse] /\ ty_size rt = 8 /\ code = RET_XMM64 /\ size = 0) \/
      (l = [EInt] /\ ty_size rt = 8 /\ code = RET_INT64 /\ size = 0) \/
      (size = ty_size rt /\
        ((l = [ESse; ESse] /\ code = RET_ST_XMM0_XMM1) \/
         ((l = [ESse] \/ l = [ESse; EInt]) /\ code = RET_ST_XMM0_RAX) \/
         (l = [EInt; ESse] /\ code = RET_ST_RAX_XMM0) \/
         ((l = [EInt] \/ l = [EInt; EInt]) /\ code = RET_ST_RAX_RDX)))
  end.

Lemma sse_class_proj c : plain c = true -> sse_class_p c = is_esse (proj c).
Proof. destruct c; try discriminate; reflexivity. Qed.

Lemma ret_flags_ok rt : natural rt ->
  if hidden_pointer rt then ret_flags rt = Ok (Some (FLAG_RET_IN_MEM, 1))
  else exists code size, 0 <= code < 16 /\ 0 <= size <= 16 /\
    ret_flags rt = Ok (Some (mkflags code size false, 0)) /\ code_ok rt code size.
Proof.
  destruct rt as [c s a es]. intros N.
  destruct (natural_inv _ _ _ _ N) as [H|[(t0 & H & -> & -> & -> & ->)|(-> & NE & F & offs & SL)]].
  - apply scalar_cases in H.
    repeat (destruct H as [H|H]); injection H as -> -> -> ->;
    match goal with |- context [hidden_pointer ?t] => change (hidden_pointer t) with false end; cbn iota;
    cbn [ret_flags ty_code]; unfold RET_INT64, RET_UINT8, RET_SINT8, RET_UINT16, RET_SINT16, RET_UINT32, RET_SINT32, RET_XMM32, RET_XMM64, RET_X87;
    match goal with |- context [Ok (Some (?k, 0))] => exists k, 0 end;
    (split; [lia|split; [lia|split; [reflexivity|]]]); unfold code_ok;
    (let p := fresh "p" in match goal with |- context [passing_of ?t] => let r := eval vm_compute in (passing_of t) in change (passing_of t) with r end);
    cbn; auto 6.
  - cbn in H.
    repeat (destruct H as [<-|H]; [
      match goal with |- context [hidden_pointer ?t] => change (hidden_pointer t) with false end; cbn iota;
      match goal with |- context [ret_flags ?t] =>
        let r := eval vm_compute in (ret_flags t) in change (ret_flags t) with r;
        match r with Ok (Some (?k, _)) =>
          let c := eval vm_compute in (k mod 256) in let z := eval vm_compute in (k / 4096) in exists c, z end end;
      (split; [lia|split; [lia|split; [reflexivity|]]]); unfold code_ok;
      match goal with |- context [passing_of ?t] => let r := eval vm_compute in (passing_of t) in change (passing_of t) with r end;
      cbn; unfold RET_ST_RAX_RDX, RET_ST_XMM0_XMM1, RET_X87_2, RET_XMM64;
      repeat match goal with |- context [2 * ?x] => let r := eval vm_compute in (2 * x) in change (2 * x) with r end; auto 12|]). contradiction.
  - set (t := FT T_STRUCT s a es) in *.
    assert (Hh : hidden_pointer t = match passing_of t with PMemory => true | _ => false end) by reflexivity.
    rewrite Hh. destruct (examine_ok t true N) as (e & Ee & Oe).
    assert (R : ret_flags t = match e with
       | EMem => Ok (Some (Z.lor RET_VOID FLAG_RET_IN_MEM, 1))
       | ERegs cl _ _ | EX87 cl =>
         let n := match e with EX87 _ => 1 | _ => zlen cl end in
         let sse0 := match cl with c :: _ => sse_class_p c | [] => false end in
         if (s =? 4) && sse0 then Ok (Some (RET_XMM32, 0))
         else if s =? 8 then Ok (Some (if sse0 then RET_XMM64 else RET_INT64, 0))
         else
           let sse1 := (n =? 2) && match cl with _ :: c :: _ => sse_class_p c | _ => false end in
           let f := if sse0 && sse1 then RET_ST_XMM0_XMM1
                    else if sse0 then RET_ST_XMM0_RAX
                    else if sse1 then RET_ST_RAX_XMM0
                    else RET_ST_RAX_RDX in
           Ok (Some (wrap32 (Z.lor f (Z.shiftl s SIZE_SHIFT)), 0))
       end).
    { unfold ret_flags. change (ty_code t) with T_STRUCT. change (ty_size t) with s. cbv zeta. rewrite Ee. cbn [bind]. destruct e; reflexivity. }
    rewrite R. clear R Ee.
    assert (Fl : forall f, 0 <= f < 16 -> 0 <= s <= 16 -> wrap32 (Z.lor f (Z.shiftl s SIZE_SHIFT)) = mkflags f s false).
    { intros f Hf Hs. 
      assert (Hc' : f = 0 \/ f = 1 \/ f = 2 \/ f = 3 \/ f = 4 \/ f = 5 \/ f = 6 \/ f = 7 \/ f = 8 \/
      f = 9 \/ f = 10 \/ f = 11 \/ f = 12 \/ f = 13 \/ f = 14 \/ f = 15) by lia. clear Hf. clear - Hc' Hs.
      apply size_16 in Hs.
      repeat (destruct Hc' as [->|Hc']); try subst f; repeat (destruct Hs as [->|Hs]); try subst s; reflexivity. }
    pose proof (natural_basic _ N) as (Bs & _). change (ty_size t) with s in Bs.
    unfold exam_ok in Oe. unfold code_ok. change (integral t) with false. change (ty_code t) with T_STRUCT. change (ty_size t) with s in *.
    destruct (passing_of t) as [|l| |] eqn:P.
    + subst e. reflexivity.
    + destruct Oe as (cl & -> & O1 & O2 & O3 & O4 & O5 & O6). cbv zeta.
      pose proof (words_not_none t N O5) as NN. rewrite <- O4 in NN.
      assert (Lcl : zlen cl = eightbytes s).
      { rewrite <- (zlen_map proj cl), O1, O4, words_length. change (ty_size t) with s. unfold eightbytes. lia. }
      destruct cl as [|c1 [|c2 [|c3 cl]]].
      * exfalso. rewrite zlen_nil in Lcl. unfold eightbytes in Lcl. lia.
      * cbn [map] in O1. subst l. cbn [forallb] in O2. rewrite andb_true_r in O2. rewrite sse_class_proj by auto.
        inversion NN as [|? ? N1 _]; subst. change (zlen [c1]) with 1 in *. change (1 =? 2) with false. cbn [andb].
        rewrite andb_false_r.
        destruct (proj c1) eqn:Pj; [| |congruence]; cbn [is_esse andb]; rewrite ?andb_false_r, ?andb_true_r.
        -- destruct (Z.eqb_spec s 8).
           ++ exists RET_INT64, 0. unfold RET_INT64, mkflags. split; [lia|split; [lia|split; [reflexivity|]]]. auto 8.
           ++ exists RET_ST_RAX_RDX, s. rewrite Fl by (unfold RET_ST_RAX_RDX; lia). unfold RET_ST_RAX_RDX.
              split; [lia|split; [lia|split; [reflexivity|]]]. auto 12.
        -- destruct (Z.eqb_spec s 4); [|destruct (Z.eqb_spec s 8)].
           ++ exists RET_XMM32, 0. unfold RET_XMM32, mkflags. split; [lia|split; [lia|split; [reflexivity|]]]. auto 8.
           ++ exists RET_XMM64, 0. unfold RET_XMM64, mkflags. split; [lia|split; [lia|split; [reflexivity|]]]. auto 8.
           ++ exists RET_ST_XMM0_RAX, s. rewrite Fl by (unfold RET_ST_XMM0_RAX; lia). unfold RET_ST_XMM0_RAX.
              split; [lia|split; [lia|split; [reflexivity|]]]. auto 12.
      * cbn [map] in O1. subst l. cbn [forallb] in O2. rewrite andb_true_r in O2. apply andb_prop in O2 as [O2 O2'].
        rewrite !sse_class_proj by auto.
        inversion NN as [|? ? N1 NN']; subst. inversion NN' as [|? ? N2 _]; subst.
        change (zlen [c1; c2]) with 2 in *. change (2 =? 2) with true. cbn [andb].
        replace (s =? 4) with false by (unfold eightbytes in Lcl; lia). replace (s =? 8) with false by (unfold eightbytes in Lcl; lia).
        cbn [andb].
        destruct (proj c1) eqn:Pj1; [| |congruence]; (destruct (proj c2) eqn:Pj2; [| |congruence]); cbn [is_esse andb].
        -- exists RET_ST_RAX_RDX, s. rewrite Fl by (unfold RET_ST_RAX_RDX; lia). unfold RET_ST_RAX_RDX.
           split; [lia|split; [lia|split; [reflexivity|]]]. auto 12.
        -- exists RET_ST_RAX_XMM0, s. rewrite Fl by (unfold RET_ST_RAX_XMM0; lia). unfold RET_ST_RAX_XMM0.
           split; [lia|split; [lia|split; [reflexivity|]]]. auto 12.
        -- exists RET_ST_XMM0_RAX, s. rewrite Fl by (unfold RET_ST_XMM0_RAX; lia). unfold RET_ST_XMM0_RAX.
           split; [lia|split; [lia|split; [reflexivity|]]]. auto 12.
        -- exists RET_ST_XMM0_XMM1, s. rewrite Fl by (unfold RET_ST_XMM0_XMM1; lia). unfold RET_ST_XMM0_XMM1.
           split; [lia|split; [lia|split; [reflexivity|]]]. auto 12.
      * exfalso. unfold eightbytes in Lcl. rewrite !zlen_cons in Lcl. pose proof (zlen_nonneg cl). lia.
    + (* struct of one long double *)
      subst e. cbv zeta. cbn [sse_class_p].
      assert (s = 16).
      { assert (X : x87_in t = true /\ s <= 16).
        { unfold passing_of in P. change (ty_size t) with s in P. unfold t in P. fold t in P.
          destruct (Z.gtb_spec s 16); [discriminate|]. unfold x87_in. destruct (existsb is_x87 (flatten t 0)); [split; auto; lia|discriminate]. }
        destruct X as [X Hs]. pose proof (x87_size t N X) as S16. change (ty_size t) with s in S16. lia. }
      subst s. exists RET_ST_RAX_RDX, 16. unfold RET_ST_RAX_RDX. split; [lia|split; [lia|split; [reflexivity|]]]. auto.
    + exfalso. unfold passing_of, t in P. fold t in P. change (ty_size t) with s in P. destruct (s >? 16); [discriminate|].
      destruct (existsb is_x87 (flatten t 0)); discriminate.
Qed.
