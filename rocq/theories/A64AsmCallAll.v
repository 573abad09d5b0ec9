(** ffi_call_SYSV as a whole. *)
From Coq Require Import ZifyBool ZifyNat.
From Verif Require Import Base BaseFacts ByteMem A64AsmModel A64AsmFacts A64AsmCall A64AsmRet.
From Verif Require A64Model.
Local Open Scope Z_scope.
Local Arguments Z.mul : simpl never.
Local Arguments Z.add : simpl never.
Local Arguments Z.sub : simpl never.
Local Arguments Z.pow : simpl never.
Local Arguments Z.of_nat : simpl never.

Definition word (x : Z) : Prop := 0 <= x < 2 ^ 64.
(** Signing a return address with a modifier and authenticating gives it back. *)
Definition pac_ok (e : env) (a m : Z) : Prop := word a /\ forall k, word (sign e k a m) /\ auth e k (sign e k a m) m = a.

Lemma law_back p e lr m : pac_ok e lr m -> word (saved_lr p e lr m) /\ returned p e (saved_lr p e lr m) m = lr.
Proof. intros [H K]. destruct p; cbn [returned saved_lr]; [auto|apply K|apply K]. Qed.

Lemma dec_enc8 a : word a -> le_dec (le_enc 8 a) = a.
Proof. intros H. rewrite le_dec_enc. apply Z.mod_small. exact H. Qed.

Lemma rd_at m a n b d off : rd m a n = b -> firstn (length d) (skipn off b) = d -> (off + length d <= n)%nat -> rd m (a + Z.of_nat off) (length d) = d.
Proof.
  intros H E L. subst b. replace n with (off + (length d + (n - off - length d)))%nat in E by lia.
  rewrite !rd_app in E. rewrite skipn_app, skipn_all2 in E by (rewrite rd_length; lia). rewrite rd_length in E.
  replace (off - off)%nat with 0%nat in E by lia. cbn [skipn app] in E.
  rewrite firstn_app, rd_length in E. replace (length d - length d)%nat with 0%nat in E by lia. cbn [firstn] in E.
  rewrite app_nil_r, firstn_all2 in E by (rewrite rd_length; lia). exact E.
Qed.

Lemma app_inj_len {A} (a b c d : list A) : a ++ b = c ++ d -> length a = length c -> a = c /\ b = d.
Proof.
  revert c. induction a as [|x a IH]; intros [|y c] H L; cbn in *; try lia; [auto|].
  injection H as -> H. injection L as L. destruct (IH c H L) as [-> ->]. auto.
Qed.

(** The frame: five words. *)
Lemma frame_words m f a b c d g :
  rd m f 40 = le_enc 8 a ++ le_enc 8 b ++ le_enc 8 c ++ le_enc 8 d ++ le_enc 8 g ->
  rd m f 8 = le_enc 8 a /\ rd m (f + 8) 8 = le_enc 8 b /\ rd m (f + 16) 8 = le_enc 8 c /\
  rd m (f + 24) 8 = le_enc 8 d /\ rd m (f + 32) 8 = le_enc 8 g.
Proof.
  intros H.
  change 40%nat with (8 + (8 + (8 + (8 + 8))))%nat in H. rewrite !rd_app in H.
  change (Z.of_nat 8) with 8 in H.
  repeat (apply app_inj_len in H; [destruct H as [? H]|rewrite rd_length, le_enc_length; reflexivity]).
  replace (f + 16) with (f + 8 + 8) by lia. replace (f + 24) with (f + 8 + 8 + 8) by lia. replace (f + 32) with (f + 8 + 8 + 8 + 8) by lia.
  auto.
Qed.

Lemma store_ret_code fl r b : A64Model.store_ret fl r b = A64Model.store_ret (Z.land (fl mod 2 ^ 32) 31) r b.
Proof.
  unfold A64Model.store_ret. replace (Z.land (Z.land (fl mod 2 ^ 32) 31) A64Model.A_RET_MASK) with (Z.land fl A64Model.A_RET_MASK); [reflexivity|].
  change A64Model.A_RET_MASK with 31. rewrite <- Z.land_assoc. change (Z.land 31 31) with 31.
  rewrite <- Z.land_ones by lia. rewrite <- Z.land_assoc. reflexivity.
Qed.

Lemma call_return p go e org X V M fr fp slr rv fl sp n buf :
  0 <= org -> org + 4 * zlen (call_text p go) <= 2 ^ 64 ->
  X 29 = fr -> 0 <= fr -> fr + 40 <= 2 ^ 64 ->
  rd M fr 40 = le_enc 8 fp ++ le_enc 8 slr ++ le_enc 8 rv ++ le_enc 8 fl ++ le_enc 8 sp ->
  word fp -> word slr -> word rv -> word fl -> word sp -> wide V -> rv + Z.of_nat n <= 2 ^ 64 ->
  A64Model.store_ret fl (A64Model.ARet (le_enc 8 (X 0) ++ le_enc 8 (X 1)) (regs4 V)) (rd M rv n) = Ok buf ->
  exists X1 M1,
    reach e (call_text p go) org (St X V (at_label (call_src p go) org 2) M) (St X1 V (returned p e slr fr) M1) /\
    rd M1 rv n = buf /\ (forall x, ~ (rv <= x < rv + Z.of_nat n) -> M1 x = M x) /\
    X1 SP = sp /\ X1 29 = fp /\ (forall i, 19 <= i < 29 -> X1 i = X i).
Proof.
  intros Ho1 Ho2 E29 F1 F2 Fr Wfp Wlr Wrv Wfl Wsp W Hn S.
  destruct (frame_words _ _ _ _ _ _ _ Fr) as (R0 & R8 & R16 & R24 & R32).
  destruct (call_table p go e org X V M fr Ho1 Ho2 E29 F1 F2) as (Xa & Ra & A0 & A1 & A2 & A3 & Asp & A29 & Alr & Acs).
  cbv zeta in Ra. rewrite R24, dec_enc8 in Ra by assumption. rewrite R16, dec_enc8 in A3 by assumption.
  rewrite R32, dec_enc8 in Asp by assumption. rewrite R0, dec_enc8 in A29 by assumption. rewrite R8, dec_enc8 in Alr by assumption.
  rewrite store_ret_code, <- A0, <- A1, <- A3 in S. rewrite <- A3 in Hn.
  destruct (call_store p go e org Xa V M _ n buf Ho1 Ho2 W ltac:(rewrite A3; apply Wrv) Hn (land31 _) S) as (Xb & Mb & Rb & B1 & B2 & Bk).
  destruct (call_leave p go e org Xb V Mb Ho1 Ho2) as (Xc & Rc & Clr & Csp & Ccs & _).
  exists Xc, Mb. rewrite A3 in B1, B2. rewrite !Bk in Rc by (unfold LR; lia). rewrite Alr, A2 in Rc.
  split; [eapply reach_trans; [exact Ra|]; eapply reach_trans; [exact Rb|exact Rc]|].
  split; [exact B1|]. split; [exact B2|]. split; [rewrite Csp, Bk by (unfold SP; lia); exact Asp|].
  split; [rewrite Ccs, Bk by lia; exact A29|]. intros i Hi. rewrite Ccs, Bk by lia. apply Acs, Hi.
Qed.

(** What ffi_call_SYSV keeps in the frame it is given. *)
Definition saved_frame (p : pac) (e : env) (X : Z -> Z) : list Z :=
  le_enc 8 (X 29) ++ le_enc 8 (saved_lr p e (X LR) (X 1)) ++ le_enc 8 (X 3) ++ le_enc 8 (X 4) ++ le_enc 8 (X SP).

(** From every state in which the called function can return, the code gets back to its caller
    [X] and stores the result as A64Model.store_ret says. *)
Definition call_returns (p : pac) (go : bool) (e : env) (org : Z) (X X1 M1 : Z -> Z) : Prop :=
    forall X2 V2 M2 n buf,
      (forall i, 19 <= i < 30 -> X2 i = X1 i) -> wide V2 ->
      (forall x, X 1 <= x < X 1 + 40 -> M2 x = M1 x) ->
      X 3 + Z.of_nat n <= 2 ^ 64 ->
      A64Model.store_ret (X 4) (A64Model.ARet (le_enc 8 (X2 0) ++ le_enc 8 (X2 1)) (regs4 V2)) (rd M2 (X 3) n) = Ok buf ->
      exists X3 M3,
        reach e (call_text p go) org (St X2 V2 (X1 LR) M2) (St X3 V2 (X LR) M3) /\
        X3 SP = X SP /\ (forall i, 19 <= i < 30 -> X3 i = X i) /\
        rd M3 (X 3) n = buf /\ (forall x, ~ (X 3 <= x < X 3 + Z.of_nat n) -> M3 x = M2 x).

(** Entry, the called function, and return.  [n]: bytes at the result pointer considered. *)
Lemma call_whole p go e org X V M :
  0 <= org -> org + 4 * zlen (call_text p go) <= 2 ^ 64 -> pac_ok e (X LR) (X 1) ->
  (forall i, word (X i)) ->
  X 0 + CTX < 2 ^ 64 -> X 1 + 40 <= 2 ^ 64 ->
  exists X1 V1 M1,
    reach e (call_text p go) org (St X V org M) (St X1 V1 (fn_target p e (X 2)) M1) /\
    (forall i, 0 <= i < 8 -> X1 i = le_dec (rd M1 (X 0 + 128 + 8 * i) 8)) /\
    (forall i, 0 <= i < 8 -> V1 i = if Z.testbit (X 4) 7 then rd M1 (X 0 + 16 * i) 16 else V i) /\
    X1 8 = X 3 /\ (go = true -> X1 18 = X 5) /\ X1 SP = X 0 + CTX /\
    (forall i, 19 <= i < 29 -> X1 i = X i) /\ (forall i, 8 <= i -> V1 i = V i) /\
    (forall x, M1 x = wr M (X 1) (saved_frame p e X) x) /\
    call_returns p go e org X X1 M1.
Proof.
  intros Ho1 Ho2 Law Wx Hc Hf. destruct (law_back p e _ _ Law) as [Wlr Er].
  destruct (call_enter p go e org X V M Ho1 Ho2 ltac:(apply Wx) Hc ltac:(apply Wx) Hf)
    as (X1 & V1 & M1 & R & Hm & Hx & Hv & Hv8 & H8 & H18 & Hsp & H29 & Hlr & Hcs).
  set (frame := le_enc 8 (X 29) ++ le_enc 8 (saved_lr p e (X 30) (X 1)) ++ le_enc 8 (X 3) ++ le_enc 8 (X 4) ++ le_enc 8 (X SP)) in *.
  assert (Lf : length frame = 40%nat) by (unfold frame; rewrite !app_length, !le_enc_length; reflexivity).
  exists X1, V1, M1. split; [exact R|]. split; [exact Hx|]. split; [exact Hv|]. split; [exact H8|]. split; [exact H18|].
  split; [exact Hsp|]. split; [exact Hcs|]. split; [exact Hv8|].
  split; [exact Hm|].
  intros X2 V2 M2 n buf Hkeep W Hfr Hn S.
  assert (Fr : rd M2 (X 1) 40 = frame).
  { rewrite (rd_ext (wr M (X 1) frame)); [apply rd_wr_same; symmetry; exact Lf|].
    intros x Hx1. rewrite Hfr by lia. apply Hm. }
  destruct (call_return p go e org X2 V2 M2 (X 1) (X 29) (saved_lr p e (X 30) (X 1)) (X 3) (X 4) (X SP) n buf)
    as (X3 & M3 & R3 & B1 & B2 & Csp & C29 & Ccs); try assumption; try apply Wx.
  - rewrite Hkeep by lia. exact H29.
  - exists X3, M3. rewrite Hlr.
    unfold LR in Er. rewrite Er in R3. split; [exact R3|]. split; [exact Csp|].
    split; [|split; [exact B1|exact B2]].
    intros i Hi. destruct (Z.eq_dec i 29) as [->|Ni]; [exact C29|]. rewrite Ccs, Hkeep by lia. apply Hcs. lia.
Qed.

(** ** The model of the C code agrees *)

Definition xbytes (X : Z -> Z) : list Z := concat (map (fun i => le_enc 8 (X i)) [0; 1; 2; 3; 4; 5; 6; 7]).
Definition vbytes (V : Z -> list Z) : list Z := concat (map V [0; 1; 2; 3; 4; 5; 6; 7]).

Lemma get_is (b : list Z) off n d : get_range b off n = Some d -> 0 <= off /\ 0 <= n /\ off + n <= zlen b.
Proof. unfold get_range. destruct (_ && _ && _) eqn:E; [lia|discriminate]. Qed.

Lemma rd_addr m a b n : a = b -> rd m a n = rd m b n.
Proof. intros ->. reflexivity. Qed.

Lemma bytes_rd m a n : (forall x, byte_ok (m x)) -> bytes_ok (rd m a n).
Proof. intros H. revert a. induction n as [|n IH]; intros a; cbn [rd]; [constructor|]. constructor; [apply H|apply IH]. Qed.

Lemma enc_dec_rd m a : (forall x, byte_ok (m x)) -> le_enc 8 (le_dec (rd m a 8)) = rd m a 8.
Proof. intros H. replace 8%nat with (length (rd m a 8)) at 1 by apply rd_length. apply le_enc_dec. apply bytes_rd, H. Qed.

Lemma wr_bytes m a d x : (forall x, byte_ok (m x)) -> bytes_ok d -> byte_ok (wr m a d x).
Proof.
  intros Hm Hd. unfold wr. destruct ((a <=? x) && (x <? a + zlen d)) eqn:E; [|apply Hm].
  unfold bytes_ok in Hd. rewrite Forall_forall in Hd. apply Hd, nth_In. unfold zlen in E. lia.
Qed.

Lemma testbit_land x k : 0 <= k -> Z.testbit x k = negb (Z.land x (2 ^ k) =? 0).
Proof.
  intros Hk. destruct (Z.testbit x k) eqn:E; symmetry.
  - apply negb_true_iff, Z.eqb_neq. intros H.
    assert (F : Z.testbit (Z.land x (2 ^ k)) k = true) by (rewrite Z.land_spec, E, Z.pow2_bits_true by lia; reflexivity).
    rewrite H, Z.bits_0 in F. discriminate.
  - apply negb_false_iff, Z.eqb_eq. apply Z.bits_inj_iff'. intros i Hi. rewrite Z.land_spec, Z.bits_0.
    destruct (Z.eq_dec i k) as [->|N]; [rewrite E; reflexivity|]. rewrite Z.pow2_bits_false by lia. apply andb_false_r.
Qed.


Lemma call_refines pl c rv objs chain base g_blk g_v blk s m fl r p go e org X V M :
  0 <= org -> org + 4 * zlen (call_text p go) <= 2 ^ 64 ->
  pac_ok e (X LR) (X 1) -> (forall i, word (X i)) -> (forall x, byte_ok (M x)) -> 0 <= base -> base + zlen blk < 2 ^ 64 -> 0 <= A64Model.k_bytes c ->
  A64Model.put_args pl (A64Model.win_variadic c) (A64Model.k_nfixed c) base 0 (A64Model.k_args c) objs g_blk
    (A64Model.arg_init (A64Model.k_bytes c)) = Ok (blk, s) ->
  A64Model.call pl c rv objs chain base g_blk g_v (saved_frame p e X) = Ok (m, fl, r) ->
  rd M base (length blk) = blk -> g_v = vbytes V ->
  X 0 = base -> X 1 = base + CTX + A64Model.k_bytes c -> X 3 = match r with Some a => a | None => 0 end -> X 4 = fl -> X 5 = chain ->
  exists X1 V1 M1,
    reach e (call_text p go) org (St X V org M) (St X1 V1 (fn_target p e (X 2)) M1) /\
    xbytes X1 = A64Model.s_x m /\ vbytes V1 = A64Model.s_v m /\
    X1 8 = A64Model.s_x8 m /\ (go = true -> X1 18 = A64Model.s_x18 m) /\ X1 SP = A64Model.s_sp m /\
    (forall a n d, A64Model.s_read m a n = Some d -> rd M1 a (Z.to_nat n) = d) /\
    (forall x, M1 x = wr M (X 1) (saved_frame p e X) x) /\ (forall i, 19 <= i < 29 -> X1 i = X i) /\ (forall i, 8 <= i -> V1 i = V i) /\
    call_returns p go e org X X1 M1.
Proof.
  intros Ho1 Ho2 Law Wx Hb Hb0 Hb1 Hk Hp Hc Hm Hg E0 E1 E3 E4 E5.
  assert (Lf : zlen (saved_frame p e X) = 40) by (unfold saved_frame; rewrite !zlen_app, !zlen_enc; reflexivity).
  unfold A64Model.call in Hc. rewrite Hp in Hc. cbn [bind] in Hc. change A64Model.CTX with CTX in Hc.
  destruct (set_range blk (CTX + A64Model.k_bytes c) (saved_frame p e X)) as [blk1|] eqn:Es; cbn [of_option bind] in Hc; [|discriminate].
  destruct (get_range blk1 0 (16 * A64Model.N_V)) as [v|] eqn:Ev; cbn [of_option bind] in Hc; [|discriminate].
  destruct (get_range blk1 (16 * A64Model.N_V) (8 * A64Model.N_X)) as [x|] eqn:Ex; cbn [of_option bind] in Hc; [|discriminate].
  injection Hc as Hm' Hfl Hr. rewrite Hfl, Hr in Hm'. rewrite <- E4 in Hfl, Hm'. subst m. cbn [A64Model.s_x A64Model.s_v A64Model.s_x8 A64Model.s_x18 A64Model.s_sp A64Model.s_read].
  assert (Bs : CTX + A64Model.k_bytes c + 40 <= zlen blk).
  { unfold set_range in Es. destruct (_ && _) eqn:Q in Es; [|discriminate]. lia. }
  destruct (call_whole p go e org X V M Ho1 Ho2 Law Wx ltac:(unfold CTX in *; lia) ltac:(unfold CTX in *; lia)) as (X1 & V1 & M1 & R & Hx & Hv & H8 & H18 & Hsp & Hcs & Hv8 & Hmm & Bk).
  assert (Em : rd M1 base (length blk) = blk1).
  { rewrite (rd_ext (wr M (X 1) (saved_frame p e X))) by (intros; apply Hmm).
    rewrite E1. replace (base + CTX + A64Model.k_bytes c) with (base + (CTX + A64Model.k_bytes c)) by lia.
    apply rd_wr_range. rewrite Hm. exact Es. }
  assert (Hb' : forall y, byte_ok (M1 y)).
  { intros y. rewrite Hmm. apply wr_bytes; [exact Hb|]. unfold saved_frame. rewrite !bytes_ok_app. repeat split; apply le_enc_ok. }
  rewrite <- Em in Ev, Ex. apply get_rd in Ev. apply get_rd in Ex.
  exists X1, V1, M1. split; [exact R|].
  split; [|split; [|split; [congruence|split; [intros G; rewrite H18 by exact G; exact E5|split; [rewrite Hsp; congruence|split; [|auto]]]]]].
  - unfold xbytes. cbn [map concat]. rewrite !Hx by lia. rewrite !enc_dec_rd by exact Hb'. rewrite <- Ex.
    change (Z.to_nat (8 * A64Model.N_X)) with (8 + (8 + (8 + (8 + (8 + (8 + (8 + 8))))))) %nat. rewrite !rd_app. rewrite app_nil_r.
    change (Z.of_nat 8) with 8. change (16 * A64Model.N_V) with 128. rewrite E0.
    repeat (apply (f_equal2 (@app Z)); [apply rd_addr; lia|]); apply rd_addr; lia.
  - unfold vbytes. cbn [map concat]. rewrite !Hv by lia. rewrite app_nil_r.
    replace (Z.testbit (X 4) 7) with (negb (Z.land (X 4) A64Model.A_ARG_V =? 0)).
    + destruct (Z.land (X 4) A64Model.A_ARG_V =? 0); cbn [negb].
      * subst g_v. unfold vbytes. cbn [map concat]. rewrite app_nil_r. reflexivity.
      * rewrite <- Ev. change (Z.to_nat (16 * A64Model.N_V)) with (16 + (16 + (16 + (16 + (16 + (16 + (16 + 16))))))) %nat. rewrite !rd_app.
        change (Z.of_nat 16) with 16. rewrite E0. repeat (apply (f_equal2 (@app Z)); [apply rd_addr; lia|]); apply rd_addr; lia.
    + change A64Model.A_ARG_V with (2 ^ 7). symmetry. apply testbit_land. lia.
  - intros a n d Hd. rewrite <- Em in Hd. apply get_rd in Hd. rewrite <- Hd. apply rd_addr. lia.
Qed.
