From Verif Require Import Base SegModel SegSpec SegProofs ClosureAllocModel ClosureAllocSpec.
From Coq Require Import Lia.
Local Open Scope Z_scope.

(** A segment continues in a later state. *)
Definition within (sp sp' : seg) : Prop :=
  sg_exo sp' = sg_exo sp /\ sg_base sp' <= sg_base sp /\ sg_base sp + sg_size sp <= sg_base sp' + sg_size sp'.
Definition covers (sg sg' : sgs) : Prop := forall sp, In sp (segs sg) -> exists sp', In sp' (segs sg') /\ within sp sp'.

Lemma within_refl sp : within sp sp. Proof. unfold within; lia. Qed.
Lemma covers_refl sg sg' : segs sg' = segs sg -> covers sg sg'.
Proof. intros E sp H. exists sp. rewrite E. split; [exact H|apply within_refl]. Qed.
Lemma covers_trans a b c : covers a b -> covers b c -> covers a c.
Proof.
  intros A B sp H. destruct (A _ H) as (s1 & H1 & W1). destruct (B _ H1) as (s2 & H2 & W2).
  exists s2. split; [exact H2|]. unfold within in *. lia.
Qed.

Lemma upd_first_in p f l sp : In sp l -> (forall x, In x l -> p x = true -> within x (f x)) ->
  exists sp', In sp' (upd_first p f l) /\ within sp sp'.
Proof.
  induction l as [|x l IH]; intros H W; [destruct H|]. cbn [upd_first]. destruct (p x) eqn:E.
  - destruct H as [->|H].
    + exists (f sp). split; [left; reflexivity|]. apply W; [left; reflexivity|exact E].
    + exists sp. split; [right; exact H|apply within_refl].
  - destruct H as [->|H].
    + exists sp. split; [left; reflexivity|apply within_refl].
    + destruct (IH H) as (sp' & A & B); [intros; apply W; [right|]; assumption|]. exists sp'. split; [right; exact A|exact B].
Qed.

Lemma set_flags_segs st b n sp st' : set_segment_flags st b n = Ok (sp, st') -> segs st' = segs st.
Proof.
  unfold set_segment_flags, read_word, write_word. destruct (vm st (b + n - 8)); [|discriminate]. cbn [bind].
  destruct (vm st _); [|discriminate]. cbn [bind]. destruct (negb _); [discriminate|]. cbn [bind]. intros H.
  injection H as _ <-. reflexivity.
Qed.

Lemma sys_add_covers p len top st st' : 0 <= len -> sys_add p len top st = Ok st' -> covers st st'.
Proof.
  intros Hl H. unfold sys_add in H. destruct (segs st) as [|s0 l0] eqn:Es.
  { intros sp Hsp. rewrite Es in Hsp. destruct Hsp. }
  rewrite <- Es in H.
  assert (New : (let* (sp, st') := set_segment_flags st p len in Ok (set_segs st' (sp :: segs st))) = Ok st' -> covers st st').
  { destruct (set_segment_flags st p len) as [[sp st1]| |]; try discriminate. cbn [bind]. intros K. injection K as <-.
    intros sq Hq. exists sq. split; [right; exact Hq|apply within_refl]. }
  destruct (read_word st (p + len - 8)) as [w| |]; try discriminate. cbn [bind] in H.
  destruct (match find _ (segs st) with Some sp => _ | None => false end).
  { injection H as <-. intros sp Hsp. cbn [segs set_segs]. apply upd_first_in; [exact Hsp|].
    intros x _ _. unfold within; cbn; lia. }
  destruct (match find _ (segs st) with Some sp => _ | None => false end); [|apply New; exact H].
  injection H as <-. intros sp Hsp. cbn [segs set_segs]. apply upd_first_in; [exact Hsp|].
  intros x _ Hx. apply Z.eqb_eq in Hx. unfold within; cbn; lia.
Qed.

Lemma dlmmap_segs len k st o st1 : dlmmap len k st = Ok (o, st1) -> segs st1 = segs st.
Proof.
  destruct k; cbn; intros H.
  - injection H as _ <-. reflexivity.
  - injection H as _ <-. reflexivity.
  - unfold write_word in H. destruct (vm _ (data + len - 8)); [|discriminate]. injection H as _ <-. reflexivity.
Qed.

Lemma sys_alloc_covers len k top st b st' : 0 <= len -> sys_alloc len k top st = Ok (b, st') -> covers st st'.
Proof.
  intros Hl. unfold sys_alloc. destruct (dlmmap len k st) as [[o st1]| |] eqn:D; try discriminate. cbn [bind].
  apply dlmmap_segs in D. destruct o as [p|].
  - destruct (sys_add p len top st1) as [st2| |] eqn:A; try discriminate. cbn [bind]. intros H. injection H as _ <-.
    apply sys_add_covers in A; [|exact Hl]. eapply covers_trans; [|exact A]. apply covers_refl. exact D.
  - intros H. injection H as _ <-. apply covers_refl. exact D.
Qed.

Lemma extend_ok l : forall sg, inv sg -> lawful_ext l sg -> exists sg', extend_all l sg = Ok sg' /\ inv sg' /\ covers sg sg'.
Proof.
  induction l as [|x r IH]; intros sg I L; cbn [extend_all].
  - exists sg. split; [reflexivity|]. split; [exact I|]. apply covers_refl. reflexivity.
  - destruct L as (L1 & L2 & L3). destruct (sys_alloc_ok sg _ _ (x_top x) L1 L2 I) as (b & sg1 & A & B & _).
    rewrite A. cbn [bind]. destruct (IH sg1 B (L3 _ _ A)) as (sg2 & C & D & E).
    exists sg2. split; [exact C|]. split; [exact D|]. eapply covers_trans; [|exact E].
    eapply sys_alloc_covers; [|exact A]. lia.
Qed.

(** A block stays in its segment. *)
Definition at_seg (sg : sgs) (p n exo : Z) : Prop :=
  exists sp, In sp (segs sg) /\ sg_exo sp = exo /\ sg_base sp <= p /\ p + n <= sg_base sp + sg_size sp.

Lemma at_seg_covers sg sg' p n exo : covers sg sg' -> at_seg sg p n exo -> at_seg sg' p n exo.
Proof.
  intros C (sp & A & B & D & E). destruct (C _ A) as (sp' & A' & W). exists sp'. unfold within in W.
  split; [exact A'|]. lia.
Qed.

Lemma dlmunmap_segs a n o1 o2 st d st' : dlmunmap a n o1 o2 st = (d, st') -> segs st' = segs st.
Proof.
  unfold dlmunmap. destruct (segment_holding st a); [destruct (negb _); [destruct o1; [destruct o2|]|destruct o2]|destruct o2];
    intros H; injection H as _ <-; reflexivity.
Qed.

Lemma trim_keeps top topsize pad unit linked ok1 ok2 sg sg' p n exo :
  inv sg -> top_inside sg top topsize pad -> 0 < unit -> 0 < n ->
  sys_trim top topsize pad unit linked ok1 ok2 sg = Ok sg' ->
  (forall sp, In sp (segs sg) -> sg_base sp <= top < sg_base sp + sg_size sp ->
                 sg_base sp <= p -> p + n <= sg_base sp + sg_size sp -> p + n <= top) ->
  at_seg sg p n exo -> at_seg sg' p n exo.
Proof.
  intros I (st & Hin & T1 & T2 & T3 & T4) Hu Hn R K (sp & A & B & C & D). unfold sys_trim in R.
  destruct (Z.ltb_spec pad topsize) as [L|L]; cbn [negb] in R; [|injection R as <-; exists sp; auto].
  rewrite (holding_unique sg st top I Hin ltac:(lia)) in R.
  set (extra := ((topsize - pad + (unit - 1)) / unit - 1) * unit) in *.
  assert (Ex : 0 <= extra < topsize).
  { subst extra. pose proof (Z.div_mod (topsize - pad + (unit - 1)) unit ltac:(lia)) as E.
    pose proof (Z.mod_pos_bound (topsize - pad + (unit - 1)) unit Hu).
    assert (1 <= (topsize - pad + (unit - 1)) / unit) by (apply Z.div_le_lower_bound; lia). nia. }
  clearbody extra.
  destruct ((extra <=? sg_size st) && negb linked); [|injection R as <-; exists sp; auto].
  destruct (dlmunmap _ extra ok1 ok2 sg) as [done s1] eqn:U. apply dlmunmap_segs in U.
  destruct (done && negb (extra =? 0)); [|injection R as <-; exists sp; rewrite U; auto].
  injection R as <-. unfold at_seg. cbn [segs set_segs]. rewrite U.
  assert (Fd : find (fun sp0 => holds sp0 top) (segs sg) = Some st) by (apply (holding_unique sg st top I Hin); lia).
  destruct (upd_first_split _ (fun sp0 => Seg (sg_base sp0) (sg_size sp0 - extra) (sg_exo sp0)) _ _ Fd) as (a & b & S1 & S2).
  rewrite S2.
  assert (Cs : sp = st \/ In sp (a ++ b)).
  { rewrite S1 in A. apply in_app_or in A. rewrite in_app_iff. cbn in A. intuition. }
  destruct Cs as [->|Cs].
  - exists (Seg (sg_base st) (sg_size st - extra) (sg_exo st)). split; [apply in_or_app; right; left; reflexivity|].
    cbn. specialize (K st Hin ltac:(lia) C D). lia.
  - exists sp. split; [|auto]. apply in_or_app. apply in_app_or in Cs. cbn; tauto.
Qed.

Lemma release_loop_keeps unused ans p n exo : 0 < n ->
  (forall sp, sg_base sp <= p < sg_base sp + sg_size sp -> unused sp = false) ->
  forall rest k pre st, segs st = pre ++ rest -> at_seg st p n exo -> at_seg (release_loop unused ans k pre rest st) p n exo.
Proof.
  intros Hn K. induction rest as [|sp next IH]; intros k pre st S A; cbn [release_loop]; [exact A|].
  destruct (unused sp) eqn:Un.
  2:{ apply IH; [|exact A]. rewrite S, <- app_assoc. reflexivity. }
  destruct (dlmunmap _ _ _ _ st) as [done st1] eqn:D. apply dlmunmap_segs in D.
  destruct A as (sq & A & B & C & E). rewrite S in A. apply in_app_or in A.
  assert (Ne : sp <> sq) by (intros ->; rewrite K in Un by lia; discriminate).
  destruct done.
  - apply IH; [reflexivity|]. exists sq. cbn [segs set_segs]. split; [|auto]. apply in_or_app. cbn in A. intuition.
  - apply IH; [rewrite D, S, <- app_assoc; reflexivity|]. exists sq. rewrite D, S. split; [apply in_or_app; exact A|auto].
Qed.

Lemma release_keeps unused ans p n exo sg : 0 < n ->
  (forall sp, sg_base sp <= p < sg_base sp + sg_size sp -> unused sp = false) ->
  at_seg sg p n exo -> at_seg (release_unused unused ans sg) p n exo.
Proof.
  intros Hn K A. unfold release_unused. destruct (segs sg) as [|sp rest] eqn:S; [exact A|].
  apply release_loop_keeps; auto.
Qed.

(** The memory side of dlfree. *)
Definition free_mem (f : fans) (sg : sgs) : res sgs :=
  let* sg1 := match fa_trim f with
              | Some (top, topsize, pad, unit, linked, ok1, ok2) => sys_trim top topsize pad unit linked ok1 ok2 sg
              | None => Ok sg
              end in
  Ok (match fa_release f with Some (unused, ans) => release_unused unused ans sg1 | None => sg1 end).

Lemma free_mem_ok f bs sg : inv sg -> free_contract true f bs sg -> Forall (fun b => 0 < snd b) bs ->
  exists sg', free_mem f sg = Ok sg' /\ inv sg' /\
    forall p n exo, In (p, n) bs -> at_seg sg p n exo -> at_seg sg' p n exo.
Proof.
  intros I (C1 & C2) Hpos. unfold free_mem. rewrite Forall_forall in Hpos.
  assert (T : exists sg1, match fa_trim f with
              | Some (top, topsize, pad, unit, linked, ok1, ok2) => sys_trim top topsize pad unit linked ok1 ok2 sg
              | None => Ok sg end = Ok sg1 /\ inv sg1 /\
              forall p n exo, In (p, n) bs -> at_seg sg p n exo -> at_seg sg1 p n exo).
  { destruct (fa_trim f) as [[[[[[[top topsize] pad] unit] linked] ok1] ok2]|].
    - destruct C1 as (T1 & T2 & T3 & T4).
      destruct (sys_trim_ok sg top topsize pad unit linked ok1 ok2 I T1 T2 (T3 eq_refl)) as (sg1 & A & B).
      exists sg1. split; [exact A|]. split; [exact B|]. intros p n exo Hin Ha.
      rewrite Forall_forall in T4. exact (trim_keeps top topsize pad unit linked ok1 ok2 sg sg1 p n exo I T1 T2 (Hpos _ Hin) A (T4 _ Hin) Ha).
    - exists sg. auto. }
  destruct T as (sg1 & -> & I1 & K1). cbn [bind]. eexists. split; [reflexivity|].
  destruct (fa_release f) as [[unused ans]|]; [|split; assumption].
  destruct C2 as (R1 & R2). specialize (R1 eq_refl). rewrite Forall_forall in R2. split; [apply release_unused_ok; assumption|].
  intros p n exo Hin Ha. apply release_keeps; [apply (Hpos _ Hin)|exact (R2 _ Hin)|]. apply K1; assumption.
Qed.

Lemma dlfree_eq f p st : dlfree f p st =
  match remove_block p (c_blocks st) with
  | None => UB
  | Some bs => let* sg := free_mem f (c_sg st) in Ok (Cst sg bs (c_tramps st) (c_ft st))
  end.
Proof.
  unfold dlfree, free_mem. destruct (remove_block p (c_blocks st)); [|reflexivity].
  destruct (match fa_trim f with Some _ => _ | None => _ end); reflexivity.
Qed.

(** * Invariant *)
Section Inv.
Context (g : cacfg).

Definition blk (l : live) : Z * Z := (lv_ptr l, lv_size l).

Definition live_ok (st : cst) (l : live) : Prop :=
  0 < lv_size l /\
  (exists exo, at_seg (c_sg st) (lv_ptr l) (lv_size l) exo /\ (ca_sup g = false -> lv_code l = lv_ptr l + exo)) /\
  (ca_sup g = true -> lv_code l = ca_addr g (c_ft st (lv_ptr l))).

Definition cinv (st : cst) (ls : list live) : Prop :=
  inv (c_sg st) /\ c_blocks st = map blk ls /\ Forall (live_ok st) ls /\ ForallOrdPairs live_apart ls /\
  (ca_sup g = true -> c_tramps st = map (fun l => c_ft st (lv_ptr l)) ls /\ NoDup (map lv_code ls)).

Lemma lop_app (R : live -> live -> Prop) a b : ForallOrdPairs R (a ++ b) <->
  ForallOrdPairs R a /\ ForallOrdPairs R b /\ Forall (fun x => Forall (R x) b) a.
Proof.
  induction a as [|x a IH]; cbn.
  - split; [intros H; split; [constructor|split; [exact H|constructor]]|intros (_ & H & _); exact H].
  - split.
    + intros H. inversion H as [|? ? HA HB]; subst. apply Forall_app in HA as (HA1 & HA2).
      apply IH in HB as (H1 & H2 & H3). split; [constructor; assumption|]. split; [assumption|]. constructor; assumption.
    + intros (H1 & H2 & H3). inversion H1; subst. inversion H3; subst. constructor; [apply Forall_app; auto|].
      apply IH. auto.
Qed.

(** Addresses tell live closures apart. *)
Lemma ptr_ne a l b k : Forall (fun l => 0 < lv_size l) (a ++ l :: b) -> ForallOrdPairs live_apart (a ++ l :: b) ->
  In k (a ++ b) -> lv_ptr k <> lv_ptr l.
Proof.
  intros P H Hk. apply lop_app in H as (_ & H2 & H3). rewrite Forall_forall in P, H3.
  assert (Pl : 0 < lv_size l) by (apply P; apply in_or_app; right; left; reflexivity).
  assert (Pk : 0 < lv_size k) by (apply P; apply in_or_app; apply in_app_or in Hk; cbn; tauto).
  inversion H2 as [|? ? HA HB]; subst. rewrite Forall_forall in HA.
  apply in_app_or in Hk as [Hk|Hk].
  - specialize (H3 _ Hk). inversion H3 as [|? ? HC HD]; subst. unfold live_apart, apart2 in HC. lia.
  - specialize (HA _ Hk). unfold live_apart, apart2 in HA. lia.
Qed.

Lemma remove_block_mid a l b : (forall k, In k (a ++ b) -> lv_ptr k <> lv_ptr l) ->
  remove_block (lv_ptr l) (map blk (a ++ l :: b)) = Some (map blk (a ++ b)).
Proof.
  induction a as [|x a IH]; intros H; cbn [app map remove_block].
  - cbn. rewrite Z.eqb_refl. reflexivity.
  - cbn [blk fst]. assert (Hx := H x (or_introl eq_refl)). apply Z.eqb_neq in Hx. rewrite Hx.
    rewrite IH; [reflexivity|]. intros k Hk. apply H. right. exact Hk.
Qed.

Lemma others_mid a l b : (forall k, In k (a ++ b) -> lv_ptr k <> lv_ptr l) ->
  others (lv_ptr l) (map blk (a ++ l :: b)) = map blk (a ++ b).
Proof.
  intros H. unfold others. rewrite !map_app, filter_app. cbn [map filter blk fst]. rewrite Z.eqb_refl. cbn [negb].
  assert (K : forall c, (forall k, In k c -> lv_ptr k <> lv_ptr l) -> filter (fun b0 => negb (fst b0 =? lv_ptr l)) (map blk c) = map blk c).
  { induction c as [|x c IH]; intros Hc; [reflexivity|]. cbn [map filter blk fst].
    assert (Hx := Hc x (or_introl eq_refl)). apply Z.eqb_neq in Hx. rewrite Hx. cbn [negb]. f_equal. apply IH.
    intros; apply Hc; right; assumption. }
  rewrite !K; [reflexivity| |]; intros; apply H; apply in_or_app; auto.
Qed.

Lemma live_ok_sg st ls sg' l : Forall (live_ok st) ls -> In l ls ->
  (forall exo, at_seg (c_sg st) (lv_ptr l) (lv_size l) exo -> at_seg sg' (lv_ptr l) (lv_size l) exo) ->
  forall bs ts ft, (forall k, In k ls -> ft (lv_ptr k) = c_ft st (lv_ptr k)) -> live_ok (Cst sg' bs ts ft) l.
Proof.
  intros H Hin K bs ts ft Hft. rewrite Forall_forall in H. destruct (H _ Hin) as (A & (exo & B & C) & D).
  split; [exact A|]. split; [exists exo; split; [apply K; exact B|exact C]|]. intros S. cbn. rewrite Hft by exact Hin. auto.
Qed.

Lemma live_pos st ls : Forall (live_ok st) ls -> Forall (fun l => 0 < lv_size l) ls.
Proof. apply Forall_impl. intros l (A & _). exact A. Qed.

Lemma cinv_free st a l b f : cinv st (a ++ l :: b) ->
  free_contract true f (others (lv_ptr l) (c_blocks st)) (c_sg st) ->
  exists st', closure_free g f (lv_ptr l) st = Ok st' /\ cinv st' (a ++ b).
Proof.
  intros (I & B & L & A & T) C.
  assert (Hne : forall k, In k (a ++ b) -> lv_ptr k <> lv_ptr l).
  { intros k. apply ptr_ne; [eapply live_pos; exact L|exact A]. }
  rewrite B, others_mid in C by exact Hne.
  assert (Ll : live_ok st l) by (rewrite Forall_forall in L; apply L; apply in_or_app; right; left; reflexivity).
  (* the address is not taken for a code address of something else *)
  assert (Hp : (if ca_free_code g then
             match segment_holding_code (c_sg st) (lv_ptr l) with Some sp => sub_exo (lv_ptr l) sp | None => lv_ptr l end
           else lv_ptr l) = lv_ptr l).
  { destruct (ca_free_code g); [|reflexivity]. destruct Ll as (Hs & (exo & (sp & S1 & S2 & S3 & S4) & _) & _).
    destruct (Z.eq_dec (sg_exo sp) 0) as [E|E].
    - pose proof (holding_code_unique (c_sg st) sp (lv_ptr l) I S1 ltac:(lia)) as H. rewrite E, Z.add_0_r in H.
      rewrite H. unfold sub_exo. lia.
    - rewrite (holding_code_data (c_sg st) sp (lv_ptr l) I S1 E ltac:(lia)). reflexivity. }
  unfold closure_free. rewrite Hp.
  assert (Lab : Forall (live_ok st) (a ++ b)).
  { rewrite Forall_forall in *. intros k Hk. apply L. apply in_or_app. apply in_app_or in Hk. cbn; tauto. }
  destruct (free_mem_ok f (map blk (a ++ b)) (c_sg st) I C) as (sg' & F1 & F2 & F3).
  { rewrite Forall_map. eapply live_pos. exact Lab. }
  assert (Aab : ForallOrdPairs live_apart (a ++ b)).
  { apply lop_app in A as (A1 & A2 & A3). inversion A2; subst. apply lop_app. split; [exact A1|]. split; [assumption|].
    rewrite Forall_forall in *. intros x Hx. specialize (A3 x Hx). inversion A3; subst. assumption. }
  assert (Fin : forall ts, (ca_sup g = true -> ts = map (fun k => c_ft st (lv_ptr k)) (a ++ b)) ->
     exists st', dlfree f (lv_ptr l) (Cst (c_sg st) (c_blocks st) ts (c_ft st)) = Ok st' /\ cinv st' (a ++ b)).
  { intros ts Hts. rewrite dlfree_eq. cbn [c_blocks c_sg c_tramps c_ft]. rewrite B, remove_block_mid by exact Hne.
    rewrite F1. cbn [bind]. eexists. split; [reflexivity|].
    split; [exact F2|]. split; [reflexivity|]. split; [|split; [exact Aab|]].
    - rewrite Forall_forall. intros k Hk. eapply live_ok_sg; [exact Lab|exact Hk| |reflexivity].
      intros exo. apply F3. apply (in_map blk) in Hk. exact Hk.
    - intros S. split; [cbn; apply Hts; exact S|].
      destruct (T S) as (_ & N). rewrite map_app in N |- *. cbn [map] in N. apply NoDup_remove_1 in N. exact N. }
  destruct (ca_sup g) eqn:S.
  - destruct (T eq_refl) as (T1 & T2). rewrite T1.
    assert (Ex : existsb (Z.eqb (c_ft st (lv_ptr l))) (map (fun l0 => c_ft st (lv_ptr l0)) (a ++ l :: b)) = true).
    { apply existsb_exists. exists (c_ft st (lv_ptr l)). split; [|apply Z.eqb_refl].
      apply (in_map (fun l0 => c_ft st (lv_ptr l0))). apply in_or_app. right; left; reflexivity. }
    rewrite Ex. cbn [bind]. apply Fin. intros _.
    (* handles are distinct because the code addresses are *)
    assert (Hh : forall k, In k (a ++ b) -> c_ft st (lv_ptr k) <> c_ft st (lv_ptr l)).
    { intros k Hk E. rewrite map_app in T2. cbn [map] in T2. apply NoDup_remove_2 in T2. apply T2.
      rewrite <- map_app. destruct Ll as (_ & _ & Ll). rewrite (Ll S), <- E.
      rewrite Forall_forall in Lab. destruct (Lab _ Hk) as (_ & _ & Lk). rewrite <- (Lk S).
      apply in_map. exact Hk. }
    rewrite !map_app. cbn [map]. rewrite remove_app. cbn [remove].
    destruct (Z.eq_dec (c_ft st (lv_ptr l)) (c_ft st (lv_ptr l))) as [_|N]; [|congruence].
    f_equal; apply notin_remove; intros X; apply in_map_iff in X as (k & X1 & X2);
      apply (Hh k); [apply in_or_app; auto|exact X1|apply in_or_app; auto|exact X1].
  - cbn [bind]. destruct st as [sg bs ts ft]. apply (Fin ts). discriminate.
Qed.

Lemma cinv_alloc st ls hascode m t f : cinv st ls ->
  malloc_contract m st -> tramp_contract g t st ->
  (forall sg, extend_all (ma_ext m) (c_sg st) = Ok sg -> free_contract true f (c_blocks st) sg) ->
  exists o c st', closure_alloc g hascode m t f st = Ok (o, c, st') /\
    match o with
    | None => cinv st' ls
    | Some p => exists n code, ma_blk m = Some (p, n) /\ c = Some code /\ cinv st' (Live p n code :: ls)
    end.
Proof.
  intros (I & B & L & A & T) (M1 & M2) C F. unfold closure_alloc.
  destruct hascode; cbn [negb]; [|eexists _, _, _; split; [reflexivity|exact (conj I (conj B (conj L (conj A T))))]].
  destruct (extend_ok (ma_ext m) (c_sg st) I M1) as (sg & E & I' & Cv).
  unfold dlmalloc. rewrite E. cbn [bind]. specialize (M2 sg E).
  assert (L' : forall ft ts bs, (forall k, In k ls -> ft (lv_ptr k) = c_ft st (lv_ptr k)) -> Forall (live_ok (Cst sg bs ts ft)) ls).
  { intros ft ts bs Hft. rewrite Forall_forall. intros k Hk. eapply live_ok_sg; [exact L|exact Hk| |exact Hft].
    intros exo. apply at_seg_covers. exact Cv. }
  destruct (ma_blk m) as [[p n]|].
  2:{ cbn [bind]. eexists _, _, _. split; [reflexivity|]. split; [exact I'|]. split; [exact B|]. split; [apply L'; reflexivity|].
      split; [exact A|exact T]. }
  destruct M2 as (Hn & (sp & S1 & S2 & S3) & Ap). cbn [bind c_sg].
  rewrite (holding_unique sg sp p I' S1 ltac:(lia)).
  assert (Apl : Forall (fun k => apart2 p n (lv_ptr k) (lv_size k)) ls).
  { rewrite B in Ap. rewrite Forall_map in Ap. exact Ap. }
  assert (Pne : forall k, In k ls -> lv_ptr k <> p).
  { intros k Hk. rewrite Forall_forall in Apl, L. specialize (Apl _ Hk). destruct (L _ Hk) as (Pk & _).
    unfold apart2 in Apl. lia. }
  destruct (ca_sup g) eqn:S; cbn [negb].
  2:{ eexists _, _, _. split; [reflexivity|]. exists n, (add_exo p sp). split; [reflexivity|]. split; [reflexivity|].
      split; [exact I'|]. split; [cbn; rewrite B; reflexivity|]. split.
      - constructor; [|apply L'; reflexivity]. split; [exact Hn|]. split; [|intros K; congruence].
        exists (sg_exo sp). split; [exists sp; auto|]. intros _. reflexivity.
      - split; [constructor; [exact Apl|exact A]|]. intros K; congruence. }
  destruct t as [h|].
  - eexists _, _, _. split; [reflexivity|]. exists n, (ca_addr g h). split; [reflexivity|]. split; [reflexivity|].
    cbn [c_blocks c_tramps c_ft].
    assert (Hft : forall k, In k ls -> (if lv_ptr k =? p then h else c_ft st (lv_ptr k)) = c_ft st (lv_ptr k)).
    { intros k Hk. assert (K := Pne k Hk). apply Z.eqb_neq in K. rewrite K. reflexivity. }
    split; [exact I'|]. split; [cbn; rewrite B; reflexivity|]. split.
    { constructor; [|apply L'; exact Hft]. split; [exact Hn|]. split.
      - exists (sg_exo sp). split; [exists sp; auto|intros K; congruence].
      - intros _. cbn. rewrite Z.eqb_refl. reflexivity. }
    split; [constructor; [exact Apl|exact A]|]. intros _. destruct (T eq_refl) as (T1 & T2). cbn [c_tramps c_ft map lv_ptr lv_code].
    rewrite Z.eqb_refl. split.
    + f_equal. rewrite T1. apply map_ext_in. intros k Hk. symmetry. apply Hft. exact Hk.
    + constructor; [|exact T2]. intros X. apply C. apply in_map_iff in X as (k & X1 & X2).
      rewrite T1, map_map. apply in_map_iff. exists k. split; [|exact X2].
      rewrite Forall_forall in L. destruct (L _ X2) as (_ & _ & Lk). rewrite <- (Lk S). exact X1.
  - rewrite dlfree_eq. cbn [c_blocks c_sg c_tramps c_ft remove_block fst]. rewrite Z.eqb_refl.
    destruct (free_mem_ok f (c_blocks st) sg I' (F sg E)) as (sg' & F1 & F2 & F3).
    { rewrite B, Forall_map. eapply live_pos. exact L. }
    rewrite F1. cbn [bind]. eexists _, _, _. split; [reflexivity|].
    split; [exact F2|]. split; [exact B|]. split; [|split; [exact A|intros _; exact (T eq_refl)]].
    rewrite Forall_forall. intros k Hk. eapply live_ok_sg; [exact L|exact Hk| |reflexivity].
    intros exo K. apply F3; [rewrite B; apply (in_map blk) in Hk; exact Hk|]. eapply at_seg_covers; eassumption.
Qed.

Lemma ca_history_inv st ls : ca_history g true st ls -> cinv st ls.
Proof.
  induction 1 as [|st ls hc m t f p code st' H IH M T F R n Hn|st ls hc m t f c st' H IH M T F R|st a l b f st' H IH F R|st ls w ft H IH K].
  - split; [repeat split; constructor|]. split; [reflexivity|]. split; [constructor|]. split; [constructor|].
    intros _. split; [reflexivity|constructor].
  - destruct (cinv_alloc st ls hc m t f IH M T F) as (o & c & st2 & A & B). rewrite A in R. injection R as -> -> <-.
    destruct B as (n' & code' & B1 & B2 & B3). rewrite Hn in B1. injection B1 as <-. injection B2 as <-. exact B3.
  - destruct (cinv_alloc st ls hc m t f IH M T F) as (o & c' & st2 & A & B). rewrite A in R. injection R as -> -> <-. exact B.
  - destruct (cinv_free st a l b f IH F) as (st2 & A & B). rewrite A in R. injection R as <-. exact B.
  - destruct IH as (I & B & L & A & T). split; [exact I|]. split; [exact B|]. split; [|split; [exact A|]].
    + rewrite Forall_forall in *. intros l Hl. destruct (L _ Hl) as (L1 & L2 & L3).
      split; [exact L1|]. split; [exact L2|]. intros S. cbn. rewrite (K _ Hl). exact (L3 S).
    + intros S. destruct (T S) as (T1 & T2). split; [|exact T2]. cbn. rewrite T1. apply map_ext_in.
      rewrite Forall_forall in K. intros l Hl. symmetry. exact (K _ Hl).
Qed.

(** * Results *)
Lemma C36_apart st ls : ca_history g true st ls -> ForallOrdPairs live_apart ls /\ c_blocks st = map (fun l => (lv_ptr l, lv_size l)) ls.
Proof. intros H. apply ca_history_inv in H as (I & B & L & A & T). split; [exact A|exact B]. Qed.

Lemma C36_tramps st ls : ca_history g true st ls -> ca_sup g = true ->
  NoDup (map lv_code ls) /\ map (ca_addr g) (c_tramps st) = map lv_code ls.
Proof.
  intros H S. apply ca_history_inv in H as (I & B & L & A & T). destruct (T S) as (T1 & T2). split; [exact T2|].
  rewrite T1, map_map. apply map_ext_in. intros l Hl. rewrite Forall_forall in L. destruct (L _ Hl) as (_ & _ & L3).
  symmetry. exact (L3 S).
Qed.

Lemma C36_code_bytes st ls : ca_history g true st ls -> ca_sup g = false ->
  ForallOrdPairs code_apart ls /\
  forall l i, In l ls -> 0 <= i < lv_size l -> same_byte (c_sg st) (lv_ptr l + i) (lv_code l + i).
Proof.
  intros H S. apply ca_history_inv in H as (I & B & L & A & T).
  assert (Seg1 : forall l, In l ls -> exists sp, In sp (segs (c_sg st)) /\ lv_code l = lv_ptr l + sg_exo sp /\
     0 < lv_size l /\ sg_base sp <= lv_ptr l /\ lv_ptr l + lv_size l <= sg_base sp + sg_size sp).
  { intros l Hl. rewrite Forall_forall in L. destruct (L _ Hl) as (P & (exo & (sp & S1 & S2 & S3 & S4) & C) & _).
    exists sp. rewrite (C S), S2. auto. }
  split.
  - clear L T B. induction A as [|l r HA HB IH]; constructor.
    + rewrite Forall_forall in *. intros k Hk. specialize (HA _ Hk).
      destruct (Seg1 l (or_introl eq_refl)) as (sp & P1 & P2 & P3 & P4 & P5).
      destruct (Seg1 k (or_intror Hk)) as (sq & Q1 & Q2 & Q3 & Q4 & Q5).
      unfold code_apart, live_apart, apart2 in *.
      destruct (Z_le_dec (lv_code l + lv_size l) (lv_code k)); [left; assumption|].
      destruct (Z_le_dec (lv_code k + lv_size k) (lv_code l)); [right; assumption|]. exfalso.
      (* a code address of both *)
      set (z := Z.max (lv_code l) (lv_code k)).
      pose proof (holding_code_unique (c_sg st) sp (z - sg_exo sp) I P1 ltac:(lia)) as U.
      pose proof (holding_code_unique (c_sg st) sq (z - sg_exo sq) I Q1 ltac:(lia)) as V.
      replace (z - sg_exo sp + sg_exo sp) with z in U by lia. replace (z - sg_exo sq + sg_exo sq) with z in V by lia.
      rewrite U in V. injection V as E. subst sq. lia.
    + apply IH. intros k Hk. apply Seg1. right. exact Hk.
  - intros l i Hl Hi. destruct (Seg1 l Hl) as (sp & P1 & P2 & P3 & P4 & P5). rewrite P2.
    replace (lv_ptr l + sg_exo sp + i) with (lv_ptr l + i + sg_exo sp) by lia.
    destruct I as (_ & M & _). rewrite Forall_forall in M. apply (M _ P1). lia.
Qed.

Lemma C36_data_to_code st ls l : ca_history g true st ls -> In l ls -> data_to_code g st (lv_ptr l) = lv_code l.
Proof.
  intros H Hl. apply ca_history_inv in H as (I & B & L & A & T).
  rewrite Forall_forall in L. destruct (L _ Hl) as (P & (exo & (sp & S1 & S2 & S3 & S4) & C) & D).
  unfold data_to_code. rewrite (holding_unique (c_sg st) sp (lv_ptr l) I S1 ltac:(lia)).
  destruct (ca_sup g) eqn:S; cbn [negb]; [symmetry; exact (D eq_refl)|]. unfold add_exo. rewrite (C eq_refl), S2. reflexivity.
Qed.

Lemma C36_alloc st ls hascode m t f : ca_history g true st ls -> malloc_contract m st -> tramp_contract g t st ->
  (forall sg, extend_all (ma_ext m) (c_sg st) = Ok sg -> free_contract true f (c_blocks st) sg) ->
  exists o c st', closure_alloc g hascode m t f st = Ok (o, c, st') /\
    match o with
    | None => ca_history g true st' ls
    | Some p => exists n code, c = Some code /\ ca_history g true st' (Live p n code :: ls)
    end.
Proof.
  intros H M T F. pose proof (ca_history_inv _ _ H) as V.
  destruct (cinv_alloc _ _ hascode m t f V M T F) as (o & c & st' & A & B). exists o, c, st'. split; [exact A|].
  destruct o as [p|].
  - destruct B as (n & code & B1 & -> & B3). exists n, code. split; [reflexivity|]. eapply ch_alloc; eassumption.
  - eapply ch_fail; eassumption.
Qed.

Lemma C36_free st a l b f : ca_history g true st (a ++ l :: b) ->
  free_contract true f (others (lv_ptr l) (c_blocks st)) (c_sg st) ->
  exists st', closure_free g f (lv_ptr l) st = Ok st' /\ ca_history g true st' (a ++ b).
Proof.
  intros H F. pose proof (ca_history_inv _ _ H) as V. destruct (cinv_free _ _ _ _ f V F) as (st' & A & B).
  exists st'. split; [exact A|]. eapply ch_free; eassumption.
Qed.

(** Freeing by the code address. *)
Lemma C52_free_code st a l b f : ca_history g true st (a ++ l :: b) -> ca_sup g = false -> ca_free_code g = true ->
  closure_free g f (lv_code l) st = closure_free g f (lv_ptr l) st.
Proof.
  intros H S FC. apply ca_history_inv in H as (I & B & L & A & T).
  assert (Hl : In l (a ++ l :: b)) by (apply in_or_app; right; left; reflexivity).
  rewrite Forall_forall in L. destruct (L _ Hl) as (P & (exo & (sp & S1 & S2 & S3 & S4) & C) & D).
  unfold closure_free. rewrite FC, S. rewrite (C S), <- S2.
  rewrite (holding_code_unique (c_sg st) sp (lv_ptr l) I S1 ltac:(lia)).
  destruct (Z.eq_dec (sg_exo sp) 0) as [E|E].
  - pose proof (holding_code_unique (c_sg st) sp (lv_ptr l) I S1 ltac:(lia)) as U. rewrite E, Z.add_0_r in U.
    rewrite U. unfold sub_exo. rewrite E. rewrite Z.add_0_r. reflexivity.
  - rewrite (holding_code_data (c_sg st) sp (lv_ptr l) I S1 E ltac:(lia)). unfold sub_exo.
    replace (lv_ptr l + sg_exo sp - sg_exo sp) with (lv_ptr l) by lia. reflexivity.
Qed.
End Inv.
