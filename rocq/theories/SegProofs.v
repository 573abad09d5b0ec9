From Verif Require Import Base SegModel SegSpec.
From Coq Require Import Lia.
Local Open Scope Z_scope.

Definition ivl_apart (x l y m : Z) : Prop := x + l <= y \/ y + m <= x.

(** Two segments share neither data nor code addresses. *)
Definition seg_apart (p q : seg) : Prop :=
  ivl_apart (sg_base p) (sg_size p) (sg_base q) (sg_size q) /\
  ivl_apart (sg_base p + sg_exo p) (sg_size p) (sg_base q) (sg_size q) /\
  ivl_apart (sg_base p) (sg_size p) (sg_base q + sg_exo q) (sg_size q) /\
  ivl_apart (sg_base p + sg_exo p) (sg_size p) (sg_base q + sg_exo q) (sg_size q).

Definition seg_self (p : seg) : Prop :=
  0 < sg_size p /\ (sg_exo p = 0 \/ ivl_apart (sg_base p) (sg_size p) (sg_base p + sg_exo p) (sg_size p)).

Definition seg_mapped (st : sgs) (p : seg) : Prop :=
  forall a, sg_base p <= a < sg_base p + sg_size p -> same_byte st a (a + sg_exo p).

Definition inv (st : sgs) : Prop :=
  Forall seg_self (segs st) /\ Forall (seg_mapped st) (segs st) /\ ForallOrdPairs seg_apart (segs st).

Lemma seg_apart_sym p q : seg_apart p q -> seg_apart q p.
Proof. unfold seg_apart, ivl_apart. tauto. Qed.

(** Mapped and free ranges are apart. *)
Lemma mapped_free st p l q m : 0 < l -> 0 < m ->
  (forall x, p <= x < p + l -> vm st x <> None) -> free_range st q m -> ivl_apart p l q m.
Proof.
  intros Hl Hm M F. unfold ivl_apart. destruct (Z_le_gt_dec (p + l) q); [lia|]. destruct (Z_le_gt_dec (q + m) p); [lia|].
  exfalso. apply (M (Z.max p q)); [lia|]. apply F. lia.
Qed.

Lemma same_byte_mapped st p : seg_mapped st p ->
  (forall x, sg_base p <= x < sg_base p + sg_size p -> vm st x <> None) /\
  (forall x, sg_base p + sg_exo p <= x < sg_base p + sg_exo p + sg_size p -> vm st x <> None).
Proof.
  intros H. split; intros x Hx.
  - destruct (H x Hx) as (b & A & _). congruence.
  - destruct (H (x - sg_exo p) ltac:(lia)) as (b & _ & A). replace (x - sg_exo p + sg_exo p) with x in A by lia. congruence.
Qed.

Lemma find_in {A} (f : A -> bool) l x : find f l = Some x -> In x l /\ f x = true.
Proof. apply find_some. Qed.

Lemma fop_in (R : seg -> seg -> Prop) l p q : (forall x y, R x y -> R y x) ->
  ForallOrdPairs R l -> In p l -> In q l -> p = q \/ R p q.
Proof.
  intros Sym H. induction H as [|a l HA HB IH]; intros Hp Hq; [destruct Hp|].
  rewrite Forall_forall in HA. destruct Hp as [->|Hp], Hq as [->|Hq]; auto.
Qed.

(** The segment holding an address is the one found. *)
Lemma holding_unique st sp a : inv st -> In sp (segs st) -> sg_base sp <= a < sg_base sp + sg_size sp ->
  segment_holding st a = Some sp.
Proof.
  intros (A & B & C) Hin Ha. unfold segment_holding.
  destruct (find (fun sp => holds sp a) (segs st)) as [sq|] eqn:E.
  - apply find_some in E as (Hq & Eq). unfold holds in Eq. apply andb_true_iff in Eq.
    destruct (fop_in seg_apart _ sp sq seg_apart_sym C Hin Hq) as [->|K]; [reflexivity|].
    destruct K as (K & _). unfold ivl_apart in K. lia.
  - exfalso. eapply find_none in E; [|exact Hin]. unfold holds in E. apply andb_false_iff in E. lia.
Qed.

Lemma holding_code_unique st sp a : inv st -> In sp (segs st) -> sg_base sp <= a < sg_base sp + sg_size sp ->
  segment_holding_code st (a + sg_exo sp) = Some sp.
Proof.
  intros (A & B & C) Hin Ha. unfold segment_holding_code.
  match goal with |- find ?f _ = _ => destruct (find f (segs st)) as [sq|] eqn:E end.
  - apply find_some in E as (Hq & Eq). apply andb_true_iff in Eq.
    destruct (fop_in seg_apart _ sp sq seg_apart_sym C Hin Hq) as [->|K]; [reflexivity|].
    destruct K as (_ & _ & _ & K). unfold ivl_apart in K. lia.
  - exfalso. eapply find_none in E; [|exact Hin]. cbn in E. apply andb_false_iff in E. lia.
Qed.

(** Data addresses of dual-mapped memory are not code addresses. *)
Lemma holding_code_data st sp a : inv st -> In sp (segs st) -> sg_exo sp <> 0 ->
  sg_base sp <= a < sg_base sp + sg_size sp -> segment_holding_code st a = None.
Proof.
  intros (A & B & C) Hin Hne Ha. unfold segment_holding_code.
  match goal with |- find ?f _ = _ => destruct (find f (segs st)) as [sq|] eqn:E end; [|reflexivity].
  apply find_some in E as (Hq & Eq). apply andb_true_iff in Eq.
  destruct (fop_in seg_apart _ sp sq seg_apart_sym C Hin Hq) as [->|K].
  - rewrite Forall_forall in A. destruct (A _ Hin) as (_ & [K|K]); [congruence|]. unfold ivl_apart in K. lia.
  - destruct K as (_ & _ & K & _). unfold ivl_apart in K. lia.
Qed.

(** Two neighbours apart from a third interval. *)
Lemma ivl_merge b s p l y m nb : ivl_apart b s y m -> ivl_apart p l y m -> 0 < s -> 0 < l -> 0 < m ->
  (nb = b /\ p = b + s \/ nb = p /\ b = p + l) -> ivl_apart nb (s + l) y m.
Proof. unfold ivl_apart. lia. Qed.

(** Changing the first element with a property. *)
Lemma upd_first_split (p : seg -> bool) f l sp : find p l = Some sp ->
  exists a b, l = a ++ sp :: b /\ upd_first p f l = a ++ f sp :: b.
Proof.
  induction l as [|x l IH]; cbn; [discriminate|]. destruct (p x) eqn:E.
  - intros H. injection H as <-. exists [], l. split; reflexivity.
  - intros H. destruct (IH H) as (a & b & -> & ->). exists (x :: a), b. split; reflexivity.
Qed.

Lemma fop_app (R : seg -> seg -> Prop) a b : ForallOrdPairs R (a ++ b) <->
  ForallOrdPairs R a /\ ForallOrdPairs R b /\ Forall (fun x => Forall (R x) b) a.
Proof.
  induction a as [|x a IH]; cbn.
  - split; [intros H; split; [constructor|split; [exact H|constructor]]|intros (_ & H & _); exact H].
  - split.
    + intros H. inversion H as [|? ? HA HB]; subst. apply Forall_app in HA as (HA1 & HA2).
      apply IH in HB as (H1 & H2 & H3). split; [constructor; assumption|]. split; [assumption|]. constructor; assumption.
    + intros (H1 & H2 & H3). inversion H1; subst. inversion H3; subst. constructor; [apply Forall_app; auto|].
      apply IH. auto.
Qed.

(** Replacing a segment. *)
Lemma fop_replace a sp b sp' : ForallOrdPairs seg_apart (a ++ sp :: b) ->
  (forall q, In q (a ++ b) -> seg_apart sp q -> seg_apart sp' q) ->
  ForallOrdPairs seg_apart (a ++ sp' :: b).
Proof.
  intros H K. apply fop_app in H as (H1 & H2 & H3). inversion H2 as [|? ? HA HB]; subst.
  apply fop_app. split; [exact H1|]. split.
  - constructor; [|exact HB]. rewrite Forall_forall in *. intros q Hq. apply K; [apply in_or_app; auto|auto].
  - rewrite Forall_forall in *. intros x Hx. specialize (H3 x Hx). inversion H3 as [|? ? HC HD]; subst.
    constructor; [|exact HD]. apply seg_apart_sym. apply K; [apply in_or_app; auto|apply seg_apart_sym; exact HC].
Qed.

(** * New memory *)
(** The state after dlmmap. *)
Definition fresh (st st1 : sgs) (p len exo : Z) : Prop :=
  segs st1 = segs st /\
  (forall x, p <= x < p + len -> same_byte st1 x (x + exo)) /\
  (forall x b, vm st x = Some b -> vm st1 x = Some b) /\
  free_range st p len /\ free_range st (p + exo) len /\ (exo = 0 \/ ivl_apart p len (p + exo) len) /\
  read_word st1 (p + len - 8) = Ok exo /\ read_word st1 (p + exo + len - 8) = Ok exo.

Lemma bk_eqb_refl b : bk_eqb b b = true.
Proof. destruct b; cbn; [rewrite Nat.eqb_refl, Z.eqb_refl|rewrite Z.eqb_refl]; reflexivity. Qed.

Lemma range_in p len x : p <= x < p + len -> (p <=? x) && (x <? p + len) = true.
Proof. intros H. apply andb_true_iff. lia. Qed.
Lemma range_out p len x : ~ (p <= x < p + len) -> (p <=? x) && (x <? p + len) = false.
Proof. intros H. apply andb_false_iff. lia. Qed.

Lemma dlmmap_ok st len k : 8 <= len -> lawful st len k -> exists o st1, dlmmap len k st = Ok (o, st1) /\
  match o with
  | None => st1 = st
  | Some p => exists exo, fresh st st1 p len exo
  end.
Proof.
  intros Hlen L. destruct k as [|p|n off code data]; cbn [dlmmap lawful] in *.
  - exists None, st. split; reflexivity.
  - eexists _, _. split; [reflexivity|]. exists 0. unfold fresh. cbn [segs vm wd].
    split; [reflexivity|]. split.
    { intros x Hx. exists (BAnon x). rewrite Z.add_0_r. unfold map_range; cbn [vm].
      rewrite range_in by lia. replace (p + (x - p)) with x by lia. split; reflexivity. }
    split.
    { intros x b Hx. unfold map_range. rewrite range_out; [exact Hx|]. intros K. rewrite L in Hx by lia. discriminate. }
    rewrite !Z.add_0_r. split; [exact L|]. split; [exact L|]. split; [left; reflexivity|].
    assert (W : read_word (Sgs (map_range (vm st) p len (fun i => BAnon (p + i)))
        (fun b => match b with BAnon a => if (p <=? a) && (a <? p + len) then 0 else wd st b | _ => wd st b end) (segs st))
        (p + len - 8) = Ok 0).
    { unfold read_word, map_range. cbn [vm wd]. rewrite range_in by lia. rewrite range_in by lia. reflexivity. }
    split; exact W.
  - destruct L as (Lc & Ld & Ap).
    set (st1 := Sgs _ _ _).
    assert (Vd : forall x, data <= x < data + len -> vm st1 x = Some (BFile n (off + (x - data)))).
    { intros x Hx. cbn. unfold map_range. rewrite range_in by lia. reflexivity. }
    assert (Vc : forall x, code <= x < code + len -> vm st1 x = Some (BFile n (off + (x - code)))).
    { intros x Hx. cbn. unfold map_range. rewrite (range_out data) by lia. rewrite range_in by lia. reflexivity. }
    unfold write_word. rewrite Vd by lia.
    set (b0 := BFile n (off + (data + len - 8 - data))).
    eexists _, _. split; [reflexivity|]. exists (code - data). unfold fresh. cbn [segs].
    split; [reflexivity|]. split.
    { intros x Hx. exists (BFile n (off + (x - data))). cbn [vm]. split; [apply Vd; exact Hx|].
      rewrite Vc by lia. f_equal. f_equal. lia. }
    split.
    { intros x b Hx. cbn. unfold map_range. rewrite !range_out; [exact Hx| |].
      - intros K. rewrite Lc in Hx by lia. discriminate.
      - intros K. rewrite Ld in Hx by lia. discriminate. }
    replace (data + (code - data)) with code by lia.
    split; [exact Ld|]. split; [exact Lc|]. split; [right; unfold ivl_apart; lia|].
    split; unfold read_word; cbn [vm wd].
    + rewrite Vd by lia. fold b0. rewrite bk_eqb_refl. reflexivity.
    + rewrite Vc by lia. replace (code + len - 8 - code) with (data + len - 8 - data) by lia. fold b0.
      rewrite bk_eqb_refl. reflexivity.
Qed.

Lemma mapped_mono st st1 p : (forall x b, vm st x = Some b -> vm st1 x = Some b) -> seg_mapped st p -> seg_mapped st1 p.
Proof. intros M H a Ha. destruct (H a Ha) as (b & A & B). exists b. auto. Qed.

(** A fresh region is apart from the segments there are. *)
Lemma fresh_apart st st1 p len exo q : 8 <= len -> fresh st st1 p len exo -> inv st -> In q (segs st) ->
  seg_apart (Seg p len exo) q.
Proof.
  intros Hl (_ & _ & _ & F1 & F2 & _) (I1 & I2 & _) Hq. rewrite Forall_forall in I1, I2.
  destruct (I1 _ Hq) as (Hs & _). destruct (same_byte_mapped st q (I2 _ Hq)) as (M1 & M2).
  assert (A := mapped_free st _ _ p len Hs ltac:(lia) M1 F1).
  assert (B := mapped_free st _ _ (p + exo) len Hs ltac:(lia) M1 F2).
  assert (C := mapped_free st _ _ p len Hs ltac:(lia) M2 F1).
  assert (D := mapped_free st _ _ (p + exo) len Hs ltac:(lia) M2 F2).
  unfold seg_apart, ivl_apart in *. cbn. tauto.
Qed.

Lemma sys_add_ok st st1 p len exo top : 8 <= len -> fresh st st1 p len exo -> inv st ->
  exists st2, sys_add p len top st1 = Ok st2 /\ inv st2 /\ vm st2 = vm st1.
Proof.
  intros Hl Fr I. pose proof Fr as (E & Sb & Mo & F1 & F2 & Ap & R1 & R2).
  assert (Ff : forall q, In q (segs st) -> seg_apart (Seg p len exo) q) by (intros; eapply fresh_apart; eassumption).
  destruct I as (I1 & I2 & I3).
  assert (I2' : Forall (seg_mapped st1) (segs st)).
  { eapply Forall_impl; [|exact I2]. intros q. apply mapped_mono. exact Mo. }
  assert (New : exists st2, (let* (sp, st') := set_segment_flags st1 p len in Ok (set_segs st' (sp :: segs st1))) = Ok st2 /\
     inv st2 /\ vm st2 = vm st1).
  { unfold set_segment_flags. rewrite R1. cbn [bind]. rewrite R2. cbn [bind]. rewrite Z.eqb_refl. cbn [negb].
    unfold write_word. destruct (Sb (p + len - 8) ltac:(lia)) as (b & B1 & _). rewrite B1. cbn [bind].
    eexists. split; [reflexivity|]. split; [|reflexivity]. unfold inv, set_segs. cbn [segs]. rewrite E. split; [|split].
    - constructor; [|exact I1]. split; cbn; [lia|exact Ap].
    - constructor; [|exact I2']. exact Sb.
    - constructor; [|exact I3]. rewrite Forall_forall. exact Ff. }
  unfold sys_add. destruct (segs st1) as [|s0 l0] eqn:Es.
  { destruct New as (st2 & N1 & N2 & N3). unfold set_segs in *. exists st2. split; [|split; assumption]. exact N1. }
  rewrite <- Es in *. clear s0 l0 Es. rewrite R1. cbn [bind].
  set (ends := fun sp => p =? sg_base sp + sg_size sp).
  set (starts := fun sp => sg_base sp =? p + len).
  (* merging with a segment of the same offset *)
  assert (Mg : forall pr sp (nb : Z), find pr (segs st1) = Some sp -> sg_exo sp = exo ->
     (nb = sg_base sp /\ p = sg_base sp + sg_size sp \/ nb = p /\ sg_base sp = p + len) ->
     forall f, f sp = Seg nb (sg_size sp + len) (sg_exo sp) ->
     inv (set_segs st1 (upd_first pr f (segs st1)))).
  { intros pr sp nb Hf He Hnb f Hfs. destruct (upd_first_split pr f _ _ Hf) as (a & b & S1 & ->). rewrite Hfs.
    rewrite E in S1. rewrite S1 in I1, I2', I3. unfold inv, set_segs. cbn [segs].
    assert (Hsp : In sp (segs st)) by (rewrite S1; apply in_or_app; right; left; reflexivity).
    assert (Fsp := Ff _ Hsp).
    apply Forall_app in I1 as (I1a & I1b). inversion I1b as [|? ? J1 J2]; subst.
    apply Forall_app in I2' as (I2a & I2b). inversion I2b as [|? ? K1 K2]; subst.
    split; [|split].
    - apply Forall_app. split; [exact I1a|]. constructor; [|exact J2].
      destruct J1 as (J1 & J3). split; cbn; [lia|]. unfold seg_apart, ivl_apart in *. cbn in *. lia.
    - apply Forall_app. split; [exact I2a|]. constructor; [|exact K2].
      intros x Hx. cbn in Hx |- *.
      destruct (Z_le_gt_dec (sg_base sp) x), (Z_lt_ge_dec x (sg_base sp + sg_size sp)).
      + apply K1. lia.
      + apply Sb. lia.
      + apply Sb. lia.
      + lia.
    - eapply fop_replace; [exact I3|]. intros q Hq Hap.
      assert (Hq' : In q (segs st)) by (rewrite S1; apply in_or_app; apply in_app_or in Hq; cbn; tauto).
      specialize (Ff q Hq'). rewrite Forall_forall in I1a, J2.
      assert (Sq : 0 < sg_size q) by (apply in_app_or in Hq as [Hq|Hq]; [apply (I1a _ Hq)|apply (J2 _ Hq)]).
      destruct J1 as (J1 & _). clear -Ff Hap Hnb Sq J1 Hl.
      destruct Hap as (X1 & X2 & X3 & X4), Ff as (Y1 & Y2 & Y3 & Y4). cbn in Y1, Y2, Y3, Y4.
      split; [|split; [|split]]; cbn.
      * apply (ivl_merge _ _ _ _ _ _ nb X1 Y1); lia.
      * apply (ivl_merge _ _ _ _ _ _ (nb + _) X2 Y2); lia.
      * apply (ivl_merge _ _ _ _ _ _ nb X3 Y3); lia.
      * apply (ivl_merge _ _ _ _ _ _ (nb + _) X4 Y4); lia. }
  destruct (find ends (segs st1)) as [sp|] eqn:Fe.
  - destruct ((exo =? sg_exo sp) && holds sp top) eqn:C1.
    + apply andb_true_iff in C1 as (C1 & _). apply Z.eqb_eq in C1.
      eexists. split; [reflexivity|]. split; [|reflexivity].
      pose proof (find_some _ _ Fe) as (_ & Fe2). apply Z.eqb_eq in Fe2.
      eapply (Mg ends sp (sg_base sp)); [exact Fe|congruence|left; split; [reflexivity|exact Fe2]|reflexivity].
    + destruct (find starts (segs st1)) as [sq|] eqn:Fs; [|exact New].
      destruct (Z.eqb_spec exo (sg_exo sq)) as [C2|C2]; [|exact New].
      eexists. split; [reflexivity|]. split; [|reflexivity].
      pose proof (find_some _ _ Fs) as (_ & Fs2). apply Z.eqb_eq in Fs2.
      eapply (Mg starts sq p); [exact Fs|congruence|right; split; [reflexivity|exact Fs2]|reflexivity].
  - destruct (find starts (segs st1)) as [sq|] eqn:Fs; [|exact New].
    destruct (Z.eqb_spec exo (sg_exo sq)) as [C2|C2]; [|exact New].
    eexists. split; [reflexivity|]. split; [|reflexivity].
    pose proof (find_some _ _ Fs) as (_ & Fs2). apply Z.eqb_eq in Fs2.
    eapply (Mg starts sq p); [exact Fs|congruence|right; split; [reflexivity|exact Fs2]|reflexivity].
Qed.

Lemma sys_alloc_ok st len k top : 8 <= len -> lawful st len k -> inv st ->
  exists b st', sys_alloc len k top st = Ok (b, st') /\ inv st' /\ (forall x b, vm st x = Some b -> vm st' x = Some b).
Proof.
  intros Hl L I. destruct (dlmmap_ok st len k Hl L) as (o & st1 & D & F). unfold sys_alloc. rewrite D. cbn [bind].
  destruct o as [p|].
  - destruct F as (exo & F). destruct (sys_add_ok st st1 p len exo top Hl F I) as (st2 & A & B & C). rewrite A. cbn [bind].
    exists true, st2. split; [reflexivity|]. split; [exact B|]. rewrite C. apply F.
  - subst. exists false, st. auto.
Qed.

(** * Unmapping *)
Lemma unmap_other f p len x b : f x = Some b -> ~ (p <= x < p + len) -> unmap_range f p len x = Some b.
Proof. intros H K. unfold unmap_range. rewrite range_out by exact K. exact H. Qed.

(** dlmunmap of a part of one segment. *)
Lemma dlmunmap_ok st sp start len ok1 ok2 done st' : inv st -> In sp (segs st) ->
  sg_base sp <= start -> 0 < len -> start + len <= sg_base sp + sg_size sp ->
  (ok1 = true -> ok2 = true) -> dlmunmap start len ok1 ok2 st = (done, st') ->
  segs st' = segs st /\ wd st' = wd st /\
  (if done then forall x b, vm st x = Some b -> ~ (start <= x < start + len) ->
                  ~ (start + sg_exo sp <= x < start + sg_exo sp + len) -> vm st' x = Some b
   else st' = st).
Proof.
  intros I Hin H1 H2 H3 Hok D. unfold dlmunmap in D.
  rewrite (holding_unique st sp start I Hin ltac:(lia)) in D. unfold add_exo in D.
  destruct (Z.eqb_spec (start + sg_exo sp) start) as [E|E]; cbn [negb] in D.
  - destruct ok2; injection D as <- <-; cbn [segs wd vm]; split; auto; split; auto.
    intros x b Hx K1 K2. apply unmap_other; assumption.
  - destruct ok1; [rewrite Hok in D by reflexivity|]; injection D as <- <-; cbn [segs wd vm]; split; auto; split; auto.
    intros x b Hx K1 K2. apply unmap_other; [apply unmap_other|]; assumption.
Qed.

Lemma in_split_segs st sp : In sp (segs st) -> exists a b, segs st = a ++ sp :: b.
Proof. apply in_split. Qed.

(** Other segments are not touched. *)
Lemma mapped_after st sp q start len st' : seg_apart sp q ->
  sg_base sp <= start -> start + len <= sg_base sp + sg_size sp ->
  (forall x b, vm st x = Some b -> ~ (start <= x < start + len) ->
                  ~ (start + sg_exo sp <= x < start + sg_exo sp + len) -> vm st' x = Some b) ->
  seg_mapped st q -> seg_mapped st' q.
Proof.
  intros Ap H1 H2 M Hq a Ha. destruct (Hq a Ha) as (b & A & B). exists b.
  unfold seg_apart, ivl_apart in Ap. split; (apply M; [assumption| |]); lia.
Qed.

Lemma sys_trim_ok st top topsize pad unit linked ok1 ok2 : inv st -> top_inside st top topsize pad -> 0 < unit ->
  (ok1 = true -> ok2 = true) ->
  exists st', sys_trim top topsize pad unit linked ok1 ok2 st = Ok st' /\ inv st'.
Proof.
  intros I (sp & Hin & T1 & T2 & T3 & T4) Hu Hok. unfold sys_trim.
  destruct (Z.ltb_spec pad topsize) as [L|L]; cbn [negb]; [|eexists; split; [reflexivity|exact I]].
  rewrite (holding_unique st sp top I Hin ltac:(lia)).
  set (extra := ((topsize - pad + (unit - 1)) / unit - 1) * unit).
  assert (Ex : 0 <= extra < topsize).
  { subst extra. pose proof (Z.div_mod (topsize - pad + (unit - 1)) unit ltac:(lia)) as E.
    pose proof (Z.mod_pos_bound (topsize - pad + (unit - 1)) unit Hu).
    assert (1 <= (topsize - pad + (unit - 1)) / unit) by (apply Z.div_le_lower_bound; lia). nia. }
  clearbody extra.
  destruct ((extra <=? sg_size sp) && negb linked); [|eexists; split; [reflexivity|exact I]].
  destruct (dlmunmap (sg_base sp + (sg_size sp - extra)) extra ok1 ok2 st) as [done st1] eqn:D.
  destruct (Z.eqb_spec extra 0) as [E0|E0].
  { rewrite andb_false_r. eexists. split; [reflexivity|]. subst extra.
    (* nothing unmapped *)
    assert (V : (forall x, vm st1 x = vm st x) /\ segs st1 = segs st).
    { unfold dlmunmap in D.
      assert (U : forall f p x, unmap_range f p 0 x = f x).
      { intros. unfold unmap_range. rewrite range_out by lia. reflexivity. }
      destruct (segment_holding st _) as [sq|].
      - destruct (negb _); [destruct ok1; [destruct ok2|]|destruct ok2]; injection D as <- <-; cbn; split; auto; intros; rewrite ?U; reflexivity.
      - destruct ok2; injection D as <- <-; cbn; split; auto. }
    destruct V as (V & S). destruct I as (I1 & I2 & I3). unfold inv. rewrite S. split; [exact I1|]. split; [|exact I3].
    eapply Forall_impl; [|exact I2]. intros q. apply mapped_mono. intros x b. rewrite V. auto. }
  rewrite andb_true_r.
  destruct (dlmunmap_ok st sp (sg_base sp + (sg_size sp - extra)) extra ok1 ok2 done st1 I Hin ltac:(lia) ltac:(lia) ltac:(lia) Hok D) as (S & _ & V).
  destruct done; [|subst st1; eexists; split; [reflexivity|exact I]].
  eexists. split; [reflexivity|].
  assert (Fd : find (fun sp0 => holds sp0 top) (segs st1) = Some sp).
  { rewrite S. apply (holding_unique st sp top I Hin). lia. }
  destruct (upd_first_split _ (fun sp0 => Seg (sg_base sp0) (sg_size sp0 - extra) (sg_exo sp0)) _ _ Fd) as (a & b & S1 & ->).
  rewrite S in S1. destruct I as (I1 & I2 & I3). unfold inv, set_segs. cbn [segs].
  rewrite S1 in I1, I2, I3.
  assert (Ap : Forall (seg_apart sp) (a ++ b)).
  { rewrite Forall_forall. intros q Hq.
    pose proof I3 as J. apply fop_app in J as (J1 & J2 & J3). apply in_app_or in Hq as [Hq|Hq].
    - rewrite Forall_forall in J3. specialize (J3 q Hq). inversion J3; subst. apply seg_apart_sym. assumption.
    - inversion J2 as [|? ? J4 J5]; subst. rewrite Forall_forall in J4. auto. }
  rewrite Forall_forall in Ap.
  apply Forall_app in I1 as (I1a & I1b). inversion I1b as [|? ? J1 J2]; subst.
  apply Forall_app in I2 as (I2a & I2b). inversion I2b as [|? ? K1 K2]; subst.
  split; [|split].
  - apply Forall_app. split; [exact I1a|]. constructor; [|exact J2]. destruct J1 as (J1 & J3).
    split; cbn; [lia|]. unfold ivl_apart in *. lia.
  - apply Forall_app. split; [|constructor].
    + rewrite Forall_forall in *. intros q Hq. eapply (mapped_after st sp q); [| | |exact V|apply I2a; exact Hq].
      * apply Ap. apply in_or_app; auto.
      * lia.
      * lia.
    + intros x Hx. cbn in Hx |- *. destruct (K1 x ltac:(lia)) as (w & A & B). exists w.
      destruct J1 as (J1 & J3). unfold ivl_apart in J3. split; (apply V; [assumption| |]); lia.
    + rewrite Forall_forall in *. intros q Hq. eapply (mapped_after st sp q); [| | |exact V|apply K2; exact Hq].
      * apply Ap. apply in_or_app; auto.
      * lia.
      * lia.
  - eapply fop_replace; [exact I3|]. intros q Hq Hap. unfold seg_apart, ivl_apart in *. cbn. lia.
Qed.

Lemma release_loop_ok unused ans : (forall k, fst (ans k) = true -> snd (ans k) = true) ->
  forall rest k pre st, inv st -> segs st = pre ++ rest -> inv (release_loop unused ans k pre rest st).
Proof.
  intros Hok. induction rest as [|sp next IH]; intros k pre st I S; cbn [release_loop]; [exact I|].
  destruct (unused sp).
  2:{ apply IH; [exact I|]. rewrite S, <- app_assoc. reflexivity. }
  destruct (dlmunmap (sg_base sp) (sg_size sp) (fst (ans k)) (snd (ans k)) st) as [done st1] eqn:D.
  assert (Hin : In sp (segs st)) by (rewrite S; apply in_or_app; right; left; reflexivity).
  pose proof I as (I1 & I2 & I3). rewrite Forall_forall in I1. destruct (I1 _ Hin) as (Hs & _).
  destruct (dlmunmap_ok st sp (sg_base sp) (sg_size sp) _ _ done st1 I Hin ltac:(lia) Hs ltac:(lia) (Hok k) D) as (S1 & _ & V).
  destruct done.
  - apply IH; [|reflexivity]. rewrite S in I2, I3.
    pose proof I3 as J. apply fop_app in J as (J1 & J2 & J3). inversion J2 as [|? ? J4 J5]; subst.
    apply Forall_app in I2 as (I2a & I2b). inversion I2b as [|? ? K1 K2]; subst.
    unfold inv, set_segs. cbn [segs]. split; [|split].
    + rewrite Forall_forall. intros q Hq. apply I1. rewrite S. apply in_or_app. apply in_app_or in Hq. cbn; tauto.
    + rewrite Forall_forall in *. intros q Hq. eapply (mapped_after st sp q); [| | |exact V|].
      * apply in_app_or in Hq as [Hq|Hq]; [|apply J4; exact Hq]. specialize (J3 _ Hq). inversion J3; subst.
        apply seg_apart_sym. assumption.
      * lia.
      * lia.
      * apply in_app_or in Hq as [Hq|Hq]; [apply I2a|apply K2]; exact Hq.
    + apply fop_app. split; [exact J1|]. split; [exact J5|]. rewrite Forall_forall in *. intros q Hq.
      specialize (J3 _ Hq). inversion J3; subst. assumption.
  - subst st1. apply IH; [exact I|]. rewrite S, <- app_assoc. reflexivity.
Qed.

Lemma release_unused_ok unused ans st : (forall k, fst (ans k) = true -> snd (ans k) = true) -> inv st -> inv (release_unused unused ans st).
Proof.
  intros Hok I. unfold release_unused. destruct (segs st) as [|sp rest] eqn:S; [exact I|].
  apply release_loop_ok; auto.
Qed.

Lemma history_inv st : seg_history true st -> inv st.
Proof.
  induction 1 as [|st len k top b st' H IH Hl L R|st top topsize pad unit linked ok1 ok2 st' H IH T U O R|st unused ans H IH O|st f H IH].
  - repeat split; constructor.
  - destruct (sys_alloc_ok st len k top Hl L IH) as (b' & st2 & A & B & _). rewrite A in R. injection R as _ <-. exact B.
  - destruct (sys_trim_ok st top topsize pad unit linked ok1 ok2 IH T U (O eq_refl)) as (st2 & A & B).
    rewrite A in R. injection R as <-. exact B.
  - apply release_unused_ok; auto.
  - destruct IH as (A & B & C). split; [exact A|]. split; [|exact C]. eapply Forall_impl; [|exact B]. intros q. apply mapped_mono. auto.
Qed.
