(** Calling prepared closures. *)
From Coq Require Import ZifyBool ZifyNat.
From Verif Require Import Base BaseFacts Types Unix64Model TrampCodeModel TrampCodeSpec TrampCodeProofs
  ClosurePrepModel ClosurePrepSpec.
Local Arguments Z.mul : simpl never.
Local Arguments Z.add : simpl never.
Local Arguments Z.sub : simpl never.
Local Arguments Z.pow : simpl never.
Local Arguments Z.eqb : simpl never.
Local Arguments le_enc : simpl never.

Section Phys.
Context (phys : Z -> Z).

Lemma vstore_other pm d : forall a x, (forall j, 0 <= j < zlen d -> x <> phys (a + j)) -> vstore phys pm a d x = pm x.
Proof.
  induction d as [|b d IH]; intros a x H; [reflexivity|]. cbn [vstore]. unfold zlen in *. cbn [length] in *.
  destruct (Z.eqb_spec x (phys a)) as [->|N].
  - exfalso. apply (H 0); [lia|]. f_equal. lia.
  - apply IH. intros j Hj. replace (a + 1 + j) with (a + (j + 1)) by lia. apply H. lia.
Qed.

Lemma vs_other pm a d n : forall b, 0 <= b -> b + Z.of_nat n <= 2 ^ 64 ->
  (forall i j, 0 <= i < Z.of_nat n -> 0 <= j < zlen d -> phys (b + i) <> phys (a + j)) ->
  mbytes (view_of phys (vstore phys pm a d)) b n = mbytes (view_of phys pm) b n.
Proof.
  intros b H1 H2 H. apply mbytes_ext; auto. intros x Hx. unfold view_of. apply vstore_other. intros j Hj.
  replace x with (b + (x - b)) by lia. apply H; lia.
Qed.

Lemma vs_same pm d : forall a b, 0 <= b -> b + zlen d <= 2 ^ 64 ->
  (forall i, 0 <= i < zlen d -> phys (b + i) = phys (a + i)) ->
  (forall i j, 0 <= i < zlen d -> 0 <= j < zlen d -> phys (a + i) = phys (a + j) -> i = j) ->
  mbytes (view_of phys (vstore phys pm a d)) b (length d) = d.
Proof.
  induction d as [|x d IH]; intros a b H1 H2 Al In; [reflexivity|]. unfold zlen in *. cbn [length] in *. cbn [mbytes].
  rewrite wrap64_small by lia. f_equal.
  - unfold view_of. cbn [vstore]. specialize (Al 0 ltac:(lia)). replace (b + 0) with b in Al by lia. rewrite Al.
    replace (a + 0) with a by lia. rewrite Z.eqb_refl. reflexivity.
  - transitivity (mbytes (view_of phys (vstore phys pm (a + 1) d)) (b + 1) (length d)).
    + apply mbytes_ext; try lia. intros y Hy. unfold view_of. cbn [vstore]. destruct (Z.eqb_spec (phys y) (phys a)) as [E|]; [|reflexivity].
      exfalso. specialize (Al (y - b) ltac:(lia)). replace (b + (y - b)) with y in Al by lia. rewrite Al in E.
      replace a with (a + 0) in E at 2 by lia. apply In in E; lia.
    + apply IH; try lia.
      * intros i Hi. replace (b + 1 + i) with (b + (i + 1)) by lia. rewrite Al by lia. f_equal. lia.
      * intros i j Hi Hj E. replace (a + 1 + i) with (a + (i + 1)) in E by lia. replace (a + 1 + j) with (a + (j + 1)) in E by lia.
        apply In in E; lia.
Qed.

(** Fields of a closure of [n] bytes at [p], read at an address [q] showing the same. *)
Definition same_view (p q n : Z) : Prop :=
  own_memory phys p n /\ 0 <= q /\ q + n <= 2 ^ 64 /\ forall i, 0 <= i < n -> phys (q + i) = phys (p + i).

Lemma own_same_view p n : own_memory phys p n -> same_view p p n.
Proof. intros H. pose proof H as (H1 & H2 & _). split; auto. Qed.

Lemma field_same p q n pm o d k : same_view p q n -> 0 <= o -> o + zlen d <= n -> k = length d ->
  mbytes (view_of phys (vstore phys pm (p + o) d)) (q + o) k = d.
Proof.
  intros ((P1 & P2 & In) & Q1 & Q2 & Al) Ho Hd ->. apply vs_same; try lia.
  - intros i Hi. replace (q + o + i) with (q + (o + i)) by lia. rewrite Al by lia. f_equal. lia.
  - intros i j Hi Hj E. replace (p + o + i) with (p + (o + i)) in E by lia. replace (p + o + j) with (p + (o + j)) in E by lia.
    apply In in E; lia.
Qed.

Lemma field_other p q n pm o d o' k : same_view p q n -> 0 <= o -> o + zlen d <= n -> 0 <= o' -> o' + Z.of_nat k <= n ->
  o + zlen d <= o' \/ o' + Z.of_nat k <= o ->
  mbytes (view_of phys (vstore phys pm (p + o) d)) (q + o') k = mbytes (view_of phys pm) (q + o') k.
Proof.
  intros ((P1 & P2 & In) & Q1 & Q2 & Al) Ho Hd Ho' Hk Dj. apply vs_other; try lia.
  intros i j Hi Hj E. replace (q + o' + i) with (q + (o' + i)) in E by lia. rewrite Al in E by lia.
  replace (p + o + j) with (p + (o + j)) in E by lia. apply In in E; lia.
Qed.

Lemma vstore_bytes pm a d : (forall x, byte_ok (pm x)) -> bytes_ok d -> forall x, byte_ok (vstore phys pm a d x).
Proof.
  revert a. induction d as [|b d IH]; intros a H B x; cbn [vstore]; [apply H|]. inversion B; subst.
  destruct (x =? phys a); auto.
Qed.
End Phys.

Lemma le8_zlen x : zlen (le_enc 8 x) = 8.
Proof. unfold zlen. rewrite le_enc_length. reflexivity. Qed.
Lemma load_word m a x : word_ok x -> mbytes m a 8 = le_enc 8 x -> load m a 8 = x.
Proof. intros H E. unfold load. rewrite E, le_dec_enc. apply Z.mod_small. exact H. Qed.

Ltac fld_other V := rewrite (field_other _ _ _ _ _ _ _ _ _ V) by (rewrite ?le8_zlen; try change (zlen dynamic_tramp) with 24; lia).
Ltac fld_same V := rewrite (field_same _ _ _ _ _ _ _ _ V) by (rewrite ?le8_zlen, ?le_enc_length; try change (zlen dynamic_tramp) with 24; try lia; reflexivity).

(** Memory after the two stores of code and the three stores of fields, for a dynamic
    closure. *)
Lemma dynamic_fields phys pm cl n dest cif fn ud q : 56 <= n -> same_view phys (ca_ptr cl) q n ->
  let m := view_of phys (vstore phys (vstore phys (vstore phys
             (vstore phys (vstore phys pm (ca_ptr cl) dynamic_tramp) (ca_ptr cl + 24) (le_enc 8 dest))
             (ca_ptr cl + 32) (le_enc 8 cif)) (ca_ptr cl + 40) (le_enc 8 fn)) (ca_ptr cl + 48) (le_enc 8 ud)) in
  code_at m q (dynamic_closure_code dest) /\
  mbytes m (q + 32) 8 = le_enc 8 cif /\ mbytes m (q + 40) 8 = le_enc 8 fn /\ mbytes m (q + 48) 8 = le_enc 8 ud.
Proof.
  intros Hn V m. split; [|split; [|split]].
  - unfold dynamic_closure_code. apply code_app. change (zlen dynamic_tramp) with 24. unfold code_at.
    rewrite le_enc_length. change (length dynamic_tramp) with 24%nat. unfold m. split.
    + replace q with (q + 0) at 1 by lia. replace (vstore phys pm (ca_ptr cl)) with (vstore phys pm (ca_ptr cl + 0)) by (f_equal; lia).
      do 4 fld_other V. fld_same V. reflexivity.
    + do 3 fld_other V. fld_same V. reflexivity.
  - unfold m. do 2 fld_other V. fld_same V. reflexivity.
  - unfold m. fld_other V. fld_same V. reflexivity.
  - unfold m. fld_same V. reflexivity.
Qed.

Lemma keep_load m m' a k lo len : (forall x, ~ (lo <= x < lo + len) -> m' x = m x) ->
  0 <= a -> a + Z.of_nat k <= 2 ^ 64 -> (a + Z.of_nat k <= lo \/ lo + len <= a) -> load m' a k = load m a k.
Proof. intros K H1 H2 H3. apply load_ext; auto. intros x Hx. apply K. lia. Qed.

Lemma same_mem_code m m' a bs : (forall x, m' x = m x) -> code_at m a bs -> code_at m' a bs.
Proof.
  intros E C. unfold code_at in *. rewrite <- C at 2. clear C. generalize (length bs) as k. intros k. revert a.
  induction k; intros; cbn [mbytes]; [reflexivity|]. rewrite E. f_equal. apply IHk.
Qed.
Lemma same_mem_load m m' a k : (forall x, m' x = m x) -> load m' a k = load m a k.
Proof.
  intros E. unfold load. f_equal. revert a. induction k; intros; cbn [mbytes]; [reflexivity|]. rewrite E. f_equal. apply IHk.
Qed.

Lemma dest_ok en abi flags st d : entry_ok en -> closure_dest en abi flags st = Some d -> word_ok d.
Proof.
  intros (H1 & H2 & H3 & H4 & H5 & H6). unfold closure_dest.
  destruct (_ || _); [|destruct (_ =? _); [|discriminate]]; repeat destruct (negb _); destruct st; intros [= <-]; auto.
Qed.

Lemma dynamic_invokes phys pm en cl n abi flags cif fn ud pm' entry s :
  56 <= n -> dynamic_alloc phys cl n -> entry_ok en -> word_ok cif -> word_ok fn -> word_ok ud ->
  closure_dest en abi flags false = Some entry ->
  prep_closure_loc phys pm en cl abi flags cif fn ud = (FFI_OK, pm') ->
  (forall x, m_mem s x = view_of phys pm' x) -> m_rip s = ca_code cl -> stack_apart s (ca_code cl) n ->
  invokes s entry cif fn ud.
Proof.
  intros Hn (Dn & Ow & C0 & C1 & Al) Eo H1 H2 H3 De Pr Ms Er [Hs Ds].
  assert (V : same_view phys (ca_ptr cl) (ca_code cl) n) by (split; auto).
  unfold prep_closure_loc in Pr. rewrite Dn in Pr. cbv zeta in Pr. rewrite De in Pr. injection Pr as <-.
  destruct (dynamic_fields phys pm cl n entry cif fn ud (ca_code cl) Hn V) as (F0 & F1 & F2 & F3).
  pose proof (dest_ok _ _ _ _ _ Eo De) as Wd.
  destruct (dynamic_arrives s entry) as (s' & A).
  - rewrite Er. lia.
  - exact Wd.
  - rewrite Er. eapply same_mem_code; [exact Ms|exact F0].
  - exists s', (m_rip s). split; [exact A|]. destruct A as (_ & _ & _ & _ & _ & K). rewrite Er.
    unfold closure_call. rewrite !(keep_load _ _ _ _ _ _ K) by lia. rewrite !(same_mem_load _ _ _ _ Ms).
    f_equal; [f_equal|]; apply load_word; auto.
Qed.

(** Static trampolines. *)
Lemma static_memory phys pm cl n endbr base i dest cif fn ud :
  56 <= n -> static_alloc phys pm cl n endbr base i ->
  let parm := base + tramp_map_size + i * tramp_size endbr in
  let m := view_of phys (vstore phys (vstore phys (vstore phys
             (vstore phys (vstore phys pm (parm + 8) (le_enc 8 dest)) parm (le_enc 8 (ca_ptr cl)))
             (ca_ptr cl + 32) (le_enc 8 cif)) (ca_ptr cl + 40) (le_enc 8 fn)) (ca_ptr cl + 48) (le_enc 8 ud)) in
  mbytes m (parm + 8) 8 = le_enc 8 dest /\ mbytes m parm 8 = le_enc 8 (ca_ptr cl) /\
  mbytes m (ca_ptr cl + 32) 8 = le_enc 8 cif /\ mbytes m (ca_ptr cl + 40) 8 = le_enc 8 fn /\
  mbytes m (ca_ptr cl + 48) 8 = le_enc 8 ud /\
  (forall b k, 0 <= b -> b + Z.of_nat k <= 2 ^ 64 -> apart phys b (Z.of_nat k) (ca_ptr cl) n -> apart phys b (Z.of_nat k) parm 16 ->
     mbytes m b k = mbytes (view_of phys pm) b k).
Proof.
  intros Hn (Pm & Cd & Hi & B0 & B1 & Ow & Op & Ap & _) parm m. fold parm in Op, Ap.
  pose proof (own_same_view _ _ _ Ow) as V. pose proof (own_same_view _ _ _ Op) as W.
  assert (Cl : forall pm o x b k, 0 <= o -> o + 8 <= n -> 0 <= b -> b + Z.of_nat k <= 2 ^ 64 ->
     apart phys b (Z.of_nat k) (ca_ptr cl) n ->
     mbytes (view_of phys (vstore phys pm (ca_ptr cl + o) (le_enc 8 x))) b k = mbytes (view_of phys pm) b k).
  { intros pm0 o x b k A1 A2 A3 A4 A. apply vs_other; auto. rewrite le8_zlen. intros i' j' Hi' Hj'.
    replace (ca_ptr cl + o + j') with (ca_ptr cl + (o + j')) by lia. apply A; lia. }
  assert (Pl : forall o, 0 <= o <= 8 -> apart phys (parm + o) (Z.of_nat 8) (ca_ptr cl) n).
  { intros o Ho i' j' Hi' Hj'. replace (parm + o + i') with (parm + (o + i')) by lia. apply Ap; lia. }
  destruct Op as (O1 & O2 & O3).
  unfold m. split; [|split; [|split; [|split; [|split]]]].
  - rewrite !Cl by (first [lia|apply Pl; lia]). replace (vstore phys (vstore phys pm (parm + 8) (le_enc 8 dest)) parm) with
      (vstore phys (vstore phys pm (parm + 8) (le_enc 8 dest)) (parm + 0)) by (f_equal; lia).
    fld_other W. fld_same W. reflexivity.
  - assert (Pl0 : apart phys parm (Z.of_nat 8) (ca_ptr cl) n) by (pose proof (Pl 0 ltac:(lia)) as P; replace (parm + 0) with parm in P by lia; exact P).
    rewrite !Cl by (first [lia|exact Pl0]). replace (mbytes _ parm 8) with
      (mbytes (view_of phys (vstore phys (vstore phys pm (parm + 8) (le_enc 8 dest)) parm (le_enc 8 (ca_ptr cl)))) (parm + 0) 8) by (f_equal; lia).
    replace (vstore phys (vstore phys pm (parm + 8) (le_enc 8 dest)) parm) with
      (vstore phys (vstore phys pm (parm + 8) (le_enc 8 dest)) (parm + 0)) by (f_equal; lia). fld_same W. reflexivity.
  - do 2 fld_other V. fld_same V. reflexivity.
  - fld_other V. fld_same V. reflexivity.
  - fld_same V. reflexivity.
  - intros b k H1 H2 A1 A2. rewrite !Cl by (auto; lia).
    rewrite !vs_other; auto; rewrite ?le8_zlen; intros i' j' Hi' Hj'.
    + replace (parm + 8 + j') with (parm + (8 + j')) by lia. apply A2; lia.
    + apply A2; lia.
Qed.

Lemma mem_bytes phys pm cl n endbr base i en abi flags cif fn ud pm' :
  static_alloc phys pm cl n endbr base i -> (forall x, byte_ok (pm x)) ->
  prep_closure_loc phys pm en cl abi flags cif fn ud = (FFI_OK, pm') -> forall x, byte_ok (pm' x).
Proof.
  intros (Pm & _) B Pr. unfold prep_closure_loc in Pr. rewrite Pm in Pr. cbv zeta in Pr.
  destruct (closure_dest _ _ _ _); [|discriminate]. apply (f_equal snd) in Pr. cbn [snd] in Pr. rewrite <- Pr.
  repeat (first [exact B | apply vstore_bytes; [|apply le_enc_ok]]).
Qed.

Lemma slot_code_len endbr : zlen (static_slot endbr false) <= tramp_size endbr.
Proof. destruct endbr; vm_compute; discriminate. Qed.

Lemma static_invokes phys pm en cl n endbr base i abi flags cif fn ud pm' entry alt e2 short rel s :
  56 <= n -> static_alloc phys pm cl n endbr base i -> (forall x, byte_ok (pm x)) ->
  entry_ok en -> word_ok cif -> word_ok fn -> word_ok ud ->
  closure_dest en abi flags true = Some alt -> alt_code phys pm cl n alt entry e2 short rel ->
  prep_closure_loc phys pm en cl abi flags cif fn ud = (FFI_OK, pm') ->
  (forall x, m_mem s x = view_of phys pm' x) -> m_rip s = ca_code cl ->
  stack_apart s base (2 * tramp_map_size) -> stack_apart s (ca_ptr cl) n ->
  stack_apart s alt (zlen (alt_entry e2 short rel)) ->
  exists s', arrives_in s s' entry (ca_ptr cl) /\ closure_call (m_mem s') (ca_ptr cl) = (cif, fn, ud).
Proof.
  intros Hn Sa Bm Eo H1 H2 H3 De (A0 & A1 & A2 & A3 & A4 & A5 & A6) Pr Ms Er S1 S2 S3.
  pose proof (mem_bytes _ _ _ _ _ _ _ _ _ _ _ _ _ _ Sa Bm Pr) as Bm'.
  pose proof Sa as (Pm & Cd & Hi & B0 & B1 & Ow & Op & Ap & Ac & Ac' & Cs). cbv zeta in *.
  unfold prep_closure_loc in Pr. rewrite Pm in Pr. cbv zeta in Pr. rewrite De in Pr. apply (f_equal snd) in Pr as Epm. cbn [snd] in Epm.
  destruct (static_memory phys pm cl n endbr base i alt cif fn ud Hn Sa) as (F1 & F2 & F3 & F4 & F5 & F6).
  rewrite Epm in *. cbv zeta in *.
  set (parm := base + tramp_map_size + i * tramp_size endbr) in *.
  set (slot := base + i * tramp_size endbr) in *.
  pose proof (dest_ok _ _ _ _ _ Eo De) as Wd. pose proof (slot_code_len endbr) as Ls.
  assert (Sl : 0 <= i * tramp_size endbr /\ i * tramp_size endbr + tramp_size endbr <= tramp_map_size).
  { destruct endbr; unfold tramp_size, tramp_map_size in *; [change (4096 / 40) with 102 in Hi|change (4096 / 32) with 128 in Hi]; lia. }
  assert (Wp : word_ok (ca_ptr cl)) by (destruct Ow as (? & ? & _); split; lia).
  destruct (static_arrives endbr false e2 short rel base i s (ca_ptr cl) alt) as (s' & A); auto.
  - rewrite Er. exact Cd.
  - intros x. rewrite Ms. apply Bm'.
  - eapply same_mem_code; [exact Ms|]. unfold code_at. fold slot. rewrite F6; [exact Cs| | | |].
    + lia.
    + unfold zlen in Ls. unfold tramp_map_size in *. lia.
    + intros i' j' Hi' Hj'. apply Ac; unfold zlen in *; lia.
    + intros i' j' Hi' Hj'. apply Ac'; unfold zlen in *; lia.
  - split; [rewrite (same_mem_load _ _ _ _ Ms); apply load_word; auto|].
    change (Z.of_nat (parm_words false)) with 8. change (parm_words false) with 8%nat.
    fold parm. rewrite (same_mem_load _ _ _ _ Ms). apply load_word; auto.
  - eapply same_mem_code; [exact Ms|]. unfold code_at. rewrite F6; [exact A6| | | |].
    + lia.
    + unfold zlen in *. lia.
    + exact A4.
    + exact (A5 _ Pm).
  - exists s'. rewrite A3 in A. split; [exact A|]. destruct A as (_ & _ & _ & _ & _ & K).
    destruct S2 as [S2 S2']. destruct Ow as (O1 & O2 & _).
    unfold closure_call. rewrite !(keep_load _ _ _ _ _ _ K) by lia. rewrite !(same_mem_load _ _ _ _ Ms).
    f_equal; [f_equal|]; apply load_word; auto.
Qed.
