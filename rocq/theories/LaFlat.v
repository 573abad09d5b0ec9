(** LoongArch: the classification of struct_passed_as_elements is that of RISC-V. *)
From Verif Require Import Base BaseFacts Types LayoutSpec NaturalTypes NaturalFacts RvSpec RvFlat LaSpec.
From Verif Require Import LaModel.

Lemma la_fl_ok fl : la_fl fl -> fl_ok fl.
Proof. unfold la_fl, fl_ok. tauto. Qed.

Lemma is_float_real fl c : la_fl fl -> is_float_code fl c = real fl c.
Proof. intros FL. apply (RvFlat.is_float_real fl c). apply la_fl_ok; auto. Qed.
Lemma is_int_whole c : is_int_code c = whole c.
Proof. apply RvFlat.is_int_whole. Qed.
Lemma elements_rv fl g f t : passed_as_elements fl g f t = RvModel.passed_as_elements fl g f t.
Proof. reflexivity. Qed.

(** Rounding down. *)
Lemma align_down_round v a : is_pow2 a -> align_down v a = round_down v a.
Proof.
  intros (k & K & ->). unfold align_down, round_down.
  replace (- 2 ^ k) with (Z.lnot (Z.ones k)).
  - rewrite <- Z.ldiff_land, Z.ldiff_ones_r by lia. rewrite Z.shiftl_mul_pow2, Z.shiftr_div_pow2 by lia. reflexivity.
  - rewrite Z.ones_equiv. unfold Z.lnot. lia.
Qed.

Lemma round_down_le v a : 0 < a -> round_down v a <= v.
Proof. intros H. unfold round_down. pose proof (Z.mul_div_le v a H). lia. Qed.
Lemma round_down_lt v a : 0 < a -> v < round_down v a + a.
Proof. intros H. unfold round_down. pose proof (Z.mul_succ_div_gt v a H). lia. Qed.
Lemma round_down_divide v a : (a | round_down v a).
Proof. exists (v / a). reflexivity. Qed.
Lemma round_down_id v a : 0 < a -> (a | v) -> round_down v a = v.
Proof. intros H (q & ->). unfold round_down. rewrite Z.div_mul by lia. reflexivity. Qed.

Lemma elements_shape fl g f t : la_fl fl -> natural t -> ty_code t = T_STRUCT ->
  passed_as_elements fl g f t =
  match shape_of fl t with
  | OneReal n => match fields t 0 with (c, _, _) :: _ => Some (c, None) | [] => None end
  | TwoReals n1 o2 n2 => if (f + 2 >? 8) || (g >? 8) then None
      else match fields t 0 with [(c1, _, _); (c2, _, _)] => Some (c1, Some (o2, c2)) | _ => None end
  | RealInt n1 o2 n2 | IntReal n1 o2 n2 => if (f + 1 >? 8) || (g + 1 >? 8) then None
      else match fields t 0 with [(c1, _, _); (c2, _, _)] => Some (c1, Some (o2, c2)) | _ => None end
  | Other => None
  end.
Proof. intros FL N C. rewrite elements_rv. apply RvFlat.elements_shape; auto. apply la_fl_ok; auto. Qed.
