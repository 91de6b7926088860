(** C92-C98: the BLS12-381 extension tower, its Frobenius maps and square roots, the target group and the pairing engine, on
    the six-limb base field [BlsFp] (whose elements are the reduced limb arrays of fp.go and whose operations are the modelled
    functions of fp.go: LimbField.v, C79).  Specifications: TowerSpec.v (extension fields, powers), EcSpec.v (the curve),
    MillerSpec.v (the textbook Miller loop). *)
From Coq Require Import Field Ring ZArith NArith Lia Bool List Znumtheory Permutation.
From Verif Require Import EcField EcSpec EcProofs PointModel LimbBase LimbField BlsFp BlsFpProps TowerModel TowerSpec TowerAlg TowerField TowerFrob TowerFinal TowerSqrt
  TowerBls TowerPair MillerSpec TowerStep TowerMiller TowerGt TowerInst.
Import ListNotations.
Set Implicit Arguments.
Unset Strict Implicit.
Local Open Scope fld_scope.

(** ** C92: the arithmetic of fp2, fp6 and fp12 *)
(** the three polynomials have no root, so the three rings are fields *)
Theorem C92_no_roots : (forall x : BlsFp, x * x <> fopp f1) /\ (forall x : Bls2, x * x * x <> (Quad 1 1 : Bls2)) /\
  (forall x : Bls6, x * x <> (Cubic (fp2_zero BlsFp) (fp2_one BlsFp) (fp2_zero BlsFp) : Bls6)).
Proof. split; [exact bls_N1|]. split; [exact bls_N3|exact bls_N2]. Qed.
(** Fp2 = Fp[u]/(u^2 + 1) *)
Theorem C92_fp2 (x y : quad BlsFp) (c : BlsFp) :
  fp2_add x y = quad_add x y /\ fp2_sub x y = quad_sub x y /\ fp2_neg x = quad_opp x /\ fp2_mul x y = quad_mul (fopp f1) x y /\
  fp2_square x = quad_mul (fopp f1) x x /\ fp2_double x = quad_add x x /\ fp2_mul_nr x = quad_mul (fopp f1) (Quad 1 1) x /\
  fp2_mul0 x c = quad_mul (fopp f1) x (Quad c 0).
Proof.
  split; [apply fp2_add_spec|]. split; [apply fp2_sub_spec|]. split; [apply fp2_neg_spec|]. split; [apply fp2_mul_spec|].
  split; [rewrite fp2_square_spec; apply fp2_mul_spec|]. split; [reflexivity|]. split; [rewrite fp2_nr_spec; apply fp2_mul_spec|].
  rewrite fp2_mul0_spec. apply fp2_mul_spec.
Qed.
(** Fp6 = Fp2[v]/(v^3 - (1 + u)) *)
Theorem C92_fp6 (x y : cubic Bls2) (a b : Bls2) : let xi : Bls2 := Quad 1 1 in
  fp6_add x y = cubic_add (K := Bls2) x y /\ fp6_sub x y = cubic_sub (K := Bls2) x y /\ fp6_neg x = cubic_opp (K := Bls2) x /\
  fp6_mul x y = cubic_mul xi x y /\ fp6_square x = cubic_mul xi x x /\ fp6_double x = cubic_add (K := Bls2) x x /\
  fp6_mul_by_b x b = cubic_mul xi x (Cubic (0 : Bls2) b 0) /\ fp6_mul_by_ab x a b = cubic_mul xi x (Cubic a b (0 : Bls2)) /\
  fp6_mul_nr x = cubic_mul xi (Cubic (0 : Bls2) 1 0) x.
Proof.
  intros xi. split; [apply (@fp6_add_spec BlsFp bls_N1)|]. split; [apply (@fp6_sub_spec BlsFp bls_N1)|]. split; [apply (@fp6_neg_spec BlsFp bls_N1)|].
  split; [apply (@fp6_mul_spec BlsFp bls_N1)|]. split; [rewrite (@fp6_square_spec BlsFp bls_N1); apply (@fp6_mul_spec BlsFp bls_N1)|].
  split; [reflexivity|]. split; [rewrite (@fp6_mul_by_b_spec BlsFp bls_N1); apply (@fp6_mul_spec BlsFp bls_N1)|].
  split; [rewrite (@fp6_mul_by_ab_spec BlsFp bls_N1); apply (@fp6_mul_spec BlsFp bls_N1)|].
  rewrite (@fp6_nr_spec BlsFp bls_N1); apply (@fp6_mul_spec BlsFp bls_N1).
Qed.
(** Fp12 = Fp6[w]/(w^2 - v) *)
Theorem C92_fp12 (x y : quad Bls6) (a b d : Bls2) : let v : Bls6 := Cubic (0 : Bls2) 1 0 in
  fp12_add x y = quad_add (K := Bls6) x y /\ fp12_sub x y = quad_sub (K := Bls6) x y /\ fp12_neg x = quad_opp (K := Bls6) x /\
  fp12_mul x y = quad_mul v x y /\ fp12_square x = quad_mul v x x /\
  fp12_mul_by_abd x a b d = quad_mul v x (Quad (Cubic a b (0 : Bls2) : Bls6) (Cubic (0 : Bls2) d 0 : Bls6)) /\
  fp12_conjugate x = (Quad (qu_a x) (fopp (qu_b x) : Bls6) : quad Bls6).
Proof.
  intros v. split; [apply (@fp12_add_spec BlsFp bls_N1 bls_N3)|]. split; [apply (@fp12_sub_spec BlsFp bls_N1 bls_N3)|].
  split; [apply (@fp12_neg_spec BlsFp bls_N1 bls_N3)|]. split; [apply (@fp12_mul_spec BlsFp bls_N1 bls_N3)|].
  split; [rewrite (@fp12_square_spec BlsFp bls_N1 bls_N3); apply (@fp12_mul_spec BlsFp bls_N1 bls_N3)|].
  split; [rewrite (@fp12_mul_by_abd_spec BlsFp bls_N1 bls_N3); apply (@fp12_mul_spec BlsFp bls_N1 bls_N3)|]. reflexivity.
Qed.
(** Invert: the inverse and 1, or the old receiver and 0 for zero *)
Theorem C92_invert2 (f x : Bls2) : (x <> 0 -> exists y : Bls2, fp2_invert f x = ((y : fp2 BlsFp), true) /\ x * y = 1) /\
  fp2_invert f (fp2_zero BlsFp) = ((f : fp2 BlsFp), false).
Proof.
  split; [|rewrite (fp2_invert_K bls_N1); replace (fp2_is_zero (fp2_zero BlsFp)) with true by (symmetry; rewrite fp2_is_zero_equal; apply fp2_equal_spec; reflexivity); reflexivity].
  intros X. exists (finv x). split; [|apply f_mul_inv; exact X]. rewrite (fp2_invert_K bls_N1).
  destruct (fp2_is_zero x) eqn:E; [|reflexivity]. rewrite fp2_is_zero_equal in E. apply fp2_equal_spec in E. contradiction.
Qed.
Theorem C92_invert6 (f x : Bls6) : (x <> 0 -> exists y : Bls6, fp6_invert f x = ((y : fp6 BlsFp), true) /\ x * y = 1) /\
  fp6_invert f (fp6_zero BlsFp) = ((f : fp6 BlsFp), false).
Proof.
  split; [|rewrite (fp6_invert_K bls_N3); replace (fp6_is_zero (fp6_zero BlsFp)) with true by (symmetry; rewrite (@fp6_is_zero_equal BlsFp bls_N1); apply (@fp6_equal_spec BlsFp bls_N1); reflexivity); reflexivity].
  intros X. exists (finv x). split; [|apply f_mul_inv; exact X]. rewrite (fp6_invert_K bls_N3).
  destruct (fp6_is_zero x) eqn:E; [|reflexivity]. rewrite (@fp6_is_zero_equal BlsFp bls_N1) in E. apply (@fp6_equal_spec BlsFp bls_N1) in E. contradiction.
Qed.
Theorem C92_invert12 (f x : Bls12) : (x <> 0 -> exists y : Bls12, fp12_invert f x = ((y : fp12 BlsFp), true) /\ x * y = 1) /\
  fp12_invert f (fp12_zero BlsFp) = ((f : fp12 BlsFp), false).
Proof.
  split; [|rewrite (fp12_invert_K bls_N2); replace (fp12_is_zero (fp12_zero BlsFp)) with true by (symmetry; rewrite (@fp12_is_zero_equal BlsFp bls_N1 bls_N3); apply (@fp12_equal_spec BlsFp bls_N1 bls_N3); reflexivity); reflexivity].
  intros X. exists (finv x). split; [|apply f_mul_inv; exact X]. rewrite (fp12_invert_K bls_N2).
  destruct (fp12_is_zero x) eqn:E; [|reflexivity]. rewrite (@fp12_is_zero_equal BlsFp bls_N1 bls_N3) in E. apply (@fp12_equal_spec BlsFp bls_N1 bls_N3) in E. contradiction.
Qed.
(** Equal, IsZero at each level; IsOne of fp2 *)
Theorem C92_equal (x2 y2 : fp2 BlsFp) (x6 y6 : fp6 BlsFp) (x12 y12 : fp12 BlsFp) :
  (fp2_equal x2 y2 = true <-> x2 = y2) /\ (fp6_equal x6 y6 = true <-> x6 = y6) /\ (fp12_equal x12 y12 = true <-> x12 = y12) /\
  (fp2_is_zero x2 = true <-> x2 = fp2_zero BlsFp) /\ (fp6_is_zero x6 = true <-> x6 = fp6_zero BlsFp) /\
  (fp12_is_zero x12 = true <-> x12 = fp12_zero BlsFp) /\ (fp2_is_one x2 = true <-> x2 = fp2_one BlsFp).
Proof.
  rewrite fp2_is_zero_equal, fp2_is_one_equal, (@fp6_is_zero_equal BlsFp bls_N1), (@fp12_is_zero_equal BlsFp bls_N1 bls_N3).
  repeat split; first [apply fp2_equal_spec|apply (@fp6_equal_spec BlsFp bls_N1)|apply (@fp12_equal_spec BlsFp bls_N1 bls_N3)].
Qed.
(** fp6.IsOne compares B twice and never looks at C: exactly the elements 1 + c v^2 pass, so IsOne of fp12 and of the target
    group accept 1 + c v^2 too *)
Theorem C92_is_one6 (x : fp6 BlsFp) : fp6_is_one x = true <-> exists c, x = Cubic (fp2_one BlsFp) (fp2_zero BlsFp) c.
Proof.
  unfold fp6_is_one. rewrite !andb_true_iff, fp2_is_one_equal, fp2_is_zero_equal, !fp2_equal_spec. destruct x as [a b c]. cbn [cu_a cu_b cu_c]. split.
  - intros [[-> ->] _]. now exists c.
  - intros [c' [= -> -> ->]]. auto.
Qed.
Theorem C92_is_one12 (x : fp12 BlsFp) : fp12_is_one x = true <-> exists c, x = Quad (Cubic (fp2_one BlsFp) (fp2_zero BlsFp) c) (fp6_zero BlsFp).
Proof.
  unfold fp12_is_one. rewrite andb_true_iff, C92_is_one6, (@fp6_is_zero_equal BlsFp bls_N1), (@fp6_equal_spec BlsFp bls_N1). destruct x as [a b]. cbn [qu_a qu_b]. split.
  - intros [[c ->] ->]. now exists c.
  - intros [c [= -> ->]]. eauto.
Qed.
Theorem C92_is_one_refuted : exists x : fp12 BlsFp, x <> fp12_one BlsFp /\ fp12_is_one x = true /\ gt_is_one x = true.
Proof.
  exists (Quad (Cubic (fp2_one BlsFp) (fp2_zero BlsFp) (fp2_one BlsFp)) (fp6_zero BlsFp)).
  split; [|split; apply C92_is_one12; eauto]. intros E. apply (f_equal (fun t => qu_a (cu_c (qu_a t)))) in E. exact (f_one_zero E).
Qed.

(** ** C93: FrobeniusMap is the p-th power at every level, Conjugate of fp12 the p^6-th *)
Theorem C93_frobenius2 (x : Bls2) : (fp2_frobenius x : Bls2) = fpow x pN.
Proof. exact (bls_frob2 x). Qed.
Theorem C93_frobenius6 (x : Bls6) : (fp6_frobenius bls_pm1Div3 bls_p2m2Div3 x : Bls6) = fpow x pN.
Proof. exact (bls_frob6 x). Qed.
Theorem C93_frobenius12 (x : Bls12) : (fp12_frobenius bls_pm1Div3 bls_p2m2Div3 bls_pm1Div6 x : Bls12) = fpow x pN.
Proof. exact (bls_frob12 x). Qed.
Theorem C93_conjugate (x : Bls12) : (fp12_conjugate x : Bls12) = fpow x (pN ^ 6).
Proof. exact (bls_conj_pow x). Qed.
(** every non-zero element has order dividing p^12 - 1 *)
Theorem C93_order (x : Bls12) : x <> 0 -> fpow x (pN ^ 12 - 1) = 1.
Proof. exact (@bls_fermat12 x). Qed.
Lemma opp_one_neq (F : field) : (1 + 1 : F) <> 0 -> fopp (1 : F) <> 1.
Proof.
  intros T E. apply T. transitivity (fadd (1 : F) (fopp 1)); [now rewrite E|]. apply (Ring_theory.Ropp_def (Field_theory.F_R (fth F))).
Qed.
Example C93_nontrivial : (fp2_frobenius (Quad (0 : BlsFp) 1) : Bls2) <> (Quad (0 : BlsFp) 1 : Bls2).
Proof.
  intros E. apply (opp_one_neq bls_two). exact (f_equal (@qu_b _) E).
Qed.

(** ** C94: Sqrt of fp2 finds a root exactly when there is one *)
Theorem C94_sqrt (f a : Bls2) :
  ((exists y : Bls2, y * y = a) -> snd (fp2_sqrt bls_minus_one f a) = true /\
     (fst (fp2_sqrt bls_minus_one f a) : Bls2) * (fst (fp2_sqrt bls_minus_one f a) : Bls2) = a) /\
  (~ (exists y : Bls2, y * y = a) -> fp2_sqrt bls_minus_one f a = ((f : fp2 BlsFp), false)).
Proof. rewrite bls_m1. exact (bls_sqrt_spec f a). Qed.
(** both cases occur: u^2 = -1; the non-residue 1 + u has no root *)
Example C94_cases : (exists y : Bls2, y * y = fopp 1) /\ ~ (exists y : Bls2, y * y = (Quad 1 1 : Bls2)).
Proof.
  split; [exists (uu bls_N1); apply uu_sq|].
  intros [y Y]. exact (xi_not_square (two_no_square pN_j bls_fermat bls_two bls_HC3) Y).
Qed.

(** ** C96: FinalExponentiation *)
(** the exponent is 3 (p^12 - 1) / r *)
Theorem C96_final_exponentiation (gt a : Bls12) : a <> 0 -> exists e, (e * rN = 3 * (pN ^ 12 - 1))%N /\ (bls_final gt a : Bls12) = fpow a e.
Proof. intros A. exists feN. split; [exact feN_spec|]. exact (bls_final_pow gt A). Qed.
(** zero has no image: the receiver keeps its value *)
Theorem C96_final_zero (gt : Bls12) : bls_final gt (fp12_zero BlsFp) = gt.
Proof. exact (bls_final_zero gt). Qed.
Section Exps.
  Variables (M : field) (p12 fe r c h : N).
  Hypothesis FM : forall x : M, x <> 0 -> fpow x p12 = 1.
  Lemma exp_order : (fe * r = 3 * p12)%N -> forall x : M, x <> 0 -> fpow (fpow x fe) r = 1.
  Proof. intros E x X. rewrite <- fpow_mul, E, N.mul_comm, fpow_mul, (FM X). apply fpow_one. Qed.
  Lemma exp_cyc : (fe * c = p12 * h)%N -> forall x : M, x <> 0 -> fpow (fpow x fe) c = 1.
  Proof. intros E x X. rewrite <- fpow_mul, E, fpow_mul, (FM X). apply fpow_one. Qed.
End Exps.
Lemma cyc_exponent (p h : N) : (1 <= p)%N -> ((p ^ 6 - 1) * (p * p + 1) * h * (p ^ 4 - p ^ 2 + 1) = (p ^ 12 - 1) * h)%N.
Proof.
  intros P. assert (H6 := @pow_ge p 6%N P). assert (H12 := @pow_ge p 12%N P).
  assert (H4 : (p ^ 2 <= p ^ 4)%N) by (apply N.pow_le_mono_r; lia).
  apply N2Z.inj. rewrite !N2Z.inj_mul, !N2Z.inj_add, !N2Z.inj_mul, !N2Z.inj_sub, !N2Z.inj_pow by assumption.
  change (Z.of_N 12) with 12%Z. change (Z.of_N 6) with 6%Z. change (Z.of_N 1) with 1%Z. rewrite (factor12 (Z.of_N p)). change (Z.of_N 4) with 4%Z. change (Z.of_N 2) with 2%Z.
  generalize (Z.of_N h), (Z.of_N p). intros. ring.
Qed.
Lemma feN_cyc : (feN * (pN ^ 4 - pN ^ 2 + 1) = (pN ^ 12 - 1) * hardN)%N.
Proof. rewrite feN_form. exact (cyc_exponent hardN pN_ge). Qed.
(** the image is in the group of order r, in the cyclotomic subgroup; it is multiplicative; it sends the non-zero elements of
    Fp6 (hence of Fp2 and Fp) to one *)
Theorem C96_order (gt a : Bls12) : a <> 0 -> fpow (bls_final gt a : Bls12) rN = 1 /\ fpow (bls_final gt a : Bls12) (pN ^ 4 - pN ^ 2 + 1) = 1.
Proof.
  intros A. split.
  - etransitivity; [exact (f_equal (fun z : Bls12 => fpow z rN) (bls_final_pow gt A))|exact (exp_order bls_fermat12 feN_spec A)].
  - etransitivity; [exact (f_equal (fun z : Bls12 => fpow z (pN ^ 4 - pN ^ 2 + 1)) (bls_final_pow gt A))|exact (exp_cyc bls_fermat12 feN_cyc A)].
Qed.
Theorem C96_multiplicative (gt a b : Bls12) : a <> 0 -> b <> 0 ->
  (bls_final gt (fp12_mul a b) : Bls12) = (bls_final gt a : Bls12) * (bls_final gt b : Bls12).
Proof.
  intros A B. transitivity (fpow (a * b : Bls12) feN); [exact (bls_final_pow gt (f_mul_neq A B))|].
  transitivity (fpow a feN * fpow b feN); [exact (fpow_mulb a b feN)|].
  symmetry. exact (f_equal2 (@fmul Bls12) (bls_final_pow gt A) (bls_final_pow gt B)).
Qed.
Lemma cj_subfield (a : fp6 BlsFp) : cj (Quad a (fp6_zero BlsFp) : Bls12) = (Quad a (fp6_zero BlsFp) : Bls12).
Proof. exact (cj_emb12 bls_N2 (a : Bls6)). Qed.
Theorem C96_subfield (gt : Bls12) (a : fp6 BlsFp) : a <> fp6_zero BlsFp -> (bls_final gt (Quad a (fp6_zero BlsFp)) : Bls12) = 1.
Proof.
  intros A. assert (A' : (Quad a (fp6_zero BlsFp) : Bls12) <> 0) by (intros E; apply A; exact (f_equal (@qu_a _) E)).
  etransitivity; [exact (bls_final_pow gt A')|]. exact (bls_kill_1 A' (cj_subfield a)).
Qed.

(** ** C95: the target group *)
(** Add is the product, Double the square, for every element *)
Theorem C95_add_double (x y : Bls12) : (gt_add x y : Bls12) = x * y /\ (gt_double x : Bls12) = x * x.
Proof. split; [reflexivity|exact (@fp12_square_spec BlsFp bls_N1 bls_N3 x)]. Qed.
(** Square is right exactly on the cyclotomic subgroup (elements with x^(p^4-p^2+1) = 1), and on zero *)
Theorem C95_square (x : Bls12) : x <> 0 -> ((gt_square x : Bls12) = x * x <-> fpow x (pN ^ 4 - pN ^ 2 + 1) = 1).
Proof. intros X. etransitivity; [exact (bls_cycsq_iff x)|exact (bls_cyc_iff X)]. Qed.
(** Neg and Sub are the inverse and the quotient, and IsOne is exact, on the cyclotomic subgroup, which contains every
    image of FinalExponentiation (C96_order) *)
Section Inv.
  Variable M : field.
  Add Field Mi : (fth M).
  Lemma mulc (x y : M) : x * y = y * x. Proof. ring. Qed.
  Lemma one_l (x : M) : 1 * x = x. Proof. ring. Qed.
  Lemma mul_by_inv (x c y : M) : x <> 0 -> c = finv x -> c * x = 1 /\ x * c = 1 /\ (y * c) * x = y.
  Proof. intros X ->. pose proof (f_mul_inv X) as I. repeat split; [rewrite <- I; ring|exact I|transitivity (y * (x * finv x)); [ring|rewrite I; ring]]. Qed.
End Inv.
Theorem C95_neg_sub (x y : Bls12) : x <> 0 -> fpow x (pN ^ 4 - pN ^ 2 + 1) = 1 ->
  (gt_neg x : Bls12) * x = 1 /\ (gt_sub y x : Bls12) * x = y.
Proof.
  intros X C. destruct (@mul_by_inv Bls12 x (fp12_conjugate x) y X (bls_cyc_conj (proj2 (bls_cyc_iff X) C) X)) as (A & _ & B).
  split; [exact A|exact B].
Qed.
Theorem C95_is_one (x : Bls12) : x <> 0 -> fpow x (pN ^ 4 - pN ^ 2 + 1) = 1 -> (gt_is_one x = true <-> x = 1).
Proof.
  intros X C. destruct (@mul_by_inv Bls12 x (fp12_conjugate x) x X (bls_cyc_conj (proj2 (bls_cyc_iff X) C) X)) as (_ & A & _).
  exact (one_unitary bls_two A).
Qed.
(** Mul by a scalar returns zero, which is not even in the group, whatever the element and the scalar *)
Theorem C95_mul_refuted (a : fp12 BlsFp) (scalar : list N) : gt_mul a scalar = fp12_zero BlsFp /\ (fp12_zero BlsFp : Bls12) <> 1.
Proof.
  split; [exact (gt_mul_zero bls_N2 a scalar)|]. intros E. apply (@f_one_zero Bls12). symmetry. exact E.
Qed.
(** outside the cyclotomic subgroup (Random and SetBytes return any element) Neg, Sub and Square are wrong: w *)
Theorem C95_neg_square_refuted : exists x : Bls12, x <> 0 /\ (gt_neg x : Bls12) * x <> 1 /\ (gt_sub x x : Bls12) <> 1 /\ (gt_square x : Bls12) <> x * x.
Proof.
  exists (ww bls_N2). pose proof (@ww_norm BlsFp bls_N1 bls_N3 bls_N2) as W. pose proof (@ww_neq BlsFp bls_N1 bls_N3 bls_N2) as W0. split; [exact W0|]. split; [exact W|]. split.
  - intros E. apply W. exact (eq_trans (@mulc Bls12 _ _) E).
  - intros E. apply W. destruct (@mul_by_inv Bls12 _ _ 1 W0 (bls_cyc_conj (proj1 (bls_cycsq_iff _) E) W0)) as (A & _). exact A.
Qed.

(** ** C97: the pairing engine *)
Notation bls_check := (engine_check bls_pm1Div3 bls_p2m2Div3 bls_pm1Div6 bls_g2_gen).
(** the result for one pair *)
Notation one_result P Q := (bls_result (add_pair [] P Q) : Bls12).
(** Result is the product of the results of the pairs, and one without pairs *)
Theorem C97_product (l : list (pt BlsFp * g2pt BlsFp)) :
  (bls_result (fold_left (fun e pq => add_pair e (fst pq) (snd pq)) l []) : Bls12) =
  fold_right (@fmul Bls12) 1 (map (fun pq => one_result (fst pq) (snd pq)) l).
Proof.
  etransitivity; [exact (res_fold bls_g2_gen bls_FE l [])|].
  exact (@one_l Bls12 _).
Qed.

(** the order of the pairs does not matter *)
Section Perm.
  Variable M : field.
  Add Field Mp : (fth M).
  Lemma fold_mul_perm (l m : list M) : Permutation l m -> fold_right (@fmul M) 1 l = fold_right (@fmul M) 1 m.
  Proof. induction 1; cbn [fold_right]; [reflexivity|congruence|ring|congruence]. Qed.
End Perm.
Theorem C97_order (l m : list (pt BlsFp * g2pt BlsFp)) : Permutation l m ->
  (bls_result (fold_left (fun e pq => add_pair e (fst pq) (snd pq)) l []) : Bls12) =
  (bls_result (fold_left (fun e pq => add_pair e (fst pq) (snd pq)) m []) : Bls12).
Proof.
  intros H. etransitivity; [exact (C97_product l)|]. etransitivity; [|symmetry; exact (C97_product m)].
  apply fold_mul_perm. apply Permutation_map. exact H.
Qed.
(** a pair with an identity point is not added *)
Theorem C97_identity (e : engine BlsFp) (P : pt BlsFp) (Q : g2pt BlsFp) : pz P = 0 \/ jz Q = fp2_zero BlsFp -> add_pair e P Q = e.
Proof.
  intros H. rewrite add_pair_form. rewrite (proj2 (@skipped_iff BlsFp bls_N1 P Q) H). reflexivity.
Qed.
(** AddPairInvG1 and AddPairInvG2 add the conjugate of the pair's result *)
Theorem C97_negation (P : pt BlsFp) (Q : g2pt BlsFp) :
  (bls_result (add_pair_inv_g1 [] P Q) : Bls12) = (fp12_conjugate (one_result P Q) : Bls12) /\
  (bls_result (add_pair_inv_g2 [] P Q) : Bls12) = (fp12_conjugate (one_result P Q) : Bls12).
Proof. split; [exact (res_neg1 bls_g2_gen bls_FE P Q)|exact (res_neg2 bls_g2_gen bls_FE P Q)]. Qed.
(** a result is zero or in the cyclotomic subgroup of order r *)
Theorem C97_range (e : engine BlsFp) : (bls_result e : Bls12) <> 0 ->
  fpow (bls_result e : Bls12) rN = 1 /\ fpow (bls_result e : Bls12) (pN ^ 4 - pN ^ 2 + 1) = 1.
Proof.
  destruct (res_fe bls_g2_gen bls_FE e) as [f E]. intros R.
  assert (F0 : f <> 0). { intros F0. apply R. etransitivity; [exact E|]. rewrite F0. exact (TowerInst.fpow_zero Bls12 feN_neq). }
  split.
  - etransitivity; [exact (f_equal (fun z : Bls12 => fpow z rN) E)|exact (exp_order bls_fermat12 feN_spec F0)].
  - etransitivity; [exact (f_equal (fun z : Bls12 => fpow z (pN ^ 4 - pN ^ 2 + 1)) E)|exact (exp_cyc bls_fermat12 feN_cyc F0)].
Qed.
(** Check holds exactly when the result is one *)
Theorem C97_check (e : engine BlsFp) : bls_check e = true <-> (bls_result e : Bls12) = 1.
Proof.
  destruct (f_eq_dec (bls_result e : Bls12) 0) as [Z|NZ].
  - split.
    + intros C. exfalso. assert (C' : fp12_is_one (bls_result e) = true) by exact C. rewrite Z in C'.
      apply C92_is_one12 in C'. destruct C' as [c C']. apply (@f_one_zero BlsFp). symmetry. exact (f_equal (fun t => qu_a (cu_a (qu_a t))) C').
    + intros E. exfalso. apply (@f_one_zero Bls12). rewrite <- E. exact Z.
  - exact (C95_is_one NZ (proj2 (C97_range NZ))).
Qed.
(** one pair of points: the reduced ate pairing of the literature, to the power 3.  P = (xP, yP) is a point of G1, not the
    identity; Q a point of order r of the twist y^2 = x^3 + 4 (1 + u), not the identity, and Q' = (x / w^2, y / w^3) its image
    on y^2 = x^3 + 4 over Fp12.  The value is Miller's function of Q' for the absolute value of the parameter, evaluated at P,
    conjugated because the parameter is negative, to the power 3 (p^12 - 1) / r. *)
Theorem C97_ate (P : pt BlsFp) (Q : g2pt BlsFp) (x y : Bls2) : pz P <> 0 -> (jz Q : Bls2) <> 0 ->
  x = (jx Q : Bls2) / (jz Q : Bls2) -> y = (jy Q : Bls2) / (jz Q : Bls2) ->
  on_curve 0 bls_b2 (Some (x, y)) -> ec_mul 0 (N.to_nat rN) (Some (x, y)) = None ->
  let in_fp12 (c : BlsFp) : Bls12 := Quad (Cubic (Quad c 0) (fp2_zero BlsFp) (fp2_zero BlsFp)) (fp6_zero BlsFp) in
  let in_fp12' (c : Bls2) : Bls12 := Quad (Cubic (c : fp2 BlsFp) (fp2_zero BlsFp) (fp2_zero BlsFp)) (fp6_zero BlsFp) in
  let w : Bls12 := Quad (fp6_zero BlsFp) (fp6_one BlsFp) in
  let Q' : point Bls12 := Some (in_fp12' x / (w * w), in_fp12' y / (w * w * w)) in
  exists e, (e * rN = 3 * (pN ^ 12 - 1))%N /\
  one_result P Q = fpow (fp12_conjugate (miller 15132376222941642752 Q' (in_fp12 (PointModel.px P / pz P)) (in_fp12 (py P / pz P))) : Bls12) e.
Proof.
  intros HP HQ X Y ON OR in_fp12 in_fp12' w Q'. exists feN. split; [exact feN_spec|].
  rewrite (Field_theory.Fdiv_def (fth Bls2)) in X, Y. rewrite !(Field_theory.Fdiv_def (fth BlsFp)). subst x y.
  exact (@bls_one_pair P Q HP HQ ON OR).
Qed.
(** for a point P of y^2 = x^3 + b over Fp with no point of order two, the result is not zero, hence in the group of order r
    (C97_range), and the pairs (P, Q), (-P, Q) and (P, Q), (P, -Q) cancel: Check accepts them *)
Section Norm.
  Variable M : field.
  Add Field Mn : (fth M).
  Lemma zero_pow (f : M) (n : N) : fpow f n = 0 -> f = 0.
  Proof. destruct (f_eq_dec f 0) as [E|E]; [auto|]. intros H. contradiction (@fpow_neq M f n E H). Qed.
  Lemma mul0r (x : M) : x * 0 = 0. Proof. ring. Qed.
End Norm.
Lemma cj_neq (x : Bls12) : x <> 0 -> (fp12_conjugate x : Bls12) <> 0.
Proof.
  intros X E. apply X. rewrite (bls_conj_pow x) in E. exact (@zero_pow Bls12 x _ E).
Qed.
Theorem C97_nonzero (P : pt BlsFp) (Q : g2pt BlsFp) (x y : Bls2) : pz P <> 0 -> py P <> 0 -> (jz Q : Bls2) <> 0 ->
  x = (jx Q : Bls2) / (jz Q : Bls2) -> y = (jy Q : Bls2) / (jz Q : Bls2) ->
  on_curve 0 bls_b2 (Some (x, y)) -> ec_mul 0 (N.to_nat rN) (Some (x, y)) = None ->
  one_result P Q <> 0.
Proof.
  intros HP HY HQ X Y ON OR E. rewrite (Field_theory.Fdiv_def (fth Bls2)) in X, Y. subst x y.
  pose proof (@bls_one_pair P Q HP HQ ON OR) as B. rewrite E in B. symmetry in B. apply (@zero_pow Bls12) in B. revert B. apply cj_neq.
  apply (@bls_miller_neq _ _ (Pt (PointModel.px P * finv (pz P)) (py P * finv (pz P)) (pz P)) ON OR rN_big); [|exact rN_big64].
  cbn [py]. apply f_mul_neq; [exact HY|]. intros Z. apply (@f_one_zero BlsFp). rewrite <- (f_mul_inv HP), Z. exact (@mul0r BlsFp _).
Qed.

Theorem C97_cancel (P : pt BlsFp) (Q : g2pt BlsFp) : one_result P Q <> 0 ->
  bls_check (add_pair_inv_g1 (add_pair [] P Q) P Q) = true /\ bls_check (add_pair_inv_g2 (add_pair [] P Q) P Q) = true.
Proof.
  intros NZ. destruct (@C95_neg_sub (one_result P Q) 1 NZ (proj2 (C97_range NZ))) as [A _].
  destruct (C97_negation P Q) as [G1 G2]. split; apply C97_check.
  - etransitivity; [exact (res_add bls_g2_gen bls_FE (add_pair [] P Q) (g1_neg P) Q)|].
    etransitivity; [exact (f_equal (fun z : Bls12 => one_result P Q * z) G1)|].
    etransitivity; [exact (@mulc Bls12 _ _)|exact A].
  - etransitivity; [exact (res_add bls_g2_gen bls_FE (add_pair [] P Q) P (g2_neg Q))|].
    etransitivity; [exact (f_equal (fun z : Bls12 => one_result P Q * z) G2)|].
    etransitivity; [exact (@mulc Bls12 _ _)|exact A].
Qed.

(** ** C98: doublingStep and additionStep.  (X, Y, Z) stands for (X / Z^2, Y / Z^3); the three coefficients describe the
    tangent or the chord: a v + b u + c is a (non-zero) multiple of its equation at (u, v) *)
Definition jacobian_of (T : g2pt BlsFp) : point Bls2 :=
  Some ((jx T : Bls2) / ((jz T : Bls2) * jz T), (jy T : Bls2) / ((jz T : Bls2) * jz T * jz T)).
Theorem C98_doubling (T : g2pt BlsFp) : (jz T : Bls2) <> 0 -> on_curve 0 bls_b2 (jacobian_of T) ->
  let T' := fst (doubling_step T) in let co := snd (doubling_step T) in
  (jz T' : Bls2) <> 0 /\ jacobian_of T' = ec_add 0 (jacobian_of T) (jacobian_of T) /\ (co_a co : Bls2) <> 0 /\
  forall u v : Bls2, (co_a co : Bls2) * v + (co_b co : Bls2) * u + (co_c co : Bls2) = (co_a co : Bls2) * line_at (jacobian_of T) (jacobian_of T) u v.
Proof. exact (c98_dbl bls_g2_odd (T := T)). Qed.
Theorem C98_addition (T : g2pt BlsFp) (x y : Bls2) : (jz T : Bls2) <> 0 -> (jx T : Bls2) / ((jz T : Bls2) * jz T) <> x ->
  let T' := fst (addition_step T (Jpt (x : fp2 BlsFp) y (fp2_one BlsFp))) in
  let co := snd (addition_step T (Jpt (x : fp2 BlsFp) y (fp2_one BlsFp))) in
  (jz T' : Bls2) <> 0 /\ jacobian_of T' = ec_add 0 (jacobian_of T) (Some (x, y)) /\ (co_a co : Bls2) <> 0 /\
  forall u v : Bls2, (co_a co : Bls2) * v + (co_b co : Bls2) * u + (co_c co : Bls2) = (co_a co : Bls2) * line_at (jacobian_of T) (Some (x, y)) u v.
Proof. exact (@c98_add BlsFp bls_N1 bls_b2 bls_g2_odd T x y). Qed.
