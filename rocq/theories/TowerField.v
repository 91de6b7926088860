(** fp2, fp6 and fp12 as fields: the code's operations are those of F[u]/(u^2+1), Fp2[v]/(v^3-(1+u)), Fp6[w]/(w^2-v). *)
From Coq Require Import Field Field_theory Ring Ring_theory ZArith NArith Lia Bool List.
From Verif Require Import EcField TowerModel TowerSpec TowerAlg.
Set Implicit Arguments.
Unset Strict Implicit.
Local Open Scope fld_scope.

Lemma pair2 {A B} (a a' : A) (b b' : B) : a = a' -> b = b' -> (a, b) = (a', b').
Proof. now intros -> ->. Qed.

Section Fp2.
  Variable F : field.
  Add Field Ff2 : (fth F).
  Ltac q2 := apply quad_eq; cbn; ring.
  Lemma fp2_add_spec (x y : fp2 F) : fp2_add x y = quad_add x y. Proof. reflexivity. Qed.
  Lemma fp2_sub_spec (x y : fp2 F) : fp2_sub x y = quad_sub x y. Proof. reflexivity. Qed.
  Lemma fp2_neg_spec (x : fp2 F) : fp2_neg x = quad_opp x. Proof. reflexivity. Qed.
  Lemma fp2_mul_spec (x y : fp2 F) : fp2_mul x y = quad_mul (fopp f1) x y. Proof. q2. Qed.
  Lemma fp2_square_spec (x : fp2 F) : fp2_square x = fp2_mul x x. Proof. q2. Qed.
  Lemma fp2_double_spec (x : fp2 F) : fp2_double x = fp2_add x x. Proof. reflexivity. Qed.
  Lemma fp2_nr_spec (x : fp2 F) : fp2_mul_nr x = fp2_mul (Quad 1 1) x. Proof. q2. Qed.
  Lemma fp2_mul0_spec (x : fp2 F) (y : F) : fp2_mul0 x y = fp2_mul x (fp2_of_fp y). Proof. q2. Qed.
  Lemma fp2_equal_spec (x y : fp2 F) : fp2_equal x y = true <-> x = y.
  Proof.
    unfold fp2_equal. rewrite andb_true_iff, !feqb_spec. destruct x, y; cbn. split; [intros [-> ->]|intros [= -> ->]]; auto.
  Qed.
  Lemma fp2_is_zero_equal (x : fp2 F) : fp2_is_zero x = fp2_equal x (fp2_zero F).
  Proof. reflexivity. Qed.
  Lemma fp2_is_one_equal (x : fp2 F) : fp2_is_one x = fp2_equal x (fp2_one F).
  Proof. reflexivity. Qed.
  Lemma fp2_conj_mul (x y : fp2 F) : fp2_conjugate (fp2_mul x y) = fp2_mul (fp2_conjugate x) (fp2_conjugate y).
  Proof. q2. Qed.
  Lemma fp2_conj_add (x y : fp2 F) : fp2_conjugate (fp2_add x y) = fp2_add (fp2_conjugate x) (fp2_conjugate y).
  Proof. q2. Qed.
  Lemma fp2_conj_conj (x : fp2 F) : fp2_conjugate (fp2_conjugate x) = x.
  Proof. q2. Qed.

  Hypothesis N1 : forall x : F, x * x <> fopp f1.
  Lemma fp2_invert_spec (f x : fp2 F) : fp2_invert f x = if fp2_is_zero x then (f, false) else (quad_inv (fopp f1) x, true).
  Proof.
    unfold fp2_invert, nonzero, fp_square. cbn zeta.
    replace (qu_a x * qu_a x + qu_b x * qu_b x) with (quad_norm (fopp f1) x) by (unfold quad_norm; ring).
    rewrite fp2_is_zero_equal. destruct (fp2_equal x (fp2_zero F)) eqn:E.
    - apply fp2_equal_spec in E. subst x. replace (quad_norm (fopp f1) (fp2_zero F)) with (0 : F) by (unfold quad_norm; cbn; ring).
      rewrite feqb_true. cbn. destruct f; reflexivity.
    - assert (N : quad_norm (fopp f1) x <> 0).
      { intros H. apply (quad_norm_zero N1) in H. apply fp2_equal_spec in H. unfold fp2_zero in E. congruence. }
      rewrite feqb_false by exact N. cbn. apply pair2; [|reflexivity]. unfold quad_inv. apply quad_eq; cbn; field; exact N.
  Qed.
  Lemma fp2_theory : field_theory (fp2_zero F) (fp2_one F) (@fp2_add F) (@fp2_mul F) (@fp2_sub F) (@fp2_neg F)
    (fun x y => fp2_mul x (fst (fp2_invert (fp2_zero F) y))) (fun x => fst (fp2_invert (fp2_zero F) x)) eq.
  Proof.
    refine (theory_ext (quad_theory N1) _ _ _ _ _).
    - exact fp2_add_spec.
    - exact fp2_mul_spec.
    - exact fp2_sub_spec.
    - exact fp2_neg_spec.
    - intros x X. rewrite fp2_invert_spec. destruct (fp2_is_zero x) eqn:E; [|reflexivity].
      rewrite fp2_is_zero_equal in E. apply fp2_equal_spec in E. contradiction.
  Qed.
  Definition Fp2 : field := Field fp2_theory fp2_equal_spec.
  Definition xi : Fp2 := Quad 1 1.
  Lemma fp2_invert_K (f x : fp2 F) : fp2_invert f x = if fp2_is_zero x then (f, false) else (finv (x : Fp2), true).
  Proof.
    change (finv (x : Fp2)) with (fst (fp2_invert (fp2_zero F) x)). rewrite !fp2_invert_spec. destruct (fp2_is_zero x); reflexivity.
  Qed.
End Fp2.

Section Fp6.
  Variable F : field.
  Hypothesis N1 : forall x : F, x * x <> fopp f1.
  Local Notation K := (Fp2 N1).
  Local Notation xi := (xi N1).
  Add Field Kf6 : (fth K).
  Ltac toK :=
    rewrite ?fp2_square_spec, ?fp2_double_spec, ?fp2_nr_spec;
    change (@fp2_mul F) with (@fmul K); change (@fp2_add F) with (@fadd K); change (@fp2_sub F) with (@fsub K);
    change (@fp2_neg F) with (@fopp K); change (Quad (1 : F) 1) with xi; change (fp2_zero F) with (f0 : K); change (fp2_one F) with (f1 : K).
  Ltac eqK := match goal with |- @eq _ ?a ?b => change (@eq (car K) (a : car K) (b : car K)) end.
  Ltac c3 := apply cubic_eq; cbn -[fp2_mul fp2_add fp2_sub fp2_neg fp2_square fp2_double fp2_mul_nr fp2_zero fp2_one fmul fadd fsub fopp]; toK; eqK; ring.
  Implicit Types x y f : cubic K.
  Lemma fp6_add_spec x y : fp6_add x y = cubic_add (K := K) x y. Proof. reflexivity. Qed.
  Lemma fp6_sub_spec x y : fp6_sub x y = cubic_sub (K := K) x y. Proof. reflexivity. Qed.
  Lemma fp6_neg_spec x : fp6_neg x = cubic_opp (K := K) x. Proof. reflexivity. Qed.
  Lemma fp6_mul_spec x y : fp6_mul x y = cubic_mul xi x y. Proof. c3. Qed.
  Lemma fp6_square_spec x : fp6_square x = fp6_mul x x. Proof. c3. Qed.
  Lemma fp6_mul_by_b_spec (x : fp6 F) (b : fp2 F) : fp6_mul_by_b x b = fp6_mul x (Cubic (fp2_zero F) b (fp2_zero F)). Proof. c3. Qed.
  Lemma fp6_mul_by_ab_spec (x : fp6 F) (a b : fp2 F) : fp6_mul_by_ab x a b = fp6_mul x (Cubic a b (fp2_zero F)). Proof. c3. Qed.
  Lemma fp6_nr_spec x : fp6_mul_nr x = fp6_mul (Cubic (fp2_zero F) (fp2_one F) (fp2_zero F)) x. Proof. c3. Qed.
  Lemma fp6_equal_spec x y : fp6_equal x y = true <-> x = y.
  Proof.
    unfold fp6_equal. rewrite !andb_true_iff, !fp2_equal_spec. destruct x, y; cbn. split; [intros [[-> ->] ->]|intros [= -> -> ->]]; auto.
  Qed.
  Lemma fp6_is_zero_equal x : fp6_is_zero x = fp6_equal x (fp6_zero F).
  Proof. reflexivity. Qed.
  Hypothesis N3 : forall x : K, x * x * x <> xi.
  Lemma fp6_invert_spec f x : fp6_invert f x = if fp6_is_zero x then (f, false) else (cubic_inv xi x, true).
  Proof.
    unfold fp6_invert. toK. cbv zeta. rewrite !(fp2_invert_K N1).
    match goal with |- context [fp2_is_zero ?s] => assert (NM : @eq (car K) s (cubic_norm xi x)) end.
    { unfold cubic_norm, adj_a, adj_b, adj_c. destruct x as [xa xb xc]. cbn -[fmul fadd fsub]. eqK. ring. }
    rewrite NM. clear NM.
    rewrite fp6_is_zero_equal, fp2_is_zero_equal. destruct (fp6_equal x (fp6_zero F)) eqn:E.
    - apply fp6_equal_spec in E. subst x.
      assert (Z0 : cubic_norm xi (fp6_zero F) = (0 : K)).
      { unfold cubic_norm, adj_a, adj_b, adj_c. cbn -[fmul fadd fsub fp2_zero]. change (fp2_zero F) with (f0 : K). eqK. ring. }
      rewrite Z0.
      replace (fp2_equal (0 : K) (fp2_zero F)) with true by (symmetry; apply fp2_equal_spec; reflexivity). cbn. destruct f; reflexivity.
    - assert (N : cubic_norm xi x <> 0).
      { intros H. apply (cubic_norm_zero N3) in H. apply (proj2 (fp6_equal_spec x (fp6_zero F))) in H. rewrite H in E. discriminate E. }
      replace (fp2_equal (cubic_norm xi x) (fp2_zero F)) with false.
      2:{ symmetry. destruct (fp2_equal _ _) eqn:E2; [|reflexivity]. apply fp2_equal_spec in E2. contradiction. }
      cbn -[fmul fadd fsub finv cubic_norm]. apply pair2; [|reflexivity]. unfold cubic_inv. revert N. generalize (cubic_norm xi x). intros d N. destruct x as [xa xb xc].
      apply cubic_eq; cbn -[fmul fadd fsub finv fdiv]; eqK; unfold adj_a, adj_b, adj_c; cbn -[fmul fadd fsub finv fdiv]; eqK; field; exact N.
  Qed.
  Lemma fp6_theory : field_theory (fp6_zero F) (fp6_one F) (@fp6_add F) (@fp6_mul F) (@fp6_sub F) (@fp6_neg F)
    (fun x y => fp6_mul x (fst (fp6_invert (fp6_zero F) y))) (fun x => fst (fp6_invert (fp6_zero F) x)) eq.
  Proof.
    refine (theory_ext (cubic_theory N3) _ _ _ _ _).
    - exact fp6_add_spec.
    - exact fp6_mul_spec.
    - exact fp6_sub_spec.
    - exact fp6_neg_spec.
    - intros x X. rewrite fp6_invert_spec. destruct (fp6_is_zero x) eqn:E; [|reflexivity].
      rewrite fp6_is_zero_equal in E. apply fp6_equal_spec in E. contradiction.
  Qed.
  Definition Fp6 : field := Field fp6_theory fp6_equal_spec.
  Definition vv : Fp6 := Cubic (fp2_zero F) (fp2_one F) (fp2_zero F).
  Lemma fp6_invert_K f x : fp6_invert f x = if fp6_is_zero x then (f, false) else (finv (x : Fp6), true).
  Proof.
    change (finv (x : Fp6)) with (fst (fp6_invert (fp6_zero F) x)). rewrite !fp6_invert_spec. destruct (fp6_is_zero x); reflexivity.
  Qed.
End Fp6.

Section Fp12.
  Variable F : field.
  Hypothesis N1 : forall x : F, x * x <> fopp f1.
  Hypothesis N3 : forall x : Fp2 N1, x * x * x <> xi N1.
  Local Notation K := (Fp6 N3).
  Local Notation vv := (vv N3).
  Add Field Kf12 : (fth K).
  Ltac toK :=
    rewrite ?(@fp6_square_spec F N1), ?(@fp6_nr_spec F N1); unfold fp6_double;
    change (@fp6_mul F) with (@fmul K); change (@fp6_add F) with (@fadd K); change (@fp6_sub F) with (@fsub K);
    change (@fp6_neg F) with (@fopp K); change (Cubic (fp2_zero F) (fp2_one F) (fp2_zero F)) with vv;
    change (fp6_zero F) with (f0 : K); change (fp6_one F) with (f1 : K).
  Ltac eqK := match goal with |- @eq _ ?a ?b => change (@eq (car K) (a : car K) (b : car K)) end.
  Ltac q12 := apply quad_eq; cbn -[fp6_mul fp6_add fp6_sub fp6_neg fp6_square fp6_double fp6_mul_nr fp6_zero fp6_one fmul fadd fsub fopp fp6_mul_by_b fp6_mul_by_ab].
  Implicit Types x y f : quad K.
  Lemma fp12_add_spec x y : fp12_add x y = quad_add (K := K) x y. Proof. reflexivity. Qed.
  Lemma fp12_sub_spec x y : fp12_sub x y = quad_sub (K := K) x y. Proof. reflexivity. Qed.
  Lemma fp12_neg_spec x : fp12_neg x = quad_opp (K := K) x. Proof. reflexivity. Qed.
  Lemma fp12_mul_spec x y : fp12_mul x y = quad_mul vv x y. Proof. destruct x, y. q12; toK; eqK; ring. Qed.
  Lemma fp12_square_spec x : fp12_square x = fp12_mul x x. Proof. destruct x. q12; toK; eqK; ring. Qed.
  Lemma fp12_mul_by_abd_spec x (a b d : fp2 F) :
    fp12_mul_by_abd x a b d = fp12_mul x (Quad (Cubic a b (fp2_zero F)) (Cubic (fp2_zero F) d (fp2_zero F))).
  Proof.
    assert (S : Cubic a (fp2_add b d) (fp2_zero F) = fp6_add (Cubic a b (fp2_zero F)) (Cubic (fp2_zero F) d (fp2_zero F))).
    { pose proof (Radd_0_l (F_R (fth F))) as A. pose proof (Radd_comm (F_R (fth F))) as C.
      apply cubic_eq; apply quad_eq; cbn; rewrite ?A, ?(C _ f0), ?A; reflexivity. }
    unfold fp12_mul_by_abd. cbv zeta. rewrite !(@fp6_mul_by_ab_spec F N1), !(@fp6_mul_by_b_spec F N1), S.
    generalize (Cubic a b (fp2_zero F)) (Cubic (fp2_zero F) d (fp2_zero F)). intros l m.
    destruct x as [xa xb]. q12; toK; eqK; ring.
  Qed.
  Lemma fp12_equal_spec x y : fp12_equal x y = true <-> x = y.
  Proof.
    unfold fp12_equal. rewrite !andb_true_iff, !(fp6_equal_spec (N1 := N1)). destruct x, y; cbn. split; [intros [-> ->]|intros [= -> ->]]; auto.
  Qed.
  Lemma fp12_is_zero_equal x : fp12_is_zero x = fp12_equal x (fp12_zero F).
  Proof. reflexivity. Qed.
  Hypothesis N2 : forall x : K, x * x <> vv.
  Lemma fp12_invert_spec f x : fp12_invert f x = if fp12_is_zero x then (f, false) else (quad_inv vv x, true).
  Proof.
    unfold fp12_invert. toK. cbv zeta. rewrite !(fp6_invert_K N3).
    match goal with |- context [fp6_is_zero ?s] => assert (NM : @eq (car K) s (quad_norm vv x)) end.
    { unfold quad_norm. destruct x as [xa xb]. cbn -[fmul fadd fsub]. eqK. ring. }
    rewrite NM. clear NM.
    rewrite fp12_is_zero_equal, (@fp6_is_zero_equal F N1). destruct (fp12_equal x (fp12_zero F)) eqn:E.
    - apply fp12_equal_spec in E. subst x.
      assert (Z0 : quad_norm vv (fp12_zero F) = (0 : K)).
      { unfold quad_norm. cbn -[fmul fadd fsub fp6_zero]. change (fp6_zero F) with (f0 : K). eqK. ring. }
      rewrite Z0.
      replace (fp6_equal (0 : K) (fp6_zero F)) with true by (symmetry; apply (fp6_equal_spec (N1 := N1)); reflexivity). cbn. destruct f; reflexivity.
    - assert (N : quad_norm vv x <> 0).
      { intros H. apply (quad_norm_zero N2) in H. apply (proj2 (fp12_equal_spec x (fp12_zero F))) in H. rewrite H in E. discriminate E. }
      replace (fp6_equal (quad_norm vv x) (fp6_zero F)) with false.
      2:{ symmetry. destruct (fp6_equal _ _) eqn:E2; [|reflexivity]. apply (fp6_equal_spec (N1 := N1)) in E2. contradiction. }
      cbn -[fmul fadd fsub fopp finv quad_norm]. apply pair2; [|reflexivity]. unfold quad_inv. revert N. generalize (quad_norm vv x). intros d N. destruct x as [xa xb].
      apply quad_eq; cbn -[fmul fadd fsub fopp finv fdiv]; eqK; field; exact N.
  Qed.
  Lemma fp12_theory : field_theory (fp12_zero F) (fp12_one F) (@fp12_add F) (@fp12_mul F) (@fp12_sub F) (@fp12_neg F)
    (fun x y => fp12_mul x (fst (fp12_invert (fp12_zero F) y))) (fun x => fst (fp12_invert (fp12_zero F) x)) eq.
  Proof.
    refine (theory_ext (quad_theory N2) _ _ _ _ _).
    - exact fp12_add_spec.
    - exact fp12_mul_spec.
    - exact fp12_sub_spec.
    - exact fp12_neg_spec.
    - intros x X. rewrite fp12_invert_spec. destruct (fp12_is_zero x) eqn:E; [|reflexivity].
      rewrite fp12_is_zero_equal in E. apply fp12_equal_spec in E. contradiction.
  Qed.
  Definition Fp12 : field := Field fp12_theory fp12_equal_spec.
  Lemma fp12_invert_K f x : fp12_invert f x = if fp12_is_zero x then (f, false) else (finv (x : Fp12), true).
  Proof.
    change (finv (x : Fp12)) with (fst (fp12_invert (fp12_zero F) x)). rewrite !fp12_invert_spec. destruct (fp12_is_zero x); reflexivity.
  Qed.
End Fp12.

(** where the hypotheses come from: 2 is neither a square nor a cube of the base field *)
Section NonResidues.
  Variable F : field.
  Add Field Fn : (fth F).
  Hypothesis N1 : forall x : F, x * x <> fopp f1.
  Local Notation K := (Fp2 N1).
  Add Field Kn : (fth K).
  Definition nrm (x : K) : F := qu_a x * qu_a x + qu_b x * qu_b x.
  Lemma nrm_mul (x y : K) : nrm (x * y) = nrm x * nrm y.
  Proof. unfold nrm. destruct x, y. cbn. ring. Qed.
  Lemma nrm_xi : nrm (xi N1) = 1 + 1. Proof. unfold nrm. cbn. ring. Qed.
  Lemma xi_not_cube : (forall x : F, x * x * x <> 1 + 1) -> forall x : K, x * x * x <> xi N1.
  Proof. intros H x E. apply (H (nrm x)). rewrite <- !nrm_mul, E. apply nrm_xi. Qed.
  Lemma xi_not_square : (forall x : F, x * x <> 1 + 1) -> forall x : K, x * x <> xi N1.
  Proof. intros H x E. apply (H (nrm x)). rewrite <- !nrm_mul, E. apply nrm_xi. Qed.
  Hypothesis N3 : forall x : K, x * x * x <> xi N1.
  Lemma vv_not_square : (forall x : K, x * x <> xi N1) -> forall x : Fp6 N3, x * x <> vv N3.
  Proof.
    intros H x E. apply (H (cubic_norm (xi N1) x)). rewrite <- cubic_norm_mul, <- fp6_mul_spec.
    change (fp6_mul x x) with ((x : Fp6 N3) * x). rewrite E. unfold cubic_norm, adj_a, adj_b, adj_c. cbn -[fmul fadd fsub].
    change (fp2_zero F) with (f0 : K). change (fp2_one F) with (f1 : K).
    match goal with |- @eq _ ?a ?b => change (@eq (car K) (a : car K) (b : car K)) end. ring.
  Qed.
End NonResidues.
