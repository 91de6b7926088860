(** gt.go: Mul returns zero whatever its arguments; IsOne is right on elements of norm one; results of the engine. *)
From Coq Require Import Field Field_theory Ring Ring_theory ZArith NArith Lia Bool List Znumtheory Permutation.
From Verif Require Import EcField EcSpec PointModel TowerModel TowerSpec TowerAlg TowerField TowerFrob TowerFinal TowerPair EcProofs MillerSpec TowerStep.
Import ListNotations.
Set Implicit Arguments.
Unset Strict Implicit.
Local Open Scope fld_scope.

Section Gt.
  Variable F : field.
  Hypothesis N1 : forall x : F, x * x <> fopp f1.
  Local Notation K := (Fp2 N1).
  Hypothesis N3 : forall x : K, x * x * x <> xi N1.
  Local Notation L := (Fp6 N3).
  Hypothesis N2 : forall x : L, x * x <> vv N3.
  Local Notation M := (Fp12 N2).
  Add Field Fg : (fth F).
  Add Field Lg : (fth L).
  Add Field Mg : (fth M).
  Lemma square_zero : fp12_square (fp12_zero F) = fp12_zero F.
  Proof.
    rewrite (@fp12_square_spec F N1 N3). change (@fp12_mul F) with (@fmul M). change (fp12_zero F) with (f0 : M).
    match goal with |- @eq _ ?a ?b => change (@eq (car M) (a : car M) (b : car M)) end. ring.
  Qed.
  Lemma mul_zero (y : fp12 F) : fp12_mul (fp12_zero F) y = fp12_zero F.
  Proof.
    change (@fp12_mul F) with (@fmul M). change (fp12_zero F) with (f0 : M).
    match goal with |- @eq _ ?a ?b => change (@eq (car M) (a : car M) (b : car M)) end. ring.
  Qed.
  Lemma gt_mul_zero (a : fp12 F) bytes : gt_mul a bytes = fp12_zero F.
  Proof.
    unfold gt_mul. generalize (seq 0 64), (gt_table a). intros l t.
    induction l as [|k l IH]; [reflexivity|]. cbn [fold_left]. unfold gt_mul_step at 2. rewrite !square_zero, mul_zero. exact IH.
  Qed.
  Hypothesis T0 : (1 + 1 : F) <> 0.
  Lemma one_unitary (x : M) : x * cj x = 1 -> (fp12_is_one x = true <-> x = 1).
  Proof.
    intros U. split.
    - intros E.
      assert (C : cj x = x /\ qu_a (cu_a (qu_a x)) = f1).
      { unfold fp12_is_one, fp6_is_one in E. rewrite !andb_true_iff in E. destruct E as [[[E1 _] _] E2]. split.
        - unfold cj, fp12_conjugate. destruct x as [xa xb]. cbn [qu_a qu_b] in *. f_equal.
          rewrite (@fp6_is_zero_equal F N1) in E2. apply (@fp6_equal_spec F N1) in E2. subst xb.
          change (@fp6_neg F) with (@fopp L). change (fp6_zero F) with (f0 : L).
          pose proof (Ropp_def (F_R (fth L)) f0) as R. rewrite (Radd_0_l (F_R (fth L))) in R. exact R.
        - rewrite fp2_is_one_equal in E1. apply fp2_equal_spec in E1. rewrite E1. reflexivity. }
      destruct C as [C A]. rewrite C in U.
      assert (E' : (x - 1) * (x + 1) = 0) by (transitivity (x * x - 1); [ring|]; rewrite U; ring).
      destruct (f_integral E') as [H|H]; [now apply f_sub_zero|]. exfalso. apply T0.
      assert (H' := f_equal (fun m : fp12 F => qu_a (cu_a (qu_a m))) H).
      change (qu_a (cu_a (qu_a x)) + (1 : F) = 0) in H'. rewrite A in H'. exact H'.
    - intros ->. change (fp12_is_one (fp12_one F) = true). unfold fp12_is_one, fp6_is_one, fp12_one, fp6_one. cbn [qu_a qu_b cu_a cu_b cu_c].
      rewrite fp2_is_one_equal, !fp2_is_zero_equal, (@fp6_is_zero_equal F N1).
      replace (fp2_equal (fp2_one F) (fp2_one F)) with true by (symmetry; now apply fp2_equal_spec).
      replace (fp2_equal (fp2_zero F) (fp2_zero F)) with true by (symmetry; now apply fp2_equal_spec).
      symmetry. symmetry. cbn [andb]. apply (@fp6_equal_spec F N1). reflexivity.
  Qed.
  (** a constant of the base field: its cyclotomic square is not its square, unless it is 0 or 1 *)
  Lemma const_neq (c : F) : emb12 N2 (emb6 N3 (emb2 N1 c)) = 1 -> c = 1.
  Proof. intros E. exact (f_equal (fun m : fp12 F => qu_a (cu_a (qu_a m))) E). Qed.
  Lemma ww_norm : cj (ww N2) * ww N2 <> 1.
  Proof.
    intros E. unfold cj, ww, fp12_conjugate in E. cbn [qu_a qu_b] in E.
    assert (E2 := @fp12_mul_spec F N1 N3 (Quad (fp6_zero F) (fp6_neg (fp6_one F))) (Quad (fp6_zero F) (fp6_one F))).
    assert (E3 := f_equal (@qu_a (fp6 F)) (eq_trans (eq_sym E2) E)). cbn [quad_mul qu_a qu_b] in E3.
    change (@fp6_neg F) with (@fopp L) in E3. change (fp6_zero F) with (f0 : L) in E3. change (fp6_one F) with (f1 : L) in E3.
    change ((0 : L) * 0 + vv N3 * ((fopp f1 : L) * 1) = 1) in E3.
    assert (E4 : vv N3 = fopp (1 : L)).
    { rewrite <- E3. match goal with |- @eq _ ?a ?b => change (@eq (car L) (a : car L) (b : car L)) end. ring. }
    assert (E5 := f_equal (fun m : fp6 F => qu_a (cu_b m)) E4). cbn in E5. apply (@f_one_zero F). rewrite E5. ring.
  Qed.
  Lemma fpow_inv_mul (x y : M) (n m : N) : fpow (fpow x n) m = fpow x (n * m). Proof. symmetry. apply fpow_mul. Qed.
End Gt.

(** the steps of the Miller loop *)
Section Steps.
  Variable F : field.
  Hypothesis N1 : forall x : F, x * x <> fopp f1.
  Local Notation K := (Fp2 N1).
  Variable b : K.
  Hypothesis odd : odd_order_curve 0 b.
  Definition jof (T : g2pt F) : point K := Some ((jx T : K) / ((jz T : K) * jz T), (jy T : K) / ((jz T : K) * jz T * jz T)).
  Lemma c98_dbl (T : g2pt F) : (jz T : K) <> 0 -> on_curve 0 b (jof T) ->
    let T' := fst (doubling_step T) in let co := snd (doubling_step T) in
    (jz T' : K) <> 0 /\ jof T' = ec_add 0 (jof T) (jof T) /\ (co_a co : K) <> 0 /\
    forall u v : K, (co_a co : K) * v + (co_b co : K) * u + (co_c co : K) = (co_a co : K) * line_at (jof T) (jof T) u v.
  Proof.
    destruct T as [X Y Z]. unfold jof. cbn [jx jy jz]. intros HZ ON. rewrite (@doubling_form F N1). cbv zeta. cbn [fst snd jx jy jz co_a co_b co_c].
    pose proof ON as ON'. rewrite <- (jac_some (X : K) (Y : K) HZ) in ON'.
    destruct (double_step odd HZ ON') as (Z' & A & E & LN). cbv zeta in *. rewrite (jac_some _ _ HZ) in *. rewrite (jac_some _ _ Z') in E.
    split; [exact Z'|]. split; [exact E|]. split; [exact A|exact LN].
  Qed.
  Lemma c98_add (T : g2pt F) (x y : K) : (jz T : K) <> 0 -> (jx T : K) / ((jz T : K) * jz T) <> x ->
    let T' := fst (addition_step T (Jpt (x : fp2 F) y (fp2_one F))) in let co := snd (addition_step T (Jpt (x : fp2 F) y (fp2_one F))) in
    (jz T' : K) <> 0 /\ jof T' = ec_add 0 (jof T) (Some (x, y)) /\ (co_a co : K) <> 0 /\
    forall u v : K, (co_a co : K) * v + (co_b co : K) * u + (co_c co : K) = (co_a co : K) * line_at (jof T) (Some (x, y)) u v.
  Proof.
    destruct T as [X Y Z]. unfold jof. cbn [jx jy jz]. intros HZ XN. rewrite (@addition_form F N1). cbv zeta. cbn [fst snd jx jy jz co_a co_b co_c].
    destruct (@add_step K b odd X Y Z x y HZ XN) as (Z' & A & E & LN). cbv zeta in *. rewrite (jac_some _ _ HZ) in *. rewrite (jac_some _ _ Z') in E.
    split; [exact Z'|]. split; [exact E|]. split; [exact A|exact LN].
  Qed.
End Steps.
