(** doublingStep and additionStep: doubling and addition of the curve in Jacobian coordinates, and the coefficients of the
    tangent and of the chord. *)
From Coq Require Import Field Field_theory Ring Ring_theory ZArith NArith Lia Bool List Znumtheory.
From Verif Require Import EcField EcSpec EcAlg EcProofs PointModel PointMulProofs MillerSpec.
Import ListNotations.
Set Implicit Arguments.
Unset Strict Implicit.
Local Open Scope fld_scope.

Section Step.
  Variable K : field.
  Add Field Kf : (fth K).
  Variable b : K.
  Hypothesis odd : odd_order_curve 0 b.
  Definition jac (X Y Z : K) : point K := if feqb Z 0 then None else Some (X / (Z * Z), Y / (Z * Z * Z)).
  Lemma jac_some X Y Z : Z <> 0 -> jac X Y Z = Some (X / (Z * Z), Y / (Z * Z * Z)).
  Proof. intros H. unfold jac. rewrite (feqb_false H). reflexivity. Qed.
  Lemma ec_tangent (x y : K) : y * y = curve_rhs 0 b x ->
    ec_add 0 (Some (x, y)) (Some (x, y)) = Some (line_third (3 * (x * x) / (2 * y)) x y x).
  Proof.
    intros H. unfold ec_add. rewrite feqb_true. pose proof (y_neq odd H) as Y.
    rewrite (feqb_false (opp_neq odd Y)). replace (3 * (x * x) + 0) with (3 * (x * x)) by ring. reflexivity.
  Qed.
  Lemma on_jac_y X Y Z : Z <> 0 -> on_curve 0 b (jac X Y Z) -> Y <> 0.
  Proof.
    intros HZ H E. rewrite (jac_some _ _ HZ) in H. apply (y_neq odd H). subst Y. field. exact HZ.
  Qed.
  Lemma two_K : (2 : K) <> 0. Proof. apply (two_neq odd). Qed.
  Lemma double_step (X Y Z : K) : Z <> 0 -> on_curve 0 b (jac X Y Z) ->
    let yy := Y * Y in
    let d := 2 * (2 * (X * yy)) in
    let e := 3 * (X * X) in
    let X' := e * e - 2 * d in
    let Z' := 2 * (Y * Z) in
    let Y' := e * (d - X') - 2 * (2 * (2 * (yy * yy))) in
    let a := 2 * (Z' * (Z * Z)) in
    Z' <> 0 /\ a <> 0 /\ jac X' Y' Z' = ec_add 0 (jac X Y Z) (jac X Y Z) /\
    forall u v, a * v + (- (2 * (e * (Z * Z)))) * u + 2 * (e * X - 2 * yy) = a * line_at (jac X Y Z) (jac X Y Z) u v.
  Proof.
    intros HZ H. cbv zeta. pose proof (on_jac_y HZ H) as HY. pose proof two_K as T.
    assert (Z' : 2 * (Y * Z) <> 0) by (repeat apply f_mul_neq; assumption).
    rewrite (jac_some _ _ HZ) in *. split; [exact Z'|]. split; [repeat apply f_mul_neq; assumption|]. split.
    - rewrite (jac_some _ _ Z'), (ec_tangent H). f_equal. unfold line_third. f_equal; field; repeat split; assumption.
    - intros u v. unfold line_at, slope. rewrite feqb_true. field. repeat split; assumption.
  Qed.
  Lemma add_step (X Y Z x y : K) : Z <> 0 -> X / (Z * Z) <> x ->
    let h := x * (Z * Z) - X in
    let s := 2 * (y * (Z * Z * Z) - Y) in
    let h4 := 2 * 2 * (h * h) in
    let X' := s * s - h4 * h - 2 * (h4 * X) in
    let Z' := 2 * (Z * h) in
    let Y' := s * (h4 * X - X') - 2 * (Y * (h4 * h)) in
    let a := 2 * Z' in
    Z' <> 0 /\ a <> 0 /\ jac X' Y' Z' = ec_add 0 (jac X Y Z) (Some (x, y)) /\
    forall u v, a * v + (2 * (- s)) * u + 2 * (s * x - y * Z') = a * line_at (jac X Y Z) (Some (x, y)) u v.
  Proof.
    intros HZ N. cbv zeta. pose proof two_K as T.
    assert (H : x * (Z * Z) - X <> 0).
    { intros E. apply N. apply f_div_eq; [apply f_mul_neq; assumption|]. apply f_sub_zero in E. rewrite <- E. ring. }
    assert (H' : X - x * (Z * Z) <> 0) by (intros E; apply H; transitivity (fopp (X - x * (Z * Z))); [ring|rewrite E; ring]).
    assert (Z' : 2 * (Z * (x * (Z * Z) - X)) <> 0) by (repeat apply f_mul_neq; assumption).
    rewrite (jac_some _ _ HZ) in *. split; [exact Z'|]. split; [repeat apply f_mul_neq; assumption|]. split.
    - rewrite (jac_some _ _ Z'). unfold ec_add. rewrite (feqb_false N). f_equal. unfold line_third. f_equal; field; repeat split; assumption.
    - intros u v. unfold line_at, slope. rewrite (feqb_false N). field. repeat split; assumption.
  Qed.
  (** ** multiples *)
  Definition mulN (n : N) (Q : point K) : point K := ec_mul 0 (N.to_nat n) Q.
  Notation on := (on_curve 0 b).
  Lemma mulN_on n Q : on Q -> on (mulN n Q). Proof. apply (ec_mul_on odd). Qed.
  Lemma mulN_add m n Q : on Q -> mulN (m + n) Q = ec_add 0 (mulN m Q) (mulN n Q).
  Proof. intros H. unfold mulN. rewrite N2Nat.inj_add. apply (ec_mul_add odd). exact H. Qed.
  Lemma mulN_mul m n Q : on Q -> mulN (m * n) Q = mulN m (mulN n Q).
  Proof. intros H. unfold mulN. rewrite N2Nat.inj_mul. apply (ec_mul_mul odd). exact H. Qed.
  Lemma mulN_1 Q : mulN 1 Q = Q. Proof. apply ec_zero_r. Qed.
  Lemma mulN_none n : mulN n None = None.
  Proof. unfold mulN. induction (N.to_nat n) as [|k IH]; [reflexivity|]. cbn [ec_mul]. rewrite IH. reflexivity. Qed.
  Lemma order_lt (r n : N) Q : prime (Z.of_N r) -> on Q -> Q <> None -> mulN r Q = None -> (0 < n < r)%N -> mulN n Q <> None.
  Proof.
    intros P H Q0 R N E. apply Q0.
    assert (G : N.gcd n r = 1%N).
    { assert (D1 := N.gcd_divide_l n r). assert (D2 := N.gcd_divide_r n r). destruct D1 as [u U], D2 as [v V].
      assert (D : (Z.of_N (N.gcd n r) | Z.of_N r)%Z) by (exists (Z.of_N v); rewrite <- N2Z.inj_mul, <- V; reflexivity).
      destruct (prime_divisors _ P _ D) as [D'|[D'|[D'|D']]]; [lia|lia| |lia].
      exfalso. assert (E' : N.gcd n r = r) by lia. rewrite E' in U. destruct u; nia. }
    destruct (N.gcd_bezout_pos n r ltac:(lia)) as (u & v & B). rewrite G in B.
    transitivity (mulN (1 + v * r) Q).
    - rewrite mulN_add, mulN_mul, R, mulN_none, mulN_1 by exact H. symmetry. apply ec_zero_r.
    - rewrite <- B, mulN_mul, E, mulN_none by exact H. reflexivity.
  Qed.
  (** a multiple and the point itself have different abscissas *)
  Lemma same_x (x y x' y' : K) : on (Some (x, y)) -> on (Some (x', y')) -> x = x' -> Some (x, y) = Some (x', y') \/ Some (x, y) = ec_neg (Some (x', y')).
  Proof.
    intros A B <-. cbn in A, B. assert (E : (y - y') * (y + y') = 0) by (transitivity (y * y - y' * y'); [ring|]; rewrite A, B; ring).
    destruct (f_integral E) as [E'|E']; [left|right; cbn].
    - apply f_sub_zero in E'. congruence.
    - do 2 f_equal. apply f_sub_zero. transitivity (y + y'); [ring|exact E'].
  Qed.
  Lemma mul_x_neq (r n : N) x y x' y' : prime (Z.of_N r) -> on (Some (x, y)) -> mulN r (Some (x, y)) = None ->
    (1 < n)%N -> (n + 1 < r)%N -> mulN n (Some (x, y)) = Some (x', y') -> x' <> x.
  Proof.
    intros P H R N1 N2 E X. pose proof (mulN_on n H) as H'. rewrite E in H'.
    destruct (same_x H' H X) as [S|S].
    - assert (Q : mulN (n - 1) (Some (x, y)) = None).
      { assert (T : ec_add 0 (mulN (n - 1) (Some (x, y))) (Some (x, y)) = Some (x, y)).
        { rewrite <- (mulN_1 (Some (x, y))) at 2. rewrite <- mulN_add by exact H. replace (n - 1 + 1)%N with n by lia. rewrite E. exact S. }
        pose proof (mulN_on (n - 1) H) as O. pose proof (ec_neg_on H) as ON.
        transitivity (ec_add 0 (ec_add 0 (mulN (n - 1) (Some (x, y))) (Some (x, y))) (ec_neg (Some (x, y)))).
        - rewrite (ec_assoc odd O H ON), ec_neg_r, ec_zero_r. reflexivity.
        - rewrite T. apply ec_neg_r. }
      revert Q. apply (order_lt P H ltac:(discriminate) R). lia.
    - assert (Q : mulN (n + 1) (Some (x, y)) = None).
      { rewrite mulN_add, mulN_1, E, S by exact H. rewrite (ec_comm odd (ec_neg_on H) H). apply ec_neg_r. }
      revert Q. apply (order_lt P H ltac:(discriminate) R). lia.
  Qed.
End Step.
