(** The complete addition formulas compute the chord-and-tangent law, which is therefore an abelian group. *)
From Coq Require Import Ring Field.
From Verif Require Import EcField EcSpec EcAlg.
Set Implicit Arguments.
Unset Strict Implicit.
Local Open Scope fld_scope.

Section Proofs.
  Variable F : field.
  Add Field fF3 : (fth F).
  Variables a b : F.

  (** projective points and the affine point they stand for *)
  Definition proj (X Y Z : F) : point F := if feqb Z 0 then None else Some (X / Z, Y / Z).
  Definition pvalid (X Y Z : F) : Prop := Y * Y * Z = X * X * X + a * X * (Z * Z) + b * (Z * Z * Z) /\ (Z = 0 -> Y <> 0).

  Lemma proj_inf X Y : proj X Y 0 = None. Proof. unfold proj. now rewrite feqb_true. Qed.
  Lemma proj_fin X Y Z : Z <> 0 -> proj X Y Z = Some (X / Z, Y / Z).
  Proof. intros H. unfold proj. now rewrite feqb_false. Qed.
  Lemma proj_one x y : proj x y 1 = Some (x, y).
  Proof. rewrite proj_fin by apply f_one_zero. do 2 f_equal; field; apply f_one_zero. Qed.
  Lemma cube_zero (X : F) : X * X * X = 0 -> X = 0.
  Proof. intros H. destruct (f_integral H) as [H'|H']; [|exact H']. now destruct (f_integral H'). Qed.
  Lemma pvalid_inf X Y : pvalid X Y 0 -> X = 0 /\ Y <> 0.
  Proof.
    intros [E N]. split; [|now apply N]. apply cube_zero.
    transitivity (X * X * X + a * X * (0 * 0) + b * (0 * 0 * 0)); [ring|]. rewrite <- E. ring.
  Qed.
  Lemma pvalid_on X Y Z : pvalid X Y Z -> on_curve a b (proj X Y Z).
  Proof.
    intros [E N]. destruct (feqb_case Z 0) as [[_ H]|[_ H]]; [subst; now rewrite proj_inf|].
    rewrite proj_fin by exact H. cbn. unfold curve_rhs. field_simplify_eq; [|exact H].
    transitivity (Y * Y * Z); [ring|]. rewrite E. ring.
  Qed.
  Lemma pvalid_one x y : y * y = curve_rhs a b x -> pvalid x y 1.
  Proof. intros H. split; [|intros E; now apply f_one_zero in E]. unfold curve_rhs in H. transitivity (y * y); [ring|]. rewrite H. ring. Qed.
  (** two proportional valid triples stand for one point *)
  Lemma proj_cross X Y Z X' Y' Z' : pvalid X Y Z -> pvalid X' Y' Z' ->
    X * Z' = Z * X' -> Y * Z' = Z * Y' -> proj X Y Z = proj X' Y' Z'.
  Proof.
    intros V V' E1 E2. destruct (feqb_case Z 0) as [[_ H]|[_ H]]; destruct (feqb_case Z' 0) as [[_ H']|[_ H']]; subst.
    - now rewrite !proj_inf.
    - destruct (pvalid_inf V) as [_ N]. exfalso. apply (f_mul_neq N H'). rewrite E2. ring.
    - destruct (pvalid_inf V') as [_ N]. exfalso. apply (f_mul_neq H N). rewrite <- E2. ring.
    - rewrite !proj_fin by assumption. f_equal. apply f_equal2.
      + apply (f_cancel (z := Z * Z')); [now apply f_mul_neq|]. transitivity (X * Z'); [now field|]. rewrite E1. now field.
      + apply (f_cancel (z := Z * Z')); [now apply f_mul_neq|]. transitivity (Y * Z'); [now field|]. rewrite E2. now field.
  Qed.
  Lemma proj_scale X Y Z c : c <> 0 -> proj (c * X) (c * Y) (c * Z) = proj X Y Z.
  Proof.
    intros N. destruct (feqb_case Z 0) as [[_ H]|[_ H]].
    - subst. replace (c * 0) with (0 : F) by ring. now rewrite !proj_inf.
    - rewrite !proj_fin; auto using f_mul_neq. do 2 f_equal; field; auto.
  Qed.

  Notation CX := (cx F a b). Notation CY := (cy F a b). Notation CZ := (cz F a b).
  Lemma c_scale X1 Y1 Z1 X2 Y2 Z2 c d :
    CX (c*X1) (c*Y1) (c*Z1) (d*X2) (d*Y2) (d*Z2) = (c*d)*(c*d) * CX X1 Y1 Z1 X2 Y2 Z2 /\
    CY (c*X1) (c*Y1) (c*Z1) (d*X2) (d*Y2) (d*Z2) = (c*d)*(c*d) * CY X1 Y1 Z1 X2 Y2 Z2 /\
    CZ (c*X1) (c*Y1) (c*Z1) (d*X2) (d*Y2) (d*Z2) = (c*d)*(c*d) * CZ X1 Y1 Z1 X2 Y2 Z2.
  Proof. unfold cx, cy, cz. repeat split; ring. Qed.

  Section Affine.
    Variables x1 y1 x2 y2 : F.
    Hypothesis H1 : y1*y1 = x1*x1*x1+a*x1+b.
    Hypothesis H2 : y2*y2 = x2*x2*x2+a*x2+b.
    Notation X := (CX x1 y1 1 x2 y2 1). Notation Y := (CY x1 y1 1 x2 y2 1). Notation Z := (CZ x1 y1 1 x2 y2 1).
    Notation d := (x1 - x2). Notation n := (y1 - y2). Notation m := (y1 + y2).
    (** the result is on the curve *)
    Lemma c_curve : Y * Y * Z = X * X * X + a * X * (Z * Z) + b * (Z * Z * Z).
    Proof.
      rewrite (Sx_ok _ _ _ _ _ _ _ H1 H2), (Sy_ok _ _ _ _ _ _ _ H1 H2), (Sz_ok _ _ _ _ _ _ _ H1 H2).
      unfold Sx, Sy, Sz. ring [H1 H2].
    Qed.
    (** chords *)
    Lemma c_chord_x : X * (d * d) = Z * (n * n - (x1 + x2) * (d * d)).
    Proof. unfold cx, cz. ring [H1 H2]. Qed.
    Lemma c_chord_y : Y * (d * d * d) = Z * (n * (x1 * (d * d) - (n * n - (x1 + x2) * (d * d))) - y1 * (d * d * d)).
    Proof. unfold cy, cz. ring [H1 H2]. Qed.
    (** the Z coordinate is the y coordinate of the difference, times a power of d *)
    Lemma c_chord_z : Z = - (m * (x1 * (d * d) - (m * m - (x1 + x2) * (d * d))) - y1 * (d * d * d)).
    Proof. unfold cz. ring [H1 H2]. Qed.
  End Affine.

  Hypothesis odd : odd_order_curve a b.
  Lemma two_neq : (2 : F) <> 0. Proof. apply odd. Qed.
  Lemma y_neq x y : y * y = curve_rhs a b x -> y <> 0.
  Proof. intros H E. destruct odd as [_ N]. apply (N x). rewrite <- H, E. ring. Qed.
  Lemma opp_neq (y : F) : y <> 0 -> y <> - y.
  Proof.
    intros N E. assert (2 * y = 0) by (transitivity (y - - y); [ring|rewrite <- E; ring]).
    exact (f_mul_neq two_neq N H).
  Qed.
  (** the third point of a line through a point of the curve, if its coordinates solve the equation there *)
  Lemma chord_on x1 y1 x2 y2 : y1 * y1 = curve_rhs a b x1 -> y2 * y2 = curve_rhs a b x2 -> x1 <> x2 ->
    let p := line_third ((y1 - y2) / (x1 - x2)) x1 y1 x2 in snd p * snd p = curve_rhs a b (fst p).
  Proof.
    intros H1 H2 N. cbn. unfold curve_rhs in *. assert (D := f_sub_neq N). set (d := x1 - x2) in *. set (n := y1 - y2).
    set (u := n * n - (x1 + x2) * (d * d)). set (v := n * (x1 * (d * d) - u) - y1 * (d * d * d)).
    assert (I : v * v = u * u * u + a * u * (d * d * (d * d)) + b * (d * d * d * (d * d * d))).
    { unfold v, u, n, d. ring [H1 H2]. }
    assert (X : n / d * (n / d) - x1 - x2 = u / (d * d)) by (unfold u; field; exact D). rewrite X.
    assert (Y : n / d * (x1 - u / (d * d)) - y1 = v / (d * d * d)) by (unfold v; field; exact D). rewrite Y.
    apply (f_cancel (z := d * d * d * (d * d * d))); [repeat apply f_mul_neq; auto|].
    transitivity (v * v); [field; exact D|]. rewrite I. field. exact D.
  Qed.

  (** the same for tangents *)
  Lemma tangent_on x y : y * y = curve_rhs a b x ->
    let w := 2 * y in let t := 3 * (x * x) + a in let u := t * t - (x + x) * (w * w) in
    let v := t * (x * (w * w) - u) - y * (w * w * w) in
    w <> 0 /\ line_third (t / w) x y x = (u / (w * w), v / (w * w * w)) /\
    (v / (w * w * w)) * (v / (w * w * w)) = curve_rhs a b (u / (w * w)).
  Proof.
    intros H w t u v. assert (W : w <> 0) by (apply f_mul_neq; [exact two_neq|exact (y_neq H)]).
    split; [exact W|]. assert (W6 : w * w * w * (w * w * w) <> 0) by (clear -W; revert W; generalize w; intros; repeat apply f_mul_neq; auto).
    unfold curve_rhs in H.
    assert (I : v * v = u * u * u + a * u * (w * w * (w * w)) + b * (w * w * w * (w * w * w))).
    { unfold v, u, t, w. ring [H]. }
    assert (X : t / w * (t / w) - x - x = u / (w * w)) by (unfold u; field; exact W).
    assert (Y : t / w * (x - u / (w * w)) - y = v / (w * w * w)) by (unfold v; field; exact W).
    split; [unfold line_third; now rewrite X, Y|]. unfold curve_rhs.
    apply (f_cancel (z := w * w * w * (w * w * w))); [exact W6|].
    transitivity (v * v); [field; exact W|]. rewrite I. field. exact W.
  Qed.

  Lemma c_affine x1 y1 x2 y2 : y1 * y1 = curve_rhs a b x1 -> y2 * y2 = curve_rhs a b x2 ->
    pvalid (CX x1 y1 1 x2 y2 1) (CY x1 y1 1 x2 y2 1) (CZ x1 y1 1 x2 y2 1) /\
    proj (CX x1 y1 1 x2 y2 1) (CY x1 y1 1 x2 y2 1) (CZ x1 y1 1 x2 y2 1) = ec_add a (Some (x1, y1)) (Some (x2, y2)).
  Proof.
    intros H1 H2. assert (C := c_curve H1 H2). assert (N1 := y_neq H1). assert (N2 := y_neq H2).
    cbn [ec_add]. destruct (feqb_case x1 x2) as [[-> E]|[-> E]].
    - subst x2. destruct (feqb_case y1 (- y2)) as [[-> E]|[-> E]].
      + (* opposite points *)
        assert (X0 : CX x1 y1 1 x1 y2 1 = 0) by (unfold cx; rewrite E; ring).
        assert (Z0 : CZ x1 y1 1 x1 y2 1 = 0) by (unfold cz; rewrite E; ring).
        rewrite Z0, proj_inf. split; [|reflexivity]. rewrite Z0 in C. split; [exact C|]. intros _ Y0.
        (* Y is the y coordinate of the doubled point, which is not zero *)
        destruct (tangent_on H1) as (W & _ & Cu). unfold curve_rhs in H1. apply (y_neq Cu).
        apply f_div_eq; [repeat apply f_mul_neq; auto using two_neq|].
        transitivity (cy F a b x1 y1 1 x1 y2 1); [|rewrite Y0; ring].
        replace y2 with (- y1) by (rewrite E; ring). unfold cy. ring [H1].
      + (* doubling *)
        assert (y2 = y1) as ->.
        { apply f_sub_zero. assert (Q : (y2 - y1) * (y2 + y1) = 0).
          { transitivity (y2 * y2 - y1 * y1); [ring|]. rewrite H1, H2. ring. }
          destruct (f_integral Q) as [Q'|Q']; [exact Q'|]. exfalso. apply E. apply f_sub_zero.
          transitivity (y2 + y1); [ring|exact Q']. }
        clear E H2 N2. destruct (tangent_on H1) as (W & -> & _). unfold curve_rhs in H1.
        set (w := 2 * y1) in *. set (t := 3 * (x1 * x1) + a). set (u := t * t - (x1 + x1) * (w * w)).
        assert (Z8 : CZ x1 y1 1 x1 y1 1 = w * w * w) by (unfold cz, w; ring [H1]).
        assert (X8 : CX x1 y1 1 x1 y1 1 = w * u) by (unfold cx, u, t, w; ring [H1]).
        assert (Y8 : CY x1 y1 1 x1 y1 1 = t * (x1 * (w * w) - u) - y1 * (w * w * w)) by (unfold cy, u, t, w; ring [H1]).
        rewrite X8, Y8, Z8 in *. assert (ZN : w * w * w <> 0) by (unfold w; repeat apply f_mul_neq; auto using two_neq).
        split; [split; [exact C|contradiction]|]. rewrite proj_fin by exact ZN. do 2 f_equal. field. exact W.
    - (* chord *)
      assert (D := f_sub_neq E). set (d := x1 - x2) in *.
      assert (Zy : CZ x1 y1 1 x2 y2 1 = - (snd (line_third ((y1 - - y2) / (x1 - x2)) x1 y1 x2) * (d * d * d))).
      { rewrite (c_chord_z H1 H2). unfold line_third, d. cbn [snd]. field. exact D. }
      assert (H2' : (- y2) * (- y2) = curve_rhs a b x2) by (rewrite <- H2; ring).
      assert (ZN : CZ x1 y1 1 x2 y2 1 <> 0).
      { rewrite Zy. intros Q. assert (Q' : snd (line_third ((y1 - - y2) / (x1 - x2)) x1 y1 x2) * (d * d * d) = 0).
        { transitivity (- - (snd (line_third ((y1 - - y2) / (x1 - x2)) x1 y1 x2) * (d * d * d))); [ring|rewrite Q; ring]. }
        destruct (f_integral Q') as [Q2|Q2]; [|now apply cube_zero in Q2].
        exact (y_neq (chord_on H1 H2' E) Q2). }
      split; [split; [exact C|contradiction]|]. rewrite proj_fin by exact ZN. f_equal. unfold line_third.
      apply f_equal2; (apply f_div_eq; [exact ZN|]).
      + apply (f_cancel (z := d * d)); [now apply f_mul_neq|].
        transitivity (CX x1 y1 1 x2 y2 1 * (d * d)); [ring|]. unfold d at 1 2. rewrite (c_chord_x H1 H2). unfold d. field. exact D.
      + apply (f_cancel (z := d * d * d)); [now repeat apply f_mul_neq|].
        transitivity (CY x1 y1 1 x2 y2 1 * (d * d * d)); [ring|]. unfold d at 1 2 3. rewrite (c_chord_y H1 H2). unfold d. field. exact D.
  Qed.

  Lemma pvalid_affine X Y Z : pvalid X Y Z -> Z <> 0 ->
    (Y / Z) * (Y / Z) = curve_rhs a b (X / Z) /\ X = Z * (X / Z) /\ Y = Z * (Y / Z) /\ Z = Z * 1.
  Proof.
    intros V N. assert (O := pvalid_on V). rewrite proj_fin in O by exact N. cbn in O.
    repeat split; [exact O|now field|now field|ring].
  Qed.
  Lemma pvalid_scale X Y Z c : c <> 0 -> pvalid X Y Z -> pvalid (c * X) (c * Y) (c * Z).
  Proof.
    intros N [E V]. split.
    - transitivity (c * c * c * (Y * Y * Z)); [ring|]. rewrite E. ring.
    - intros Q. destruct (f_integral Q) as [Q'|Q']; [contradiction|]. apply f_mul_neq; auto.
  Qed.
  Lemma pvalid_y X Y Z : pvalid X Y Z -> Y <> 0.
  Proof.
    intros V. destruct (f_eq_dec Z 0) as [E|E]; [subst; apply (pvalid_inf V)|].
    destruct (pvalid_affine V E) as (O & _ & Ey & _). rewrite Ey. apply f_mul_neq; [exact E|exact (y_neq O)].
  Qed.

  (** the formulas are complete: for all valid inputs *)
  Lemma c_add X1 Y1 Z1 X2 Y2 Z2 : pvalid X1 Y1 Z1 -> pvalid X2 Y2 Z2 ->
    pvalid (CX X1 Y1 Z1 X2 Y2 Z2) (CY X1 Y1 Z1 X2 Y2 Z2) (CZ X1 Y1 Z1 X2 Y2 Z2) /\
    proj (CX X1 Y1 Z1 X2 Y2 Z2) (CY X1 Y1 Z1 X2 Y2 Z2) (CZ X1 Y1 Z1 X2 Y2 Z2) = ec_add a (proj X1 Y1 Z1) (proj X2 Y2 Z2).
  Proof.
    intros V1 V2. assert (N1 := pvalid_y V1). assert (N2 := pvalid_y V2).
    destruct (f_eq_dec Z1 0) as [E1|E1].
    { subst Z1. destruct (pvalid_inf V1) as [-> _]. rewrite proj_inf. cbn [ec_add].
      set (c := Y1 * Y1 * Y2). assert (Nc : c <> 0) by (unfold c; repeat apply f_mul_neq; auto).
      replace (CX 0 Y1 0 X2 Y2 Z2) with (c * X2) by (unfold cx, c; ring).
      replace (CY 0 Y1 0 X2 Y2 Z2) with (c * Y2) by (unfold cy, c; ring).
      replace (CZ 0 Y1 0 X2 Y2 Z2) with (c * Z2) by (unfold cz, c; ring).
      split; [now apply pvalid_scale|now apply proj_scale]. }
    destruct (f_eq_dec Z2 0) as [E2|E2].
    { subst Z2. destruct (pvalid_inf V2) as [-> _]. rewrite (proj_inf 0 Y2).
      set (c := Y2 * Y2 * Y1). assert (Nc : c <> 0) by (unfold c; repeat apply f_mul_neq; auto).
      replace (CX X1 Y1 Z1 0 Y2 0) with (c * X1) by (unfold cx, c; ring).
      replace (CY X1 Y1 Z1 0 Y2 0) with (c * Y1) by (unfold cy, c; ring).
      replace (CZ X1 Y1 Z1 0 Y2 0) with (c * Z1) by (unfold cz, c; ring).
      split; [now apply pvalid_scale|]. rewrite proj_scale by exact Nc. unfold ec_add. now destruct (proj X1 Y1 Z1) as [[? ?]|]. }
    destruct (pvalid_affine V1 E1) as (O1 & A1 & B1 & D1). destruct (pvalid_affine V2 E2) as (O2 & A2 & B2 & D2).
    rewrite (proj_fin X1 Y1 E1), (proj_fin X2 Y2 E2). set (x1 := X1 / Z1) in *. set (y1 := Y1 / Z1) in *.
    set (x2 := X2 / Z2) in *. set (y2 := Y2 / Z2) in *.
    destruct (c_affine O1 O2) as [V P]. destruct (c_scale x1 y1 1 x2 y2 1 Z1 Z2) as (SX & SY & SZ).
    rewrite <- A1, <- B1, <- D1, <- A2, <- B2, <- D2 in SX, SY, SZ. rewrite SX, SY, SZ.
    assert (Nc : Z1 * Z2 * (Z1 * Z2) <> 0) by (repeat apply f_mul_neq; auto).
    split; [now apply pvalid_scale|now rewrite proj_scale].
  Qed.

  (** the chord-and-tangent law makes the points of the curve an abelian group *)
  Lemma ec_closed P Q : on_curve a b P -> on_curve a b Q -> on_curve a b (ec_add a P Q).
  Proof.
    destruct P as [[x1 y1]|]; [|auto]. destruct Q as [[x2 y2]|]; [|auto]. intros H1 H2.
    destruct (c_affine H1 H2) as [V E]. rewrite <- E. now apply pvalid_on.
  Qed.
  Lemma ec_comm P Q : on_curve a b P -> on_curve a b Q -> ec_add a P Q = ec_add a Q P.
  Proof.
    destruct P as [[x1 y1]|]; destruct Q as [[x2 y2]|]; try reflexivity. intros H1 H2.
    destruct (c_affine H1 H2) as [_ <-]. destruct (c_affine H2 H1) as [_ <-].
    f_equal; unfold cx, cy, cz; ring.
  Qed.
  Lemma ec_zero_r P : ec_add a P None = P. Proof. now destruct P as [[? ?]|]. Qed.
  Lemma ec_neg_on P : on_curve a b P -> on_curve a b (ec_neg P).
  Proof. destruct P as [[x y]|]; [|auto]. cbn. intros H. rewrite <- H. ring. Qed.
  Lemma ec_neg_r P : ec_add a P (ec_neg P) = None.
  Proof.
    destruct P as [[x y]|]; [|reflexivity]. cbn. rewrite feqb_true. replace (- - y) with y by ring. now rewrite feqb_true.
  Qed.
  Lemma ec_assoc P Q R : on_curve a b P -> on_curve a b Q -> on_curve a b R ->
    ec_add a (ec_add a P Q) R = ec_add a P (ec_add a Q R).
  Proof.
    destruct P as [[x1 y1]|]; [|reflexivity]. destruct Q as [[x2 y2]|]; [|intros; now rewrite ec_zero_r].
    destruct R as [[x3 y3]|]; [|intros; now rewrite !ec_zero_r]. intros H1 H2 H3.
    destruct (c_affine H1 H2) as [V12 <-]. destruct (c_affine H2 H3) as [V23 <-].
    rewrite <- (proj_one x3 y3), <- (proj_one x1 y1).
    destruct (c_add V12 (pvalid_one H3)) as [VL <-]. destruct (c_add (pvalid_one H1) V23) as [VM <-].
    unfold curve_rhs in H1, H2, H3.
    rewrite (Sx_ok _ _ _ _ _ _ _ H1 H2), (Sy_ok _ _ _ _ _ _ _ H1 H2), (Sz_ok _ _ _ _ _ _ _ H1 H2) in VL |- *.
    rewrite (Tx_ok _ _ _ _ _ _ _ H2 H3), (Ty_ok _ _ _ _ _ _ _ H2 H3), (Tz_ok _ _ _ _ _ _ _ H2 H3) in VM |- *.
    rewrite (Lx_ok _ _ _ _ _ _ _ _ _ H1 H2 H3), (Ly_ok _ _ _ _ _ _ _ _ _ H1 H2 H3), (Lz_ok _ _ _ _ _ _ _ _ _ H1 H2 H3) in VL |- *.
    rewrite (Mx_ok _ _ _ _ _ _ _ _ _ H1 H2 H3), (My_ok _ _ _ _ _ _ _ _ _ H1 H2 H3), (Mz_ok _ _ _ _ _ _ _ _ _ H1 H2 H3) in VM |- *.
    apply (proj_cross VL VM); [exact (LM_xz _ _ _ _ _ _ _ _ _ H1 H2 H3)|exact (LM_yz _ _ _ _ _ _ _ _ _ H1 H2 H3)].
  Qed.
End Proofs.
