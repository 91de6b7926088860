(** C70-C78: the point arithmetic of secp256k1, P-256, BLS12-381 G1/G2 and Pallas is the group law of the curve. *)
From Coq Require Import Bool List NArith ZArith PArith Lia Field Ring.
From Verif Require Import EcField EcSpec EcAlg EcProofs PointModel PointSpec PointProofs PointMulProofs ZpField.
Set Implicit Arguments.
Unset Strict Implicit.
Import ListNotations.
Local Open Scope fld_scope.

Section Bridge.
  Variable F : field.
  Add Field fFB : (fth F).
  Lemma hom_den (p : pt F) : homogeneous p = den p. Proof. reflexivity. Qed.
  Lemma hom_valid (a b : F) (p : pt F) : on_curve a b (homogeneous p) <-> nvalid a b p.
  Proof.
    split; [|apply nvalid_on]. unfold homogeneous, nvalid. destruct (feqb_case (pz p) 0) as [[-> E]|[-> N]]; [auto|].
    cbn. unfold curve_rhs. intros H. right. split; [|contradiction].
    transitivity (pz p * pz p * pz p * (py p / pz p * (py p / pz p))); [now field|]. rewrite H. now field.
  Qed.
  Lemma hom_proper (b : F) (p : pt F) : on_curve 0 b (homogeneous p) /\ proper p <-> bvalid b p.
  Proof.
    split.
    - intros [H P]. destruct (proj1 (hom_valid 0 b p) H) as [E|V]; [|exact V].
      destruct (P E) as [Ex Ny]. split; [rewrite Ex, E; ring|auto].
    - intros V. split; [now apply pvalid_on|]. intros E. unfold bvalid in V. rewrite E in V. exact (pvalid_inf V).
  Qed.
  Lemma jac_on (b : F) (p : pt F) : on_curve 0 b (jacobian p) <-> jvalid b p.
  Proof.
    split; [|apply jvalid_on]. unfold jacobian, jvalid. destruct (feqb_case (pz p) 0) as [[-> E]|[-> N]]; [auto|].
    cbn. unfold curve_rhs. intros H. right.
    transitivity (pz p * pz p * pz p * (pz p * pz p * pz p) * (py p / (pz p * pz p * pz p) * (py p / (pz p * pz p * pz p)))); [now field|].
    rewrite H. now field.
  Qed.
  Lemma equal_cases (p q : pt F) :
    (homogeneous p = homogeneous q /\ proj_equal p q = 1%Z) \/ (homogeneous p <> homogeneous q /\ proj_equal p q = 0%Z).
  Proof.
    unfold homogeneous, proj_equal, is_zero.
    destruct (feqb_case (pz p) 0) as [[-> E1]|[-> N1]]; destruct (feqb_case (pz q) 0) as [[-> E2]|[-> N2]]; cbn [z01].
    - left. now destruct (feqb _ _), (feqb _ _).
    - right. split; [discriminate|]. now destruct (feqb _ _), (feqb _ _).
    - right. split; [discriminate|]. now destruct (feqb _ _), (feqb _ _).
    - destruct (feqb_case (px p * pz q) (px q * pz p)) as [[-> X]|[-> X]];
      destruct (feqb_case (py p * pz q) (py q * pz p)) as [[-> Y]|[-> Y]].
      + left. split; [|reflexivity]. do 2 f_equal.
        * apply f_div_eq; [assumption|]. apply (f_cancel (z := pz q)); [assumption|]. rewrite (ARmul_comm (Rth_ARth (Eqsth F) (Eq_ext _ _ _) (F_R (fth F))) (pz q)), X. now field.
        * apply f_div_eq; [assumption|]. apply (f_cancel (z := pz q)); [assumption|]. rewrite (ARmul_comm (Rth_ARth (Eqsth F) (Eq_ext _ _ _) (F_R (fth F))) (pz q)), Y. now field.
      + right. split; [|reflexivity]. intros Q. injection Q as Qx Qy. apply Y.
        transitivity (py p / pz p * (pz p * pz q)); [now field|]. rewrite Qy. now field.
      + right. split; [|reflexivity]. intros Q. injection Q as Qx Qy. apply X.
        transitivity (px p / pz p * (pz p * pz q)); [now field|]. rewrite Qx. now field.
      + right. split; [|reflexivity]. intros Q. injection Q as Qx Qy. apply X.
        transitivity (px p / pz p * (pz p * pz q)); [now field|]. rewrite Qx. now field.
  Qed.
  Lemma jac_affine (p : pt F) :
    pallas_affine p = match jacobian p with None => Pt 0 0 1 | Some (x, y) => Pt x y 1 end.
  Proof.
    unfold pallas_affine, jacobian, is_identity, is_zero. destruct (feqb_case (pz p) 0) as [[-> E]|[-> N]]; [reflexivity|].
    f_equal; now field.
  Qed.
End Bridge.

(** *** C70: secp256k1 and P-256 addition and doubling *)
Section C70.
  Variable F : field.
  Variable b : F.
  Section K.
    Hypothesis curve : odd_order_curve 0 b.
    Theorem C70_k256_add (p q : pt F) : on_curve 0 b (homogeneous p) -> on_curve 0 b (homogeneous q) ->
      homogeneous (k256_add b p q) = ec_add 0 (homogeneous p) (homogeneous q).
    Proof. intros H1 H2. apply k256_add_ok; [exact curve|now apply hom_valid|now apply hom_valid]. Qed.
    Theorem C70_k256_double (p : pt F) : on_curve 0 b (homogeneous p) ->
      homogeneous (k256_double b p) = ec_add 0 (homogeneous p) (homogeneous p).
    Proof. intros H. apply k256_double_ok; [exact curve|now apply hom_valid]. Qed.
    Theorem C70_k256_sub (p q : pt F) : on_curve 0 b (homogeneous p) -> on_curve 0 b (homogeneous q) ->
      homogeneous (native_sub (k256_add b) p q) = ec_add 0 (homogeneous p) (ec_neg (homogeneous q)).
    Proof.
      intros H1 H2. destruct (neg_den (proj1 (hom_valid 0 b q) H2)) as [V E].
      unfold native_sub. rewrite C70_k256_add; [|exact H1|now apply hom_valid]. f_equal. exact E.
    Qed.
    Theorem C70_k256_closed (p q : pt F) : on_curve 0 b (homogeneous p) -> on_curve 0 b (homogeneous q) ->
      on_curve 0 b (homogeneous (k256_add b p q)) /\ on_curve 0 b (homogeneous (k256_double b p)) /\
      on_curve 0 b (homogeneous (native_neg p)) /\ on_curve 0 b (homogeneous (native_sub (k256_add b) p q)).
    Proof.
      intros H1 H2. destruct (neg_den (proj1 (hom_valid 0 b q) H2)) as [V E].
      rewrite C70_k256_add, C70_k256_double, C70_k256_sub by assumption.
      repeat split; try (apply ec_closed; auto using ec_neg_on).
      destruct (neg_den (proj1 (hom_valid 0 b p) H1)) as [V' E']. now apply hom_valid.
    Qed.
  End K.
  Section P.
    Hypothesis curve : odd_order_curve (a_p256 F) b.
    Theorem C70_p256_add (p q : pt F) : on_curve (a_p256 F) b (homogeneous p) -> on_curve (a_p256 F) b (homogeneous q) ->
      homogeneous (p256_add b p q) = ec_add (a_p256 F) (homogeneous p) (homogeneous q).
    Proof. intros H1 H2. apply (p256_add_ok curve); [now apply hom_valid|now apply hom_valid]. Qed.
    Theorem C70_p256_double (p : pt F) : on_curve (a_p256 F) b (homogeneous p) ->
      homogeneous (p256_double b p) = ec_add (a_p256 F) (homogeneous p) (homogeneous p).
    Proof. intros H. apply (p256_double_ok curve); now apply hom_valid. Qed.
    Theorem C70_p256_sub (p q : pt F) : on_curve (a_p256 F) b (homogeneous p) -> on_curve (a_p256 F) b (homogeneous q) ->
      homogeneous (native_sub (p256_add b) p q) = ec_add (a_p256 F) (homogeneous p) (ec_neg (homogeneous q)).
    Proof.
      intros H1 H2. destruct (neg_den (proj1 (hom_valid (a_p256 F) b q) H2)) as [V E].
      unfold native_sub. rewrite C70_p256_add; [|exact H1|now apply hom_valid]. f_equal. exact E.
    Qed.
    Theorem C70_p256_closed (p q : pt F) : on_curve (a_p256 F) b (homogeneous p) -> on_curve (a_p256 F) b (homogeneous q) ->
      on_curve (a_p256 F) b (homogeneous (p256_add b p q)) /\ on_curve (a_p256 F) b (homogeneous (p256_double b p)) /\
      on_curve (a_p256 F) b (homogeneous (native_sub (p256_add b) p q)).
    Proof.
      intros H1 H2. rewrite C70_p256_add, C70_p256_double, C70_p256_sub by assumption.
      repeat split; apply ec_closed; auto using ec_neg_on.
    Qed.
  End P.
  Theorem C70_neg (a : F) (p : pt F) : on_curve a b (homogeneous p) -> homogeneous (native_neg p) = ec_neg (homogeneous p).
  Proof. intros H. apply (neg_den (proj1 (hom_valid a b p) H)). Qed.
End C70.

(** *** C71: BLS12-381 G1 and G2 *)
Section C71.
  Variable F : field.
  Add Field fF71 : (fth F).
  Variables (b : F) (m3b : F -> F).
  Hypothesis curve : odd_order_curve 0 b.
  Hypothesis m3b_is : forall x, m3b x = (1 + 1 + 1) * b * x.
  Definition bls_point (p : pt F) : Prop := on_curve 0 b (homogeneous p) /\ proper p.
  Theorem C71_add (p q : pt F) : bls_point p -> bls_point q ->
    bls_point (bls_add m3b p q) /\ homogeneous (bls_add m3b p q) = ec_add 0 (homogeneous p) (homogeneous q).
  Proof.
    intros H1 H2. destruct (bls_add_ok curve m3b_is (proj1 (hom_proper b p) H1) (proj1 (hom_proper b q) H2)) as [V E].
    split; [now apply hom_proper|exact E].
  Qed.
  Theorem C71_double (p : pt F) : bls_point p ->
    bls_point (bls_double m3b p) /\ homogeneous (bls_double m3b p) = ec_add 0 (homogeneous p) (homogeneous p).
  Proof.
    intros H1. destruct (bls_double_ok curve m3b_is (proj1 (hom_proper b p) H1)) as [V E].
    split; [now apply hom_proper|exact E].
  Qed.
  Theorem C71_neg (p : pt F) : bls_point p ->
    bls_point (bls_neg p) /\ homogeneous (bls_neg p) = ec_neg (homogeneous p).
  Proof.
    intros H1. destruct (bls_neg_ok (proj1 (hom_proper b p) H1)) as [V E].
    split; [now apply hom_proper|exact E].
  Qed.
  Theorem C71_sub (p q : pt F) : bls_point p -> bls_point q ->
    bls_point (bls_sub m3b p q) /\ homogeneous (bls_sub m3b p q) = ec_add 0 (homogeneous p) (ec_neg (homogeneous q)).
  Proof. intros H1 H2. destruct (C71_neg H2) as [V E]. unfold bls_sub. rewrite <- E. now apply C71_add. Qed.
  Theorem C71_identity : bls_point bls_id /\ homogeneous (bls_id (F := F)) = None.
  Proof. destruct (bls_id_ok b) as [V E]. split; [now apply hom_proper|exact E]. Qed.
  Theorem C71_is_on_curve (p : pt F) : proper p -> (bls_on_curve b p = true <-> on_curve 0 b (homogeneous p)).
  Proof.
    intros P. rewrite hom_valid. unfold bls_on_curve, nvalid, pvalid. rewrite feqb_spec.
    split.
    - intros E. right. split; [rewrite E; ring|]. intros Z. now apply P.
    - intros [Z|[E _]]; [destruct (P Z) as [X _]; rewrite X, Z; ring|]. rewrite E. ring.
  Qed.
End C71.
(** MulBy3b of G1 is multiplication by 3 * 4; G2's multiplies by the constant curveG23B *)
Section C71b.
  Variable F : field.
  Add Field fF712 : (fth F).
  Theorem C71_g1_mul12 (x : F) : mul12 x = (1 + 1 + 1) * (1 + 1 + 1 + 1) * x.
  Proof. unfold mul12. ring. Qed.
End C71b.

(** *** C72: Pallas *)
Section C72.
  Variable F : field.
  Add Field fF72 : (fth F).
  Variable b : F.
  Hypothesis curve : odd_order_curve 0 b.
  Theorem C72_add (p q : pt F) : on_curve 0 b (jacobian p) -> on_curve 0 b (jacobian q) ->
    jacobian (pallas_add p q) = ec_add 0 (jacobian p) (jacobian q).
  Proof. intros H1 H2. now apply (pallas_add_ok curve); apply jac_on. Qed.
  Theorem C72_double (p : pt F) : on_curve 0 b (jacobian p) ->
    jacobian (pallas_double p) = ec_add 0 (jacobian p) (jacobian p).
  Proof. intros H. now apply (pallas_double_ok curve), jac_on. Qed.
  Theorem C72_neg (p : pt F) : on_curve 0 b (jacobian p) -> jacobian (pallas_neg p) = ec_neg (jacobian p).
  Proof. intros H. now apply (pallas_neg_ok (b := b)), jac_on. Qed.
  Theorem C72_sub (p q : pt F) : on_curve 0 b (jacobian p) -> on_curve 0 b (jacobian q) ->
    jacobian (pallas_sub p q) = ec_add 0 (jacobian p) (ec_neg (jacobian q)).
  Proof.
    intros H1 H2. unfold pallas_sub. rewrite <- (C72_neg H2). apply C72_add; [exact H1|]. rewrite (C72_neg H2). now apply ec_neg_on.
  Qed.
  Theorem C72_closed (p q : pt F) : on_curve 0 b (jacobian p) -> on_curve 0 b (jacobian q) ->
    on_curve 0 b (jacobian (pallas_add p q)) /\ on_curve 0 b (jacobian (pallas_double p)) /\
    on_curve 0 b (jacobian (pallas_neg p)) /\ on_curve 0 b (jacobian (pallas_sub p q)).
  Proof.
    intros H1 H2. rewrite C72_add, C72_double, C72_neg, C72_sub by assumption.
    repeat split; try apply ec_closed; auto using ec_neg_on.
  Qed.
  Theorem C72_is_on_curve (p : pt F) : pallas_on_curve p = true <-> on_curve 0 (five F) (jacobian p).
  Proof.
    rewrite jac_on. unfold pallas_on_curve, jvalid, is_zero. rewrite orb_true_iff, !feqb_spec.
    split; (intros [E|E]; [now left|right; rewrite E; ring]).
  Qed.
End C72.

(** *** C73: scalar multiplication is the n-fold sum, n the little-endian value of the scalar's bytes *)
Section C73.
  Variable F : field.
  Variable b : F.
  Theorem C73_k256_mul (p : pt F) (bytes : list N) : odd_order_curve 0 b ->
    on_curve 0 b (homogeneous p) -> is_bytes32 bytes ->
    homogeneous (point_mul (k256_add b) (k256_double b) native_id p bytes) =
    ec_mul 0 (N.to_nat (le_value bytes)) (homogeneous p).
  Proof.
    intros C H B. apply (point_mul_ok C (den := @homogeneous F) (valid := nvalid 0 b)); auto.
    - intros q. apply hom_valid.
    - intros. now apply k256_add_ok.
    - intros. now apply k256_double_ok.
    - split; [now left|]. now apply den_zero.
    - now apply hom_valid.
  Qed.
  Theorem C73_p256_mul (p : pt F) (bytes : list N) : odd_order_curve (a_p256 F) b ->
    on_curve (a_p256 F) b (homogeneous p) -> is_bytes32 bytes ->
    homogeneous (point_mul (p256_add b) (p256_double b) native_id p bytes) =
    ec_mul (a_p256 F) (N.to_nat (le_value bytes)) (homogeneous p).
  Proof.
    intros C H B. apply (point_mul_ok C (den := @homogeneous F) (valid := nvalid (a_p256 F) b)); auto.
    - intros q. apply hom_valid.
    - intros. now apply (p256_add_ok C).
    - intros. now apply (p256_double_ok C).
    - split; [now left|]. now apply den_zero.
    - now apply hom_valid.
  Qed.
  Theorem C73_bls_mul (m3b : F -> F) (p : pt F) (bytes : list N) : odd_order_curve 0 b ->
    (forall x, m3b x = (1 + 1 + 1) * b * x) -> bls_point b p -> is_bytes32 bytes ->
    bls_point b (bls_mul m3b p bytes) /\
    homogeneous (bls_mul m3b p bytes) = ec_mul 0 (N.to_nat (le_value bytes)) (homogeneous p).
  Proof.
    intros C M H B. unfold bls_point. rewrite !hom_proper. apply (point_mul_ok C (den := @homogeneous F)); auto.
    - intros q V. exact (proj1 (proj2 (hom_proper b q) V)).
    - intros. now apply bls_add_ok.
    - intros. now apply bls_double_ok.
    - apply bls_id_ok.
    - now apply hom_proper.
  Qed.
  Theorem C73_pallas_mul (p : pt F) (bytes : list N) : odd_order_curve 0 b ->
    on_curve 0 b (jacobian p) -> is_bytes32 bytes ->
    jacobian (pallas_mul p bytes) = ec_mul 0 (N.to_nat (le_value bytes)) (jacobian p).
  Proof.
    intros C H B. apply (point_mul_ok C (den := @jacobian F) (valid := jvalid b)); auto.
    - intros q. apply jac_on.
    - intros. now apply pallas_add_ok.
    - intros. now apply pallas_double_ok.
    - split; [now left|]. now apply jac_zero.
    - now apply jac_on.
  Qed.
  (** scalar multiplication distributes: (m + n) P = m P + n P and (m n) P = m (n P), hence scalars act modulo the order *)
  Theorem C73_scalars_add (a : F) (m n : nat) (P : point F) : odd_order_curve a b -> on_curve a b P ->
    ec_mul a (m + n) P = ec_add a (ec_mul a m P) (ec_mul a n P) /\ ec_mul a (m * n) P = ec_mul a m (ec_mul a n P).
  Proof. intros C H. split; [now apply (ec_mul_add C)|now apply (ec_mul_mul C)]. Qed.
  Theorem C73_scalars_mod (a : F) (k q n : nat) (P : point F) : odd_order_curve a b -> on_curve a b P ->
    ec_mul a q P = None -> ec_mul a (n + k * q) P = ec_mul a n P.
  Proof.
    intros C H E. rewrite (ec_mul_add C) by exact H. rewrite (ec_mul_mul C), E by exact H.
    assert (Z : forall j, ec_mul a j (None : point F) = None) by (induction j; [reflexivity|cbn; now rewrite IHj]).
    now rewrite Z, ec_zero_r.
  Qed.
End C73.

(** *** C74: equality and identity tests *)
Section C74.
  Variable F : field.
  Add Field fF74 : (fth F).
  Theorem C74_equal (p q : pt F) : (proj_equal p q = 1%Z <-> homogeneous p = homogeneous q) /\
    (proj_equal p q = 0%Z <-> homogeneous p <> homogeneous q).
  Proof. destruct (equal_cases p q) as [[E ->]|[E ->]]; split; split; auto; try discriminate; contradiction. Qed.
  Theorem C74_is_identity (p : pt F) : is_identity p = true <-> homogeneous p = None.
  Proof. unfold is_identity, is_zero, homogeneous. destruct (feqb (pz p) 0); split; auto; discriminate. Qed.
  (** (0, 0) is not on the curve, so the affine form of the identity is no other point's *)
  Theorem C74_pallas_equal (b : F) (p q : pt F) : b <> 0 -> on_curve 0 b (jacobian p) -> on_curve 0 b (jacobian q) ->
    (pallas_equal p q = true <-> jacobian p = jacobian q).
  Proof.
    intros B H1 H2. unfold pallas_equal. rewrite !jac_affine.
    assert (Z : forall x y : F, on_curve 0 b (Some (x, y)) -> ~ (x = 0 /\ y = 0)).
    { intros x y H [-> ->]. apply B. cbn in H. unfold curve_rhs in H.
      transitivity (0 * 0 * 0 + 0 * 0 + b); [ring|]. rewrite <- H. ring. }
    destruct (jacobian p) as [[x1 y1]|], (jacobian q) as [[x2 y2]|]; cbn [px py]; rewrite andb_true_iff, !feqb_spec.
    - split; [intros [-> ->]; reflexivity|intros E; injection E as -> ->; auto].
    - split; [intros E; now destruct (Z _ _ H1)|discriminate].
    - split; [intros [<- <-]; now destruct (Z _ _ H2)|discriminate].
    - tauto.
  Qed.
  Theorem C74_pallas_is_identity (p : pt F) : is_identity p = true <-> jacobian p = None.
  Proof. unfold is_identity, is_zero, jacobian. destruct (feqb (pz p) 0); split; auto; discriminate. Qed.
End C74.

(** *** C75: affine import and export *)
Section C75.
  Variable F : field.
  Variable b : F.
  Add Field fF75 : (fth F).
  Theorem C75_to_affine (p : pt F) :
    to_affine p = match homogeneous p with None => Pt 0 0 0 | Some (x, y) => Pt x y 1 end.
  Proof.
    unfold to_affine, homogeneous, invert, is_zero. destruct (feqb_case (pz p) 0) as [[-> E]|[-> N]]; cbn [sel].
    - reflexivity.
    - f_equal; now field.
  Qed.
  (** IsOnCurve of secp256k1 and P-256: curve points other than the identity *)
  Theorem C75_native_on_curve (a : F) (rhs : F -> F) (p : pt F) : b <> 0 -> (forall x, rhs x = curve_rhs a b x) ->
    (native_on_curve rhs p = true <-> homogeneous p <> None /\ on_curve a b (homogeneous p)).
  Proof.
    intros B R. unfold native_on_curve. rewrite C75_to_affine. destruct (homogeneous p) as [[x y]|]; cbn [px py on_curve].
    - rewrite feqb_spec, R. split; [intros E; split; [discriminate|exact E]|tauto].
    - rewrite feqb_spec, R. unfold curve_rhs. split; [|intros [N _]; contradiction]. intros E. exfalso. apply B.
      transitivity (0 * 0 * 0 + a * 0 + b); [ring|]. rewrite <- E. ring.
  Qed.
  Theorem C75_rhs (a x : F) : k256_rhs b x = curve_rhs 0 b x /\ p256_rhs a b x = curve_rhs a b x.
  Proof. unfold k256_rhs, p256_rhs, curve_rhs. split; ring. Qed.
  (** SetBigInt of secp256k1 and P-256: the curve points, and (0, 0) for the identity; nothing else *)
  Theorem C75_native_set (a : F) (rhs : F -> F) (x y : F) : b <> 0 -> (forall x, rhs x = curve_rhs a b x) ->
    match native_set rhs x y with
    | Some p => on_curve a b (homogeneous p) /\
        ((x = 0 /\ y = 0 /\ homogeneous p = None) \/ (y * y = curve_rhs a b x /\ homogeneous p = Some (x, y)))
    | None => ~ (x = 0 /\ y = 0) /\ y * y <> curve_rhs a b x
    end.
  Proof.
    intros B R. unfold native_set, is_zero.
    destruct (feqb_case x 0) as [[-> Ex]|[-> Nx]]; destruct (feqb_case y 0) as [[-> Ey]|[-> Ny]]; cbn [andb sel negb].
    { rewrite andb_false_r. assert (homogeneous (Pt 0 0 0 : pt F) = None) as -> by (unfold homogeneous; cbn; now rewrite feqb_true).
      split; [exact I|]. left. auto. }
    all: rewrite andb_true_r; assert (H : homogeneous (Pt x y 1) = Some (x, y)) by (apply proj_one);
      destruct (native_on_curve rhs (Pt x y 1)) eqn:Q; cbn [negb].
    all: try (apply (C75_native_on_curve _ B R) in Q; rewrite H in *; destruct Q as [_ Q]; split; [exact Q|right; split; [exact Q|reflexivity]]).
    all: split; [intros [Zx Zy]; contradiction|]; intros O; assert (T : native_on_curve rhs (Pt x y 1) = true);
      [apply (C75_native_on_curve _ B R); rewrite H; split; [discriminate|exact O]|congruence].
  Qed.
  (** BigInt then SetBigInt gives back an equal point *)
  Theorem C75_native_round_trip (a : F) (rhs : F -> F) (p : pt F) : b <> 0 -> (forall x, rhs x = curve_rhs a b x) ->
    on_curve a b (homogeneous p) ->
    exists q, native_set rhs (fst (affine_xy p)) (snd (affine_xy p)) = Some q /\ homogeneous q = homogeneous p.
  Proof.
    intros B R H. unfold affine_xy. rewrite C75_to_affine. destruct (homogeneous p) as [[x y]|] eqn:E; cbn [fst snd px py].
    - assert (S := C75_native_set x y B R). destruct (native_set rhs x y) as [q|].
      + exists q. split; [reflexivity|]. destruct S as [_ [(Zx & Zy & _)|[_ S]]]; [|exact S]. exfalso.
        apply B. cbn in H. subst. unfold curve_rhs in H. transitivity (0 * 0 * 0 + a * 0 + b); [ring|]. rewrite <- H. ring.
      + destruct S as [_ S]. contradiction.
    - assert (S := C75_native_set 0 0 B R). destruct (native_set rhs 0 0) as [q|].
      + exists q. split; [reflexivity|]. destruct S as [_ [(_ & _ & S)|[S _]]]; [exact S|]. exfalso. apply B.
        unfold curve_rhs in S. transitivity (0 * 0 * 0 + a * 0 + b); [ring|]. rewrite <- S. ring.
      + destruct S as [S _]. exfalso. auto.
  Qed.
  (** the same for G1, which also demands the subgroup of order q *)
  Theorem C75_g1_set (m3b : F -> F) (x y : F) : odd_order_curve 0 b -> (forall x, m3b x = (1 + 1 + 1) * b * x) ->
    match g1_set m3b b x y with
    | Some p => bls_point b p /\
        ((x = 0 /\ y = 0 /\ homogeneous p = None) \/
         (y * y = curve_rhs 0 b x /\ ec_mul 0 (N.to_nat (le_value fq_modulus_bytes)) (Some (x, y)) = None /\
          homogeneous p = Some (x, y)))
    | None => ~ (x = 0 /\ y = 0) /\
        (y * y <> curve_rhs 0 b x \/ ec_mul 0 (N.to_nat (le_value fq_modulus_bytes)) (Some (x, y)) <> None)
    end.
  Proof.
    intros C M. unfold g1_set. destruct (is_zero x && is_zero y) eqn:Z.
    { apply andb_prop in Z. destruct Z as [Zx Zy]. apply feqb_spec in Zx. apply feqb_spec in Zy.
      split; [apply (C71_identity b)|]. left. split; [exact Zx|]. split; [exact Zy|]. apply (C71_identity b). }
    assert (NZ : ~ (x = 0 /\ y = 0)).
    { intros [-> ->]. unfold is_zero in Z. rewrite feqb_true in Z. discriminate. }
    rewrite orb_false_r. assert (H : homogeneous (Pt x y 1) = Some (x, y)) by (apply proj_one).
    assert (PR : proper (Pt x y 1)) by (intros Q; cbn in Q; now apply f_one_zero in Q).
    assert (OC := C71_is_on_curve b PR). rewrite H in OC.
    assert (BY : is_bytes32 fq_modulus_bytes) by (split; [reflexivity|repeat constructor]).
    destruct (bls_on_curve b (Pt x y 1)) eqn:Q; cbn [andb negb].
    - assert (O : on_curve 0 b (Some (x, y))) by (now apply OC).
      assert (V : bls_point b (Pt x y 1)) by (split; [now rewrite H|exact PR]).
      destruct (C73_bls_mul C M V BY) as [_ E]. rewrite H in E.
      revert E. generalize (N.to_nat (le_value fq_modulus_bytes)). intros n E.
      unfold in_correct_subgroup. assert (I := C74_is_identity (bls_mul m3b (Pt x y 1) fq_modulus_bytes)).
      destruct (is_identity (bls_mul m3b (Pt x y 1) fq_modulus_bytes)) eqn:S; cbn [negb].
      + split; [exact V|]. right. split; [exact O|]. split; [rewrite <- E; now apply I|exact H].
      + split; [exact NZ|]. right. rewrite <- E. intros T. apply I in T. discriminate.
    - split; [exact NZ|]. left. intros T. assert (false = true) by (now apply OC). discriminate.
  Qed.
End C75.

(** *** C76: MulByX, ClearCofactor and the subgroup test *)
Section C76.
  Variable F : field.
  Variables (b : F) (m3b : F -> F).
  Hypothesis curve : odd_order_curve 0 b.
  Hypothesis m3b_is : forall x, m3b x = (1 + 1 + 1) * b * x.
  (** 0xd201000000010000, the absolute value of the BLS parameter; q the scalar modulus *)
  Definition bls_x : N := 15132376222941642752.
  Definition bls_q : N := 52435875175126190479447740508185965837690552500527637822603658699938581184513.
  Lemma to_nat_pos (x : positive) : N.to_nat (N.pos x) = Pos.to_nat x. Proof. reflexivity. Qed.
  Lemma bls_x_param : N.to_nat bls_x = Pos.to_nat param_x. Proof. exact (to_nat_pos param_x). Qed.
  Lemma bls_x_param1 : N.to_nat (1 + bls_x) = (1 + Pos.to_nat param_x)%nat.
  Proof. rewrite N2Nat.inj_add, bls_x_param. reflexivity. Qed.
  Theorem C76_mul_by_x (p : pt F) : bls_point b p -> bls_point b (bls_mul_by_x m3b p) /\
    homogeneous (bls_mul_by_x m3b p) = ec_neg (ec_mul 0 (N.to_nat bls_x) (homogeneous p)).
  Proof.
    intros H. unfold bls_point. rewrite !hom_proper. rewrite bls_x_param. apply (mul_by_x_ok curve (den := @homogeneous F)).
    - intros q V. exact (proj1 (proj2 (hom_proper b q) V)).
    - intros. now apply bls_add_ok.
    - intros. now apply bls_double_ok.
    - apply bls_id_ok.
    - intros. now apply bls_neg_ok.
    - now apply hom_proper.
  Qed.
  Theorem C76_clear_cofactor (p : pt F) : bls_point b p -> bls_point b (bls_clear_cofactor m3b p) /\
    homogeneous (bls_clear_cofactor m3b p) = ec_mul 0 (N.to_nat (1 + bls_x)) (homogeneous p).
  Proof.
    intros H. unfold bls_point. rewrite !hom_proper. rewrite bls_x_param1. apply (clear_ok curve (den := @homogeneous F)).
    - intros q V. exact (proj1 (proj2 (hom_proper b q) V)).
    - intros. now apply bls_add_ok.
    - intros. now apply bls_double_ok.
    - apply bls_id_ok.
    - intros. now apply bls_neg_ok.
    - now apply hom_proper.
  Qed.
  Theorem C76_subgroup (p : pt F) : bls_point b p ->
    (in_correct_subgroup m3b p = true <-> ec_mul 0 (N.to_nat bls_q) (homogeneous p) = None).
  Proof.
    intros H. unfold in_correct_subgroup. rewrite C74_is_identity.
    assert (BY : is_bytes32 fq_modulus_bytes) by (split; [reflexivity|repeat constructor]).
    destruct (C73_bls_mul curve m3b_is H BY) as [_ E].
    assert (Q : le_value fq_modulus_bytes = bls_q) by (vm_compute; reflexivity).
    rewrite Q in E. revert E. generalize (N.to_nat bls_q). intros n ->. split; auto.
  Qed.
  (** cleared points pass the test whenever the group exponent divides (1 + |x|) q, as it does for G1 *)
  Theorem C76_cleared_in_subgroup (p : pt F) : bls_point b p ->
    ec_mul 0 (N.to_nat bls_q * N.to_nat (1 + bls_x)) (homogeneous p) = None ->
    in_correct_subgroup m3b (bls_clear_cofactor m3b p) = true.
  Proof.
    intros H E. destruct (C76_clear_cofactor H) as [V D]. apply (C76_subgroup V). rewrite D.
    rewrite <- (ec_mul_mul curve); [exact E|apply H].
  Qed.
End C76.

(** *** C77: the group laws, as seen through Equal *)
Section C77.
  Variable F : field.
  Variable b : F.
  Notation on p := (on_curve 0 b (homogeneous p)).
  Theorem C77_k256_group (p q r : pt F) : odd_order_curve 0 b -> on p -> on q -> on r ->
    proj_equal (k256_add b (k256_add b p q) r) (k256_add b p (k256_add b q r)) = 1%Z /\
    proj_equal (k256_add b p q) (k256_add b q p) = 1%Z /\
    proj_equal (k256_add b p native_id) p = 1%Z /\
    proj_equal (k256_add b p (native_neg p)) native_id = 1%Z /\
    proj_equal (k256_add b p p) (k256_double b p) = 1%Z.
  Proof.
    intros C H1 H2 H3. assert (I : homogeneous (native_id : pt F) = None) by (now apply den_zero).
    assert (OI : on (native_id : pt F)) by (rewrite I; exact Logic.I).
    assert (N : on (native_neg p)) by (apply hom_valid; now apply (neg_den (proj1 (hom_valid 0 b p) H1))).
    assert (C70 := C70_k256_closed C).
    rewrite !(proj1 (C74_equal _ _)). rewrite !C70_k256_add by (assumption || now apply C70).
    rewrite (C70_k256_double C H1), (C70_neg H1), I, ec_zero_r, ec_neg_r.
    split; [now apply (ec_assoc C)|]. split; [now apply (ec_comm C)|]. auto.
  Qed.
  Theorem C77_p256_group (p q r : pt F) : odd_order_curve (a_p256 F) b ->
    on_curve (a_p256 F) b (homogeneous p) -> on_curve (a_p256 F) b (homogeneous q) -> on_curve (a_p256 F) b (homogeneous r) ->
    proj_equal (p256_add b (p256_add b p q) r) (p256_add b p (p256_add b q r)) = 1%Z /\
    proj_equal (p256_add b p q) (p256_add b q p) = 1%Z /\
    proj_equal (p256_add b p native_id) p = 1%Z /\
    proj_equal (p256_add b p (native_neg p)) native_id = 1%Z /\
    proj_equal (p256_add b p p) (p256_double b p) = 1%Z.
  Proof.
    intros C H1 H2 H3. assert (I : homogeneous (native_id : pt F) = None) by (now apply den_zero).
    assert (OI : on_curve (a_p256 F) b (homogeneous (native_id : pt F))) by (rewrite I; exact Logic.I).
    assert (N : on_curve (a_p256 F) b (homogeneous (native_neg p)))
      by (apply hom_valid; now apply (neg_den (proj1 (hom_valid (a_p256 F) b p) H1))).
    assert (C70 := C70_p256_closed C).
    rewrite !(proj1 (C74_equal _ _)). rewrite !C70_p256_add by (assumption || now apply C70).
    rewrite (C70_p256_double C H1), (C70_neg H1), I, ec_zero_r, ec_neg_r.
    split; [now apply (ec_assoc C)|]. split; [now apply (ec_comm C)|]. auto.
  Qed.
  Theorem C77_bls_group (m3b : F -> F) (p q r : pt F) : odd_order_curve 0 b ->
    (forall x, m3b x = (1 + 1 + 1) * b * x) -> bls_point b p -> bls_point b q -> bls_point b r ->
    proj_equal (bls_add m3b (bls_add m3b p q) r) (bls_add m3b p (bls_add m3b q r)) = 1%Z /\
    proj_equal (bls_add m3b p q) (bls_add m3b q p) = 1%Z /\
    proj_equal (bls_add m3b p bls_id) p = 1%Z /\
    proj_equal (bls_sub m3b p p) bls_id = 1%Z /\
    proj_equal (bls_add m3b p p) (bls_double m3b p) = 1%Z.
  Proof.
    intros C M H1 H2 H3. rewrite !(proj1 (C74_equal _ _)).
    assert (A := C71_add C M). assert (I := C71_identity b).
    destruct (A _ _ H1 H2) as [V12 E12]. destruct (A _ _ H2 H3) as [V23 E23].
    rewrite (proj2 (A _ _ V12 H3)), (proj2 (A _ _ H1 V23)), (proj2 (A _ _ H2 H1)), (proj2 (A _ _ H1 (proj1 I))),
      (proj2 (A _ _ H1 H1)), (proj2 (C71_sub C M H1 H1)), (proj2 (C71_double C M H1)), E12, E23, (proj2 I), ec_zero_r, ec_neg_r.
    destruct H1, H2, H3. split; [now apply (ec_assoc C)|]. split; [now apply (ec_comm C)|]. auto.
  Qed.
  Theorem C77_pallas_group (p q r : pt F) : odd_order_curve 0 b -> b <> 0 ->
    on_curve 0 b (jacobian p) -> on_curve 0 b (jacobian q) -> on_curve 0 b (jacobian r) ->
    pallas_equal (pallas_add (pallas_add p q) r) (pallas_add p (pallas_add q r)) = true /\
    pallas_equal (pallas_add p q) (pallas_add q p) = true /\
    pallas_equal (pallas_add p native_id) p = true /\
    pallas_equal (pallas_sub p p) native_id = true /\
    pallas_equal (pallas_add p p) (pallas_double p) = true.
  Proof.
    intros C B H1 H2 H3. assert (I : jacobian (native_id : pt F) = None) by (now apply jac_zero).
    assert (OI : on_curve 0 b (jacobian (native_id : pt F))) by (rewrite I; exact Logic.I).
    assert (CL := C72_closed C).
    assert (V12 := proj1 (CL _ _ H1 H2)). assert (V23 := proj1 (CL _ _ H2 H3)).
    destruct (CL _ _ H1 H1) as (V11 & VD & _ & VS). assert (V123 := proj1 (CL _ _ V12 H3)).
    assert (V123' := proj1 (CL _ _ H1 V23)). assert (V21 := proj1 (CL _ _ H2 H1)). assert (V10 := proj1 (CL _ _ H1 OI)).
    rewrite (C74_pallas_equal B V123 V123'), (C74_pallas_equal B V12 V21), (C74_pallas_equal B V10 H1),
      (C74_pallas_equal B VS OI), (C74_pallas_equal B V11 VD).
    rewrite (C72_sub C H1 H1), (C72_double C H1), !(C72_add C) by assumption.
    rewrite I, ec_zero_r, ec_neg_r.
    split; [now apply (ec_assoc C)|]. split; [now apply (ec_comm C)|]. auto.
  Qed.
End C77.

(** *** C78: the receiver may be the left operand, but not the right one *)
Section C78.
  Variable F : field.
  Variable add : pt F -> pt F -> pt F.
  Theorem C78_add (s : store F) (d l r : nat) : d <> r \/ l = r ->
    store_add add s d l r d = add (s l) (s r) /\ (forall k, k <> d -> store_add add s d l r k = s k).
  Proof.
    intros H. unfold store_add, write. rewrite Nat.eqb_refl. split.
    - destruct (Nat.eqb_spec l d) as [E|E]; destruct (Nat.eqb_spec r d) as [E'|E']; subst; try reflexivity.
      destruct H as [H|H]; [contradiction|subst; reflexivity].
    - intros k N. destruct (Nat.eqb_spec k d); [contradiction|reflexivity].
  Qed.
  Theorem C78_sub (s : store F) (d l r : nat) : d <> r \/ l = r ->
    store_sub add s d l r d = add (s l) (native_neg (s r)) /\ (forall k, k <> d -> store_sub add s d l r k = s k).
  Proof.
    intros H. unfold store_sub, write. rewrite Nat.eqb_refl. split.
    - destruct (Nat.eqb_spec l d) as [E|E]; destruct (Nat.eqb_spec r d) as [E'|E']; subst; try reflexivity.
      destruct H as [H|H]; [contradiction|subst; reflexivity].
    - intros k N. destruct (Nat.eqb_spec k d); [contradiction|reflexivity].
  Qed.
  (** p.Add(q, p) leaves q + q in p *)
  Theorem C78_add_to_right_operand (s : store F) (d l : nat) : d <> l -> store_add add s d l d d = add (s l) (s l).
  Proof.
    intros H. unfold store_add, write. rewrite Nat.eqb_refl. destruct (Nat.eqb_spec l d); [congruence|reflexivity].
  Qed.
End C78.

(** *** a curve these theorems apply to: y^2 = x^3 + 7 over Z/13 *)
Definition b7 : F13 := e13 7.
Lemma odd13 : odd_order_curve (0 : F13) b7.
Proof.
  split; [intros E; apply (f_equal (zval 13)) in E; discriminate|].
  apply all13; intros E; apply (f_equal (zval 13)) in E; discriminate.
Qed.
Definition p13 : pt F13 := Pt (e13 7) (e13 5) 1.
Definition q13 : pt F13 := Pt (e13 3) (e13 3) (e13 2).
Lemma p13_on : on_curve (0 : F13) b7 (homogeneous p13).
Proof. apply hom_valid. right. split; [apply (zval_inj 13); reflexivity|intros E; apply (f_equal (zval 13)) in E; discriminate]. Qed.
Theorem C70_applies : odd_order_curve (0 : F13) b7 /\ on_curve 0 b7 (homogeneous p13) /\
  homogeneous p13 <> None /\ homogeneous (k256_add b7 p13 p13) <> None /\ is_bytes32 fq_modulus_bytes.
Proof.
  split; [exact odd13|]. split; [exact p13_on|].
  assert (forall x y z : F13, zval 13 z <> 0%Z -> homogeneous (Pt x y z) <> None) as N.
  { intros x y z Hz. unfold homogeneous. cbn [pz]. rewrite feqb_false; [discriminate|]. intros E. apply Hz. rewrite E. reflexivity. }
  split; [apply N; discriminate|]. split; [|split; [reflexivity|repeat constructor]].
  unfold k256_add. unfold is_zero. rewrite !feqb_false; [cbn [sel]|..].
  2: intros E; apply (f_equal (zval 13)) in E; discriminate.
  apply N. vm_compute. discriminate.
Qed.
(** G1's b = 4 over the same field, and P-256's a = -3 with b = 1 *)
Theorem C71_applies : odd_order_curve (0 : F13) (e13 4) /\ bls_point (e13 4) (Pt (e13 0) (e13 2) 1) /\
  (forall x, mul12 x = (1 + 1 + 1) * e13 4 * x).
Proof.
  split; [|split].
  - split; [intros E; apply (f_equal (zval 13)) in E; discriminate|].
    apply all13; intros E; apply (f_equal (zval 13)) in E; discriminate.
  - apply hom_proper. split; [apply (zval_inj 13); reflexivity|intros E; apply (f_equal (zval 13)) in E; discriminate].
  - intros x. rewrite C71_g1_mul12. f_equal. 
Qed.
Theorem C70_p256_applies : odd_order_curve (a_p256 F13) (e13 1) /\
  on_curve (a_p256 F13) (e13 1) (homogeneous (Pt (e13 0) (e13 1) 1)).
Proof.
  split.
  - split; [intros E; apply (f_equal (zval 13)) in E; discriminate|].
    apply all13; intros E; apply (f_equal (zval 13)) in E; discriminate.
  - apply hom_valid. right. split; [apply (zval_inj 13); reflexivity|intros E; apply (f_equal (zval 13)) in E; discriminate].
Qed.
(** ... and p.Add(q, p) on it is not q + p *)
Theorem C78_alias_refuted : exists s : store F13,
  homogeneous (store_add (k256_add b7) s 0 1 0 0%nat) <> homogeneous (k256_add b7 (s 1%nat) (s 0%nat)).
Proof.
  exists (fun k => match k with O => native_id | _ => p13 end).
  rewrite C78_add_to_right_operand by discriminate.
  rewrite !(C70_k256_add odd13) by (exact p13_on || exact Logic.I).
  replace (homogeneous (native_id : pt F13)) with (None : point F13) by (symmetry; now apply den_zero).
  rewrite ec_zero_r. intros E.
  assert (I := ec_assoc odd13 p13_on p13_on (ec_neg_on p13_on)). rewrite ec_neg_r, ec_zero_r, E, ec_neg_r in I.
  unfold homogeneous, p13 in I. cbn [pz] in I. rewrite feqb_false in I; [discriminate I|].
  intros Q; apply (f_equal (zval 13)) in Q; discriminate.
Qed.
