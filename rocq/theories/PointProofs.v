(** Proofs about the point arithmetic model. *)
From Coq Require Import Bool List NArith ZArith PArith Lia Field Ring.
From Verif Require Import EcField EcSpec EcAlg EcProofs PointModel.
Set Implicit Arguments.
Unset Strict Implicit.
Import ListNotations.
Local Open Scope fld_scope.

Section Proofs.
  Variable F : field.
  Add Field fFP : (fth F).

  (** native points: the identity is any triple with Z = 0 *)
  Definition nvalid (a b : F) (p : pt F) : Prop := pz p = 0 \/ pvalid a b (px p) (py p) (pz p).
  Definition den (p : pt F) : point F := proj (px p) (py p) (pz p).

  Lemma den_zero p : pz p = 0 -> den p = None.
  Proof. intros E. unfold den. rewrite E. apply proj_inf. Qed.
  Lemma nvalid_on a b p : nvalid a b p -> on_curve a b (den p).
  Proof. intros [E|V]; [now rewrite den_zero|now apply pvalid_on]. Qed.

  Lemma double_affine (a b x y : F) (odd : odd_order_curve a b) (H : y * y = curve_rhs a b x) (X Y Z : F) :
    let w := 2 * y in let t := 3 * (x * x) + a in let u := t * t - (x + x) * (w * w) in
    let v := t * (x * (w * w) - u) - y * (w * w * w) in
    Z = w * w * w -> X = u * w -> Y = v ->
    pvalid a b X Y Z /\ proj X Y Z = ec_add a (Some (x, y)) (Some (x, y)).
  Proof.
    intros w t u v EZ EX EY. destruct (tangent_on odd H) as (Nw & L & O). fold w t in L, Nw, O. cbn zeta in L, O.
    assert (Ny := y_neq odd H).
    cbn [ec_add]. rewrite feqb_true, feqb_false by (now apply opp_neq with (a := a) (b := b)).
    fold t w. rewrite L. fold u v in L, O |- *.
    assert (NZ : Z <> 0) by (rewrite EZ; auto using f_mul_neq).
    assert (PE : proj X Y Z = Some (u / (w * w), v / (w * w * w))).
    { rewrite proj_fin by exact NZ. rewrite EX, EY, EZ. do 2 f_equal. field. exact Nw. }
    split; [|exact PE]. split; [|intros Q; contradiction].
    assert (Z = Z * 1 /\ X = Z * (u / (w * w)) /\ Y = Z * (v / (w * w * w))) as (E1 & E2 & E3).
    { rewrite EX, EY, EZ. repeat split; [ring|field; exact Nw|field; exact Nw]. }
    destruct (pvalid_scale NZ (pvalid_one O)) as [Q _]. rewrite <- E1, <- E2, <- E3 in Q. exact Q.
  Qed.

  Lemma scaled a b p : pvalid a b (px p) (py p) (pz p) -> pz p <> 0 ->
    exists x y, y * y = curve_rhs a b x /\ px p = pz p * x /\ py p = pz p * y /\ den p = Some (x, y).
  Proof.
    intros V N. destruct (pvalid_affine V N) as (O & Ex & Ey & _). eexists _, _. repeat split; eauto.
    unfold den. now rewrite proj_fin.
  Qed.

  Section K256.
    Variable b : F.
    Hypothesis odd : odd_order_curve 0 b.
    Lemma k256_add_c p q : pz p <> 0 -> pz q <> 0 -> k256_add b p q =
      Pt (cx F 0 b (px p) (py p) (pz p) (px q) (py q) (pz q)) (cy F 0 b (px p) (py p) (pz p) (px q) (py q) (pz q))
         (cz F 0 b (px p) (py p) (pz p) (px q) (py q) (pz q)).
    Proof.
      intros N1 N2. unfold k256_add, is_zero. rewrite !feqb_false by assumption. cbn [sel].
      unfold cx, cy, cz. f_equal; ring.
    Qed.
    Lemma k256_add_ok p q : nvalid 0 b p -> nvalid 0 b q ->
      nvalid 0 b (k256_add b p q) /\ den (k256_add b p q) = ec_add 0 (den p) (den q).
    Proof.
      intros V1 V2. destruct (f_eq_dec (pz p) 0) as [E1|N1]; [|destruct (f_eq_dec (pz q) 0) as [E2|N2]].
      - rewrite (den_zero E1). cbn [ec_add]. unfold k256_add, is_zero, sel. rewrite E1, feqb_true.
        destruct (feqb_case (pz q) 0) as [[-> E2]|[-> N2]].
        + split; [left; reflexivity|]. rewrite (den_zero E2). now apply den_zero.
        + now destruct q.
      - rewrite (den_zero E2), ec_zero_r. unfold k256_add, is_zero, sel. rewrite E2, feqb_true. now destruct p.
      - destruct V1 as [?|V1]; [contradiction|]. destruct V2 as [?|V2]; [contradiction|].
        rewrite k256_add_c by assumption. destruct (c_add odd V1 V2) as [V E]. split; [right; exact V|exact E].
    Qed.
    Lemma k256_double_ok p : nvalid 0 b p ->
      nvalid 0 b (k256_double b p) /\ den (k256_double b p) = ec_add 0 (den p) (den p).
    Proof.
      intros [E|V]; [|destruct (f_eq_dec (pz p) 0) as [E|N]].
      1,2: assert (Z0 : pz (k256_double b p) = 0) by (cbn; rewrite E; ring);
           split; [now left|]; now rewrite (den_zero Z0), (den_zero E).
      destruct (scaled V N) as (x & y & O & Ex & Ey & D). rewrite D.
      set (c := pz p) in *.
      assert (c4 : c * c * (c * c) <> 0) by auto using f_mul_neq.
      assert (S : px (k256_double b p) = c * c * (c * c) * px (k256_double b (Pt x y 1)) /\
                  py (k256_double b p) = c * c * (c * c) * py (k256_double b (Pt x y 1)) /\
                  pz (k256_double b p) = c * c * (c * c) * pz (k256_double b (Pt x y 1))).
      { unfold k256_double. cbn [px py pz]. fold c. rewrite Ex, Ey. repeat split; ring. }
      destruct S as (S1 & S2 & S3).
      unfold curve_rhs in O.
      destruct (@double_affine 0 b x y odd O (px (k256_double b (Pt x y 1))) (py (k256_double b (Pt x y 1)))
                  (pz (k256_double b (Pt x y 1)))) as [V' E'].
      - cbn. ring.
      - cbn. ring [O].
      - cbn. ring [O].
      - unfold nvalid, den. rewrite S1, S2, S3. split; [right; now apply pvalid_scale|]. rewrite proj_scale by exact c4. exact E'.
    Qed.
  End K256.

  Section P256.
    Variable b : F.
    Notation a := (- (1 + 1 + 1) : F).
    Hypothesis odd : odd_order_curve a b.
    Lemma p256_add_c p q : pz p <> 0 -> pz q <> 0 -> p256_add b p q =
      Pt (cx F a b (px p) (py p) (pz p) (px q) (py q) (pz q)) (cy F a b (px p) (py p) (pz p) (px q) (py q) (pz q))
         (cz F a b (px p) (py p) (pz p) (px q) (py q) (pz q)).
    Proof.
      intros N1 N2. unfold p256_add, is_zero. rewrite !feqb_false by assumption. cbn [sel].
      unfold cx, cy, cz. f_equal; ring.
    Qed.
    Lemma p256_add_ok p q : nvalid a b p -> nvalid a b q ->
      nvalid a b (p256_add b p q) /\ den (p256_add b p q) = ec_add a (den p) (den q).
    Proof.
      intros V1 V2. destruct (f_eq_dec (pz p) 0) as [E1|N1]; [|destruct (f_eq_dec (pz q) 0) as [E2|N2]].
      - rewrite (den_zero E1). cbn [ec_add]. unfold p256_add, is_zero, sel. rewrite E1, feqb_true.
        destruct (feqb_case (pz q) 0) as [[-> E2]|[-> N2]].
        + split; [left; reflexivity|]. rewrite (den_zero E2). now apply den_zero.
        + now destruct q.
      - rewrite (den_zero E2), ec_zero_r. unfold p256_add, is_zero, sel. rewrite E2, feqb_true. now destruct p.
      - destruct V1 as [?|V1]; [contradiction|]. destruct V2 as [?|V2]; [contradiction|].
        rewrite p256_add_c by assumption. destruct (c_add odd V1 V2) as [V E]. split; [right; exact V|exact E].
    Qed.
    Lemma p256_double_ok p : nvalid a b p ->
      nvalid a b (p256_double b p) /\ den (p256_double b p) = ec_add a (den p) (den p).
    Proof.
      intros [E|V]; [|destruct (f_eq_dec (pz p) 0) as [E|N]].
      1,2: assert (Z0 : pz (p256_double b p) = 0) by (cbn; rewrite E; ring);
           split; [now left|]; now rewrite (den_zero Z0), (den_zero E).
      destruct (scaled V N) as (x & y & O & Ex & Ey & D). rewrite D.
      set (c := pz p) in *.
      assert (c4 : c * c * (c * c) <> 0) by auto using f_mul_neq.
      assert (S : px (p256_double b p) = c * c * (c * c) * px (p256_double b (Pt x y 1)) /\
                  py (p256_double b p) = c * c * (c * c) * py (p256_double b (Pt x y 1)) /\
                  pz (p256_double b p) = c * c * (c * c) * pz (p256_double b (Pt x y 1))).
      { unfold p256_double. cbn [px py pz]. fold c. rewrite Ex, Ey. repeat split; ring. }
      destruct S as (S1 & S2 & S3).
      unfold curve_rhs in O.
      destruct (@double_affine a b x y odd O (px (p256_double b (Pt x y 1))) (py (p256_double b (Pt x y 1)))
                  (pz (p256_double b (Pt x y 1)))) as [V' E'].
      - cbn. ring.
      - cbn. ring [O].
      - cbn. ring [O].
      - unfold nvalid, den. rewrite S1, S2, S3. split; [right; now apply pvalid_scale|]. rewrite proj_scale by exact c4. exact E'.
    Qed.
  End P256.

  (** negation *)
  Lemma neg_den a b p : nvalid a b p -> nvalid a b (native_neg p) /\ den (native_neg p) = ec_neg (den p).
  Proof.
    intros V. destruct (f_eq_dec (pz p) 0) as [E|N].
    - split; [left; exact E|]. rewrite (den_zero E). apply den_zero, E.
    - destruct V as [?|[E _]]; [contradiction|]. split.
      + right. split; [|intros ?; contradiction]. cbn. rewrite <- E. ring.
      + unfold den. cbn. rewrite !proj_fin by exact N. cbn. do 2 f_equal. field. exact N.
  Qed.

  Section Bls.
    Variables (b : F) (m3b : F -> F).
    Hypothesis odd : odd_order_curve 0 b.
    Hypothesis m3b_ok : forall x, m3b x = 3 * b * x.
    Definition bvalid (p : pt F) : Prop := pvalid 0 b (px p) (py p) (pz p).
    Lemma bls_add_c p q : bls_add m3b p q =
      Pt (cx F 0 b (px p) (py p) (pz p) (px q) (py q) (pz q)) (cy F 0 b (px p) (py p) (pz p) (px q) (py q) (pz q))
         (cz F 0 b (px p) (py p) (pz p) (px q) (py q) (pz q)).
    Proof. unfold bls_add. rewrite !m3b_ok. unfold cx, cy, cz. f_equal; ring. Qed.
    Lemma bls_add_ok p q : bvalid p -> bvalid q ->
      bvalid (bls_add m3b p q) /\ den (bls_add m3b p q) = ec_add 0 (den p) (den q).
    Proof. intros V1 V2. rewrite bls_add_c. exact (c_add odd V1 V2). Qed.
    Lemma bls_id_ok : bvalid bls_id /\ den (bls_id (F := F)) = None.
    Proof. split; [split; cbn; [ring|intros _; apply f_one_zero]|now apply den_zero]. Qed.
    Lemma bls_double_ok p : bvalid p ->
      bvalid (bls_double m3b p) /\ den (bls_double m3b p) = ec_add 0 (den p) (den p).
    Proof.
      intros V. destruct (f_eq_dec (pz p) 0) as [E|N].
      - assert (Q : bls_double m3b p = bls_id).
        { unfold bls_double, is_identity, is_zero. rewrite E, feqb_true. reflexivity. }
        rewrite Q, (den_zero E). exact bls_id_ok.
      - destruct (scaled V N) as (x & y & O & Ex & Ey & D). rewrite D.
        assert (I : is_identity p = false) by (unfold is_identity, is_zero; now apply feqb_false).
        assert (I1 : is_identity (Pt x y 1) = false) by (unfold is_identity, is_zero; apply feqb_false, f_one_zero).
        set (c := pz p) in *.
        assert (c4 : c * c * (c * c) <> 0) by auto using f_mul_neq.
        assert (S : px (bls_double m3b p) = c * c * (c * c) * px (bls_double m3b (Pt x y 1)) /\
                    py (bls_double m3b p) = c * c * (c * c) * py (bls_double m3b (Pt x y 1)) /\
                    pz (bls_double m3b p) = c * c * (c * c) * pz (bls_double m3b (Pt x y 1))).
        { unfold bls_double. rewrite I, I1. cbn [px py pz sel]. fold c. rewrite Ex, Ey, !m3b_ok. repeat split; ring. }
        destruct S as (S1 & S2 & S3).
        unfold curve_rhs in O.
        destruct (@double_affine 0 b x y odd O (px (bls_double m3b (Pt x y 1))) (py (bls_double m3b (Pt x y 1)))
                    (pz (bls_double m3b (Pt x y 1)))) as [V' E'].
        1,2,3: unfold bls_double; rewrite I1; cbn [px py pz sel]; rewrite ?m3b_ok; ring [O].
        unfold bvalid, den. rewrite S1, S2, S3. split; [now apply pvalid_scale|]. rewrite proj_scale by exact c4. exact E'.
    Qed.
    Lemma bls_neg_ok p : bvalid p -> bvalid (bls_neg p) /\ den (bls_neg p) = ec_neg (den p).
    Proof.
      intros V. unfold bls_neg, is_identity, is_zero. destruct (feqb_case (pz p) 0) as [[-> E]|[-> N]]; cbn [sel negb].
      - destruct p as [x y z]. cbn in *. split; [exact V|]. now rewrite (@den_zero (Pt x y z)).
      - destruct (@neg_den 0 b p (or_intror V)) as [[W|W] Dn]; [contradiction|]. now split.
    Qed.
  End Bls.

  (** Pallas: Jacobian coordinates *)
  Definition jac (p : pt F) : point F :=
    if feqb (pz p) 0 then None else Some (px p / (pz p * pz p), py p / (pz p * pz p * pz p)).
  Definition jvalid (b : F) (p : pt F) : Prop :=
    pz p = 0 \/ py p * py p = px p * px p * px p + b * (pz p * pz p * pz p * (pz p * pz p * pz p)).
  Lemma jac_zero p : pz p = 0 -> jac p = None.
  Proof. intros E. unfold jac. now rewrite E, feqb_true. Qed.
  Lemma jac_fin p : pz p <> 0 -> jac p = Some (px p / (pz p * pz p), py p / (pz p * pz p * pz p)).
  Proof. intros N. unfold jac. now rewrite feqb_false. Qed.
  Lemma jvalid_on b p : jvalid b p -> on_curve 0 b (jac p).
  Proof.
    intros [E|V]; [now rewrite jac_zero|]. destruct (f_eq_dec (pz p) 0) as [E|N]; [now rewrite jac_zero|].
    rewrite jac_fin by exact N. cbn. unfold curve_rhs. field_simplify_eq; [|exact N].
    transitivity (py p * py p); [ring|]. rewrite V. ring.
  Qed.
  (** a triple over a curve point is valid *)
  Lemma jac_valid b X Y Z x y : Z <> 0 -> y * y = curve_rhs 0 b x -> X = Z * Z * x -> Y = Z * Z * Z * y ->
    jvalid b (Pt X Y Z) /\ jac (Pt X Y Z) = Some (x, y).
  Proof.
    intros N O Ex Ey. split.
    - right. cbn. rewrite Ex, Ey. transitivity (Z * Z * Z * (Z * Z * Z) * (y * y)); [ring|]. rewrite O. unfold curve_rhs. ring.
    - rewrite jac_fin by exact N. cbn. rewrite Ex, Ey. do 2 f_equal; field; exact N.
  Qed.
  Lemma jac_split b p : jvalid b p -> pz p <> 0 ->
    exists x y, y * y = curve_rhs 0 b x /\ px p = pz p * pz p * x /\ py p = pz p * pz p * pz p * y /\ jac p = Some (x, y).
  Proof.
    intros V N. assert (O := jvalid_on V). rewrite (jac_fin N) in O |- *. cbn in O.
    eexists _, _. repeat split; [exact O|now field|now field].
  Qed.

  Section Pallas.
    Variable b : F.
    Hypothesis odd : odd_order_curve 0 b.
    Lemma pallas_double_ok p : jvalid b p ->
      jvalid b (pallas_double p) /\ jac (pallas_double p) = ec_add 0 (jac p) (jac p).
    Proof.
      intros V. unfold pallas_double, is_identity, is_zero. destruct (feqb_case (pz p) 0) as [[-> E]|[-> N]].
      - split; [exact V|]. rewrite (jac_zero E). reflexivity.
      - destruct (jac_split V N) as (x & y & O & Ex & Ey & D). rewrite D.
        assert (Ny := y_neq odd O). destruct (tangent_on odd O) as (Nw & L & OT). cbn zeta in *.
        cbn [ec_add]. rewrite feqb_true, feqb_false by (now apply opp_neq with (a := 0) (b := b)). rewrite L.
        apply jac_valid; [| exact OT | |]; rewrite ?Ex, ?Ey; unfold three, eight.
        + replace (pz p * pz p * pz p * y * pz p + pz p * pz p * pz p * y * pz p)
            with (2 * y * (pz p * pz p * (pz p * pz p))) by ring. auto using f_mul_neq.
        + field. exact (conj Ny (two_neq odd)).
        + field. exact (conj Ny (two_neq odd)).
    Qed.
    Lemma pallas_add_ok p q : jvalid b p -> jvalid b q ->
      jvalid b (pallas_add p q) /\ jac (pallas_add p q) = ec_add 0 (jac p) (jac q).
    Proof.
      intros V1 V2. unfold pallas_add, is_identity, is_zero.
      destruct (feqb_case (pz p) 0) as [[-> E1]|[-> N1]]; [rewrite (jac_zero E1); auto|].
      destruct (feqb_case (pz q) 0) as [[-> E2]|[-> N2]]; [rewrite (jac_zero E2), ec_zero_r; auto|].
      destruct (jac_split V1 N1) as (x1 & y1 & O1 & Ex1 & Ey1 & D1).
      destruct (jac_split V2 N2) as (x2 & y2 & O2 & Ex2 & Ey2 & D2).
      set (c := pz p) in *. set (d := pz q) in *.
      assert (Eu1 : px p * (d * d) = c * d * (c * d) * x1) by (rewrite Ex1; ring).
      assert (Eu2 : px q * (c * c) = c * d * (c * d) * x2) by (rewrite Ex2; ring).
      assert (Es1 : py p * (d * d) * d = c * d * (c * d) * (c * d) * y1) by (rewrite Ey1; ring).
      assert (Es2 : py q * (c * c) * c = c * d * (c * d) * (c * d) * y2) by (rewrite Ey2; ring).
      rewrite Eu1, Eu2, Es1, Es2. set (w := c * d) in *. assert (Nw : w <> 0) by (now apply f_mul_neq).
      destruct (feqb_case (w * w * x1) (w * w * x2)) as [[-> Q]|[-> Q]].
      - assert (x1 = x2) as -> by (apply (f_cancel (z := w * w)); auto using f_mul_neq).
        destruct (feqb_case (w * w * w * y1) (w * w * w * y2)) as [[-> Q']|[-> Q']].
        + assert (y1 = y2) as -> by (apply (f_cancel (z := w * w * w)); auto using f_mul_neq).
          destruct (pallas_double_ok V1) as [V E]. split; [exact V|]. now rewrite E, D1, D2.
        + rewrite D1, D2. cbn [ec_add]. rewrite feqb_true.
          assert (y1 = - y2) as ->.
          { assert (I : (y1 - y2) * (y1 + y2) = 0) by (transitivity (y1 * y1 - y2 * y2); [ring|rewrite O1, O2; ring]).
            destruct (f_integral I) as [I'|I'].
            - apply f_sub_zero in I'. subst. contradiction.
            - transitivity (y1 + y2 - y2); [ring|rewrite I'; ring]. }
          rewrite feqb_true. split; [now left|]. now apply jac_zero.
      - assert (Nx : x1 <> x2) by (intros ->; contradiction). rewrite D1, D2. cbn [ec_add]. rewrite feqb_false by exact Nx.
        assert (Nd := f_sub_neq Nx). assert (OC := chord_on O1 O2 Nx). cbn zeta in OC.
        assert (Nd' : x2 - x1 <> 0) by (apply f_sub_neq; congruence).
        destruct (line_third ((y1 - y2) / (x1 - x2)) x1 y1 x2) as [X Y] eqn:L. cbn [fst snd] in OC.
        unfold line_third in L. injection L as LX LY.
        assert (Z3 : ((c + d) * (c + d) - c * c - d * d) * (w * w * x2 - w * w * x1) = 2 * (w * w * w) * (x2 - x1)) by (unfold w; ring).
        apply jac_valid; [| exact OC | |].
        + rewrite Z3. auto using f_mul_neq, (two_neq odd).
        + rewrite Z3, <- LX. field. exact Nd.
        + rewrite Z3, <- LY. field. exact Nd.
    Qed.
    Lemma pallas_neg_ok p : jvalid b p -> jvalid b (pallas_neg p) /\ jac (pallas_neg p) = ec_neg (jac p).
    Proof.
      intros V. destruct (f_eq_dec (pz p) 0) as [E|N].
      - split; [left; exact E|]. rewrite (jac_zero E). apply jac_zero, E.
      - destruct (jac_split V N) as (x & y & O & Ex & Ey & D). rewrite D.
        apply jac_valid; [exact N| |exact Ex|]; [rewrite <- O; ring|rewrite Ey; ring].
    Qed.
  End Pallas.
End Proofs.
