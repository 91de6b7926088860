(** C99-C101: the groups G1 and G2 of BLS12-381, on limb arrays. *)
From Coq Require Import Field Ring ZArith NArith Lia Bool List Znumtheory Permutation.
From Verif Require Import EcField EcSpec EcAlg EcProofs PointModel PointSpec PointProofs PointMulProofs PointProps MillerSpec
  LimbBase LimbSpec LimbBls LimbField BlsFpProps ZCong
  TowerModel TowerSpec TowerAlg TowerField TowerFrob TowerFinal TowerBls TowerStep TowerMiller TowerPair TowerGt TowerInst TowerProps
  G2Psi G1Phi BlsRep G2Model G2Cert G1Cert G2Clear.
Import ListNotations.
Set Implicit Arguments.
Unset Strict Implicit.
Local Open Scope fld_scope.

Lemma rN_q : rN = bls_q. Proof. vm_compute. reflexivity. Qed.
(** ** C99: every operation is the one of the group *)
Section Law.
  Variable K : field.
  Variables (b : K) (m3b : K -> K).
  Hypothesis curve : odd_order_curve 0 b.
  Hypothesis m3b_is : forall x, m3b x = (1 + 1 + 1) * b * x.
  Lemma law (p q : pt K) (bytes : list N) : bls_point b p -> bls_point b q -> is_bytes32 bytes ->
    (bls_point b (bls_add m3b p q) /\ homogeneous (bls_add m3b p q) = ec_add 0 (homogeneous p) (homogeneous q)) /\
    (bls_point b (bls_double m3b p) /\ homogeneous (bls_double m3b p) = ec_add 0 (homogeneous p) (homogeneous p)) /\
    (bls_point b (bls_neg p) /\ homogeneous (bls_neg p) = ec_neg (homogeneous p)) /\
    (bls_point b (bls_sub m3b p q) /\ homogeneous (bls_sub m3b p q) = ec_add 0 (homogeneous p) (ec_neg (homogeneous q))) /\
    (bls_point b (bls_mul m3b p bytes) /\ homogeneous (bls_mul m3b p bytes) = ec_mul 0 (N.to_nat (le_value bytes)) (homogeneous p)) /\
    (bls_point b bls_id /\ homogeneous (bls_id (F := K)) = None) /\
    (proj_equal p q = 1%Z <-> homogeneous p = homogeneous q) /\ (is_identity p = true <-> homogeneous p = None) /\
    (in_correct_subgroup m3b p = true <-> ec_mul 0 (N.to_nat rN) (homogeneous p) = None).
  Proof.
    intros H1 H2 H3. split; [now apply C71_add|]. split; [now apply C71_double|]. split; [now apply C71_neg|].
    split; [now apply C71_sub|]. split; [now apply C73_bls_mul|]. split; [exact (C71_identity b)|].
    split; [apply C74_equal|]. split; [apply C74_is_identity|]. rewrite rN_q. exact (C76_subgroup curve m3b_is H1).
  Qed.
End Law.
(** G1: y^2 = x^3 + 4 over Fp *)
Theorem C99_g1_curve : bls_b1 = (1 + 1) * (1 + 1) /\ odd_order_curve (0 : BlsFp) bls_b1.
Proof. split; [exact (rz_eq rz_b1 (rz_of rv_four) (cong_refl _ _))|exact bls_g1_odd]. Qed.
Theorem C99_g1 (p q : pt BlsFp) (bytes : list N) : bls_point bls_b1 p -> bls_point bls_b1 q -> is_bytes32 bytes ->
  (bls_point bls_b1 (bls_add g1_m3b p q) /\ homogeneous (bls_add g1_m3b p q) = ec_add 0 (homogeneous p) (homogeneous q)) /\
  (bls_point bls_b1 (bls_double g1_m3b p) /\ homogeneous (bls_double g1_m3b p) = ec_add 0 (homogeneous p) (homogeneous p)) /\
  (bls_point bls_b1 (bls_neg p) /\ homogeneous (bls_neg p) = ec_neg (homogeneous p)) /\
  (bls_point bls_b1 (bls_sub g1_m3b p q) /\ homogeneous (bls_sub g1_m3b p q) = ec_add 0 (homogeneous p) (ec_neg (homogeneous q))) /\
  (bls_point bls_b1 (bls_mul g1_m3b p bytes) /\ homogeneous (bls_mul g1_m3b p bytes) = ec_mul 0 (N.to_nat (le_value bytes)) (homogeneous p)) /\
  (bls_point bls_b1 bls_id /\ homogeneous (bls_id (F := BlsFp)) = None) /\
  (proj_equal p q = 1%Z <-> homogeneous p = homogeneous q) /\ (is_identity p = true <-> homogeneous p = None) /\
  (in_correct_subgroup g1_m3b p = true <-> ec_mul 0 (N.to_nat rN) (homogeneous p) = None).
Proof. exact (@law BlsFp bls_b1 g1_m3b bls_g1_odd g1_m3b_is p q bytes). Qed.
(** G2: y^2 = x^3 + 4 (1 + u) over Fp2 *)
Theorem C99_g2_curve : bls_b2 = (1 + 1) * (1 + 1) * (Quad 1 1 : Bls2) /\ odd_order_curve (0 : Bls2) bls_b2.
Proof. split; [reflexivity|exact bls_g2_odd]. Qed.
Theorem C99_g2 (p q : pt Bls2) (bytes : list N) : bls_point bls_b2 p -> bls_point bls_b2 q -> is_bytes32 bytes ->
  (bls_point bls_b2 (bls_add g2_m3b p q) /\ homogeneous (bls_add g2_m3b p q) = ec_add 0 (homogeneous p) (homogeneous q)) /\
  (bls_point bls_b2 (bls_double g2_m3b p) /\ homogeneous (bls_double g2_m3b p) = ec_add 0 (homogeneous p) (homogeneous p)) /\
  (bls_point bls_b2 (bls_neg p) /\ homogeneous (bls_neg p) = ec_neg (homogeneous p)) /\
  (bls_point bls_b2 (bls_sub g2_m3b p q) /\ homogeneous (bls_sub g2_m3b p q) = ec_add 0 (homogeneous p) (ec_neg (homogeneous q))) /\
  (bls_point bls_b2 (bls_mul g2_m3b p bytes) /\ homogeneous (bls_mul g2_m3b p bytes) = ec_mul 0 (N.to_nat (le_value bytes)) (homogeneous p)) /\
  (bls_point bls_b2 bls_id /\ homogeneous (bls_id (F := Bls2)) = None) /\
  (proj_equal p q = 1%Z <-> homogeneous p = homogeneous q) /\ (is_identity p = true <-> homogeneous p = None) /\
  (in_correct_subgroup g2_m3b p = true <-> ec_mul 0 (N.to_nat rN) (homogeneous p) = None).
Proof. exact (@law Bls2 bls_b2 g2_m3b bls_g2_odd g2_m3b_is p q bytes). Qed.

(** ** C100: the generators have order r *)
Section Gen.
  Variable K : field.
  Add Field Kgen : (fth K).
  Variables (b : K) (m3b : K -> K).
  Hypothesis curve : odd_order_curve 0 b.
  Hypothesis m3b_is : forall x, m3b x = (1 + 1 + 1) * b * x.
  Variables x y : K.
  Hypothesis ON : on_curve 0 b (Some (x, y)).
  Hypothesis OR : mulN rN (Some (x, y)) = None.
  Local Notation G := (Pt x y 1).
  Lemma sub_iff (p : pt K) : bls_point b p -> (in_correct_subgroup m3b p = true <-> mulN rN (homogeneous p) = None).
  Proof. intros H. pose proof (C76_subgroup curve m3b_is H) as S. rewrite <- rN_q in S. unfold mulN. exact S. Qed.
  Lemma gen_hom : homogeneous G = Some (x, y).
  Proof. unfold homogeneous. cbn [pz PointModel.px py]. rewrite (feqb_false (@f_one_zero K)). do 2 f_equal; field; apply f_one_zero. Qed.
  Lemma gen_point : bls_point b G.
  Proof. split; [rewrite gen_hom; exact ON|]. intros Z. destruct (@f_one_zero K Z). Qed.
  Lemma gen_is : bls_point b G /\ homogeneous G = Some (x, y) /\ bls_on_curve b G = true /\ in_correct_subgroup m3b G = true /\
    forall n, ec_mul 0 n (homogeneous G) = None <-> (rN | N.of_nat n)%N.
  Proof.
    split; [exact gen_point|]. split; [exact gen_hom|]. split; [|split].
    - apply (C71_is_on_curve b); [apply gen_point|rewrite gen_hom; exact ON].
    - apply (sub_iff gen_point). rewrite gen_hom. exact OR.
    - intros n. rewrite gen_hom. split.
      + intros E. assert (E' : mulN (N.of_nat n) (Some (x, y)) = None) by (unfold mulN; rewrite Nat2N.id; exact E).
        assert (R0 : rN <> 0%N) by (vm_compute; discriminate).
        rewrite (N.div_mod (N.of_nat n) rN R0) in E'. rewrite (mulN_add curve), N.mul_comm, (mulN_mul curve), OR, mulN_none in E' by exact ON.
        pose proof (N.mod_lt (N.of_nat n) rN R0) as L. apply N.mod_divide; [exact R0|].
        destruct (N.eq_dec (N.of_nat n mod rN) 0) as [Z|Z]; [exact Z|]. exfalso. revert E'. cbn [ec_add].
        apply (order_lt curve rN_prime ON ltac:(discriminate) OR). split; [apply N.neq_0_lt_0; exact Z|exact L].
      + intros [k E]. transitivity (mulN (N.of_nat n) (Some (x, y))); [unfold mulN; rewrite Nat2N.id; reflexivity|].
        rewrite E, (mulN_mul curve), OR by exact ON. apply mulN_none.
  Qed.
  (** two scalars have the same multiple exactly when they agree modulo r; every multiple passes the subgroup check *)
  Lemma gen_mul (s t : list N) : is_bytes32 s -> is_bytes32 t ->
    (proj_equal (bls_mul m3b G s) (bls_mul m3b G t) = 1%Z <-> (le_value s mod rN = le_value t mod rN)%N) /\
    in_correct_subgroup m3b (bls_mul m3b G s) = true.
  Proof.
    intros S T. destruct (C73_bls_mul curve m3b_is gen_point S) as [VS ES]. destruct (C73_bls_mul curve m3b_is gen_point T) as [_ ET].
    rewrite gen_hom in ES, ET. assert (R0 : rN <> 0%N) by (vm_compute; discriminate).
    assert (RED : forall n, mulN n (Some (x, y)) = mulN (n mod rN) (Some (x, y))).
    { intros n. rewrite (N.div_mod n rN R0) at 1. rewrite (mulN_add curve), N.mul_comm, (mulN_mul curve), OR, mulN_none by exact ON. reflexivity. }
    assert (INJ : forall i j, (i <= j)%N -> (j < rN)%N -> mulN i (Some (x, y)) = mulN j (Some (x, y)) -> i = j).
    { intros i j IJ J E. destruct (N.eq_dec i j) as [Q|Q]; [exact Q|]. exfalso.
      assert (D : mulN (j - i) (Some (x, y)) = None).
      { pose proof (mulN_on curve i ON) as Oi. pose proof (mulN_on curve (j - i) ON) as Od.
        transitivity (ec_add 0 (mulN (j - i) (Some (x, y))) (ec_add 0 (mulN i (Some (x, y))) (ec_neg (mulN i (Some (x, y)))))).
        - rewrite ec_neg_r, ec_zero_r. reflexivity.
        - rewrite <- (ec_assoc curve Od Oi (ec_neg_on Oi)), <- (mulN_add curve) by exact ON. replace (j - i + i)%N with j by lia. rewrite <- E. apply ec_neg_r. }
      revert D. apply (order_lt curve rN_prime ON ltac:(discriminate) OR). lia. }
    split.
    - rewrite (proj1 (C74_equal _ _)), ES, ET. change (mulN (le_value s) (Some (x, y)) = mulN (le_value t) (Some (x, y)) <-> (le_value s mod rN = le_value t mod rN)%N).
      rewrite (RED (le_value s)), (RED (le_value t)). split; [|now intros ->]. intros E.
      pose proof (N.mod_lt (le_value s) rN R0) as L1. pose proof (N.mod_lt (le_value t) rN R0) as L2.
      destruct (N.le_ge_cases (le_value s mod rN) (le_value t mod rN)) as [L|L]; [now apply INJ|symmetry; now apply INJ].
    - apply (sub_iff VS). rewrite ES. fold (mulN (le_value s) (Some (x, y))).
      rewrite <- (mulN_mul curve), N.mul_comm, (mulN_mul curve), OR by exact ON. apply mulN_none.
  Qed.
End Gen.
Theorem C100_g1_generator : bls_point bls_b1 bls_g1_point /\ homogeneous bls_g1_point = Some (PointModel.px bls_g1_point, py bls_g1_point) /\
  bls_on_curve bls_b1 bls_g1_point = true /\ in_correct_subgroup g1_m3b bls_g1_point = true /\
  forall n, ec_mul 0 n (homogeneous bls_g1_point) = None <-> (rN | N.of_nat n)%N.
Proof. exact (@gen_is BlsFp bls_b1 g1_m3b bls_g1_odd g1_m3b_is _ _ g1_gen_on g1_gen_order). Qed.
Theorem C100_g2_generator : bls_point bls_b2 bls_g2_point /\ homogeneous bls_g2_point = Some (PointModel.px bls_g2_point, py bls_g2_point) /\
  bls_on_curve bls_b2 bls_g2_point = true /\ in_correct_subgroup g2_m3b bls_g2_point = true /\
  forall n, ec_mul 0 n (homogeneous bls_g2_point) = None <-> (rN | N.of_nat n)%N.
Proof. exact (@gen_is Bls2 bls_b2 g2_m3b bls_g2_odd g2_m3b_is _ _ g2_gen_on g2_gen_order). Qed.
Theorem C100_g1_multiples (s t : list N) : is_bytes32 s -> is_bytes32 t ->
  (proj_equal (bls_mul g1_m3b bls_g1_point s) (bls_mul g1_m3b bls_g1_point t) = 1%Z <-> (le_value s mod rN = le_value t mod rN)%N) /\
  in_correct_subgroup g1_m3b (bls_mul g1_m3b bls_g1_point s) = true.
Proof. exact (@gen_mul BlsFp bls_b1 g1_m3b bls_g1_odd g1_m3b_is _ _ g1_gen_on g1_gen_order s t). Qed.
Theorem C100_g2_multiples (s t : list N) : is_bytes32 s -> is_bytes32 t ->
  (proj_equal (bls_mul g2_m3b bls_g2_point s) (bls_mul g2_m3b bls_g2_point t) = 1%Z <-> (le_value s mod rN = le_value t mod rN)%N) /\
  in_correct_subgroup g2_m3b (bls_mul g2_m3b bls_g2_point s) = true.
Proof. exact (@gen_mul Bls2 bls_b2 g2_m3b bls_g2_odd g2_m3b_is _ _ g2_gen_on g2_gen_order s t). Qed.
(** the pairing of non-zero multiples of the generators is not zero, hence of order r, and cancels with its inverses *)
Section Inst.
  Variable K : field.
  Add Field Kin : (fth K).
  Lemma hom_some (p : pt K) x y : homogeneous p = Some (x, y) -> pz p <> 0 /\ x = PointModel.px p / pz p /\ y = py p / pz p.
  Proof.
    unfold homogeneous. destruct (feqb_case (pz p) 0) as [[-> E]|[-> N]]; [discriminate|]. intros H. injection H as <- <-. auto.
  Qed.
  Lemma y_nonzero (b : K) (p : pt K) : odd_order_curve 0 b -> on_curve 0 b (homogeneous p) -> pz p <> 0 -> py p <> 0.
  Proof.
    intros odd O Z E. unfold homogeneous in O. rewrite (feqb_false Z) in O. apply (y_neq odd O). rewrite E. field. exact Z.
  Qed.
End Inst.
Theorem C100_pairing (s t : list N) : is_bytes32 s -> is_bytes32 t -> ~ (rN | le_value s)%N -> ~ (rN | le_value t)%N ->
  let P := bls_mul g1_m3b bls_g1_point s in
  let T := bls_mul g2_m3b bls_g2_point t in
  let Q : g2pt BlsFp := Jpt (PointModel.px T : fp2 BlsFp) (py T) (pz T) in
  one_result P Q <> 0 /\ fpow (one_result P Q) rN = 1 /\
  bls_check (add_pair_inv_g1 (add_pair [] P Q) P Q) = true /\ bls_check (add_pair_inv_g2 (add_pair [] P Q) P Q) = true.
Proof.
  intros S T NS NT P T0 Q. destruct C100_g1_generator as (B1 & H1 & _ & _ & O1). destruct C100_g2_generator as (B2 & H2 & _ & _ & O2).
  destruct (C99_g1 B1 B1 S) as (_ & _ & _ & _ & [VP EP] & _). fold P in VP, EP.
  destruct (C99_g2 B2 B2 T) as (_ & _ & _ & _ & [VT ET] & _). fold T0 in VT, ET.
  assert (ST : in_correct_subgroup g2_m3b T0 = true) by exact (proj2 (C100_g2_multiples T T)).
  destruct (C99_g2 VT VT T) as (_ & _ & _ & _ & _ & _ & _ & _ & SG). apply SG in ST. clear SG.
  destruct (homogeneous P) as [[x1 y1]|] eqn:EP1; [|exfalso; apply NS; apply eq_sym in EP; apply O1 in EP; rewrite N2Nat.id in EP; exact EP].
  destruct (homogeneous T0) as [[x2 y2]|] eqn:ET1; [|exfalso; apply NT; apply eq_sym in ET; apply O2 in ET; rewrite N2Nat.id in ET; exact ET].
  destruct (hom_some EP1) as (Z1 & _ & _). destruct (hom_some ET1) as (Z2 & X2 & Y2).
  assert (Y1 : py P <> 0) by (apply (y_nonzero bls_g1_odd); [apply VP|exact Z1]).
  assert (OT : on_curve 0 bls_b2 (Some (x2, y2))) by (rewrite <- ET1; apply VT).
  assert (NZ : one_result P Q <> 0) by exact (@C97_nonzero P Q x2 y2 Z1 Y1 Z2 X2 Y2 OT ST).
  split; [exact NZ|]. split; [exact (proj1 (C97_range NZ))|exact (C97_cancel NZ)].
Qed.

(** ** C101: psi and the cofactor of G2 *)
(** psi is the untwist-Frobenius-twist map *)
Theorem C101_psi (p : pt Bls2) : bls_point bls_b2 p -> bls_point bls_b2 (bls_g2_psi p) /\
  homogeneous (bls_g2_psi p) = match homogeneous p with
    | None => None
    | Some (x, y) => Some ((fp2_conjugate x : Bls2) / fpow (Quad 1 1 : Bls2) ((pN - 1) / 3), (fp2_conjugate y : Bls2) / fpow (Quad 1 1 : Bls2) ((pN - 1) / 2))
    end.
Proof. intros H. destruct (bls_tpsi_ok H) as [V E]. split; [exact V|]. etransitivity; [exact E|]. exact (bls_psi_form _). Qed.
(** it is additive, psi2 is psi twice, and psi^4 - psi^2 + 1 = 0 *)
Theorem C101_psi_add (p q : pt Bls2) : bls_point bls_b2 p -> bls_point bls_b2 q ->
  proj_equal (bls_g2_psi (bls_add g2_m3b p q)) (bls_add g2_m3b (bls_g2_psi p) (bls_g2_psi q)) = 1%Z.
Proof.
  intros P Q. apply C74_equal. destruct (C71_add bls_g2_odd g2_m3b_is P Q) as [V E].
  destruct (bls_tpsi_ok P) as [VP EP]. destruct (bls_tpsi_ok Q) as [VQ EQ].
  rewrite (proj2 (bls_tpsi_ok V)), (proj2 (C71_add bls_g2_odd g2_m3b_is VP VQ)), E, EP, EQ. apply bls_psi_add; [apply P|apply Q].
Qed.
Theorem C101_psi2 (p : pt Bls2) : bls_point bls_b2 p ->
  bls_point bls_b2 (bls_g2_psi2 p) /\ proj_equal (bls_g2_psi2 p) (bls_g2_psi (bls_g2_psi p)) = 1%Z.
Proof.
  intros P. destruct (bls_tpsi2_ok P) as [V E]. split; [exact V|]. apply C74_equal. destruct (bls_tpsi_ok P) as [VP EP].
  rewrite E, (proj2 (bls_tpsi_ok VP)), EP. reflexivity.
Qed.
Theorem C101_psi_char (p : pt Bls2) : bls_point bls_b2 p ->
  proj_equal (bls_add g2_m3b (bls_g2_psi (bls_g2_psi (bls_g2_psi (bls_g2_psi p)))) p) (bls_g2_psi (bls_g2_psi p)) = 1%Z.
Proof.
  intros P. apply C74_equal. destruct (bls_tpsi_ok P) as [V1 E1]. destruct (bls_tpsi_ok V1) as [V2 E2].
  destruct (bls_tpsi_ok V2) as [V3 E3]. destruct (bls_tpsi_ok V3) as [V4 E4].
  rewrite (proj2 (C71_add bls_g2_odd g2_m3b_is V4 P)), E4, E3, E2, E1. apply bls_psi4. apply P.
Qed.
(** ClearCofactor is [x^2 - x - 1] + [x - 1] psi + [2] psi^2 for the (negative) parameter x = - bls_x *)
Theorem C101_clear (p : pt Bls2) : bls_point bls_b2 p -> bls_point bls_b2 (bls_g2_clear p) /\
  homogeneous (bls_g2_clear p) =
    ec_add 0 (ec_add 0 (ec_mul 0 (N.to_nat (bls_x * bls_x + bls_x - 1)) (homogeneous p))
                       (ec_neg (ec_mul 0 (N.to_nat (bls_x + 1)) (homogeneous (bls_g2_psi p)))))
             (homogeneous (bls_g2_psi (bls_g2_psi (bls_double g2_m3b p)))).
Proof.
  intros P. destruct (bls_tclear_ok P) as [V E]. split; [exact V|]. rewrite E. destruct (bls_tpsi_ok P) as [_ EP].
  destruct (C71_double bls_g2_odd g2_m3b_is P) as [VD ED]. destruct (bls_tpsi_ok VD) as [V1 E1].
  rewrite (proj2 (bls_tpsi_ok V1)), E1, ED, EP. reflexivity.
Qed.
Theorem C101_clear_add (p q : pt Bls2) : bls_point bls_b2 p -> bls_point bls_b2 q ->
  proj_equal (bls_g2_clear (bls_add g2_m3b p q)) (bls_add g2_m3b (bls_g2_clear p) (bls_g2_clear q)) = 1%Z.
Proof.
  intros P Q. apply C74_equal. destruct (C71_add bls_g2_odd g2_m3b_is P Q) as [V E].
  destruct (bls_tclear_ok P) as [VP EP]. destruct (bls_tclear_ok Q) as [VQ EQ].
  rewrite (proj2 (bls_tclear_ok V)), (proj2 (C71_add bls_g2_odd g2_m3b_is VP VQ)), E, EP, EQ. destruct P as [P _], Q as [Q _].
  revert P Q. generalize (homogeneous p) (homogeneous q). clear. intros P Q HP HQ.
  assert (PP : on_curve 0 bls_b2 (bls_psi P)) by exact (bls_psi_on HP). assert (PQ : on_curve 0 bls_b2 (bls_psi Q)) by exact (bls_psi_on HQ).
  assert (DP : on_curve 0 bls_b2 (ec_add 0 P P)) by (apply (ec_closed bls_g2_odd); exact HP).
  assert (DQ : on_curve 0 bls_b2 (ec_add 0 Q Q)) by (apply (ec_closed bls_g2_odd); exact HQ).
  rewrite (bls_psi_add HP HQ). rewrite !(mulN_padd bls_g2_odd) by assumption. rewrite (ec_neg_add bls_g2_odd) by (apply (mulN_on bls_g2_odd); assumption).
  assert (D : ec_add 0 (ec_add 0 P Q) (ec_add 0 P Q) = ec_add 0 (ec_add 0 P P) (ec_add 0 Q Q)).
  { rewrite !(ec_assoc bls_g2_odd) by (try assumption; apply (ec_closed bls_g2_odd); assumption). f_equal.
    rewrite <- !(ec_assoc bls_g2_odd) by assumption. f_equal. apply (ec_comm bls_g2_odd); assumption. }
  rewrite D, (bls_psi_add DP DQ), (bls_psi_add (bls_psi_on DP) (bls_psi_on DQ)).
  set (A1 := mulN _ P). set (A2 := mulN _ Q). set (B1 := ec_neg (mulN _ (bls_psi P))). set (B2 := ec_neg (mulN _ (bls_psi Q))).
  set (C1 := bls_psi (bls_psi (ec_add 0 P P))). set (C2 := bls_psi (bls_psi (ec_add 0 Q Q))).
  assert (HA1 : on_curve 0 bls_b2 A1) by (apply (mulN_on bls_g2_odd); exact HP). assert (HA2 : on_curve 0 bls_b2 A2) by (apply (mulN_on bls_g2_odd); exact HQ).
  assert (HB1 : on_curve 0 bls_b2 B1) by (apply ec_neg_on, (mulN_on bls_g2_odd); exact PP). assert (HB2 : on_curve 0 bls_b2 B2) by (apply ec_neg_on, (mulN_on bls_g2_odd); exact PQ).
  assert (HC1 : on_curve 0 bls_b2 C1) by exact (bls_psi_on (bls_psi_on DP)). assert (HC2 : on_curve 0 bls_b2 C2) by exact (bls_psi_on (bls_psi_on DQ)).
  clearbody A1 A2 B1 B2 C1 C2. clear - HA1 HA2 HB1 HB2 HC1 HC2.
  pose proof (@psum_app _ _ bls_g2_odd) as PA.
  transitivity (psum ([A1; A2] ++ [B1; B2] ++ [C1; C2])).
  - rewrite !PA by (repeat constructor; assumption). cbn [psum fold_right]. rewrite !ec_zero_r.
    apply (ec_assoc bls_g2_odd); apply (ec_closed bls_g2_odd); assumption.
  - transitivity (psum ([A1; B1; C1] ++ [A2; B2; C2])).
    + apply (psum_perm bls_g2_odd); [|repeat constructor; assumption]. cbn [app]. constructor.
      transitivity ([A2] ++ [B1; C1] ++ [B2; C2]); [cbn [app]; constructor; constructor; apply perm_swap|].
      transitivity ([B1; C1] ++ [A2] ++ [B2; C2]); [rewrite !app_assoc; apply Permutation_app_tail, Permutation_app_comm|reflexivity].
    + rewrite PA by (repeat constructor; assumption). cbn [psum fold_right]. rewrite !ec_zero_r.
      rewrite (ec_assoc bls_g2_odd HA1 HB1 HC1), (ec_assoc bls_g2_odd HA2 HB2 HC2). reflexivity.
Qed.
(** a point that psi multiplies by the parameter is in the subgroup; the multiples of the generator are such points, and on
    them ClearCofactor is multiplication by 4 x^2 - 2 x - 1 *)
Theorem C101_subgroup (p : pt Bls2) : bls_point bls_b2 p ->
  homogeneous (bls_g2_psi p) = ec_neg (ec_mul 0 (N.to_nat bls_x) (homogeneous p)) -> in_correct_subgroup g2_m3b p = true.
Proof.
  intros P E. apply (sub_iff bls_g2_odd g2_m3b_is P). apply bls_psi_order; [apply P|].
  rewrite (proj2 (bls_tpsi_ok P)) in E. exact E.
Qed.
Lemma xN_x : xN = bls_x. Proof. vm_compute. reflexivity. Qed.
Lemma clear_eigen (P : point Bls2) : on_curve 0 bls_b2 P -> bls_psi P = ec_neg (mulN bls_x P) ->
  ec_add 0 (ec_add 0 (mulN (bls_x * bls_x + bls_x - 1) P) (ec_neg (mulN (bls_x + 1) (bls_psi P)))) (bls_psi (bls_psi (ec_add 0 P P))) =
  mulN (4 * bls_x * bls_x + 2 * bls_x - 1) P.
Proof.
  intros O EP.
  assert (D : on_curve 0 bls_b2 (ec_add 0 P P)) by (apply (ec_closed bls_g2_odd); exact O).
  assert (EC : forall k, bls_psi (mulN k P) = ec_neg (mulN bls_x (mulN k P))).
  { intros k. unfold bls_psi. rewrite (@psi_mul' Bls2 cj2 cj2_1 cj2_mul cj2_add psi_w bls_b2 psi_w_neq bls_g2_odd) by exact O.
    change (psi cj2 psi_w P) with (bls_psi P). rewrite EP, (mulN_neg bls_g2_odd) by (apply (mulN_on bls_g2_odd); exact O).
    apply (f_equal (@ec_neg Bls2)). rewrite <- !(mulN_mul bls_g2_odd) by exact O. apply (f_equal (fun k => mulN k P)). apply N.mul_comm. }
  assert (D2 : ec_add 0 P P = mulN 2 P) by (rewrite <- (mulN_1 P) at 1 2; rewrite <- (mulN_add bls_g2_odd) by exact O; reflexivity).
  assert (ND : forall k, bls_psi (ec_neg (mulN k P)) = mulN bls_x (mulN k P)).
  { intros k. change (psi cj2 psi_w (ec_neg (mulN k P)) = mulN bls_x (mulN k P)). rewrite (psi_neg' cj2_add psi_w_neq).
    change (psi cj2 psi_w (mulN k P)) with (bls_psi (mulN k P)). rewrite EC, ec_neg_neg. reflexivity. }
  rewrite D2, EC, EP. rewrite <- (mulN_mul bls_g2_odd) by exact O. rewrite ND, <- (mulN_mul bls_g2_odd) by exact O.
  rewrite (mulN_neg bls_g2_odd), ec_neg_neg, <- (mulN_mul bls_g2_odd) by (try apply (mulN_on bls_g2_odd); exact O).
  rewrite <- !(mulN_add bls_g2_odd) by exact O.
  apply (f_equal (fun k => mulN k P)). vm_compute. reflexivity.
Qed.
Lemma gen_eigen (k : N) : bls_psi (mulN k g2_aff) = ec_neg (mulN bls_x (mulN k g2_aff)).
Proof.
  unfold bls_psi. rewrite (@psi_mul' Bls2 cj2 cj2_1 cj2_mul cj2_add psi_w bls_b2 psi_w_neq bls_g2_odd) by exact g2_gen_on.
  change (psi cj2 psi_w g2_aff) with (bls_psi g2_aff). rewrite g2_gen_psi, xN_x.
  assert (O : on_curve 0 bls_b2 (mulN bls_x g2_aff)) by (apply (mulN_on bls_g2_odd); exact g2_gen_on).
  rewrite (mulN_neg bls_g2_odd) by exact O. apply (f_equal (@ec_neg Bls2)). rewrite <- !(mulN_mul bls_g2_odd) by exact g2_gen_on.
  apply (f_equal (fun k => mulN k g2_aff)). apply N.mul_comm.
Qed.
Lemma clear_multiple (p : pt Bls2) (k : N) : bls_point bls_b2 p -> homogeneous p = mulN k g2_aff ->
  homogeneous (bls_g2_psi p) = ec_neg (mulN bls_x (homogeneous p)) /\
  homogeneous (bls_g2_clear p) = mulN (4 * bls_x * bls_x + 2 * bls_x - 1) (homogeneous p).
Proof.
  intros V E.
  assert (EP : bls_psi (homogeneous p) = ec_neg (mulN bls_x (homogeneous p))) by (rewrite E; apply gen_eigen).
  split; [rewrite (proj2 (bls_tpsi_ok V)); exact EP|].
  rewrite (proj2 (bls_tclear_ok V)). exact (clear_eigen (proj1 V) EP).
Qed.
Lemma mulN_ec (k : N) (P : point Bls2) : mulN k P = ec_mul 0 (N.to_nat k) P.
Proof. reflexivity. Qed.
Theorem C101_multiples (s : list N) : is_bytes32 s -> let p := bls_mul g2_m3b bls_g2_point s in
  homogeneous (bls_g2_psi p) = ec_neg (ec_mul 0 (N.to_nat bls_x) (homogeneous p)) /\
  homogeneous (bls_g2_clear p) = ec_mul 0 (N.to_nat (4 * bls_x * bls_x + 2 * bls_x - 1)) (homogeneous p).
Proof.
  intros S. destruct C100_g2_generator as (B2 & HG & _).
  destruct (C73_bls_mul bls_g2_odd g2_m3b_is B2 S) as [V E]. rewrite HG, <- mulN_ec in E.
  cbv zeta. rewrite <- !mulN_ec. exact (clear_multiple V E).
Qed.
