(** FinalExponentiation, Sqrt and the engine at the limb-level BLS12-381 base field. *)
From Coq Require Import ZArith NArith Lia List Bool Znumtheory Permutation Field Ring.
From Verif Require Import EcField EcSpec MillerSpec PointModel LimbBls ZCong NativeRoots NativeProps BlsFp BlsFpProps LimbField PrimeBlsP PrimeBls TowerModel TowerSpec TowerAlg TowerField TowerFrob TowerFinal TowerSqrt TowerPair TowerBls TowerStep TowerMiller.
Import ListNotations.
Set Implicit Arguments.
Unset Strict Implicit.
Local Open Scope Z_scope.

Lemma hard_r : hard bls_p bls_param_x * bls_r = 3 * (bls_p ^ 4 - bls_p ^ 2 + 1).
Proof. vm_compute. reflexivity. Qed.
Lemma hard_pos : 0 < hard bls_p bls_param_x.
Proof. vm_compute. reflexivity. Qed.
Definition rN : N := Z.to_N bls_r.
Definition feN : N := fe_exp pN.
Lemma rN_Z : Z.of_N rN = bls_r. Proof. vm_compute. reflexivity. Qed.
Lemma factor12 (p : Z) : p ^ 12 - 1 = (p ^ 6 - 1) * (p * p + 1) * (p ^ 4 - p ^ 2 + 1).
Proof. ring. Qed.
Lemma pN_ge : (1 <= pN)%N. Proof. vm_compute. discriminate. Qed.
Lemma pow_ge (p n : N) : (1 <= p)%N -> (1 <= p ^ n)%N.
Proof. intros H. assert (p ^ n <> 0)%N by (apply N.pow_nonzero; lia). lia. Qed.
Lemma feN_spec : (feN * rN = 3 * (pN ^ 12 - 1))%N.
Proof.
  unfold feN, fe_exp. pose proof pN_ge as G. pose proof pN_Z as Z1. pose proof rN_Z as Z2. pose proof hard_r as H. pose proof hard_pos as H0.
  rewrite <- Z1, <- Z2 in H. rewrite <- Z1 in H0. revert G H H0. generalize pN rN. clear. intros p r G H H0.
  assert (G6 := @pow_ge p 6%N G). assert (G12 := @pow_ge p 12%N G).
  apply N2Z.inj. rewrite !N2Z.inj_mul, !N2Z.inj_add, !N2Z.inj_mul, !N2Z.inj_sub, !N2Z.inj_pow by assumption. rewrite Z2N.id by lia.
  change (Z.of_N 1) with 1. change (Z.of_N 3) with 3. change (Z.of_N 12) with 12. change (Z.of_N 6) with 6.
  rewrite factor12. transitivity ((Z.of_N p ^ 6 - 1) * (Z.of_N p * Z.of_N p + 1) * (hard (Z.of_N p) bls_param_x * Z.of_N r)); [ring|]. rewrite H. ring.
Qed.
Lemma feN_neq : feN <> 0%N.
Proof.
  intros E. pose proof feN_spec as H. rewrite E in H. pose proof pN_ge. assert (2 <= pN)%N by (vm_compute; discriminate). revert H H1. generalize pN. clear.
  intros p H G. assert (p ^ 12 = p * p ^ 11)%N by (rewrite <- N.pow_succ_r'; reflexivity).
  assert (1 <= p ^ 11)%N by (apply pow_ge; lia). nia.
Qed.
Section Zero.
  Variable K : field.
  Add Field Kf : (fth K).
  Lemma fpow_zero (n : N) : n <> 0%N -> fpow (f0 : K) n = f0.
  Proof. intros H. rewrite <- (N.succ_pred n H), fpow_succ. ring. Qed.
End Zero.
Notation bls_final := (gt_final_exponentiation bls_pm1Div3 bls_p2m2Div3 bls_pm1Div6).

Lemma bls_final_pow (gt a : fp12 BlsFp) : (a : Bls12) <> f0 -> (bls_final gt a : Bls12) = fpow (a : Bls12) feN.
Proof.
  intros A. refine (final_pow (N2 := bls_N2) pN_prime bls_char pN_j bls_fermat bls_two bls_HC3 bls_HC2 bls_G3 bls_G33 bls_G6 gt _ A).
  rewrite pN_Z. pose proof hard_pos. lia.
Qed.
Lemma bls_final_zero (gt : fp12 BlsFp) : bls_final gt (fp12_zero BlsFp) = gt.
Proof. apply (final_zero bls_N2). Qed.
Lemma bls_FE (f : Bls12) : (bls_final f f : Bls12) = fpow f feN.
Proof.
  destruct (f_eq_dec f f0) as [->|H]; [|apply bls_final_pow, H].
  etransitivity; [exact (bls_final_zero (fp12_zero BlsFp))|]. symmetry. exact (fpow_zero Bls12 feN_neq).
Qed.
Definition bls_conj_pow (x : Bls12) : (fp12_conjugate x : Bls12) = fpow x (pN ^ 6) :=
  conj_pow (N2 := bls_N2) pN_prime bls_char pN_j bls_fermat bls_HC3 bls_HC2 bls_G6 x.
Definition bls_fermat12 (x : Bls12) : x <> f0 -> fpow x (pN ^ 12 - 1) = f1 :=
  fermat12 (N2 := bls_N2) pN_prime bls_char pN_j bls_fermat bls_HC3 bls_HC2 bls_G6 (x := x).
Definition bls_cyc (x : Bls12) : Prop := fpow x (pN ^ 4 - pN ^ 2 + 1) = f1.
Definition bls_cyc_iff (x : Bls12) : x <> f0 -> (cyc pN x <-> bls_cyc x) :=
  cyc_iff (N2 := bls_N2) pN_j (x := x).
Definition bls_cycsq_iff (x : Bls12) : (fp12_cyclotomic_square x : Bls12) = fmul x x <-> cyc pN x :=
  cycsq_iff (N2 := bls_N2) pN_prime bls_char pN_j bls_fermat bls_two bls_HC3 bls_HC2 bls_G6 x.
Definition bls_cyc_conj (x : Bls12) : cyc pN x -> x <> f0 -> (fp12_conjugate x : Bls12) = finv x :=
  cyc_conj (N2 := bls_N2) pN_prime bls_char pN_j bls_fermat bls_HC3 bls_HC2 bls_G6 (x := x).
Definition bls_frob2 (x : Bls2) : (fp2_frobenius x : Bls2) = fpow x pN :=
  frob2 pN_prime bls_char pN_j bls_fermat bls_N1 x.
Definition bls_frob6 (x : Bls6) : (fp6_frobenius bls_pm1Div3 bls_p2m2Div3 x : Bls6) = fpow x pN :=
  frob6 pN_prime bls_char pN_j bls_fermat bls_N3 bls_G3 bls_G33 x.
Definition bls_frob12 (x : Bls12) : (fp12_frobenius bls_pm1Div3 bls_p2m2Div3 bls_pm1Div6 x : Bls12) = fpow x pN :=
  frob12 pN_prime bls_char pN_j bls_fermat bls_N2 bls_G3 bls_G33 bls_G6 x.
(** the exponents of Sqrt *)
Definition q1N : N := ((pN - 3) / 4)%N.
Definition q2N : N := ((pN - 1) / 2)%N.
Lemma q1_eq : pN = (4 * q1N + 3)%N. Proof. vm_compute. reflexivity. Qed.
Lemma q2_eq : pN = (2 * q2N + 1)%N. Proof. vm_compute. reflexivity. Qed.
Lemma sqrt_e1 (b : Bls2) : (fp2_pow b fp2_sqrt_exp1 : Bls2) = fpow b q1N.
Proof.
  unfold fp2_pow, fp2_sqrt_exp1. etransitivity; [exact (pow_limbs (N1 := bls_N1) b _)|].
  apply f_equal. vm_compute. reflexivity.
Qed.
Lemma sqrt_e2 (b : Bls2) : (fp2_pow b fp2_sqrt_exp2 : Bls2) = fpow b q2N.
Proof.
  unfold fp2_pow, fp2_sqrt_exp2. etransitivity; [exact (pow_limbs (N1 := bls_N1) b _)|].
  apply f_equal. vm_compute. reflexivity.
Qed.
Definition bls_sqrt_spec := sqrt_spec pN_prime bls_char pN_j bls_fermat q1_eq q2_eq sqrt_e1 sqrt_e2.

(** ** the curve of G2: y^2 = x^3 + 4 (1 + u) *)
Definition four (K : field) : K := (((1 + 1) * (1 + 1)) : K)%fld.
Definition bls_b2 : Bls2 := (four Bls2 * xi bls_N1)%fld.
Section Norm.
  Variable F : field.
  Hypothesis N1 : forall x : F, (x * x)%fld <> fopp f1.
  Local Notation K := (Fp2 N1).
  Add Field Fn : (fth F).
  Add Field Kn : (fth K).
  Local Open Scope fld_scope.
  Definition nm (x : K) : F := qu_a x * qu_a x + qu_b x * qu_b x.
  Lemma nm_mul x y : nm (x * y) = nm x * nm y.
  Proof.
    destruct x as [a b], y as [c d]. change (@fmul K) with (@fp2_mul F). rewrite fp2_mul_spec. unfold nm, quad_mul. cbn [qu_a qu_b]. ring.
  Qed.
  Lemma g2_odd (H2 : (1 + 1 : F) <> 0) (C : forall x : F, x * x * x <> 1 + 1) : odd_order_curve (0 : K) (four K * xi N1).
  Proof.
    split.
    - intros E. apply H2. injection E. intros _ E'. exact E'.
    - intros x E. unfold curve_rhs in E.
      assert (NN : nm (x * x * x) = nm (- (four K * xi N1))).
      { f_equal. apply f_sub_zero. transitivity (x * x * x + 0 * x + four K * xi N1); [|exact E]. ring. }
      assert (V : nm (- (four K * xi N1)) = four F * four F * (1 + 1)).
      { unfold nm, four, xi. cbn. ring. }
      rewrite !nm_mul, V in NN. set (t := nm x) in *. clearbody t.
      assert (T : t <> 0).
      { intros T. rewrite T in NN. apply (f_mul_neq (f_mul_neq (f_mul_neq H2 H2) (f_mul_neq H2 H2)) H2). unfold four in NN. rewrite <- NN. ring. }
      apply (C (four F / t)). unfold four in *. transitivity ((1 + 1) * (1 + 1) * ((1 + 1) * (1 + 1)) * (1 + 1) * (1 + 1) / (t * t * t)); [field; exact T|].
      rewrite NN. apply f_div_eq; [repeat apply f_mul_neq; exact H2|ring].
  Qed.
  Lemma b_quad : four K * xi N1 = (Quad (four F) (four F) : K).
  Proof. unfold four, xi. apply quad_eq; cbn; ring. Qed.
  Lemma b3_quad : 3 * (four K * xi N1) = (Quad (3 * four F) (3 * four F) : K).
  Proof. unfold four, xi. apply quad_eq; cbn; ring. Qed.
End Norm.
Lemma bls_two_no_cube : forall x : BlsFp, (x * x * x)%fld <> (1 + 1)%fld.
Proof. exact (two_no_cube pN_j bls_fermat bls_two bls_HC2). Qed.
Lemma bls_g2_odd : odd_order_curve (f0 : Bls2) bls_b2.
Proof. exact (g2_odd bls_N1 bls_two bls_two_no_cube). Qed.

Lemma rv_small (x : BlsFp) v w : rv x v -> 0 <= w < bls_p -> v mod bls_p = w -> rv x w.
Proof. intros X W E. eapply rv_cong; [exact X|exact W|]. apply cong_sym. rewrite <- E. apply cong_mod, p_pos. Qed.
Lemma rv_four : rv (four BlsFp) 4.
Proof. eapply rv_small; [exact (rv_mul _ _ _ _ rv_two rv_two)|vm_compute; split; [discriminate|reflexivity]|vm_compute; reflexivity]. Qed.
Lemma rv_twelve : rv (3 * four BlsFp)%fld 12.
Proof.
  eapply rv_small; [exact (rv_mul _ _ _ _ (rv_add _ _ _ _ rv_two rv_1) rv_four)|vm_compute; split; [discriminate|reflexivity]|vm_compute; reflexivity].
Qed.
Lemma bls_b2_const : (bls_g2_b : Bls2) = bls_b2.
Proof.
  etransitivity; [|symmetry; exact (b_quad bls_N1)]. unfold bls_g2_b.
  apply f_equal2; (eapply rv_eq; [apply (rv_const _ 4); vm_compute; reflexivity|exact rv_four|apply cong_refl]).
Qed.
Lemma bls_b3_const : (bls_g2_3b : Bls2) = (3 * bls_b2)%fld.
Proof.
  etransitivity; [|symmetry; exact (b3_quad bls_N1)]. unfold bls_g2_3b.
  apply f_equal2; (eapply rv_eq; [apply (rv_const _ 12); vm_compute; reflexivity|exact rv_twelve|apply cong_refl]).
Qed.
(** fp2.go:206-209 [MulBy3b] *)
Definition g2_m3b (x : Bls2) : Bls2 := fp2_mul x bls_g2_3b.
Section M3.
  Variable K : field.
  Add Field Km : (fth K).
  Lemma m3_comm (x b c : K) : c = (3 * b)%fld -> (x * c = (1 + 1 + 1) * b * x)%fld.
  Proof. intros ->. ring. Qed.
End M3.
Lemma g2_m3b_is (x : Bls2) : g2_m3b x = ((1 + 1 + 1) * bls_b2 * x)%fld.
Proof. unfold g2_m3b. exact (m3_comm x bls_b3_const). Qed.

(** ** the factors the final exponentiation removes *)
Section Kill.
  Variable F : field.
  Hypothesis N1 : forall x : F, (x * x)%fld <> fopp f1.
  Local Notation K := (Fp2 N1).
  Hypothesis N3 : forall x : K, (x * x * x)%fld <> xi N1.
  Local Notation L := (Fp6 N3).
  Hypothesis N2 : forall x : L, (x * x)%fld <> vv N3.
  Local Notation M := (Fp12 N2).
  Add Field Fk : (fth F).
  Add Field Kk : (fth K).
  Add Field Lk : (fth L).
  Add Field Mk : (fth M).
  Local Open Scope fld_scope.
  Variables (p fe h : N).
  Hypothesis CP : forall x : M, (fp12_conjugate x : M) = fpow x (p ^ 6).
  Hypothesis P0 : (1 <= p ^ 6)%N.
  Hypothesis FEX : fe = ((p ^ 6 - 1) * (p * p + 1) * h)%N.
  Hypothesis PE : exists k, (p * p + 1 = 2 * k)%N.
  Lemma cj_emb12 (a : L) : cj (emb12 N2 a) = emb12 N2 a.
  Proof.
    unfold cj, emb12, fp12_of_fp6, fp12_conjugate. cbn [qu_a qu_b]. apply quad_eq; cbn [qu_a qu_b]; [reflexivity|].
    change (@fp6_neg F) with (@fopp L). change (fp6_zero F) with (f0 : L). match goal with |- @eq _ ?a ?b => change (@eq (car L) (a : car L) (b : car L)) end. ring.
  Qed.
  Lemma cj_ww : cj (ww N2) = - ww N2.
  Proof.
    change (@fopp M) with (@fp12_neg F). unfold cj, ww, fp12_conjugate, fp12_neg. cbn [qu_a qu_b]. apply quad_eq; cbn [qu_a qu_b]; [|reflexivity].
    change (@fp6_neg F) with (@fopp L). change (fp6_zero F) with (f0 : L). match goal with |- @eq _ ?a ?b => change (@eq (car L) (a : car L) (b : car L)) end. ring.
  Qed.
  Lemma pow_pred (z t : M) : z <> 0 -> fpow z (p ^ 6) = t * z -> fpow z (p ^ 6 - 1) = t.
  Proof.
    intros Z E. apply (f_cancel Z). transitivity (fpow z (p ^ 6)).
    - replace (p ^ 6)%N with ((p ^ 6 - 1) + 1)%N at 2 by lia. rewrite fpow_add, fpow_1. ring.
    - rewrite E. ring.
  Qed.
  Lemma kill_m1 (z : M) : z <> 0 -> cj z = - z -> fpow z fe = 1.
  Proof.
    intros Z E. rewrite FEX, !fpow_mul. rewrite (@pow_pred z (fopp f1) Z).
    - destruct PE as [k ->]. rewrite fpow_mul, fpow_2. replace (fopp f1 * fopp f1 : M) with (1 : M) by ring. rewrite !fpow_one. reflexivity.
    - rewrite <- CP. change (fp12_conjugate z : M) with (cj z). rewrite E. ring.
  Qed.
  Lemma kill_1 (z : M) : z <> 0 -> cj z = z -> fpow z fe = 1.
  Proof.
    intros Z E. rewrite FEX, !fpow_mul. rewrite (@pow_pred z (f1 : M) Z).
    - rewrite !fpow_one. reflexivity.
    - rewrite <- CP. change (fp12_conjugate z : M) with (cj z). rewrite E. ring.
  Qed.
  Lemma kill (a : K) : a <> 0 -> fpow (eK N2 a * (ww N2 * ww N2 * ww N2)) fe = 1.
  Proof.
    intros A. apply kill_m1.
    - assert (W : ww N2 <> 0) by apply ww_neq. repeat apply f_mul_neq; try exact W. apply (hneq (phi := eK N2)); [apply eK_1|apply eK_mul|exact A].
    - rewrite !cj_mul, cj_ww. unfold eK. rewrite cj_emb12. ring.
  Qed.
End Kill.

Lemma pN_even : exists k, (pN * pN + 1 = 2 * k)%N.
Proof. exists ((pN * pN + 1) / 2)%N. vm_compute. reflexivity. Qed.
Lemma pN6 : (1 <= pN ^ 6)%N. Proof. apply pow_ge, pN_ge. Qed.
Definition hardN : N := Z.to_N (hard (Z.of_N pN) bls_param_x).
Lemma feN_form : feN = ((pN ^ 6 - 1) * (pN * pN + 1) * hardN)%N. Proof. reflexivity. Qed.
Definition bls_kill (a : Bls2) : a <> f0 -> fpow (eK bls_N2 a * (ww bls_N2 * ww bls_N2 * ww bls_N2))%fld feN = f1 :=
  kill bls_conj_pow pN6 feN_form pN_even (a := a).
Definition bls_kill_1 (z : Bls12) : z <> f0 -> cj z = z -> fpow z feN = f1 :=
  kill_1 bls_conj_pow pN6 feN_form (z := z).
Notation bls_result := (engine_result bls_pm1Div3 bls_p2m2Div3 bls_pm1Div6 bls_g2_gen).
Lemma rN_prime : prime (Z.of_N rN). Proof. rewrite rN_Z. exact bls_r_prime. Qed.
Lemma rN_big : (2 ^ 63 < rN)%N. Proof. vm_compute. reflexivity. Qed.
Definition bls_one_pair (P : pt BlsFp) (Q : g2pt BlsFp) :=
  @res_miller BlsFp bls_N1 bls_N3 bls_N2 bls_pm1Div3 bls_p2m2Div3 bls_pm1Div6 bls_g2_gen feN bls_FE bls_b2 bls_g2_odd bls_kill rN rN_prime rN_big P Q.
Lemma rN_big64 : (2 ^ 64 < rN)%N. Proof. vm_compute. reflexivity. Qed.
Definition bls_miller_neq (x y : Bls2) (p : pt BlsFp) :=
  @miller_neq BlsFp bls_N1 bls_N3 bls_N2 bls_b2 bls_g2_odd rN x y p rN_prime.
