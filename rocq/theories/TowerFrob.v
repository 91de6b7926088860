(** The Frobenius maps of fp2.go, fp6.go and fp12.go are the p-th power, over any base field in which x^p = x, p = 48j + 43
    and 2 is neither a square nor a cube. *)
From Coq Require Import Field Field_theory Ring Ring_theory ZArith NArith Lia Bool List Znumtheory.
From Verif Require Import EcField TowerModel TowerSpec TowerAlg TowerField.
Set Implicit Arguments.
Unset Strict Implicit.
Local Open Scope fld_scope.

Section Hom.
  Variables (K L : field) (phi : K -> L).
  Hypothesis H1 : phi 1 = 1.
  Hypothesis HM : forall x y, phi (x * y) = phi x * phi y.
  Lemma hom_pow x n : phi (fpow x n) = fpow (phi x) n.
  Proof. induction n as [|n IH] using N.peano_ind; [exact H1|]. rewrite !fpow_succ, HM, IH. reflexivity. Qed.
  Hypothesis H0 : phi 0 = 0.
  Hypothesis HA : forall x y, phi (x + y) = phi x + phi y.
  Lemma hom_fz n : phi (fz K n) = fz L n.
  Proof. induction n as [|n IH] using N.peano_ind; [exact H0|]. rewrite !fz_succ, HA, IH, H1. reflexivity. Qed.
End Hom.

Section Base.
  Variables (F : field) (p j : N).
  Add Field Fb : (fth F).
  Hypothesis Pj : p = (48 * j + 43)%N.
  Hypothesis FM : forall x : F, fpow x p = x.
  Hypothesis T0 : (1 + 1 : F) <> 0.
  Definition kk : N := (4 * j + 3)%N.
  Definition ee : F := fpow (1 + 1) kk.
  Definition cc : F := (1 + 1) * (ee * ee).
  Hypothesis HC3 : cc * cc * cc = fopp f1.
  Hypothesis HC2 : cc * cc <> 1.
  Lemma fermat_1 (x : F) : x <> 0 -> fpow x (12 * kk + 6) = 1.
  Proof.
    intros X. apply (f_cancel X). transitivity (fpow x (N.succ (12 * kk + 6))); [rewrite fpow_succ; ring|].
    replace (N.succ (12 * kk + 6)) with p by (unfold kk; lia). rewrite FM. ring.
  Qed.
  Lemma one_neq_m1 : (1 : F) <> fopp f1.
  Proof. intros E. apply T0. transitivity (fopp f1 + 1 : F); [f_equal; exact E|ring]. Qed.
  Lemma m1_pow n : fpow (fopp f1 : F) (2 * n) = 1.
  Proof. rewrite fpow_mul, fpow_2. replace (fopp f1 * fopp f1 : F) with (1 : F) by ring. apply fpow_one. Qed.
  Lemma m1_neq : (fopp f1 : F) <> 0.
  Proof. intros E. apply (@f_one_zero F). replace (1 : F) with (fopp (fopp f1) : F) by ring. rewrite E. ring. Qed.
  Lemma sq_neq (x y : F) : y <> 0 -> x * x = y -> x <> 0.
  Proof. intros Y E X. apply Y. rewrite <- E, X. ring. Qed.
  Lemma m1_no_square (x : F) : x * x <> fopp f1.
  Proof.
    intros E. apply one_neq_m1. pose proof (fermat_1 (sq_neq m1_neq E)) as H. transitivity (fpow x (12 * kk + 6)); [symmetry; exact H|].
    replace (12 * kk + 6)%N with (2 * (2 * (3 * kk + 1) + 1))%N by lia.
    rewrite (fpow_mul x 2), fpow_2, E, fpow_add, m1_pow, fpow_1. ring.
  Qed.
  Lemma cc_pow : cc = fpow (1 + 1) (2 * kk + 1).
  Proof. replace (2 * kk + 1)%N with (kk + kk + 1)%N by lia. rewrite !fpow_add, fpow_1. unfold cc, ee. ring. Qed.
  Lemma two_no_square (x : F) : x * x <> 1 + 1.
  Proof.
    intros E. apply one_neq_m1. pose proof (fermat_1 (sq_neq T0 E)) as H. transitivity (fpow x (12 * kk + 6)); [symmetry; exact H|]. rewrite <- HC3.
    replace (12 * kk + 6)%N with (2 * ((2 * kk + 1) + (2 * kk + 1) + (2 * kk + 1)))%N by lia.
    rewrite (fpow_mul x 2), fpow_2, E, cc_pow. generalize (2 * kk + 1)%N. intros q. rewrite !fpow_add. reflexivity.
  Qed.
  Lemma two_no_cube (x : F) : x * x * x <> 1 + 1.
  Proof.
    intros E. apply HC2.
    assert (X : x <> 0) by (intros X; apply T0; rewrite <- E, X; ring).
    pose proof (fermat_1 X) as H. transitivity (fpow x (12 * kk + 6)); [|exact H].
    replace (12 * kk + 6)%N with (3 * ((2 * kk + 1) + (2 * kk + 1)))%N by lia.
    rewrite (fpow_mul x 3), fpow_3, E, cc_pow. generalize (2 * kk + 1)%N. intros q. rewrite !fpow_add. reflexivity.
  Qed.
  (** c is a primitive sixth root of unity *)
  Lemma cc_quad : cc * cc = cc - 1.
  Proof.
    assert (H : (cc + 1) * (cc * cc - (cc - 1)) = 0) by (transitivity (cc * cc * cc + 1); [ring|rewrite HC3; ring]).
    destruct (f_integral H) as [E|E]; [|apply f_sub_zero, E]. exfalso. apply HC2.
    replace cc with ((cc + 1) - 1) by ring. rewrite E. ring.
  Qed.
End Base.

Section Frob2.
  Variables (F : field) (p j : N).
  Add Field Ff : (fth F).
  Hypothesis PR : prime (Z.of_N p).
  Hypothesis CH : fz F p = 0.
  Hypothesis Pj : p = (48 * j + 43)%N.
  Hypothesis FM : forall x : F, fpow x p = x.
  Hypothesis N1 : forall x : F, x * x <> fopp f1.
  Local Notation K := (Fp2 N1).
  Local Notation xi := (xi N1).
  Add Field Kf : (fth K).
  Definition emb2 (a : F) : K := fp2_of_fp a.
  Lemma emb2_1 : emb2 1 = 1. Proof. reflexivity. Qed.
  Lemma emb2_0 : emb2 0 = 0. Proof. reflexivity. Qed.
  Lemma emb2_mul a b : emb2 (a * b) = emb2 a * emb2 b. Proof. apply quad_eq; cbn; ring. Qed.
  Lemma emb2_add a b : emb2 (a + b) = emb2 a + emb2 b. Proof. apply quad_eq; cbn; ring. Qed.
  Lemma emb2_sub a b : emb2 (a - b) = emb2 a - emb2 b. Proof. apply quad_eq; cbn; ring. Qed.
  Lemma emb2_opp a : emb2 (- a) = - emb2 a. Proof. apply quad_eq; cbn; ring. Qed.
  Lemma emb2_pow a n : emb2 (fpow a n) = fpow (emb2 a) n. Proof. apply (hom_pow (phi := emb2) emb2_1 emb2_mul). Qed.
  Lemma char2 : fz K p = 0.
  Proof. rewrite <- (hom_fz (phi := emb2) emb2_1 emb2_0 emb2_add), CH. reflexivity. Qed.
  Definition uu : K := Quad 0 1.
  Lemma uu_sq : uu * uu = fopp (f1 : K). Proof. apply quad_eq; cbn; ring. Qed.
  Lemma uu_3 : fpow uu 3 = fopp uu.
  Proof. rewrite fpow_3, uu_sq. ring. Qed.
  Lemma uu_4 n : fpow uu (4 * n) = (1 : K).
  Proof.
    rewrite fpow_mul. replace (fpow uu 4) with (1 : K); [apply fpow_one|].
    change 4%N with (3 + 1)%N. rewrite fpow_add, fpow_1, uu_3. transitivity (fopp (uu * uu)); [rewrite uu_sq; ring|ring].
  Qed.
  Lemma uu_p : fpow uu p = fopp uu.
  Proof. replace p with (4 * (12 * j + 10) + 3)%N by lia. rewrite fpow_add, uu_4, uu_3. ring. Qed.
  Lemma split2 (x : K) : x = emb2 (qu_a x) + emb2 (qu_b x) * uu.
  Proof. apply quad_eq; cbn; ring. Qed.
  Lemma conj_split (x : K) : (fp2_conjugate x : K) = emb2 (qu_a x) - emb2 (qu_b x) * uu.
  Proof. apply quad_eq; cbn; ring. Qed.
  Lemma frob2 (x : fp2 F) : fp2_frobenius x = fpow (x : K) p.
  Proof.
    rewrite (split2 x) at 2. rewrite (pow_p_add _ _ PR char2), fpow_mulb, <- !emb2_pow, !FM, uu_p.
    unfold fp2_frobenius. match goal with |- @eq _ ?a ?b => change (@eq (car K) (a : car K) (b : car K)) end. rewrite conj_split. ring.
  Qed.
  Lemma conj_is_hom (x y : K) : (fp2_conjugate (x * y) : K) = (fp2_conjugate x : K) * (fp2_conjugate y : K).
  Proof. apply fp2_conj_mul. Qed.

  (** powers of xi = 1 + u *)
  Lemma xi_sq : xi * xi = emb2 (1 + 1) * uu. Proof. apply quad_eq; cbn; ring. Qed.
  Lemma xi_pow6 : fpow xi (2 * kk j + 1) = emb2 (ee F j) * (1 - uu).
  Proof.
    rewrite fpow_add, fpow_1, fpow_mul, fpow_2, xi_sq, fpow_mulb, <- emb2_pow. change (fpow (1 + 1) (kk j)) with (ee F j).
    unfold kk at 1. rewrite fpow_add, uu_4, uu_3. replace xi with (1 + uu) by (apply quad_eq; cbn; ring).
    transitivity (emb2 (ee F j) * (fopp uu - uu * uu)); [ring|]. rewrite uu_sq. ring.
  Qed.
  Lemma xi_pow3 : fpow xi (2 * (2 * kk j + 1)) = fopp (emb2 (cc F j) * uu).
  Proof.
    rewrite N.mul_comm, fpow_mul, fpow_2, xi_pow6. unfold cc. rewrite !emb2_mul, emb2_add, emb2_1.
    transitivity (emb2 (ee F j) * emb2 (ee F j) * (1 - (1 + 1) * uu + uu * uu)); [ring|]. rewrite uu_sq. ring.
  Qed.
  Lemma xi_pow3x2 : fpow xi (4 * (2 * kk j + 1)) = fopp (emb2 (cc F j * cc F j)).
  Proof.
    replace (4 * (2 * kk j + 1))%N with (2 * (2 * kk j + 1) * 2)%N by ring. rewrite fpow_mul, fpow_2, xi_pow3, emb2_mul.
    transitivity (emb2 (cc F j) * emb2 (cc F j) * (uu * uu)); [ring|]. rewrite uu_sq. ring.
  Qed.
  Lemma xi_pow6_q : fpow xi (2 * kk j + 1) = Quad (ee F j) (fopp (ee F j)).
  Proof. rewrite xi_pow6. generalize (ee F j). intros e. apply quad_eq; cbn; ring. Qed.
  Lemma xi_pow3_q : fpow xi (2 * (2 * kk j + 1)) = Quad f0 (fopp (cc F j)).
  Proof. rewrite xi_pow3. generalize (cc F j). intros e. apply quad_eq; cbn; ring. Qed.
  Lemma xi_pow33_q : fpow xi (4 * (2 * kk j + 1)) = Quad (fopp (cc F j * cc F j)) f0.
  Proof. rewrite xi_pow3x2. generalize (cc F j). intros e. apply quad_eq; cbn; ring. Qed.
End Frob2.

Section Frob6.
  Variables (F : field) (p j : N).
  Hypothesis PR : prime (Z.of_N p).
  Hypothesis CH : fz F p = 0.
  Hypothesis Pj : p = (48 * j + 43)%N.
  Hypothesis FM : forall x : F, fpow x p = x.
  Hypothesis N1 : forall x : F, x * x <> fopp f1.
  Local Notation K := (Fp2 N1).
  Local Notation xi := (xi N1).
  Add Field Kf : (fth K).
  Hypothesis N3 : forall x : K, x * x * x <> xi.
  Local Notation L := (Fp6 N3).
  Add Field Lf : (fth L).
  Ltac toK :=
    rewrite ?fp2_square_spec, ?fp2_double_spec, ?fp2_nr_spec;
    change (@fp2_mul F) with (@fmul K); change (@fp2_add F) with (@fadd K); change (@fp2_sub F) with (@fsub K);
    change (@fp2_neg F) with (@fopp K); change (Quad (1 : F) 1) with xi; change (fp2_zero F) with (f0 : K); change (fp2_one F) with (f1 : K).
  Ltac eqK := match goal with |- @eq _ ?a ?b => change (@eq (car K) (a : car K) (b : car K)) end.
  Ltac eqL := match goal with |- @eq _ ?a ?b => change (@eq (car L) (a : car L) (b : car L)) end.
  Ltac c3 :=
    change (@fmul L) with (@fp6_mul F); change (@fadd L) with (@fp6_add F); change (@fsub L) with (@fp6_sub F); change (@fopp L) with (@fp6_neg F);
    change (f0 : L) with (fp6_zero F); change (f1 : L) with (fp6_one F);
    apply cubic_eq; cbn -[fp2_mul fp2_add fp2_sub fp2_neg fp2_square fp2_double fp2_mul_nr fp2_zero fp2_one fmul fadd fsub fopp]; toK; eqK; ring.
  Definition emb6 (a : K) : L := fp6_of_fp2 a.
  Lemma emb6_1 : emb6 1 = 1. Proof. reflexivity. Qed.
  Lemma emb6_0 : emb6 0 = 0. Proof. reflexivity. Qed.
  Lemma emb6_mul a b : emb6 (a * b) = emb6 a * emb6 b. Proof. unfold emb6, fp6_of_fp2. c3. Qed.
  Lemma emb6_add a b : emb6 (a + b) = emb6 a + emb6 b. Proof. unfold emb6, fp6_of_fp2. c3. Qed.
  Lemma emb6_pow a n : emb6 (fpow a n) = fpow (emb6 a) n. Proof. apply (hom_pow (phi := emb6) emb6_1 emb6_mul). Qed.
  Lemma char6 : fz L p = 0.
  Proof. rewrite <- (hom_fz (phi := emb6) emb6_1 emb6_0 emb6_add), (char2 CH N1). reflexivity. Qed.
  Local Notation vv := (vv N3).
  Lemma vv_3 : fpow vv 3 = emb6 xi.
  Proof. rewrite fpow_3. unfold vv, emb6, fp6_of_fp2. c3. Qed.
  Lemma split6 (x : cubic K) : (x : L) = emb6 (cu_a x) + emb6 (cu_b x) * vv + emb6 (cu_c x) * (vv * vv).
  Proof. destruct x as [a b c]. unfold vv, emb6, fp6_of_fp2. c3. Qed.
  Lemma vv_p : fpow vv p = vv * emb6 (fpow xi (2 * (2 * kk j + 1))).
  Proof.
    replace p with (1 + 3 * (2 * (2 * kk j + 1)))%N by (unfold kk; lia).
    rewrite fpow_add, fpow_1, fpow_mul, vv_3, <- emb6_pow. reflexivity.
  Qed.
  Variables g3 g33 : fp2 F.
  Hypothesis G3 : g3 = fpow xi (2 * (2 * kk j + 1)).
  Hypothesis G33 : g33 = fpow xi (4 * (2 * kk j + 1)).
  Lemma frob6 (x : fp6 F) : fp6_frobenius g3 g33 x = fpow (x : L) p.
  Proof.
    rewrite (split6 x) at 2. rewrite !(pow_p_add _ _ PR char6), !fpow_mulb, <- !emb6_pow, <- !(frob2 PR CH Pj FM), vv_p, <- G3.
    unfold fp6_frobenius. cbv zeta. eqL.
    replace g33 with ((g3 : K) * g3) by (rewrite G3, G33, <- fpow_add; f_equal; lia).
    etransitivity; [apply split6|]. cbn [cu_a cu_b cu_c]. change (@fp2_mul F) with (@fmul K).
    rewrite !emb6_mul. destruct x as [xa xb xc]. cbn [cu_a cu_b cu_c]. ring.
  Qed.
End Frob6.

Section Frob12.
  Variables (F : field) (p j : N).
  Hypothesis PR : prime (Z.of_N p).
  Hypothesis CH : fz F p = 0.
  Hypothesis Pj : p = (48 * j + 43)%N.
  Hypothesis FM : forall x : F, fpow x p = x.
  Hypothesis N1 : forall x : F, x * x <> fopp f1.
  Local Notation K := (Fp2 N1).
  Local Notation xi := (xi N1).
  Hypothesis N3 : forall x : K, x * x * x <> xi.
  Local Notation L := (Fp6 N3).
  Local Notation vv := (vv N3).
  Add Field Lf : (fth L).
  Hypothesis N2 : forall x : L, x * x <> vv.
  Local Notation M := (Fp12 N2).
  Add Field Mf : (fth M).
  Ltac eqL := match goal with |- @eq _ ?a ?b => change (@eq (car L) (a : car L) (b : car L)) end.
  Ltac eqM := match goal with |- @eq _ ?a ?b => change (@eq (car M) (a : car M) (b : car M)) end.
  Ltac toL :=
    rewrite ?(@fp6_square_spec F N1), ?(@fp6_nr_spec F N1); unfold fp6_double;
    change (@fp6_mul F) with (@fmul L); change (@fp6_add F) with (@fadd L); change (@fp6_sub F) with (@fsub L);
    change (@fp6_neg F) with (@fopp L); change (Cubic (fp2_zero F) (fp2_one F) (fp2_zero F)) with vv;
    change (fp6_zero F) with (f0 : L); change (fp6_one F) with (f1 : L).
  Ltac q12 :=
    change (@fmul M) with (@fp12_mul F); change (@fadd M) with (@fp12_add F); change (@fsub M) with (@fp12_sub F); change (@fopp M) with (@fp12_neg F);
    change (f0 : M) with (fp12_zero F); change (f1 : M) with (fp12_one F);
    apply quad_eq; cbn -[fp6_mul fp6_add fp6_sub fp6_neg fp6_square fp6_double fp6_mul_nr fp6_zero fp6_one fmul fadd fsub fopp fp6_mul_by_b fp6_mul_by_ab]; toL; eqL; ring.
  Definition emb12 (a : L) : M := fp12_of_fp6 a.
  Lemma emb12_1 : emb12 1 = 1. Proof. reflexivity. Qed.
  Lemma emb12_0 : emb12 0 = 0. Proof. reflexivity. Qed.
  Lemma emb12_mul a b : emb12 (a * b) = emb12 a * emb12 b. Proof. unfold emb12, fp12_of_fp6. q12. Qed.
  Lemma emb12_add a b : emb12 (a + b) = emb12 a + emb12 b. Proof. unfold emb12, fp12_of_fp6. q12. Qed.
  Lemma emb12_pow a n : emb12 (fpow a n) = fpow (emb12 a) n. Proof. apply (hom_pow (phi := emb12) emb12_1 emb12_mul). Qed.
  Lemma char12 : fz M p = 0.
  Proof. rewrite <- (hom_fz (phi := emb12) emb12_1 emb12_0 emb12_add), (char6 CH N3). reflexivity. Qed.
  Definition ww : M := Quad (fp6_zero F) (fp6_one F).
  Lemma ww_2 : fpow ww 2 = emb12 vv.
  Proof. rewrite fpow_2. unfold ww, emb12, fp12_of_fp6. q12. Qed.
  Lemma split12 (x : quad L) : (x : M) = emb12 (qu_a x) + emb12 (qu_b x) * ww.
  Proof. destruct x as [a b]. unfold ww, emb12, fp12_of_fp6. q12. Qed.
  Lemma ww_p : fpow ww p = ww * emb12 (emb6 N3 (fpow xi (2 * kk j + 1))).
  Proof.
    replace p with (1 + 2 * (3 * (2 * kk j + 1)))%N by (unfold kk; lia).
    rewrite fpow_add, fpow_1, (fpow_mul ww 2), ww_2, <- emb12_pow, fpow_mul, vv_3, <- emb6_pow. reflexivity.
  Qed.
  Variables g3 g33 g6 : fp2 F.
  Hypothesis G3 : g3 = fpow xi (2 * (2 * kk j + 1)).
  Hypothesis G33 : g33 = fpow xi (4 * (2 * kk j + 1)).
  Hypothesis G6 : g6 = fpow xi (2 * kk j + 1).
  Lemma frob12 (x : fp12 F) : fp12_frobenius g3 g33 g6 x = fpow (x : M) p.
  Proof.
    rewrite (split12 x) at 2. rewrite !(pow_p_add _ _ PR char12), !fpow_mulb, <- !emb12_pow, <- !(frob6 PR CH Pj FM N3 G3 G33), ww_p, <- G6.
    unfold fp12_frobenius. cbv zeta. eqM.
    etransitivity; [apply split12|]. cbn [qu_a qu_b]. change (@fp6_mul F) with (@fmul L).
    change (Cubic g6 (fp2_zero F) (fp2_zero F)) with (emb6 N3 g6). rewrite !emb12_mul. destruct x as [xa xb]. cbn [qu_a qu_b]. ring.
  Qed.
End Frob12.
