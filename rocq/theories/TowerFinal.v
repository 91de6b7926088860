(** The cyclotomic subgroup, gt.go's cyclotomicSquare and cyclotomicExp, and FinalExponentiation as a power. *)
From Coq Require Import Field Field_theory Ring Ring_theory ZArith NArith Lia Bool List Znumtheory.
From Verif Require Import EcField NativeField BlsFp TowerModel TowerSpec TowerAlg TowerField TowerFrob.
Import ListNotations.
Set Implicit Arguments.
Unset Strict Implicit.
Local Open Scope fld_scope.

Lemma f_eq_sub (K : field) (x y : K) : x = y -> x - y = 0.
Proof. intros ->. rewrite (Rsub_def (F_R (fth K))). apply (Ropp_def (F_R (fth K))). Qed.

Section Final.
  Variables (F : field) (p j : N).
  Hypothesis PR : prime (Z.of_N p).
  Hypothesis CH : fz F p = 0.
  Hypothesis Pj : p = (48 * j + 43)%N.
  Hypothesis FM : forall x : F, fpow x p = x.
  Hypothesis T0 : (1 + 1 : F) <> 0.
  Hypothesis HC3 : cc F j * cc F j * cc F j = fopp f1.
  Hypothesis HC2 : cc F j * cc F j <> 1.
  Hypothesis N1 : forall x : F, x * x <> fopp f1.
  Local Notation K := (Fp2 N1).
  Local Notation xi := (xi N1).
  Add Field Ff : (fth F).
  Add Field Kf : (fth K).
  Hypothesis N3 : forall x : K, x * x * x <> xi.
  Local Notation L := (Fp6 N3).
  Local Notation vv := (vv N3).
  Add Field Lf : (fth L).
  Hypothesis N2 : forall x : L, x * x <> vv.
  Local Notation M := (Fp12 N2).
  Local Notation ww := (ww N2).
  Add Field Mf : (fth M).
  Variables g3 g33 g6 : fp2 F.
  Hypothesis G3 : g3 = fpow xi (2 * (2 * kk j + 1)).
  Hypothesis G33 : g33 = fpow xi (4 * (2 * kk j + 1)).
  Hypothesis G6 : g6 = fpow xi (2 * kk j + 1).
  Ltac eqK := match goal with |- @eq _ ?a ?b => change (@eq (car K) (a : car K) (b : car K)) end.
  Ltac eqM := match goal with |- @eq _ ?a ?b => change (@eq (car M) (a : car M) (b : car M)) end.

  Definition cK : K := emb2 N1 (cc F j).
  Lemma cK_quad : cK * cK = cK - 1.
  Proof. unfold cK. rewrite <- emb2_mul, (cc_quad HC3 HC2), emb2_sub. reflexivity. Qed.
  Lemma cK_neq : cK <> 0.
  Proof. intros E. apply (@f_one_zero K). pose proof cK_quad as H. rewrite E in H. replace (1 : K) with (0 * 0 - (0 - 1) : K) by ring. rewrite H. ring. Qed.
  Lemma g6_norm : (g6 : K) * (fpow (g6 : K) p) = cK.
  Proof.
    rewrite <- (frob2 PR CH Pj FM). rewrite G6, (xi_pow6 j N1). unfold cK, cc. apply quad_eq; cbn; ring.
  Qed.
  Definition embK (a : K) : M := emb12 N2 (emb6 N3 a).
  Lemma embK_mul a b : embK (a * b) = embK a * embK b. Proof. unfold embK. now rewrite emb6_mul, emb12_mul. Qed.
  Lemma embK_add a b : embK (a + b) = embK a + embK b. Proof. unfold embK. now rewrite emb6_add, emb12_add. Qed.
  Lemma embK_pow a n : embK (fpow a n) = fpow (embK a) n. Proof. unfold embK. now rewrite emb6_pow, emb12_pow. Qed.
  Lemma phi_add (x y : M) : fpow (x + y) p = fpow x p + fpow y p. Proof. apply (pow_p_add _ _ PR (char12 CH N2)). Qed.
  Definition phi2 (x : M) : M := fpow x (p * p).
  Lemma phi2_add x y : phi2 (x + y) = phi2 x + phi2 y. Proof. unfold phi2. now rewrite !fpow_mul, !phi_add. Qed.
  Lemma phi2_mul x y : phi2 (x * y) = phi2 x * phi2 y. Proof. apply fpow_mulb. Qed.
  Lemma phi2_embK a : phi2 (embK a) = embK a.
  Proof.
    unfold phi2. rewrite fpow_mul, <- !embK_pow, <- !(frob2 PR CH Pj FM). unfold fp2_frobenius. rewrite fp2_conj_conj. reflexivity.
  Qed.
  Lemma phi2_ww : phi2 ww = ww * embK cK.
  Proof.
    unfold phi2. rewrite fpow_mul, (ww_p Pj N2), <- G6, fpow_mulb, (ww_p Pj N2), <- G6. fold (embK g6).
    rewrite <- embK_pow, <- g6_norm, embK_mul. ring.
  Qed.
  (** the coordinates of x = sum x_i w^i, in the order of the records *)
  Definition coord (x0 x1 x2 x3 x4 x5 : K) : M := Quad (Cubic x0 x2 x4) (Cubic x1 x3 x5).
  Lemma coord_split x0 x1 x2 x3 x4 x5 : coord x0 x1 x2 x3 x4 x5 =
    embK x0 + embK x1 * ww + embK x2 * fpow ww 2 + embK x3 * (ww * fpow ww 2) + embK x4 * fpow ww 4 + embK x5 * (ww * fpow ww 4).
  Proof.
    change 4%N with (2 + 2)%N. rewrite fpow_add, (ww_2 N2). unfold coord, embK.
    etransitivity; [apply split12|]. cbn [qu_a qu_b].
    rewrite (split6 N3 (Cubic x0 x2 x4)), (split6 N3 (Cubic x1 x3 x5)). cbn [cu_a cu_b cu_c].
    rewrite !emb12_add, !emb12_mul. ring.
  Qed.
  Lemma phi2_coord x0 x1 x2 x3 x4 x5 : phi2 (coord x0 x1 x2 x3 x4 x5) =
    coord x0 (cK * x1) ((cK - 1) * x2) (fopp x3) (fopp (cK * x4)) ((1 - cK) * x5).
  Proof.
    rewrite !coord_split, !phi2_add, !phi2_mul, !phi2_embK.
    change 4%N with (2 + 2)%N. rewrite !fpow_add, !fpow_2, !phi2_mul, !phi2_ww.
    assert (E2 : embK cK * embK cK = embK (cK - 1)) by (rewrite <- embK_mul, cK_quad; reflexivity).
    assert (E3 : embK cK * embK (cK - 1) = fopp f1).
    { rewrite <- embK_mul. replace (cK * (cK - 1)) with (cK * cK - cK) by ring. rewrite cK_quad. replace (cK - 1 - cK) with (fopp f1 : K) by ring.
      unfold embK. apply quad_eq; [apply cubic_eq|apply cubic_eq]; apply quad_eq; cbn; ring. }
    assert (O : forall a, embK (fopp a) = fopp f1 * embK a).
    { intros a. rewrite <- E3, <- !embK_mul. f_equal. replace (cK * (cK - 1)) with (cK * cK - cK) by ring. rewrite cK_quad. ring. }
    rewrite !O, !embK_mul.
    replace (embK (1 - cK)) with (fopp f1 * embK (cK - 1)) by (rewrite <- O; f_equal; ring).
    set (c := embK cK) in *. set (d := embK (cK - 1)) in *. 
    transitivity (embK x0 + embK x1 * (ww * c) + embK x2 * (ww * ww * (c * c)) + embK x3 * (ww * (ww * ww) * (c * (c * c)))
       + embK x4 * (ww * ww * (ww * ww) * (c * (c * (c * c)))) + embK x5 * (ww * (ww * ww * (ww * ww)) * (c * c * (c * (c * c))))); [ring|].
    rewrite !E2, !E3. ring.
  Qed.
  Lemma conj_coord x0 x1 x2 x3 x4 x5 : (fp12_conjugate (coord x0 x1 x2 x3 x4 x5) : M) = coord x0 (fopp x1) x2 (fopp x3) x4 (fopp x5).
  Proof. reflexivity. Qed.
  Lemma is_coord (x : M) : exists x0 x1 x2 x3 x4 x5, x = coord x0 x1 x2 x3 x4 x5.
  Proof. destruct x as [[x0 x2 x4] [x1 x3 x5]]. now exists x0, x1, x2, x3, x4, x5. Qed.
  Lemma phi6 (x : M) : phi2 (phi2 (phi2 x)) = (fp12_conjugate x : M).
  Proof.
    destruct (is_coord x) as (x0 & x1 & x2 & x3 & x4 & x5 & ->). rewrite !phi2_coord, conj_coord. pose proof cK_quad as Q.
    unfold coord. apply quad_eq; cbn [qu_a qu_b]; apply cubic_eq; cbn [cu_a cu_b cu_c]; eqK; ring [Q].
  Qed.
  Lemma conj_pow (x : M) : (fp12_conjugate x : M) = fpow x (p ^ 6).
  Proof.
    rewrite <- phi6. unfold phi2. rewrite <- !fpow_mul. f_equal. change 6%N with (N.succ (N.succ (N.succ (N.succ (N.succ (N.succ 0)))))). rewrite !N.pow_succ_r', N.pow_0_r. ring.
  Qed.

  (** ** x^(p^4 - p^2 + 1) = 1 *)
  Definition cyc (x : M) : Prop := phi2 (phi2 x) * x = phi2 x.
  Lemma mul_coord x0 x1 x2 x3 x4 x5 y0 y1 y2 y3 y4 y5 : coord x0 x1 x2 x3 x4 x5 * coord y0 y1 y2 y3 y4 y5 =
    coord (x0 * y0 + xi * (x1 * y5 + x2 * y4 + x3 * y3 + x4 * y2 + x5 * y1))
          (x0 * y1 + x1 * y0 + xi * (x2 * y5 + x3 * y4 + x4 * y3 + x5 * y2))
          (x0 * y2 + x1 * y1 + x2 * y0 + xi * (x3 * y5 + x4 * y4 + x5 * y3))
          (x0 * y3 + x1 * y2 + x2 * y1 + x3 * y0 + xi * (x4 * y5 + x5 * y4))
          (x0 * y4 + x1 * y3 + x2 * y2 + x3 * y1 + x4 * y0 + xi * (x5 * y5))
          (x0 * y5 + x1 * y4 + x2 * y3 + x3 * y2 + x4 * y1 + x5 * y0).
  Proof.
    change (@fmul M) with (@fp12_mul F). rewrite (@fp12_mul_spec F N1 N3). unfold quad_mul, coord. cbn [qu_a qu_b].
    change (@fmul L) with (@fp6_mul F). change (@fadd L) with (@fp6_add F). rewrite !(@fp6_mul_spec F N1). unfold cubic_mul, vv.
    change (fp2_zero F) with (f0 : K). change (fp2_one F) with (f1 : K). 
    apply quad_eq; cbn [qu_a qu_b]; apply cubic_eq; cbn [cu_a cu_b cu_c fp6_add]; change (@fp2_add F) with (@fadd K); cbn [cu_a cu_b cu_c]; eqK; ring.
  Qed.
  Lemma coord_inj x0 x1 x2 x3 x4 x5 y0 y1 y2 y3 y4 y5 : coord x0 x1 x2 x3 x4 x5 = coord y0 y1 y2 y3 y4 y5 ->
    x0 = y0 /\ x1 = y1 /\ x2 = y2 /\ x3 = y3 /\ x4 = y4 /\ x5 = y5.
  Proof. intros [= -> -> -> -> -> ->]. auto 10. Qed.
  (** the relations of Granger and Scott *)
  Definition gs (x0 x1 x2 x3 x4 x5 : K) : Prop :=
    x0 * x0 + xi * (x3 * x3) - xi * (x1 * x5 + x4 * x2) = x0 /\
    (1 + 1) * (x0 * x3) - (x1 * x2 + xi * (x4 * x5)) = fopp x3 /\
    x0 * x1 + xi * (x3 * x4) - xi * ((1 + 1) * (x2 * x5)) = x1 /\
    x0 * x4 + x3 * x1 - (x2 * x2 + xi * (x5 * x5)) = fopp x4 /\
    x1 * x1 + xi * (x4 * x4) - (x0 * x2 + xi * (x3 * x5)) = x2 /\
    (1 + 1) * (x1 * x4) - (x0 * x5 + x3 * x2) = fopp x5.
  Lemma cyc_gs x0 x1 x2 x3 x4 x5 : cyc (coord x0 x1 x2 x3 x4 x5) <-> gs x0 x1 x2 x3 x4 x5.
  Proof.
    unfold cyc, gs. rewrite !phi2_coord, mul_coord. pose proof cK_quad as Q. pose proof cK_neq as NZ.
    assert (NZ2 : cK - 1 <> 0) by (rewrite <- Q; apply f_mul_neq; exact NZ).
    split.
    - intros E. apply coord_inj in E. destruct E as (E0 & E1 & E2 & E3 & E4 & E5). repeat split.
      + etransitivity; [|exact E0]. ring [Q].
      + etransitivity; [|exact E3]. ring [Q].
      + apply (f_cancel NZ). etransitivity; [|exact E1]. ring [Q].
      + apply (f_cancel NZ). etransitivity; [|etransitivity; [exact E4|]]; ring [Q].
      + apply (f_cancel NZ2). etransitivity; [|exact E2]. ring [Q].
      + apply (f_cancel NZ2). etransitivity; [|etransitivity; [exact E5|]]; ring [Q].
    - intros (E0 & E3 & E1 & E4 & E2 & E5). unfold coord. 
      apply quad_eq; cbn [qu_a qu_b]; apply cubic_eq; cbn [cu_a cu_b cu_c]; eqK.
      + etransitivity; [|exact E0]. ring [Q].
      + transitivity ((cK - 1) * (x1 * x1 + xi * (x4 * x4) - (x0 * x2 + xi * (x3 * x5)))); [ring [Q]|rewrite E2; ring].
      + transitivity (cK * (x0 * x4 + x3 * x1 - (x2 * x2 + xi * (x5 * x5)))); [ring [Q]|rewrite E4; ring].
      + transitivity (cK * (x0 * x1 + xi * (x3 * x4) - xi * ((1 + 1) * (x2 * x5)))); [ring [Q]|rewrite E1; ring].
      + transitivity ((1 + 1) * (x0 * x3) - (x1 * x2 + xi * (x4 * x5))); [ring [Q]|exact E3].
      + transitivity ((cK - 1) * ((1 + 1) * (x1 * x4) - (x0 * x5 + x3 * x2))); [ring [Q]|rewrite E5; ring].
  Qed.
  Lemma cycsq_coord x0 x1 x2 x3 x4 x5 : (fp12_cyclotomic_square (coord x0 x1 x2 x3 x4 x5) : M) =
    coord (3 * (x0 * x0 + xi * (x3 * x3)) - 2 * x0)
          (3 * (xi * (2 * (x2 * x5))) + 2 * x1)
          (3 * (x1 * x1 + xi * (x4 * x4)) - 2 * x2)
          (3 * (2 * (x0 * x3)) + 2 * x3)
          (3 * (x2 * x2 + xi * (x5 * x5)) - 2 * x4)
          (3 * (2 * (x1 * x4)) + 2 * x5).
  Proof.
    unfold fp12_cyclotomic_square, fp4_square, coord. cbn [qu_a qu_b cu_a cu_b cu_c]. cbv zeta.
    rewrite !fp2_square_spec, !fp2_double_spec, !fp2_nr_spec.
    change (@fp2_mul F) with (@fmul K); change (@fp2_add F) with (@fadd K); change (@fp2_sub F) with (@fsub K); change (Quad (1 : F) 1) with xi.
    apply quad_eq; cbn [qu_a qu_b]; apply cubic_eq; cbn [cu_a cu_b cu_c]; eqK; ring.
  Qed.
  Lemma T0K : (1 + 1 : K) <> 0.
  Proof. intros E. injection E as E. apply T0. rewrite <- E. reflexivity. Qed.
  Lemma half (a b : K) : 2 * a = 2 * b -> a = b. Proof. apply f_cancel, T0K. Qed.
  (** the cyclotomic square is the square exactly on these elements *)
  Lemma cycsq_iff (x : M) : (fp12_cyclotomic_square x : M) = x * x <-> cyc x.
  Proof.
    destruct (is_coord x) as (x0 & x1 & x2 & x3 & x4 & x5 & ->). rewrite cyc_gs, cycsq_coord, mul_coord. unfold gs. split.
    - intros E. apply coord_inj in E. destruct E as (E0 & E1 & E2 & E3 & E4 & E5). repeat split; apply half.
      + apply f_sub_zero. etransitivity; [|exact (f_eq_sub E0)]. ring.
      + apply f_sub_zero. etransitivity; [|exact (f_eq_sub E3)]. ring.
      + apply f_sub_zero. etransitivity; [|exact (f_eq_sub (eq_sym E1))]. ring.
      + apply f_sub_zero. etransitivity; [|exact (f_eq_sub (eq_sym E4))]. ring.
      + apply f_sub_zero. etransitivity; [|exact (f_eq_sub E2)]. ring.
      + apply f_sub_zero. etransitivity; [|exact (f_eq_sub E5)]. ring.
    - intros (E0 & E3 & E1 & E4 & E2 & E5). unfold coord.
      apply quad_eq; cbn [qu_a qu_b]; apply cubic_eq; cbn [cu_a cu_b cu_c]; eqK; apply f_sub_zero.
      + transitivity (2 * (x0 * x0 + xi * (x3 * x3) - xi * (x1 * x5 + x4 * x2) - x0)); [ring|rewrite E0; ring].
      + transitivity (2 * (x1 * x1 + xi * (x4 * x4) - (x0 * x2 + xi * (x3 * x5)) - x2)); [ring|rewrite E2; ring].
      + transitivity (fopp (2 * (x0 * x4 + x3 * x1 - (x2 * x2 + xi * (x5 * x5)) + x4))); [ring|rewrite E4; ring].
      + transitivity (fopp (2 * (x0 * x1 + xi * (x3 * x4) - xi * ((1 + 1) * (x2 * x5)) - x1))); [ring|rewrite E1; ring].
      + transitivity (2 * ((1 + 1) * (x0 * x3) - (x1 * x2 + xi * (x4 * x5)) + x3)); [ring|rewrite E3; ring].
      + transitivity (2 * ((1 + 1) * (x1 * x4) - (x0 * x5 + x3 * x2) + x5)); [ring|rewrite E5; ring].
  Qed.
  Lemma cyc_mul x y : cyc x -> cyc y -> cyc (x * y).
  Proof. unfold cyc. intros X Y. rewrite !phi2_mul. transitivity ((phi2 (phi2 x) * x) * (phi2 (phi2 y) * y)); [ring|]. rewrite X, Y. reflexivity. Qed.
  Lemma cyc_one : cyc 1.
  Proof. unfold cyc, phi2. rewrite !fpow_one. ring. Qed.
  Lemma cyc_pow x n : cyc x -> cyc (fpow x n).
  Proof. intros X. induction n as [|n IH] using N.peano_ind; [exact cyc_one|]. rewrite fpow_succ. now apply cyc_mul. Qed.
  Lemma cyc_conj x : cyc x -> x <> 0 -> (fp12_conjugate x : M) = finv x.
  Proof.
    intros C X. rewrite <- phi6. unfold cyc in C. apply (f_cancel X). rewrite f_mul_inv by exact X.
    assert (N : phi2 (phi2 x) <> 0) by (unfold phi2; apply fpow_neq, fpow_neq, X).
    apply (f_cancel N). assert (C2 : phi2 (phi2 (phi2 x)) * phi2 x = phi2 (phi2 x)) by (rewrite <- phi2_mul, C; reflexivity).
    transitivity (phi2 (phi2 (phi2 x)) * (phi2 (phi2 x) * x)); [ring|]. rewrite C, C2. ring.
  Qed.

  (** ** cyclotomicExp: the power bls_param_x, inverted *)
  Lemma cyc_fold (a : M) : cyc a -> forall l (t : M) v, t = fpow a v ->
    fst (fold_left (cyc_bit a) l (t : fp12 F, negb (v =? 0)%N)) = fpow a (fold_left (fun v i => (2 * v + N.b2n (Z.testbit bls_param_x i))%N) l v).
  Proof.
    intros C. induction l as [|i l IH]; intros t v E; [exact E|].
    change (fold_left (cyc_bit a) (i :: l) (t : fp12 F, negb (v =? 0)%N)) with (fold_left (cyc_bit a) l (cyc_bit a (t : fp12 F, negb (v =? 0)%N) i)).
    change (fold_left ?f (i :: l) v) with (fold_left f l (f v i)). cbv beta.
    assert (S : cyc_bit a (t : fp12 F, negb (v =? 0)%N) i
      = ((fpow a (2 * v + N.b2n (Z.testbit bls_param_x i)) : M) : fp12 F, negb (2 * v + N.b2n (Z.testbit bls_param_x i) =? 0)%N)).
    2:{ rewrite S. apply IH. reflexivity. }
    unfold cyc_bit. destruct (N.eqb_spec v 0) as [V|V]; cbn [negb].
    - subst v. rewrite fpow_0 in E. subst t. destruct (Z.testbit bls_param_x i); cbn [N.b2n]; apply pair2; try reflexivity.
    - assert (SQ : (fp12_cyclotomic_square t : M) = fpow a (2 * v)).
      { rewrite (proj2 (cycsq_iff t)) by (rewrite E; apply cyc_pow, C). rewrite N.mul_comm, fpow_mul, fpow_2, <- E. reflexivity. }
      destruct (Z.testbit bls_param_x i); cbn [N.b2n]; apply pair2.
      + change (fp12_mul (fp12_cyclotomic_square t) a) with ((fp12_cyclotomic_square t : M) * a). rewrite SQ, fpow_add, fpow_1. reflexivity.
      + symmetry. apply negb_true_iff, N.eqb_neq. lia.
      + rewrite N.add_0_r. exact SQ.
      + symmetry. apply negb_true_iff, N.eqb_neq. lia.
  Qed.
  Definition px : N := Z.to_N bls_param_x.
  Lemma cyc_exp_pow (a : M) : cyc a -> (fp12_cyclotomic_exp a : M) = fp12_conjugate (fpow a px).
  Proof.
    intros C. unfold fp12_cyclotomic_exp. pose proof (@cyc_fold a C down64 1 0%N eq_refl) as H.
    change (fp12_one F, false) with ((1 : M) : fp12 F, negb (0 =? 0)%N). revert H. generalize (fold_left (cyc_bit a) down64 ((1 : M) : fp12 F, negb (0 =? 0)%N)).
    intros [t b] H. cbn [fst] in H. rewrite H. f_equal.
  Qed.

  (** ** FinalExponentiation *)
  Section Hard.
    Variable y : M.
    Hypothesis (Y0 : y <> 0) (YC : cyc y).
    Definition is (t : fp12 F) (z : Z) : Prop := (t : M) = zpow y z.
    Lemma zpow_cyc z : cyc (zpow y z).
    Proof.
      destruct z as [|q|q]; cbn [zpow]; [exact cyc_one|apply cyc_pow, YC|].
      pose proof (cyc_pow (Npos q) YC) as C. rewrite <- (cyc_conj C) by (apply fpow_neq, Y0). rewrite conj_pow. apply cyc_pow, C.
    Qed.
    Lemma is_y : is y 1. Proof. unfold is. cbn [zpow]. now rewrite fpow_1. Qed.
    Lemma is_mul s t a b : is s a -> is t b -> is (fp12_mul s t) (a + b).
    Proof. unfold is. intros A B. rewrite (zpow_add Y0), <- A, <- B. reflexivity. Qed.
    Lemma is_conj t a : is t a -> is (fp12_conjugate t) (- a).
    Proof.
      unfold is. intros A. rewrite (zpow_opp Y0), <- A. apply (@cyc_conj t); [rewrite A; apply zpow_cyc|rewrite A; apply zpow_neq, Y0].
    Qed.
    Lemma is_frob t a : is t a -> is (fp12_frobenius g3 g33 g6 t) (a * Z.of_N p).
    Proof. unfold is. intros A. rewrite (frob12 PR CH Pj FM N2 G3 G33 G6), <- (zpow_fpow Y0), <- A. reflexivity. Qed.
    Lemma is_sq t a : is t a -> is (fp12_cyclotomic_square t) (a * 2).
    Proof.
      unfold is. intros A. rewrite (proj2 (cycsq_iff t)) by (rewrite A; apply zpow_cyc).
      change 2%Z with (Z.of_N 2). rewrite <- (zpow_fpow Y0), <- A, fpow_2. reflexivity.
    Qed.
    Lemma is_exp t a : is t a -> is (fp12_cyclotomic_exp t) (- (a * bls_param_x)).
    Proof.
      intros A. assert (C : cyc t) by (unfold is in A; rewrite A; apply zpow_cyc).
      assert (Q : is (fpow (t : M) px) (a * bls_param_x)).
      { unfold is in *. rewrite A, (zpow_fpow Y0). f_equal. }
      apply is_conj in Q. unfold is in *. rewrite <- Q. apply cyc_exp_pow, C.
    Qed.
  End Hard.
  Definition hard (p x : Z) : Z :=
    let x := (- x)%Z in
    let t1 := (-2)%Z in let t3 := x in let t4 := (2 * t3)%Z in let t5 := (t1 + t3)%Z in
    let t1 := (t5 * x)%Z in let t0 := (t1 * x)%Z in let t6 := (t0 * x + t4)%Z in
    let t4 := (t6 * x - t5 + 1)%Z in
    (((t3 + t0) * (p * p) + (t1 + 1) * (p * p * p)) + (t6 - 1) * p + t4)%Z.
  Lemma final_hard (gt a : fp12 F) : (a : M) <> 0 ->
    let m := (fpow (a : M) (p ^ 6)) / (a : M) in
    let y := fpow m (p * p) * m in
    y <> 0 /\ cyc y /\ (gt_final_exponentiation g3 g33 g6 gt a : M) = zpow y (hard (Z.of_N p) bls_param_x).
  Proof.
    intros A m y.
    assert (M0 : m <> 0).
    { intros E. apply (fpow_neq (m := (p ^ 6)%N) A). replace (fpow (a : M) (p ^ 6)) with (m * a) by (unfold m; field; exact A). rewrite E. ring. }
    assert (Y0 : y <> 0) by (apply f_mul_neq; [apply fpow_neq|]; exact M0).
    assert (CA : (fp12_conjugate (fp12_conjugate a) : M) = a).
    { destruct (is_coord a) as (x0 & x1 & x2 & x3 & x4 & x5 & ->). rewrite !conj_coord. unfold coord.
      apply quad_eq; cbn [qu_a qu_b]; apply cubic_eq; cbn [cu_a cu_b cu_c]; eqK; ring. }
    assert (UM : fpow m (p ^ 6) * m = 1).
    { assert (DM : m = fpow (a : M) (p ^ 6) * finv (a : M)) by (unfold m; field; exact A). rewrite DM, fpow_mulb, fpow_inv by exact A.
      rewrite <- !conj_pow, CA. assert (C0 : (fp12_conjugate a : M) <> 0) by (rewrite conj_pow; apply fpow_neq, A). field. split; assumption. }
    assert (YC : cyc y).
    { unfold cyc, y. fold (phi2 m). rewrite !phi2_mul, phi6, conj_pow.
      transitivity (fpow m (p ^ 6) * m * (phi2 (phi2 m) * phi2 m)); [ring|]. rewrite UM. ring. }
    split; [exact Y0|]. split; [exact YC|].
    unfold gt_final_exponentiation. rewrite (@fp12_invert_K F N1 N3 N2). rewrite (@fp12_is_zero_equal F N1 N3).
    replace (fp12_equal a (fp12_zero F)) with false.
    2:{ symmetry. destruct (fp12_equal a (fp12_zero F)) eqn:E; [|reflexivity]. apply (@fp12_equal_spec F N1 N3) in E. contradiction. }
    cbv beta iota. cbv delta [cmove] beta.
    assert (E1 : fp12_mul (fp12_frobenius g3 g33 g6 (fp12_frobenius g3 g33 g6 (fp12_frobenius g3 g33 g6 (fp12_frobenius g3 g33 g6
      (fp12_frobenius g3 g33 g6 (fp12_frobenius g3 g33 g6 a)))))) (finv (a : M)) = m).
    { assert (Q : fpow (a : M) (p ^ 6) = fpow (fpow (fpow (fpow (fpow (fpow (a : M) p) p) p) p) p) p).
      { rewrite <- !fpow_mul. f_equal. change 6%N with (N.succ (N.succ (N.succ (N.succ (N.succ (N.succ 0)))))). rewrite !N.pow_succ_r', N.pow_0_r. ring. }
      rewrite !(frob12 PR CH Pj FM N2 G3 G33 G6). etransitivity; [|symmetry; exact (eq_refl m)]. unfold m. rewrite Q.
      match goal with |- _ = ?u / _ => change (fp12_mul u (finv (a : M))) with (u * finv (a : M)) end. eqM. field. exact A. }
    cbv zeta. rewrite E1. clear E1.
    assert (E2 : (fp12_mul (fp12_frobenius g3 g33 g6 (fp12_frobenius g3 g33 g6 m)) m : M) = y).
    { rewrite !(frob12 PR CH Pj FM N2 G3 G33 G6). unfold y. rewrite fpow_mul. reflexivity. }
    cbv zeta. rewrite E2. clear E2. clearbody y. clear m M0 UM CA A.
    match goal with |- ?t = _ => assert (I : exists z, is y t z /\ z = hard (Z.of_N p) bls_param_x) end.
    { eexists. split.
      - repeat lazymatch goal with
          | |- is _ (fp12_mul _ _) _ => apply (is_mul Y0)
          | |- is _ (fp12_conjugate _) _ => apply (is_conj Y0 YC)
          | |- is _ (fp12_frobenius _ _ _ _) _ => apply (is_frob Y0)
          | |- is _ (fp12_cyclotomic_square _) _ => apply (is_sq Y0 YC)
          | |- is _ (fp12_cyclotomic_exp _) _ => apply (is_exp Y0 YC)
          | |- _ => apply is_y
          end.
      - unfold hard. generalize bls_param_x (Z.of_N p). intros x q. ring. }
    destruct I as (z & I & <-). exact I.
  Qed.
  (** the exponent, as a natural number *)
  Definition fe_exp : N := ((p ^ 6 - 1) * (p * p + 1) * Z.to_N (hard (Z.of_N p) bls_param_x))%N.
  Lemma p6_pos : (1 <= p ^ 6)%N.
  Proof. assert (p ^ 6 <> 0)%N by (apply N.pow_nonzero; lia). lia. Qed.
  Lemma final_pow (gt a : fp12 F) : (0 <= hard (Z.of_N p) bls_param_x)%Z -> (a : M) <> 0 ->
    (gt_final_exponentiation g3 g33 g6 gt a : M) = fpow (a : M) fe_exp.
  Proof.
    intros H A. destruct (final_hard gt A) as (_ & _ & E).
    assert (MM : fpow (a : M) (p ^ 6) / (a : M) = fpow (a : M) (p ^ 6 - 1)).
    { apply f_div_eq; [exact A|]. pose proof p6_pos. replace (p ^ 6)%N with ((p ^ 6 - 1) + 1)%N at 1 by lia.
      rewrite fpow_add, fpow_1. ring. }
    cbv zeta in E. rewrite MM in E. rewrite <- (Z2N.id _ H), zpow_N in E. etransitivity; [exact E|].
    unfold fe_exp. rewrite (fpow_mul _ _ (Z.to_N _)), (fpow_mul _ (p ^ 6 - 1)). f_equal. rewrite fpow_add, fpow_1. reflexivity.
  Qed.
  Lemma final_zero (gt : fp12 F) : gt_final_exponentiation g3 g33 g6 gt (fp12_zero F) = gt.
  Proof.
    unfold gt_final_exponentiation. rewrite (@fp12_invert_K F N1 N3 N2). rewrite (@fp12_is_zero_equal F N1 N3).
    replace (fp12_equal (fp12_zero F) (fp12_zero F)) with true by (symmetry; apply (@fp12_equal_spec F N1 N3); reflexivity).
    reflexivity.
  Qed.
  Lemma conj_conj (x : M) : (fp12_conjugate (fp12_conjugate x) : M) = x.
  Proof.
    destruct (is_coord x) as (x0 & x1 & x2 & x3 & x4 & x5 & ->). rewrite !conj_coord. unfold coord.
    apply quad_eq; cbn [qu_a qu_b]; apply cubic_eq; cbn [cu_a cu_b cu_c]; eqK; ring.
  Qed.
  (** every non-zero element has order dividing p^12 - 1 *)
  Lemma fermat12 (x : M) : x <> 0 -> fpow x (p ^ 12 - 1) = 1.
  Proof.
    intros X. apply (f_cancel X). pose proof p6_pos.
    assert (P12 : (p ^ 12 = p ^ 6 * p ^ 6)%N) by (rewrite <- N.pow_add_r; reflexivity).
    transitivity (fpow x (p ^ 12)).
    - replace (p ^ 12)%N with ((p ^ 12 - 1) + 1)%N at 2 by nia. rewrite fpow_add, fpow_1. ring.
    - rewrite P12, fpow_mul, <- !conj_pow, conj_conj. ring.
  Qed.
  (** the cyclotomic subgroup, as a power *)
  Lemma cyc_iff (x : M) : x <> 0 -> (cyc x <-> fpow x (p ^ 4 - p ^ 2 + 1) = 1).
  Proof.
    intros X. unfold cyc, phi2. rewrite <- fpow_mul.
    assert (P4 : (p ^ 4 = p * p * (p * p))%N) by (change 4%N with (N.succ (N.succ (N.succ (N.succ 0)))); rewrite !N.pow_succ_r', N.pow_0_r; ring).
    assert (P2 : (p ^ 2 = p * p)%N) by (change 2%N with (N.succ (N.succ 0)); rewrite !N.pow_succ_r', N.pow_0_r; ring).
    assert (LE : (p * p <= p * p * (p * p))%N) by (assert (1 <= p * p)%N by nia; nia).
    assert (E : fpow x (p ^ 4) * x = fpow x (p ^ 4 - p ^ 2 + 1) * fpow x (p * p)).
    { rewrite <- fpow_add. replace (p ^ 4 - p ^ 2 + 1 + p * p)%N with (p ^ 4 + 1)%N by lia. rewrite fpow_add, fpow_1. reflexivity. }
    rewrite <- P4, E. assert (N : fpow x (p * p) <> 0) by (apply fpow_neq, X). split.
    - intros H. apply (f_cancel N). etransitivity; [|etransitivity; [exact H|]]; ring.
    - intros ->. ring.
  Qed.
End Final.
