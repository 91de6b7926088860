(** fp2.go's pow and Sqrt: sound and complete square roots in F[u]/(u^2 + 1). *)
From Coq Require Import Field Field_theory Ring Ring_theory ZArith NArith Lia Bool List Znumtheory.
From Verif Require Import EcField LimbBase NativeField BlsFp TowerModel TowerSpec TowerAlg TowerField TowerFrob.
Import ListNotations.
Set Implicit Arguments.
Unset Strict Implicit.
Local Open Scope fld_scope.

Lemma fold_inv {A B V : Type} (f : A -> B -> A) (g : V -> B -> V) (R : A -> V -> Prop) :
  (forall a v b, R a v -> R (f a b) (g v b)) -> forall l a v, R a v -> R (fold_left f l a) (fold_left g l v).
Proof. intros S. induction l as [|b l IH]; intros a v H; [exact H|]. cbn. apply IH, S, H. Qed.

Section Sqrt.
  Variables (F : field) (p j : N).
  Hypothesis PR : prime (Z.of_N p).
  Hypothesis CH : fz F p = 0.
  Hypothesis Pj : p = (48 * j + 43)%N.
  Hypothesis FM : forall x : F, fpow x p = x.
  Hypothesis N1 : forall x : F, x * x <> fopp f1.
  Local Notation K := (Fp2 N1).
  Add Field Ff : (fth F).
  Add Field Kf : (fth K).
  Ltac eqK := match goal with |- @eq _ ?a ?b => change (@eq (car K) (a : car K) (b : car K)) end.
  Lemma pow_fold (b : K) e : forall l (t : K) v, t = fpow b v ->
    (fold_left (fp2_pow_bit b e) l t : K) = fpow b (fold_left (fun v i => (2 * v + N.b2n (Z.testbit e i))%N) l v).
  Proof.
    induction l as [|i l IH]; intros t v E; [exact E|].
    change (fold_left (fp2_pow_bit b e) (i :: l) t) with (fold_left (fp2_pow_bit b e) l (fp2_pow_bit b e t i)).
    change (fold_left ?f (i :: l) v) with (fold_left f l (f v i)). cbv beta. apply IH. unfold fp2_pow_bit, cmove. cbv zeta.
    rewrite fp2_square_spec. change (@fp2_mul F) with (@fmul K). subst t.
    destruct (Z.testbit e i); cbn [N.b2n]; rewrite ?N.add_0_r, ?fpow_add, ?fpow_1; rewrite N.mul_comm, fpow_mul, fpow_2; reflexivity.
  Qed.
  Definition limb_bits (v : N) (e : Z) : N := fold_left (fun v i => (2 * v + N.b2n (Z.testbit e i))%N) down64 v.
  Lemma pow_limb (b t : K) e v : t = fpow b v -> (fp2_pow_limb b t e : K) = fpow b (limb_bits v e).
  Proof. apply pow_fold. Qed.
  Opaque limb_bits fp2_pow_limb.
  Lemma pow_limbs (b : K) ls : (fold_left (fp2_pow_limb b) ls (1 : K) : K) = fpow b (fold_left limb_bits ls 0%N).
  Proof.
    apply (@fold_inv (fp2 F) Z N (fp2_pow_limb b) limb_bits (fun t v => (t : K) = fpow b v)); [|reflexivity].
    intros t v e. apply pow_limb.
  Qed.
  (** the exponents are (p - 3) / 4 and (p - 1) / 2 *)
  Variables q1 q2 : N.
  Hypothesis Q1 : p = (4 * q1 + 3)%N.
  Hypothesis Q2 : p = (2 * q2 + 1)%N.
  Hypothesis E1 : forall b : K, (fp2_pow b fp2_sqrt_exp1 : K) = fpow b q1.
  Hypothesis E2 : forall b : K, (fp2_pow b fp2_sqrt_exp2 : K) = fpow b q2.
  Lemma frob_twice (x : K) : fpow (fpow x p) p = x.
  Proof. rewrite <- !(frob2 PR CH Pj FM). unfold fp2_frobenius. apply fp2_conj_conj. Qed.
  Lemma sqrt_spec (f a : fp2 F) :
    ((exists y : K, y * y = a) -> snd (fp2_sqrt (fopp f1) f a) = true /\ (fst (fp2_sqrt (fopp f1) f a) : K) * fst (fp2_sqrt (fopp f1) f a) = a) /\
    (~ (exists y : K, y * y = a) -> fp2_sqrt (fopp f1) f a = (f, false)).
  Proof.
    set (a1 := fpow (a : K) q1). set (al := a1 * a1 * a). set (x0 := a1 * a).
    set (res := (cmove (fpow (1 + al) q2 * x0) (cmove (Quad (fopp (qu_b x0)) (qu_a x0)) (0 : K) (fp2_is_zero a)) (fp2_equal al (Quad (fopp f1) f0)) : K)).
    assert (G : fp2_sqrt (fopp f1) f a = (cmove f (res : fp2 F) (fp2_equal (res * res : K) a), fp2_equal (res * res : K) a)).
    { unfold fp2_sqrt. rewrite !fp2_square_spec, !E1, !E2. reflexivity. }
    rewrite !G. clear G.
    assert (S : (exists y : K, y * y = a) -> (res : K) * res = a).
    { intros [y Y]. unfold res, cmove. 
      assert (MO : (Quad (fopp f1) f0 : K) = fopp (f1 : K)) by (apply quad_eq; cbn; ring). rewrite MO.
      destruct (f_eq_dec y 0) as [Y0|Y0].
      - subst y. assert (A0 : (a : K) = 0) by (rewrite <- Y; ring).
        assert (X0 : x0 = 0) by (unfold x0; rewrite A0; ring). assert (AL : al = 0) by (unfold al; rewrite A0; ring).
        replace (fp2_equal al (fopp (f1 : K))) with false.
        { rewrite X0, A0. eqK. ring. }
        symmetry. destruct (fp2_equal al (fopp (f1 : K))) eqn:E; [|reflexivity]. apply fp2_equal_spec in E. rewrite AL in E.
        exfalso. apply (@f_one_zero K). transitivity (fopp (fopp (f1 : K))); [ring|]. rewrite <- E. ring.
      - assert (ALP : al * y = fpow y p).
        { unfold al, a1. rewrite <- Y, !fpow_mulb. rewrite Q1. replace (4 * q1 + 3)%N with (q1 + q1 + (q1 + q1) + 3)%N by lia.
          rewrite !fpow_add, fpow_3. ring. }
        assert (ALQ : fpow al p * al = 1).
        { assert (YP : fpow y p <> 0) by (apply fpow_neq, Y0). apply (f_cancel YP). rewrite <- ALP at 1.
          transitivity (fpow al p * (al * y) * al); [ring|]. rewrite ALP, <- fpow_mulb, ALP, frob_twice.
          transitivity (al * y); [ring|]. rewrite ALP. ring. }
        assert (X2 : x0 * x0 = al * a) by (unfold x0, al; ring).
        destruct (fp2_equal al (fopp (f1 : K))) eqn:E.
        + apply fp2_equal_spec in E.
          assert (NZ : fp2_is_zero a = false).
          { destruct (fp2_is_zero a) eqn:Z; [|reflexivity]. rewrite fp2_is_zero_equal in Z. apply fp2_equal_spec in Z. exfalso.
            apply (f_mul_neq Y0 Y0). rewrite Y. exact Z. }
          rewrite NZ. 
          assert (U : (Quad (fopp (qu_b x0)) (qu_a x0) : K) = uu N1 * x0).
          { destruct x0 as [xa xb]. apply quad_eq; cbn; ring. }
          rewrite U. transitivity ((uu N1 * uu N1) * (x0 * x0)); [ring|]. rewrite uu_sq, X2, E. ring.
        + assert (NA : 1 + al <> 0).
          { intros Z. assert (A : al = fopp (f1 : K)) by (replace al with ((1 + al) - 1) by ring; rewrite Z; ring).
            apply fp2_equal_spec in A. rewrite A in E. discriminate E. }
          assert (P2 : fpow (1 + al) q2 * fpow (1 + al) q2 * al = 1).
          { apply (f_cancel NA).
            transitivity (fpow (1 + al) p * al); [rewrite Q2; replace (2 * q2 + 1)%N with (q2 + q2 + 1)%N by lia; rewrite !fpow_add, fpow_1; ring|].
            rewrite (pow_p_add _ _ PR (char2 CH N1)), fpow_one. transitivity (al + fpow al p * al); [ring|]. rewrite ALQ. ring. }
          transitivity (fpow (1 + al) q2 * fpow (1 + al) q2 * (x0 * x0)); [ring|]. rewrite X2.
          transitivity (fpow (1 + al) q2 * fpow (1 + al) q2 * al * a); [ring|]. rewrite P2. ring. }
    clearbody res. split.
    - intros Y. apply S in Y. assert (E : fp2_equal (res * res : K) a = true) by (apply fp2_equal_spec; exact Y). rewrite E. split; [reflexivity|exact Y].
    - intros NY. assert (E : fp2_equal (res * res : K) a = false); [|rewrite E; reflexivity].
      destruct (fp2_equal (res * res : K) a) eqn:E; [|reflexivity]. apply fp2_equal_spec in E. exfalso. apply NY. now exists res.
  Qed.
End Sqrt.
