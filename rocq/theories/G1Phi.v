(** The endomorphism (x, y) -> (beta x, y) of the G1 curve: phi^2 + phi + 1 = 0. *)
From Coq Require Import Field Field_theory Ring Ring_theory ZArith NArith Lia Bool List.
From Verif Require Import EcField EcSpec EcAlg EcProofs PointModel PointMulProofs MillerSpec TowerStep TowerMiller G2Psi.
Import ListNotations.
Set Implicit Arguments.
Unset Strict Implicit.
Local Open Scope fld_scope.

Section Phi.
  Variable K : field.
  Add Field Kphi : (fth K).
  Variables (beta b : K).
  Hypothesis B3 : beta * beta * beta = 1.
  Hypothesis B2 : beta * beta = fopp beta - 1.
  Hypothesis T3 : (3 : K) <> 0.
  Hypothesis odd : odd_order_curve 0 b.
  Definition idK (x : K) : K := x.
  Lemma beta_neq : beta <> 0.
  Proof. intros E. apply (@f_one_zero K). rewrite <- B3, E. ring. Qed.
  Definition g1phi (P : point K) : point K := match P with None => None | Some (x, y) => Some (beta * x, y) end.
  Lemma g1phi_is P : g1phi P = untwist idK beta P.
  Proof.
    destruct P as [[x y]|]; [|reflexivity]. cbn. unfold ux, uy, idK. pose proof beta_neq as N. do 2 f_equal.
    - symmetry. apply f_div_eq; [apply f_mul_neq; exact N|]. transitivity (beta * beta * beta * x); [rewrite B3; ring|ring].
    - rewrite B3. symmetry. apply f_div_eq; [apply f_one_zero|ring].
  Qed.
  Lemma idb : idK b = b * (beta * beta * beta * (beta * beta * beta)).
  Proof. unfold idK. rewrite B3. ring. Qed.
  Lemma g1phi_on P : on_curve 0 b P -> on_curve 0 b (g1phi P).
  Proof. rewrite g1phi_is. exact (@psi_on K K idK beta (fun _ _ => eq_refl) (fun _ _ => eq_refl) beta_neq b b idb P). Qed.
  Lemma g1phi_mul n P : on_curve 0 b P -> g1phi (mulN n P) = mulN n (g1phi P).
  Proof.
    rewrite !g1phi_is. exact (@psi_mul K K idK beta eq_refl (fun _ _ => eq_refl) (fun _ _ => eq_refl) beta_neq b odd n P).
  Qed.
  Lemma g1phi_neg P : g1phi (ec_neg P) = ec_neg (g1phi P). Proof. destruct P as [[x y]|]; reflexivity. Qed.
  Lemma g1phi2 P : on_curve 0 b P -> ec_add 0 (g1phi (g1phi P)) P = ec_neg (g1phi P).
  Proof.
    destruct P as [[x y]|]; [|reflexivity]. intros H. cbn [g1phi]. pose proof (y_neq odd H) as Y.
    replace (beta * (beta * x)) with (beta * beta * x) by ring. rewrite B2. unfold ec_add.
    destruct (feqb_case ((fopp beta - 1) * x) x) as [[-> E]|[-> E]].
    - rewrite (feqb_false (opp_neq odd Y)).
      assert (X : x = 0).
      { assert (E' : (fopp beta - 1 - 1) * x = 0) by (transitivity ((fopp beta - 1) * x - x); [ring|rewrite E; ring]).
        destruct (f_integral E') as [Z|Z]; [|exact Z]. exfalso.
        assert (cc : beta = fopp 2) by (transitivity (fopp (fopp beta - 1 - 1) - 2); [ring|rewrite Z; ring]).
        pose proof B2 as Q. rewrite cc in Q. apply T3. transitivity (fopp 2 * fopp 2 - (fopp (fopp 2) - 1) : K); [ring|rewrite Q; ring]. }
      subst x. unfold line_third. cbn [ec_neg]. pose proof (two_neq odd). do 2 f_equal; field; split; assumption.
    - unfold line_third. cbn [ec_neg]. apply f_sub_neq in E. do 2 f_equal; field; exact E.
  Qed.
  Lemma g1phi_order s r P : on_curve 0 b P -> g1phi P = ec_neg (mulN s P) -> (s * s + 1 = s + r)%N -> mulN r P = None.
  Proof.
    intros H E R.
    assert (E2 : g1phi (g1phi P) = mulN (s * s) P).
    { rewrite E, g1phi_neg, g1phi_mul, E by exact H. rewrite (mulN_neg odd) by (apply (mulN_on odd); exact H).
      rewrite ec_neg_neg. symmetry. apply (mulN_mul odd). exact H. }
    pose proof (g1phi2 H) as Q. rewrite E2, E, ec_neg_neg in Q.
    assert (S : ec_add 0 (mulN s P) (mulN r P) = mulN s P).
    { rewrite <- (mulN_add odd), <- R, (mulN_add odd), mulN_1 by exact H. exact Q. }
    assert (OR : on_curve 0 b (mulN r P)) by (apply (mulN_on odd); exact H).
    assert (OS : on_curve 0 b (mulN s P)) by (apply (mulN_on odd); exact H).
    transitivity (ec_add 0 (ec_neg (mulN s P)) (ec_add 0 (mulN s P) (mulN r P))).
    - rewrite <- (ec_assoc odd (ec_neg_on OS) OS OR), (ec_comm odd (ec_neg_on OS) OS), ec_neg_r. reflexivity.
    - rewrite S, (ec_comm odd (ec_neg_on OS) OS). apply ec_neg_r.
  Qed.
End Phi.
