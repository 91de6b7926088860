(** The endomorphism psi of the G2 curve: (x, y) -> (conj x / w^2, conj y / w^3), w = (1 + u)^((p-1)/6).
    It is additive and psi^4 - psi^2 + 1 = 0. *)
From Coq Require Import Field Field_theory Ring Ring_theory ZArith NArith Lia Bool List.
From Verif Require Import EcField EcSpec EcAlg EcProofs PointModel PointSpec PointMulProofs MillerSpec
  TowerModel TowerSpec TowerAlg TowerField TowerFrob TowerStep TowerMiller.
Import ListNotations.
Set Implicit Arguments.
Unset Strict Implicit.
Local Open Scope fld_scope.

Section Add.
  Variables (K M : field) (phi : K -> M) (w : M).
  Add Field Kp : (fth K).
  Add Field Mp : (fth M).
  Hypothesis H1 : phi 1 = 1.
  Hypothesis HM : forall x y, phi (x * y) = phi x * phi y.
  Hypothesis HA : forall x y, phi (x + y) = phi x + phi y.
  Hypothesis W : w <> 0.
  Variables (b : K) (b' : M).
  Hypothesis odd : odd_order_curve 0 b.
  Hypothesis HB : phi b = b' * (w * w * w * (w * w * w)).
  Local Notation psi := (untwist phi w).
  Lemma psi_on P : on_curve 0 b P -> on_curve 0 b' (psi P).
  Proof.
    destruct P as [[x y]|]; [|auto]. cbn. unfold curve_rhs, ux, uy. intros H.
    assert (E : phi y * phi y = phi x * phi x * phi x + b' * (w * w * w * (w * w * w))).
    { rewrite <- !HM, H, <- HB, <- HA. f_equal. ring. }
    transitivity (phi y * phi y / (w * w * w * (w * w * w))); [field; exact W|]. rewrite E. field. exact W.
  Qed.
  Lemma psi_neg P : psi (ec_neg P) = ec_neg (psi P).
  Proof. destruct P as [[x y]|]; [|reflexivity]. cbn. do 2 f_equal. apply (uy_opp HA W). Qed.
  Lemma psi_add P Q : on_curve 0 b P -> on_curve 0 b Q -> psi (ec_add 0 P Q) = ec_add 0 (psi P) (psi Q).
  Proof.
    destruct P as [[x y]|]; [|reflexivity]. destruct Q as [[x' y']|]; [|reflexivity]. intros HP HQ.
    destruct (f_eq_dec x x') as [E|N]; [|now apply (add_u H1 HM HA W)].
    destruct (same_x HP HQ E) as [S|S].
    - rewrite <- S. apply (dbl_u H1 HM HA W). apply f_mul_neq; [apply odd|]. exact (y_neq odd HP).
    - rewrite S. replace (ec_add 0 (ec_neg (Some (x', y'))) (Some (x', y'))) with (None : point K).
      + rewrite psi_neg. cbn. rewrite !feqb_true. reflexivity.
      + cbn. rewrite !feqb_true. reflexivity.
  Qed.
  Lemma psi_mul n P : on_curve 0 b P -> psi (mulN n P) = mulN n (psi P).
  Proof.
    intros H. unfold mulN. induction (N.to_nat n) as [|k IH]; [reflexivity|]. cbn [ec_mul].
    rewrite psi_add, IH; [reflexivity|exact H|]. apply (ec_mul_on odd). exact H.
  Qed.
End Add.

Section Psi.
  Variable K : field.
  Add Field Kpp : (fth K).
  Variable cj : K -> K.
  Hypothesis cj_1 : cj 1 = 1.
  Hypothesis cj_mul : forall x y, cj (x * y) = cj x * cj y.
  Hypothesis cj_add : forall x y, cj (x + y) = cj x + cj y.
  Hypothesis cj_cj : forall x, cj (cj x) = x.
  Variables (w c b : K).
  Hypothesis W : w <> 0.
  Hypothesis NC : w * cj w = c.
  Hypothesis C2 : c * c = c - 1.
  Hypothesis HB : cj b = b * (w * w * w * (w * w * w)).
  Hypothesis odd : odd_order_curve 0 b.
  Hypothesis T3 : (3 : K) <> 0.
  Definition psi : point K -> point K := untwist cj w.
  Lemma psi_on' P : on_curve 0 b P -> on_curve 0 b (psi P). Proof. exact (@psi_on K K cj w cj_mul cj_add W b b HB P). Qed.
  Lemma psi_neg' P : psi (ec_neg P) = ec_neg (psi P). Proof. apply psi_neg; [exact cj_add|exact W]. Qed.
  Lemma psi_add' P Q : on_curve 0 b P -> on_curve 0 b Q -> psi (ec_add 0 P Q) = ec_add 0 (psi P) (psi Q).
  Proof. exact (@psi_add K K cj w cj_1 cj_mul cj_add W b odd P Q). Qed.
  Lemma psi_mul' n P : on_curve 0 b P -> psi (mulN n P) = mulN n (psi P).
  Proof. exact (@psi_mul K K cj w cj_1 cj_mul cj_add W b odd n P). Qed.
  Lemma c_neq : c <> 0.
  Proof. intros E. apply (@f_one_zero K). transitivity (c - c * c : K); [rewrite C2; ring|rewrite E; ring]. Qed.
  Lemma c3 : c * c * c = fopp f1. Proof. rewrite C2. transitivity (c * c - c); [ring|rewrite C2; ring]. Qed.
  Lemma cjw_neq : cj w <> 0. Proof. intros E. apply c_neq. rewrite <- NC, E. ring. Qed.
  Lemma psi2_is x y : psi (psi (Some (x, y))) = Some (fopp c * x, fopp y).
  Proof.
    cbn [psi untwist]. unfold ux, uy. pose proof cjw_neq as CW. pose proof c_neq as CN.
    rewrite !(hdiv cj_1 cj_mul) by (repeat apply f_mul_neq; exact W). rewrite !cj_mul, !cj_cj.
    do 2 f_equal.
    - transitivity (x / (w * cj w * (w * cj w))); [field; split; assumption|]. rewrite NC.
      apply f_div_eq; [apply f_mul_neq; exact CN|]. transitivity (fopp (c * c * c) * x); [rewrite c3; ring|ring].
    - transitivity (y / (w * cj w * (w * cj w) * (w * cj w))); [field; split; assumption|]. rewrite NC, c3.
      assert (N : (fopp f1 : K) <> 0) by (intros E; apply (@f_one_zero K); transitivity (fopp (fopp f1) : K); [ring|rewrite E; ring]).
      apply f_div_eq; [exact N|ring].
  Qed.
  Lemma mulN_neg n P : on_curve 0 b P -> mulN n (ec_neg P) = ec_neg (mulN n P).
  Proof.
    intros H. unfold mulN. induction (N.to_nat n) as [|k IH]; [reflexivity|]. cbn [ec_mul].
    rewrite IH. symmetry. apply (ec_neg_add odd); [exact H|]. apply (ec_mul_on odd). exact H.
  Qed.
  Lemma psi4_is P : on_curve 0 b P -> ec_add 0 (psi (psi (psi (psi P)))) P = psi (psi P).
  Proof.
    destruct P as [[x y]|]; [|reflexivity]. intros H. rewrite !psi2_is.
    replace (fopp c * (fopp c * x)) with (c * c * x) by ring. replace (fopp (fopp y)) with y by ring. rewrite C2.
    pose proof (y_neq odd H) as Y. unfold ec_add.
    destruct (feqb_case ((c - 1) * x) x) as [[-> E]|[-> E]].
    - rewrite (feqb_false (opp_neq odd Y)).
      assert (X : x = 0).
      { assert (E' : (c - 1 - 1) * x = 0) by (transitivity ((c - 1) * x - x); [ring|rewrite E; ring]).
        destruct (f_integral E') as [Z|Z]; [|exact Z]. exfalso.
        assert (cc : c = 2) by (transitivity (c - 1 - 1 + 2); [ring|rewrite Z; ring]).
        pose proof C2 as Q. rewrite cc in Q. apply T3. transitivity (2 * 2 - (2 - 1) : K); [ring|rewrite Q; ring]. }
      subst x. unfold line_third. pose proof (two_neq odd). do 2 f_equal; field; split; assumption.
    - unfold line_third. apply f_sub_neq in E. do 2 f_equal; field; exact E.
  Qed.
  (** a point that psi multiplies by -n is killed by n^4 - n^2 + 1 *)
  Lemma psi_order n r P : on_curve 0 b P -> psi P = ec_neg (mulN n P) -> (n * n * (n * n) + 1 = n * n + r)%N -> mulN r P = None.
  Proof.
    intros H E R.
    assert (E2 : psi (psi P) = mulN (n * n) P).
    { rewrite E, psi_neg', psi_mul', E by exact H. rewrite mulN_neg by (apply (mulN_on odd); exact H).
      rewrite ec_neg_neg. symmetry. apply (mulN_mul odd). exact H. }
    assert (O2 : on_curve 0 b (mulN (n * n) P)) by (apply (mulN_on odd); exact H).
    assert (E4 : psi (psi (psi (psi P))) = mulN (n * n * (n * n)) P).
    { rewrite E2, !psi_mul', E2, <- (mulN_mul odd) by (try apply psi_on'; exact H). reflexivity. }
    pose proof (psi4_is H) as Q. rewrite E4, E2 in Q.
    assert (S : ec_add 0 (mulN (n * n) P) (mulN r P) = mulN (n * n) P).
    { rewrite <- (mulN_add odd), <- R, (mulN_add odd), mulN_1 by exact H. exact Q. }
    assert (OR : on_curve 0 b (mulN r P)) by (apply (mulN_on odd); exact H).
    transitivity (ec_add 0 (ec_neg (mulN (n * n) P)) (ec_add 0 (mulN (n * n) P) (mulN r P))).
    - rewrite <- (ec_assoc odd (ec_neg_on O2) O2 OR), (ec_comm odd (ec_neg_on O2) O2), ec_neg_r. reflexivity.
    - rewrite S, (ec_comm odd (ec_neg_on O2) O2). apply ec_neg_r.
  Qed.
End Psi.
