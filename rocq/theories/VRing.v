(** A tactic for identities in a vector space: scalars and vectors are embedded in the commutative ring
    F + V with (a, u) (b, v) = (a b, a v + b u), where Coq's [ring] decides them. *)
From Coq Require Import Setoid Ring Ring_theory.
From mathcomp Require Import all_ssreflect all_algebra.
Set Implicit Arguments.
Unset Strict Implicit.
Unset Printing Implicit Defensive.
Import GRing.Theory.

Section T.
  Variables (F : fieldType) (V : lmodType F).
  Local Open Scope ring_scope.
  Definition tv := (F * V)%type.
  Definition t0 : tv := (0, 0).
  Definition t1 : tv := (1, 0).
  Definition tadd (x y : tv) : tv := (x.1 + y.1, x.2 + y.2).
  Definition tmul (x y : tv) : tv := (x.1 * y.1, x.1 *: y.2 + y.1 *: x.2).
  Definition topp (x : tv) : tv := (- x.1, - x.2).
  Definition tsub (x y : tv) : tv := tadd x (topp y).

  Lemma tv_ring : ring_theory t0 t1 tadd tmul tsub topp (@eq tv).
  Proof.
    split.
    - by case=> a u; rewrite /tadd /t0 /= !add0r.
    - by move=> [a u] [b v]; rewrite /tadd /= [a + b]addrC [u + v]addrC.
    - by move=> [a u] [b v] [c w]; rewrite /tadd /= !addrA.
    - by case=> a u; rewrite /tmul /t1 /= mul1r scale1r scaler0 addr0.
    - by move=> [a u] [b v]; rewrite /tmul /= [a * b]mulrC addrC.
    - move=> [a u] [b v] [c w]; rewrite /tmul /= mulrA; congr (_, _).
      by rewrite !scalerDr !scalerA addrA [a * c]mulrC [b * c]mulrC [c * a]mulrC mulrC [c * b]mulrC.
    - move=> [a u] [b v] [c w]; rewrite /tmul /tadd /= mulrDl scalerDl scalerDr addrACA //.
    - by [].
    - by case=> a u; rewrite /tadd /topp /t0 /= !addrN.
  Qed.

  Definition phi (a : F) : tv := (a, 0).
  Definition psi (v : V) : tv := (0, v).
  Lemma phi_inj a b : phi a = phi b -> a = b. Proof. by case. Qed.
  Lemma psi_inj u v : psi u = psi v -> u = v. Proof. by case. Qed.
  Lemma phiD a b : phi (a + b) = tadd (phi a) (phi b). Proof. by rewrite /phi /tadd /= addr0. Qed.
  Lemma phiN a : phi (- a) = topp (phi a). Proof. by rewrite /phi /topp /= oppr0. Qed.
  Lemma phiM a b : phi (a * b) = tmul (phi a) (phi b).
  Proof. by rewrite /phi /tmul /= !scaler0 addr0. Qed.
  Lemma phi0 : phi 0 = t0. Proof. by []. Qed.
  Lemma phi1 : phi 1 = t1. Proof. by []. Qed.
  Lemma psiD u v : psi (u + v) = tadd (psi u) (psi v). Proof. by rewrite /psi /tadd /= addr0. Qed.
  Lemma psiN u : psi (- u) = topp (psi u). Proof. by rewrite /psi /topp /= oppr0. Qed.
  Lemma psiZ a u : psi (a *: u) = tmul (phi a) (psi u).
  Proof. by rewrite /phi /psi /tmul /= mulr0 scale0r addr0. Qed.
  Lemma psi0 : psi 0 = t0. Proof. by []. Qed.
  Lemma phiX a n : phi (a ^+ n.+1) = tmul (phi a) (phi (a ^+ n)). Proof. by rewrite exprS phiM. Qed.
  Lemma phiX0 a : phi (a ^+ 0) = t1. Proof. by rewrite expr0. Qed.
  Lemma phi_nat n : phi (n.+1)%:R = tadd t1 (phi n%:R). Proof. by rewrite mulrS phiD. Qed.
  Lemma phi_nat0 : phi 0%:R = t0. Proof. by []. Qed.
End T.

(** goals a = b in V *)
Ltac vpush := rewrite ?(psiD, psiN, psiZ, psi0, phiD, phiN, phiM, phi0, phi1, phiX, phiX0).
Ltac vpsi V := apply: (@psi_inj _ V); vpush.
(** goals a = b in F; V any module over F *)
Ltac vphi V := apply: (@phi_inj _ V); vpush.

Section Test.
  Variables (F : fieldType) (V : lmodType F).
  Add Ring tvring : (tv_ring V).
  Local Open Scope ring_scope.
  Example test_v : forall (a b : F) (u v : V), a *: (u - b *: v) + b *: (a *: v) = a *: u.
  Proof. move=> a b u v; vpsi V; ring. Qed.
  Example test_f : forall (a b : F), (a + b) ^+ 2 = a ^+ 2 + b ^+ 2 + a * b + b * a.
  Proof. move=> a b; vphi V; ring. Qed.
End Test.
