(** A bilinear pairing as the code uses it: G1, G2 and the target group are vector spaces over the scalar
    field (written additively); MultiPairing is the sum of the pairings and IsOne tests for zero. *)
From mathcomp Require Import all_ssreflect all_algebra.
Set Implicit Arguments.
Unset Strict Implicit.
Unset Printing Implicit Defensive.
Import GRing.Theory.
Local Open Scope ring_scope.

Section Pairing.
  Variables (F : fieldType) (V1 V2 VT : lmodType F).
  (** additive and homogeneous in both arguments, and no non-zero point of G1 (G2) pairs to one with
      every non-zero point of G2 (G1), as for groups of one prime order *)
  Record pairing := Pairing {
    pair_fun :> V1 -> V2 -> VT;
    pair_addl : forall u u' v, pair_fun (u + u') v = pair_fun u v + pair_fun u' v;
    pair_addr : forall u v v', pair_fun u (v + v') = pair_fun u v + pair_fun u v';
    pair_scalel : forall a u v, pair_fun (a *: u) v = a *: pair_fun u v;
    pair_scaler : forall a u v, pair_fun u (a *: v) = a *: pair_fun u v;
    pair_nondeg : forall u v, pair_fun u v = 0 -> u = 0 \/ v = 0
  }.
  Variable e : pairing.
  Lemma pair0l v : e 0 v = 0. Proof. by rewrite -(scale0r (0 : V1)) pair_scalel scale0r. Qed.
  Lemma pair0r u : e u 0 = 0. Proof. by rewrite -(scale0r (0 : V2)) pair_scaler scale0r. Qed.
  Lemma pairNl u v : e (- u) v = - e u v. Proof. by rewrite -scaleN1r pair_scalel scaleN1r. Qed.
  Lemma pairNr u v : e u (- v) = - e u v. Proof. by rewrite -scaleN1r pair_scaler scaleN1r. Qed.
  Lemma pairBl u u' v : e (u - u') v = e u v - e u' v. Proof. by rewrite pair_addl pairNl. Qed.
  Lemma pair_suml (I : Type) (r : seq I) (f : I -> V1) v :
    e (\sum_(i <- r) f i) v = \sum_(i <- r) e (f i) v.
  Proof. by elim: r => [|i r IH]; rewrite ?big_nil ?pair0l // !big_cons pair_addl IH. Qed.
  Lemma pair_sumr (I : Type) (r : seq I) u (f : I -> V2) :
    e u (\sum_(i <- r) f i) = \sum_(i <- r) e u (f i).
  Proof. by elim: r => [|i r IH]; rewrite ?big_nil ?pair0r // !big_cons pair_addr IH. Qed.
End Pairing.

(** such pairings exist: multiplication of the field *)
Definition field_pairing (F : fieldType) :
  pairing [the lmodType F of F^o] [the lmodType F of F^o] [the lmodType F of F^o].
Proof.
  apply: (@Pairing F _ _ _ (fun u v : F^o => (u : F) * (v : F) : F^o)).
  - by move=> u u' v; rewrite mulrDl.
  - by move=> u v v'; rewrite mulrDr.
  - by move=> a u v; rewrite /GRing.scale /= mulrA.
  - by move=> a u v; rewrite /GRing.scale /= mulrCA.
  - by move=> u v /eqP; rewrite mulf_eq0 => /orP [/eqP|/eqP]; [left|right].
Defined.
