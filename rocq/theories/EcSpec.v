(** The group of an elliptic curve y^2 = x^3 + a x + b, as in SEC 1, 2.2.1: [None] is the point at infinity;
    chords for different x, tangents for doubling, and P + (-P) = O. *)
From Verif Require Import EcField.
Set Implicit Arguments.
Unset Strict Implicit.
Local Open Scope fld_scope.

Section Spec.
  Variable F : field.
  Definition point := option (F * F).
  Definition curve_rhs (a b x : F) : F := x * x * x + a * x + b.
  Definition on_curve (a b : F) (P : point) : Prop :=
    match P with None => True | Some (x, y) => y * y = curve_rhs a b x end.
  Definition ec_neg (P : point) : point := match P with None => None | Some (x, y) => Some (x, - y) end.
  (** the third intersection of the line of slope l through (x1, y1), reflected *)
  Definition line_third (l x1 y1 x2 : F) : F * F :=
    let x := l * l - x1 - x2 in (x, l * (x1 - x) - y1).
  Definition ec_add (a : F) (P Q : point) : point :=
    match P, Q with
    | None, _ => Q
    | _, None => P
    | Some (x1, y1), Some (x2, y2) =>
        if feqb x1 x2
        then if feqb y1 (- y2) then None
             else Some (line_third ((3 * (x1 * x1) + a) / (2 * y1)) x1 y1 x2)
        else Some (line_third ((y1 - y2) / (x1 - x2)) x1 y1 x2)
    end.
  (** the n-fold sum *)
  Fixpoint ec_mul (a : F) (n : nat) (P : point) : point :=
    match n with O => None | S n' => ec_add a P (ec_mul a n' P) end.
  (** a curve over a field of odd characteristic without points of order two: what a prime (odd) group order means *)
  Definition odd_order_curve (a b : F) : Prop := (2 : F) <> 0 /\ forall x : F, curve_rhs a b x <> 0.
End Spec.
