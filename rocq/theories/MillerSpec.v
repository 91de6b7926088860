(** The ate pairing on y^2 = x^3 + 4 as in the literature (Vercauteren, "Optimal pairings"; Barreto, Lynn, Scott): Miller's
    function of a point A, evaluated at a point P by the double-and-add loop with the lines in affine form; vertical lines,
    which the final exponentiation sends to one, are left out. *)
From Coq Require Import List Bool NArith PArith.
From Verif Require Import EcField EcSpec.
Import ListNotations.
Set Implicit Arguments.
Unset Strict Implicit.
Local Open Scope fld_scope.

Section Miller.
  Variable M : field.
  (** the slope of the line through two points of y^2 = x^3 + b: the tangent if they have the same abscissa *)
  Definition slope (x1 y1 x2 y2 : M) : M :=
    if feqb x1 x2 then 3 * (x1 * x1) / (2 * y1) else (y1 - y2) / (x1 - x2).
  (** the line through A and B, evaluated at (u, v) *)
  Definition line_at (A B : point M) (u v : M) : M :=
    match A, B with
    | Some (x1, y1), Some (x2, y2) => (v - y1) - slope x1 y1 x2 y2 * (u - x1)
    | _, _ => 1
    end.
  (** one digit of the exponent *)
  Definition miller_digit (A : point M) (u v : M) (s : M * point M) (digit : bool) : M * point M :=
    let '(f, T) := s in
    let f := f * f * line_at T T u v in
    let T := ec_add 0 T T in
    if digit then (f * line_at T A u v, ec_add 0 T A) else (f, T).
  (** the binary digits below the leading one, most significant first *)
  Fixpoint digits (n : positive) : list bool :=
    match n with
    | xH => []
    | xO n => digits n ++ [false]
    | xI n => digits n ++ [true]
    end.
  Definition miller (n : positive) (A : point M) (u v : M) : M :=
    fst (fold_left (miller_digit A u v) (digits n) (1, A)).
End Miller.
