(** The group of an elliptic curve over the integers modulo a prime, by chords and tangents
    (SEC 1, 2.2.1), as relations on affine points: [None] is the point at infinity. *)
From Coq Require Import ZArith.
From Verif Require Import EncodeSpec.
Open Scope Z_scope.

Definition zpoint := option (Z * Z).
Definition is_on (E : curve) (A : zpoint) : Prop := match A with None => True | Some (x, y) => on_curve E x y end.
(** the line of slope l through (x1, y1) meets the curve again at x2 and at the reflection of (x3, y3) *)
Definition third (E : curve) (l x1 y1 x2 x3 y3 : Z) : Prop :=
  x3 = (l * l - x1 - x2) mod c_p E /\ y3 = (l * (x1 - x3) - y1) mod c_p E.
Inductive sum (E : curve) : zpoint -> zpoint -> zpoint -> Prop :=
| sum_inf_l B : sum E None B B
| sum_inf_r A : sum E A None A
| sum_opposite x y : sum E (Some (x, y)) (Some (x, (- y) mod c_p E)) None
| sum_chord x1 y1 x2 y2 l x3 y3 : x1 <> x2 -> (l * (x2 - x1)) mod c_p E = (y2 - y1) mod c_p E ->
    third E l x1 y1 x2 x3 y3 -> sum E (Some (x1, y1)) (Some (x2, y2)) (Some (x3, y3))
| sum_tangent x y l x3 y3 : y <> 0 -> (l * (2 * y)) mod c_p E = (3 * x * x + c_a E) mod c_p E ->
    third E l x y x x3 y3 -> sum E (Some (x, y)) (Some (x, y)) (Some (x3, y3)).
Definition opposite (E : curve) (A : zpoint) : zpoint := match A with None => None | Some (x, y) => Some (x, (- y) mod c_p E) end.
(** the n-fold sum *)
Inductive mult (E : curve) (A : zpoint) : nat -> zpoint -> Prop :=
| mult_0 : mult E A 0 None
| mult_S n B C : mult E A n B -> sum E A B C -> mult E A (S n) C.
