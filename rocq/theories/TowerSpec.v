(** Quadratic and cubic extensions of a field, written out: K[X]/(X^2 - n) and K[X]/(X^3 - n) on coordinates, and powers.
    The specification of the arithmetic of fp2.go, fp6.go and fp12.go (the record types are those of TowerModel.v). *)
From Coq Require Import Field Ring NArith.
From Verif Require Import EcField TowerModel.
Set Implicit Arguments.
Unset Strict Implicit.
Local Open Scope fld_scope.

Section Ext.
  Variables (K : field) (n : K).
  (** (a + bX) (c + dX) with X^2 = n *)
  Definition quad_add (x y : quad K) : quad K := Quad (qu_a x + qu_a y) (qu_b x + qu_b y).
  Definition quad_mul (x y : quad K) : quad K :=
    Quad (qu_a x * qu_a y + n * (qu_b x * qu_b y)) (qu_a x * qu_b y + qu_b x * qu_a y).
  Definition quad_opp (x : quad K) : quad K := Quad (- qu_a x) (- qu_b x).
  Definition quad_sub (x y : quad K) : quad K := Quad (qu_a x - qu_a y) (qu_b x - qu_b y).
  Definition quad_norm (x : quad K) : K := qu_a x * qu_a x - n * (qu_b x * qu_b x).
  Definition quad_inv (x : quad K) : quad K := Quad (qu_a x / quad_norm x) (- qu_b x / quad_norm x).
  (** (a + bX + cX^2) (d + eX + fX^2) with X^3 = n *)
  Definition cubic_add (x y : cubic K) : cubic K := Cubic (cu_a x + cu_a y) (cu_b x + cu_b y) (cu_c x + cu_c y).
  Definition cubic_mul (x y : cubic K) : cubic K :=
    Cubic (cu_a x * cu_a y + n * (cu_b x * cu_c y + cu_c x * cu_b y))
          (cu_a x * cu_b y + cu_b x * cu_a y + n * (cu_c x * cu_c y))
          (cu_a x * cu_c y + cu_b x * cu_b y + cu_c x * cu_a y).
  Definition cubic_opp (x : cubic K) : cubic K := Cubic (- cu_a x) (- cu_b x) (- cu_c x).
  Definition cubic_sub (x y : cubic K) : cubic K := Cubic (cu_a x - cu_a y) (cu_b x - cu_b y) (cu_c x - cu_c y).
  Definition adj_a (x : cubic K) : K := cu_a x * cu_a x - n * (cu_b x * cu_c x).
  Definition adj_b (x : cubic K) : K := n * (cu_c x * cu_c x) - cu_a x * cu_b x.
  Definition adj_c (x : cubic K) : K := cu_b x * cu_b x - cu_a x * cu_c x.
  Definition cubic_norm (x : cubic K) : K := cu_a x * adj_a x + n * (cu_b x * adj_c x + cu_c x * adj_b x).
  Definition cubic_inv (x : cubic K) : cubic K :=
    Cubic (adj_a x / cubic_norm x) (adj_b x / cubic_norm x) (adj_c x / cubic_norm x).
End Ext.

(** x^n *)
Section Power.
  Variable K : field.
  Definition fpow (x : K) (n : N) : K := N.recursion (1 : K) (fun _ y => y * x) n.
End Power.
