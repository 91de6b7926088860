(** Generated by tools/gen_ecalg.py. The complete addition formulas of Renes, Costello and Batina (2015/1060) for
    y^2 = x^3 + a x + b, and polynomial identities for them modulo the curve equations, all checked by [ring]. *)
From Coq Require Import Ring Field.
From Verif Require Import EcField.
Local Open Scope fld_scope.

Section Formula.
  Variable F : field.
  Implicit Types a b : F.
  Definition cx a b X1 Y1 Z1 X2 Y2 Z2 : F :=
    (X1*Y2+X2*Y1)*(Y1*Y2-a*(X1*Z2+X2*Z1)-3*b*(Z1*Z2)) - (Y1*Z2+Y2*Z1)*(a*(X1*X2)+3*b*(X1*Z2+X2*Z1)-a*a*(Z1*Z2)).
  Definition cy a b X1 Y1 Z1 X2 Y2 Z2 : F :=
    (3*(X1*X2)+a*(Z1*Z2))*(a*(X1*X2)+3*b*(X1*Z2+X2*Z1)-a*a*(Z1*Z2))
    + (Y1*Y2+a*(X1*Z2+X2*Z1)+3*b*(Z1*Z2))*(Y1*Y2-a*(X1*Z2+X2*Z1)-3*b*(Z1*Z2)).
  Definition cz a b X1 Y1 Z1 X2 Y2 Z2 : F :=
    (Y1*Z2+Y2*Z1)*(Y1*Y2+a*(X1*Z2+X2*Z1)+3*b*(Z1*Z2)) + (X1*Y2+X2*Y1)*(3*(X1*X2)+a*(Z1*Z2)).
End Formula.

Section Alg.
  Variable F : field.
  Add Field fF2 : (fth F).
  Variables a b x1 y1 x2 y2 x3 y3 : F.
  Hypothesis H1 : y1*y1 = x1*x1*x1+a*x1+b.
  Hypothesis H2 : y2*y2 = x2*x2*x2+a*x2+b.
  Hypothesis H3 : y3*y3 = x3*x3*x3+a*x3+b.
  Definition Sx : F :=
    y2*a*a - (2*1)*x2*y2*b + y1*a*a - (2*(1+2*1))*y1*x2*b - y1*x2*x2*a - (2*(1+2*1))*x1*y2*b - x1*x2*y2*a -
    (2*1)*x1*y1*b - x1*y1*x2*a + x1*y1*x2*x2*x2 - x1*x1*y2*a + x1*x1*x1*x2*y2.
  Definition Sy : F :=
    0 - (2*(2*(2*1)))*b*b - a*a*a - (2*1)*x2*a*b - x2*x2*a*a + x2*x2*x2*b - (2*1)*x1*a*b - (1+2*1)*x1*x2*a*a +
    (1+2*(2*(2*1)))*x1*x2*x2*b + x1*x2*x2*x2*a - x1*x1*a*a + (1+2*(2*(2*1)))*x1*x1*x2*b + (1+2*1)*x1*x1*x2*x2*a +
    x1*x1*x1*b + x1*x1*x1*x2*a + x1*x1*x1*x2*x2*x2.
  Definition Sz : F :=
    (2*(2*1))*y2*b + x2*y2*a + (2*(2*1))*y1*b + (1+2*1)*y1*x2*a + y1*x2*x2*x2 + (1+2*1)*x1*y2*a + x1*y1*a +
    (1+2*1)*x1*y1*x2*x2 + (1+2*1)*x1*x1*x2*y2 + x1*x1*x1*y2.
  Definition Tx : F :=
    y3*a*a - (2*1)*x3*y3*b + y2*a*a - (2*(1+2*1))*y2*x3*b - y2*x3*x3*a - (2*(1+2*1))*x2*y3*b - x2*x3*y3*a -
    (2*1)*x2*y2*b - x2*y2*x3*a + x2*y2*x3*x3*x3 - x2*x2*y3*a + x2*x2*x2*x3*y3.
  Definition Ty : F :=
    0 - (2*(2*(2*1)))*b*b - a*a*a - (2*1)*x3*a*b - x3*x3*a*a + x3*x3*x3*b - (2*1)*x2*a*b - (1+2*1)*x2*x3*a*a +
    (1+2*(2*(2*1)))*x2*x3*x3*b + x2*x3*x3*x3*a - x2*x2*a*a + (1+2*(2*(2*1)))*x2*x2*x3*b + (1+2*1)*x2*x2*x3*x3*a +
    x2*x2*x2*b + x2*x2*x2*x3*a + x2*x2*x2*x3*x3*x3.
  Definition Tz : F :=
    (2*(2*1))*y3*b + x3*y3*a + (2*(2*1))*y2*b + (1+2*1)*y2*x3*a + y2*x3*x3*x3 + (1+2*1)*x2*y3*a + x2*y2*a +
    (1+2*1)*x2*y2*x3*x3 + (1+2*1)*x2*x2*x3*y3 + x2*x2*x2*y3.
  Definition Lx : F :=
    0 - (2*(2*(2*(2*1))))*y3*a*a*b*b*b - (2*1)*y3*a*a*a*a*a*b - (2*(2*(2*(2*(2*1)))))*x3*y3*b*b*b*b +
    x3*y3*a*a*a*a*a*a - (2*(2*(2*(2*1))))*y2*a*a*b*b*b - (2*1)*y2*a*a*a*a*a*b +
    (2*(2*(2*(2*(2*(2*(1+2*1)))))))*y2*x3*b*b*b*b + (2*(2*(2*(2*(2*1)))))*y2*x3*a*a*a*b*b + y2*x3*a*a*a*a*a*a +
    (2*(2*(2*(2*(2*1)))))*y2*x3*x3*a*b*b*b + (2*(2*1))*y2*x3*x3*a*a*a*a*b - (2*(2*(2*1)))*y2*x3*x3*x3*a*a*b*b -
    y2*x3*x3*x3*a*a*a*a*a + (2*(2*(2*(2*(2*(2*(1+2*1)))))))*x2*y3*b*b*b*b + (2*(2*(2*(2*1))))*x2*y3*a*a*a*b*b -
    x2*y3*a*a*a*a*a*a - (2*(2*(2*(2*(1+2*1)))))*x2*x3*y3*a*b*b*b - (2*(2*(1+2*1)))*x2*x3*y3*a*a*a*a*b -
    (2*(2*(2*(2*(2*1)))))*x2*y2*b*b*b*b - (2*(2*(2*(2*1))))*x2*y2*a*a*a*b*b - x2*y2*a*a*a*a*a*a +
    (2*(2*(2*(2*(1+2*(2*1))))))*x2*y2*x3*a*b*b*b + (2*(1+2*1))*x2*y2*x3*a*a*a*a*b +
    (2*(2*(2*(2*1))))*x2*y2*x3*x3*a*a*b*b + x2*y2*x3*x3*a*a*a*a*a + (2*(2*(2*(2*1))))*x2*y2*x3*x3*x3*b*b*b +
    (2*(2*(2*(1+2*(1+2*(2*(2*1)))))))*x2*x2*y3*a*b*b*b + (2*(1+2*(2*(2*1))))*x2*x2*y3*a*a*a*a*b +
    (2*(1+2*(1+2*(1+2*1))))*x2*x2*x3*y3*a*a*b*b - (2*(2*(2*1)))*x2*x2*y2*a*b*b*b - (2*(2*1))*x2*x2*y2*a*a*a*a*b +
    (2*(2*(2*(2*(2*1)))))*x2*x2*y2*x3*a*a*b*b + x2*x2*y2*x3*a*a*a*a*a + (2*(1+2*1))*x2*x2*y2*x3*x3*a*a*a*b +
    (2*(2*1))*x2*x2*y2*x3*x3*x3*a*b*b - x2*x2*y2*x3*x3*x3*a*a*a*a + (2*(2*(2*1)))*x2*x2*x2*y3*a*a*b*b -
    (2*(2*(2*(1+2*(1+2*(2*1))))))*x2*x2*x2*x3*y3*b*b*b - x2*x2*x2*x3*y3*a*a*a*b - (2*1)*x2*x2*x2*y2*a*a*b*b -
    x2*x2*x2*y2*a*a*a*a*a - (2*(2*(2*(1+2*1))))*x2*x2*x2*y2*x3*b*b*b + (1+2*1)*x2*x2*x2*y2*x3*a*a*a*b -
    (2*(2*1))*x2*x2*x2*y2*x3*x3*a*b*b + x2*x2*x2*y2*x3*x3*a*a*a*a + (1+2*1)*x2*x2*x2*y2*x3*x3*x3*a*a*b +
    (2*(2*(1+2*(2*(1+2*(2*1))))))*x2*x2*x2*x2*y3*b*b*b + (1+2*(1+2*(2*1)))*x2*x2*x2*x2*y3*a*a*a*b -
    (2*(1+2*(2*(2*1))))*x2*x2*x2*x2*x3*y3*a*b*b - x2*x2*x2*x2*x3*y3*a*a*a*a + (2*(2*1))*x2*x2*x2*x2*y2*b*b*b +
    x2*x2*x2*x2*y2*a*a*a*b - (2*(2*1))*x2*x2*x2*x2*y2*x3*a*b*b - x2*x2*x2*x2*y2*x3*x3*a*a*b -
    (2*1)*x2*x2*x2*x2*y2*x3*x3*x3*b*b + (2*(1+2*(1+2*1)))*x2*x2*x2*x2*x2*y3*a*b*b + x2*x2*x2*x2*x2*y3*a*a*a*a +
    x2*x2*x2*x2*x2*x3*y3*a*a*b + x2*x2*x2*x2*x2*x2*y3*a*a*b - (2*1)*x2*x2*x2*x2*x2*x2*x3*y3*b*b -
    (2*(2*(2*(2*1))))*y1*a*a*b*b*b - (2*1)*y1*a*a*a*a*a*b + (2*(2*(2*(2*(2*(2*(1+2*1)))))))*y1*x3*b*b*b*b +
    (2*(2*(2*(2*(2*1)))))*y1*x3*a*a*a*b*b + y1*x3*a*a*a*a*a*a + (2*(2*(2*(2*(2*1)))))*y1*x3*x3*a*b*b*b +
    (2*(2*1))*y1*x3*x3*a*a*a*a*b - (2*(2*(2*1)))*y1*x3*x3*x3*a*a*b*b - y1*x3*x3*x3*a*a*a*a*a -
    (2*(2*(2*(2*1))))*y1*y2*y3*a*a*b*b - (2*1)*y1*y2*y3*a*a*a*a*a - (2*(2*(2*(2*(2*(1+2*1))))))*y1*y2*x3*y3*b*b*b -
    (2*(2*(2*(2*1))))*y1*y2*x3*y3*a*a*a*b - (2*(2*(2*(2*(2*(1+2*1))))))*y1*x2*b*b*b*b -
    (2*(2*(2*(1+2*(2*1)))))*y1*x2*a*a*a*b*b - (1+2*1)*y1*x2*a*a*a*a*a*a +
    (2*(2*(2*(2*(1+2*(2*(2*1)))))))*y1*x2*x3*a*b*b*b + (2*(1+2*(1+2*1)))*y1*x2*x3*a*a*a*a*b +
    (2*(2*(2*(2*(2*1)))))*y1*x2*x3*x3*a*a*b*b + (1+2*1)*y1*x2*x3*x3*a*a*a*a*a +
    (2*(2*(2*(2*(1+2*1)))))*y1*x2*x3*x3*x3*b*b*b + (2*(2*1))*y1*x2*x3*x3*x3*a*a*a*b +
    (2*(2*(2*(2*(2*(2*(1+2*1)))))))*y1*x2*y2*y3*b*b*b + (2*(2*(2*(1+2*1))))*y1*x2*y2*y3*a*a*a*b -
    (2*(2*(2*(2*(2*1)))))*y1*x2*y2*x3*y3*a*b*b - (2*(2*(2*1)))*y1*x2*y2*x3*y3*a*a*a*a -
    (2*(2*(2*(1+2*(2*1)))))*y1*x2*x2*a*b*b*b - (2*(1+2*(2*1)))*y1*x2*x2*a*a*a*a*b +
    (2*(2*(2*(1+2*(2*1)))))*y1*x2*x2*x3*a*a*b*b + (2*(1+2*(2*1)))*y1*x2*x2*x3*x3*a*a*a*b +
    (2*(2*(1+2*(2*1))))*y1*x2*x2*x3*x3*x3*a*b*b + (2*(2*(2*(1+2*(2*(2*1))))))*y1*x2*x2*y2*y3*a*b*b +
    (2*(2*(2*1)))*y1*x2*x2*y2*y3*a*a*a*a + (2*(1+2*(1+2*1)))*y1*x2*x2*y2*x3*y3*a*a*b -
    (2*(1+2*(1+2*(2*1))))*y1*x2*x2*x2*a*a*b*b - (2*(2*1))*y1*x2*x2*x2*a*a*a*a*a +
    (2*(2*(2*(1+2*1))))*y1*x2*x2*x2*x3*b*b*b + (1+2*(1+2*(1+2*1)))*y1*x2*x2*x2*x3*a*a*a*b +
    (2*(2*1))*y1*x2*x2*x2*x3*x3*a*b*b + (2*(2*1))*y1*x2*x2*x2*x3*x3*a*a*a*a +
    (1+2*(2*(2*1)))*y1*x2*x2*x2*x3*x3*x3*a*a*b + (2*(2*1))*y1*x2*x2*x2*y2*y3*a*a*b -
    (2*(2*(2*(1+2*1))))*y1*x2*x2*x2*y2*x3*y3*b*b + (2*(2*(1+2*1)))*y1*x2*x2*x2*x2*b*b*b - y1*x2*x2*x2*x2*a*a*a*b -
    y1*x2*x2*x2*x2*x3*a*a*a*a - y1*x2*x2*x2*x2*x3*x3*a*a*b - (2*(1+2*1))*y1*x2*x2*x2*x2*x3*x3*x3*b*b +
    y1*x2*x2*x2*x2*x3*x3*x3*a*a*a + (2*(2*(1+2*1)))*y1*x2*x2*x2*x2*y2*y3*b*b + (2*1)*y1*x2*x2*x2*x2*y2*y3*a*a*a -
    (2*1)*y1*x2*x2*x2*x2*y2*x3*y3*a*b + (2*1)*y1*x2*x2*x2*x2*x2*a*b*b - y1*x2*x2*x2*x2*x2*a*a*a*a +
    (1+2*(1+2*1))*y1*x2*x2*x2*x2*x2*x3*a*a*b + y1*x2*x2*x2*x2*x2*x3*x3*a*a*a - y1*x2*x2*x2*x2*x2*x3*x3*x3*a*b +
    y1*x2*x2*x2*x2*x2*x2*a*a*b - (2*(1+2*1))*y1*x2*x2*x2*x2*x2*x2*x3*b*b - y1*x2*x2*x2*x2*x2*x2*x3*x3*a*b +
    (2*(2*(2*(2*(2*(2*(1+2*1)))))))*x1*y3*b*b*b*b + (2*(2*(2*(2*1))))*x1*y3*a*a*a*b*b - x1*y3*a*a*a*a*a*a -
    (2*(2*(2*(2*(1+2*1)))))*x1*x3*y3*a*b*b*b - (2*(2*(1+2*1)))*x1*x3*y3*a*a*a*a*b -
    (2*(2*(2*(2*(2*(1+2*1))))))*x1*y2*b*b*b*b - (2*(2*(2*(1+2*(2*1)))))*x1*y2*a*a*a*b*b - (1+2*1)*x1*y2*a*a*a*a*a*a
    + (2*(2*(2*(2*(1+2*(2*(2*1)))))))*x1*y2*x3*a*b*b*b + (2*(1+2*(1+2*1)))*x1*y2*x3*a*a*a*a*b +
    (2*(2*(2*(2*(2*1)))))*x1*y2*x3*x3*a*a*b*b + (1+2*1)*x1*y2*x3*x3*a*a*a*a*a +
    (2*(2*(2*(2*(1+2*1)))))*x1*y2*x3*x3*x3*b*b*b + (2*(2*1))*x1*y2*x3*x3*x3*a*a*a*b +
    (2*(2*(2*(2*(1+2*(1+2*(2*(1+2*1))))))))*x1*x2*y3*a*b*b*b + (2*(2*(1+2*(2*(1+2*1)))))*x1*x2*y3*a*a*a*a*b +
    (2*(2*(1+2*(2*(2*1)))))*x1*x2*x3*y3*a*a*b*b - (2*(1+2*1))*x1*x2*x3*y3*a*a*a*a*a -
    (2*(2*(2*(2*(1+2*1)))))*x1*x2*y2*a*b*b*b - (2*(2*(2*(2*1))))*x1*x2*y2*a*a*a*a*b +
    (2*(2*(2*(2*(2*(1+2*1))))))*x1*x2*y2*x3*a*a*b*b + (2*1)*x1*x2*y2*x3*a*a*a*a*a +
    (2*(2*(1+2*(2*1))))*x1*x2*y2*x3*x3*a*a*a*b + (2*(2*(2*(1+2*1))))*x1*x2*y2*x3*x3*x3*a*b*b -
    (2*1)*x1*x2*y2*x3*x3*x3*a*a*a*a + (2*(2*(2*(1+2*(1+2*(1+2*(2*1)))))))*x1*x2*x2*y3*a*a*b*b +
    (1+2*(1+2*(2*(2*1))))*x1*x2*x2*y3*a*a*a*a*a - (2*(2*(2*(1+2*(1+2*(2*(1+2*1)))))))*x1*x2*x2*x3*y3*b*b*b +
    (1+2*(2*(2*(2*(2*1)))))*x1*x2*x2*x3*y3*a*a*a*b - (2*(1+2*(2*1)))*x1*x2*x2*y2*a*a*b*b -
    (2*(1+2*1))*x1*x2*x2*y2*a*a*a*a*a - (2*(2*(2*(1+2*(1+2*(2*(1+2*1)))))))*x1*x2*x2*y2*x3*b*b*b +
    (1+2*(2*(1+2*1)))*x1*x2*x2*y2*x3*a*a*a*b - (2*(2*(1+2*(2*(2*1)))))*x1*x2*x2*y2*x3*x3*a*b*b +
    (2*(1+2*1))*x1*x2*x2*y2*x3*x3*a*a*a*a + (1+2*(1+2*(1+2*(2*1))))*x1*x2*x2*y2*x3*x3*x3*a*a*b +
    (2*(2*(2*(2*(1+2*(1+2*(1+2*1)))))))*x1*x2*x2*x2*y3*b*b*b + (2*(2*(1+2*(1+2*(2*1)))))*x1*x2*x2*x2*y3*a*a*a*b -
    (2*(2*(1+2*(2*(2*(2*(2*1)))))))*x1*x2*x2*x2*x3*y3*a*b*b + (2*(2*1))*x1*x2*x2*x2*x3*y3*a*a*a*a +
    (2*(2*(2*(2*(1+2*1)))))*x1*x2*x2*x2*y2*b*b*b + (2*(2*(1+2*1)))*x1*x2*x2*x2*y2*a*a*a*b -
    (2*(2*(2*(1+2*(2*(2*1))))))*x1*x2*x2*x2*y2*x3*a*b*b - (2*1)*x1*x2*x2*x2*y2*x3*a*a*a*a -
    (2*(2*(2*(2*1))))*x1*x2*x2*x2*y2*x3*x3*a*a*b - (2*(2*(2*(1+2*1))))*x1*x2*x2*x2*y2*x3*x3*x3*b*b +
    (2*1)*x1*x2*x2*x2*y2*x3*x3*x3*a*a*a + (2*(1+2*(1+2*(1+2*(1+2*(1+2*1))))))*x1*x2*x2*x2*x2*y3*a*b*b +
    (1+2*(2*(1+2*1)))*x1*x2*x2*x2*x2*y3*a*a*a*a - (2*(1+2*(2*(2*1))))*x1*x2*x2*x2*x2*x3*y3*a*a*b +
    (2*(1+2*1))*x1*x2*x2*x2*x2*y2*a*b*b + x1*x2*x2*x2*x2*y2*a*a*a*a - (1+2*1)*x1*x2*x2*x2*x2*y2*x3*a*a*b -
    x1*x2*x2*x2*x2*y2*x3*x3*a*a*a - (1+2*1)*x1*x2*x2*x2*x2*y2*x3*x3*x3*a*b +
    (2*(2*(2*(2*1))))*x1*x2*x2*x2*x2*x2*y3*a*a*b + (2*1)*x1*x2*x2*x2*x2*x2*x3*y3*a*a*a -
    (2*(1+2*1))*x1*x2*x2*x2*x2*x2*x2*y3*b*b + x1*x2*x2*x2*x2*x2*x2*y3*a*a*a -
    (1+2*1)*x1*x2*x2*x2*x2*x2*x2*x3*y3*a*b - (2*(2*(2*(2*(2*1)))))*x1*y1*b*b*b*b -
    (2*(2*(2*(2*1))))*x1*y1*a*a*a*b*b - x1*y1*a*a*a*a*a*a + (2*(2*(2*(2*(1+2*(2*1))))))*x1*y1*x3*a*b*b*b +
    (2*(1+2*1))*x1*y1*x3*a*a*a*a*b + (2*(2*(2*(2*1))))*x1*y1*x3*x3*a*a*b*b + x1*y1*x3*x3*a*a*a*a*a +
    (2*(2*(2*(2*1))))*x1*y1*x3*x3*x3*b*b*b + (2*(2*(2*(2*(2*(2*(1+2*1)))))))*x1*y1*y2*y3*b*b*b +
    (2*(2*(2*(1+2*1))))*x1*y1*y2*y3*a*a*a*b - (2*(2*(2*(2*(2*1)))))*x1*y1*y2*x3*y3*a*b*b -
    (2*(2*(2*1)))*x1*y1*y2*x3*y3*a*a*a*a - (2*(2*(2*(2*(1+2*1)))))*x1*y1*x2*a*b*b*b -
    (2*(2*(2*(2*1))))*x1*y1*x2*a*a*a*a*b + (2*(2*(2*(2*(2*(1+2*1))))))*x1*y1*x2*x3*a*a*b*b +
    (2*1)*x1*y1*x2*x3*a*a*a*a*a + (2*(2*(1+2*(2*1))))*x1*y1*x2*x3*x3*a*a*a*b +
    (2*(2*(2*(1+2*1))))*x1*y1*x2*x3*x3*x3*a*b*b - (2*1)*x1*y1*x2*x3*x3*x3*a*a*a*a +
    (2*(2*(2*(2*(1+2*(2*(1+2*1)))))))*x1*y1*x2*y2*y3*a*b*b + (2*(2*(2*(1+2*1))))*x1*y1*x2*y2*y3*a*a*a*a +
    (2*(2*(1+2*(2*(2*1)))))*x1*y1*x2*y2*x3*y3*a*a*b - (2*(1+2*(1+2*(2*(1+2*1)))))*x1*y1*x2*x2*a*a*b*b -
    (1+2*(2*(1+2*1)))*x1*y1*x2*x2*a*a*a*a*a - (2*(2*(2*(1+2*(2*(2*1))))))*x1*y1*x2*x2*x3*b*b*b +
    (1+2*(2*(1+2*(1+2*(2*1)))))*x1*y1*x2*x2*x3*a*a*a*b - (2*(2*(1+2*1)))*x1*y1*x2*x2*x3*x3*a*b*b +
    (1+2*(2*(1+2*1)))*x1*y1*x2*x2*x3*x3*a*a*a*a + (1+2*(2*(2*(2*(2*1)))))*x1*y1*x2*x2*x3*x3*x3*a*a*b +
    (2*(2*(1+2*(2*1))))*x1*y1*x2*x2*y2*y3*a*a*b - (2*(2*(2*(1+2*(2*(2*1))))))*x1*y1*x2*x2*y2*x3*y3*b*b +
    (2*(2*(2*1)))*x1*y1*x2*x2*y2*x3*y3*a*a*a + (2*(2*(2*(2*(2*(2*(2*1)))))))*x1*y1*x2*x2*x2*b*b*b +
    (2*(2*(2*(2*1))))*x1*y1*x2*x2*x2*a*a*a*b - (2*(2*(2*(2*(1+2*(2*1))))))*x1*y1*x2*x2*x2*x3*a*b*b -
    (2*(2*1))*x1*y1*x2*x2*x2*x3*a*a*a*a - (2*(2*(2*(1+2*1))))*x1*y1*x2*x2*x2*x3*x3*a*a*b -
    (2*(2*(2*(2*(2*(2*1))))))*x1*y1*x2*x2*x2*x3*x3*x3*b*b + (2*(2*1))*x1*y1*x2*x2*x2*x3*x3*x3*a*a*a +
    (2*(2*(2*(2*(1+2*1)))))*x1*y1*x2*x2*x2*y2*y3*b*b + (2*(2*(2*1)))*x1*y1*x2*x2*x2*y2*y3*a*a*a -
    (2*(2*(1+2*(2*1))))*x1*y1*x2*x2*x2*y2*x3*y3*a*b + (2*(2*(1+2*(2*(2*1)))))*x1*y1*x2*x2*x2*x2*a*b*b -
    (1+2*1)*x1*y1*x2*x2*x2*x2*a*a*a*a + (2*(2*(1+2*(2*(2*1)))))*x1*y1*x2*x2*x2*x2*x3*a*a*b +
    (1+2*1)*x1*y1*x2*x2*x2*x2*x3*x3*a*a*a - (2*(1+2*(2*(2*1))))*x1*y1*x2*x2*x2*x2*x3*x3*x3*a*b +
    (2*(2*1))*x1*y1*x2*x2*x2*x2*y2*y3*a*b + (2*(2*(2*(2*1))))*x1*y1*x2*x2*x2*x2*x2*a*a*b -
    (2*(2*(2*(1+2*(2*(2*1))))))*x1*y1*x2*x2*x2*x2*x2*x3*b*b + (2*1)*x1*y1*x2*x2*x2*x2*x2*x3*a*a*a -
    (2*(2*(1+2*1)))*x1*y1*x2*x2*x2*x2*x2*x3*x3*a*b - (2*1)*x1*y1*x2*x2*x2*x2*x2*x3*x3*x3*a*a -
    (2*1)*x1*y1*x2*x2*x2*x2*x2*x2*b*b + x1*y1*x2*x2*x2*x2*x2*x2*a*a*a -
    (1+2*(1+2*1))*x1*y1*x2*x2*x2*x2*x2*x2*x3*a*b - x1*y1*x2*x2*x2*x2*x2*x2*x3*x3*a*a +
    x1*y1*x2*x2*x2*x2*x2*x2*x3*x3*x3*b + (2*(2*(2*(1+2*(1+2*(2*(2*1)))))))*x1*x1*y3*a*b*b*b +
    (2*(1+2*(2*(2*1))))*x1*x1*y3*a*a*a*a*b + (2*(1+2*(1+2*(1+2*1))))*x1*x1*x3*y3*a*a*b*b -
    (2*(2*(2*(1+2*(2*1)))))*x1*x1*y2*a*b*b*b - (2*(1+2*(2*1)))*x1*x1*y2*a*a*a*a*b +
    (2*(2*(2*(1+2*(2*1)))))*x1*x1*y2*x3*a*a*b*b + (2*(1+2*(2*1)))*x1*x1*y2*x3*x3*a*a*a*b +
    (2*(2*(1+2*(2*1))))*x1*x1*y2*x3*x3*x3*a*b*b + (2*(2*(2*(1+2*(1+2*(1+2*(2*1)))))))*x1*x1*x2*y3*a*a*b*b +
    (1+2*(1+2*(2*(2*1))))*x1*x1*x2*y3*a*a*a*a*a - (2*(2*(2*(1+2*(1+2*(2*(1+2*1)))))))*x1*x1*x2*x3*y3*b*b*b +
    (1+2*(2*(2*(2*(2*1)))))*x1*x1*x2*x3*y3*a*a*a*b - (2*(1+2*(1+2*(2*(1+2*1)))))*x1*x1*x2*y2*a*a*b*b -
    (1+2*(2*(1+2*1)))*x1*x1*x2*y2*a*a*a*a*a - (2*(2*(2*(1+2*(2*(2*1))))))*x1*x1*x2*y2*x3*b*b*b +
    (1+2*(2*(1+2*(1+2*(2*1)))))*x1*x1*x2*y2*x3*a*a*a*b - (2*(2*(1+2*1)))*x1*x1*x2*y2*x3*x3*a*b*b +
    (1+2*(2*(1+2*1)))*x1*x1*x2*y2*x3*x3*a*a*a*a + (1+2*(2*(2*(2*(2*1)))))*x1*x1*x2*y2*x3*x3*x3*a*a*b +
    (2*(2*(2*(1+2*(2*(2*1))))))*x1*x1*x2*x2*y3*b*b*b + (2*(1+2*(1+2*(2*(2*1)))))*x1*x1*x2*x2*y3*a*a*a*b -
    (2*(2*(1+2*(2*(1+2*(2*(2*(2*1))))))))*x1*x1*x2*x2*x3*y3*a*b*b + (1+2*(2*(2*1)))*x1*x1*x2*x2*x3*y3*a*a*a*a +
    (2*(2*(2*(2*(1+2*(2*(2*1)))))))*x1*x1*x2*x2*y2*b*b*b + (2*(2*(1+2*(1+2*1))))*x1*x1*x2*x2*y2*a*a*a*b -
    (2*(2*(1+2*(2*(1+2*(1+2*(2*1)))))))*x1*x1*x2*x2*y2*x3*a*b*b - (1+2*(1+2*1))*x1*x1*x2*x2*y2*x3*a*a*a*a -
    (2*(1+2*(2*(1+2*(2*1)))))*x1*x1*x2*x2*y2*x3*x3*a*a*b - (2*(2*(2*(1+2*(2*(2*1))))))*x1*x1*x2*x2*y2*x3*x3*x3*b*b
    + (1+2*(1+2*1))*x1*x1*x2*x2*y2*x3*x3*x3*a*a*a + (2*(2*(1+2*(2*(1+2*(1+2*(1+2*1)))))))*x1*x1*x2*x2*x2*y3*a*b*b +
    (2*(2*(2*(2*(2*1)))))*x1*x1*x2*x2*x2*y3*a*a*a*a - (1+2*(1+2*(1+2*(2*(2*(1+2*1))))))*x1*x1*x2*x2*x2*x3*y3*a*a*b
    + (2*(2*(1+2*(1+2*(2*1)))))*x1*x1*x2*x2*x2*y2*a*b*b + (1+2*1)*x1*x1*x2*x2*x2*y2*a*a*a*a +
    (2*(2*1))*x1*x1*x2*x2*x2*y2*x3*a*a*b - (1+2*1)*x1*x1*x2*x2*x2*y2*x3*x3*a*a*a -
    (2*(1+2*(1+2*(2*1))))*x1*x1*x2*x2*x2*y2*x3*x3*x3*a*b + (1+2*(1+2*(2*(1+2*(2*1)))))*x1*x1*x2*x2*x2*x2*y3*a*a*b -
    (2*(2*(2*1)))*x1*x1*x2*x2*x2*x2*x3*y3*a*a*a + (1+2*(2*1))*x1*x1*x2*x2*x2*x2*y2*a*a*b -
    (2*(1+2*(2*(2*1))))*x1*x1*x2*x2*x2*x2*y2*x3*b*b + x1*x1*x2*x2*x2*x2*y2*x3*a*a*a -
    (1+2*1)*x1*x1*x2*x2*x2*x2*y2*x3*x3*a*b - x1*x1*x2*x2*x2*x2*y2*x3*x3*x3*a*a +
    (2*(1+2*(2*(2*1))))*x1*x1*x2*x2*x2*x2*x2*y3*b*b + (1+2*(2*(1+2*1)))*x1*x1*x2*x2*x2*x2*x2*y3*a*a*a -
    (2*(1+2*1))*x1*x1*x2*x2*x2*x2*x2*x3*y3*a*b - (1+2*(1+2*1))*x1*x1*x2*x2*x2*x2*x2*x2*y3*a*b -
    x1*x1*x2*x2*x2*x2*x2*x2*x3*y3*a*a - (2*(2*(2*1)))*x1*x1*y1*a*b*b*b - (2*(2*1))*x1*x1*y1*a*a*a*a*b +
    (2*(2*(2*(2*(2*1)))))*x1*x1*y1*x3*a*a*b*b + x1*x1*y1*x3*a*a*a*a*a + (2*(1+2*1))*x1*x1*y1*x3*x3*a*a*a*b +
    (2*(2*1))*x1*x1*y1*x3*x3*x3*a*b*b - x1*x1*y1*x3*x3*x3*a*a*a*a +
    (2*(2*(2*(1+2*(2*(2*1))))))*x1*x1*y1*y2*y3*a*b*b + (2*(2*(2*1)))*x1*x1*y1*y2*y3*a*a*a*a +
    (2*(1+2*(1+2*1)))*x1*x1*y1*y2*x3*y3*a*a*b - (2*(1+2*(2*1)))*x1*x1*y1*x2*a*a*b*b -
    (2*(1+2*1))*x1*x1*y1*x2*a*a*a*a*a - (2*(2*(2*(1+2*(1+2*(2*(1+2*1)))))))*x1*x1*y1*x2*x3*b*b*b +
    (1+2*(2*(1+2*1)))*x1*x1*y1*x2*x3*a*a*a*b - (2*(2*(1+2*(2*(2*1)))))*x1*x1*y1*x2*x3*x3*a*b*b +
    (2*(1+2*1))*x1*x1*y1*x2*x3*x3*a*a*a*a + (1+2*(1+2*(1+2*(2*1))))*x1*x1*y1*x2*x3*x3*x3*a*a*b +
    (2*(2*(1+2*(2*1))))*x1*x1*y1*x2*y2*y3*a*a*b - (2*(2*(2*(1+2*(2*(2*1))))))*x1*x1*y1*x2*y2*x3*y3*b*b +
    (2*(2*(2*1)))*x1*x1*y1*x2*y2*x3*y3*a*a*a + (2*(2*(2*(2*(1+2*(2*(2*1)))))))*x1*x1*y1*x2*x2*b*b*b +
    (2*(2*(1+2*(1+2*1))))*x1*x1*y1*x2*x2*a*a*a*b - (2*(2*(1+2*(2*(1+2*(1+2*(2*1)))))))*x1*x1*y1*x2*x2*x3*a*b*b -
    (1+2*(1+2*1))*x1*x1*y1*x2*x2*x3*a*a*a*a - (2*(1+2*(2*(1+2*(2*1)))))*x1*x1*y1*x2*x2*x3*x3*a*a*b -
    (2*(2*(2*(1+2*(2*(2*1))))))*x1*x1*y1*x2*x2*x3*x3*x3*b*b + (1+2*(1+2*1))*x1*x1*y1*x2*x2*x3*x3*x3*a*a*a +
    (2*(2*(2*(1+2*(1+2*(2*(1+2*1)))))))*x1*x1*y1*x2*x2*y2*y3*b*b + (2*(2*(2*(2*(2*1)))))*x1*x1*y1*x2*x2*y2*y3*a*a*a
    - (2*(2*(1+2*(2*(2*1)))))*x1*x1*y1*x2*x2*y2*x3*y3*a*b + (2*(2*(2*(2*(1+2*(2*1))))))*x1*x1*y1*x2*x2*x2*a*b*b +
    (2*(2*(2*(1+2*(2*1)))))*x1*x1*y1*x2*x2*x2*x3*a*a*b - (2*(2*(2*(1+2*(2*1)))))*x1*x1*y1*x2*x2*x2*x3*x3*x3*a*b +
    (2*(2*(1+2*(2*(2*1)))))*x1*x1*y1*x2*x2*x2*y2*y3*a*b + (2*(2*(2*1)))*x1*x1*y1*x2*x2*x2*y2*x3*y3*a*a +
    (2*(1+2*(2*(2*(1+2*1)))))*x1*x1*y1*x2*x2*x2*x2*a*a*b -
    (2*(2*(2*(1+2*(1+2*(2*(1+2*1)))))))*x1*x1*y1*x2*x2*x2*x2*x3*b*b + (1+2*(1+2*1))*x1*x1*y1*x2*x2*x2*x2*x3*a*a*a -
    (2*(2*(1+2*(2*(2*1)))))*x1*x1*y1*x2*x2*x2*x2*x3*x3*a*b - (1+2*(1+2*1))*x1*x1*y1*x2*x2*x2*x2*x3*x3*x3*a*a +
    (2*(2*(2*1)))*x1*x1*y1*x2*x2*x2*x2*y2*y3*a*a - (2*(1+2*(2*(2*1))))*x1*x1*y1*x2*x2*x2*x2*y2*x3*y3*b -
    (2*(1+2*(2*(2*1))))*x1*x1*y1*x2*x2*x2*x2*x2*b*b + (2*(1+2*1))*x1*x1*y1*x2*x2*x2*x2*x2*a*a*a -
    (1+2*(2*(1+2*(1+2*(2*1)))))*x1*x1*y1*x2*x2*x2*x2*x2*x3*a*b - (2*(1+2*1))*x1*x1*y1*x2*x2*x2*x2*x2*x3*x3*a*a +
    (1+2*(2*(2*1)))*x1*x1*y1*x2*x2*x2*x2*x2*x3*x3*x3*b - (2*1)*x1*x1*y1*x2*x2*x2*x2*x2*x2*a*b -
    x1*x1*y1*x2*x2*x2*x2*x2*x2*x3*a*a + x1*x1*y1*x2*x2*x2*x2*x2*x2*x3*x3*x3*a + (2*(2*(2*1)))*x1*x1*x1*y3*a*a*b*b -
    (2*(2*(2*(1+2*(1+2*(2*1))))))*x1*x1*x1*x3*y3*b*b*b - x1*x1*x1*x3*y3*a*a*a*b -
    (2*(1+2*(1+2*(2*1))))*x1*x1*x1*y2*a*a*b*b - (2*(2*1))*x1*x1*x1*y2*a*a*a*a*a +
    (2*(2*(2*(1+2*1))))*x1*x1*x1*y2*x3*b*b*b + (1+2*(1+2*(1+2*1)))*x1*x1*x1*y2*x3*a*a*a*b +
    (2*(2*1))*x1*x1*x1*y2*x3*x3*a*b*b + (2*(2*1))*x1*x1*x1*y2*x3*x3*a*a*a*a +
    (1+2*(2*(2*1)))*x1*x1*x1*y2*x3*x3*x3*a*a*b + (2*(2*(2*(2*(1+2*(1+2*(1+2*1)))))))*x1*x1*x1*x2*y3*b*b*b +
    (2*(2*(1+2*(1+2*(2*1)))))*x1*x1*x1*x2*y3*a*a*a*b - (2*(2*(1+2*(2*(2*(2*(2*1)))))))*x1*x1*x1*x2*x3*y3*a*b*b +
    (2*(2*1))*x1*x1*x1*x2*x3*y3*a*a*a*a + (2*(2*(2*(2*(2*(2*(2*1)))))))*x1*x1*x1*x2*y2*b*b*b +
    (2*(2*(2*(2*1))))*x1*x1*x1*x2*y2*a*a*a*b - (2*(2*(2*(2*(1+2*(2*1))))))*x1*x1*x1*x2*y2*x3*a*b*b -
    (2*(2*1))*x1*x1*x1*x2*y2*x3*a*a*a*a - (2*(2*(2*(1+2*1))))*x1*x1*x1*x2*y2*x3*x3*a*a*b -
    (2*(2*(2*(2*(2*(2*1))))))*x1*x1*x1*x2*y2*x3*x3*x3*b*b + (2*(2*1))*x1*x1*x1*x2*y2*x3*x3*x3*a*a*a +
    (2*(2*(1+2*(2*(1+2*(1+2*(1+2*1)))))))*x1*x1*x1*x2*x2*y3*a*b*b + (2*(2*(2*(2*(2*1)))))*x1*x1*x1*x2*x2*y3*a*a*a*a
    - (1+2*(1+2*(1+2*(2*(2*(1+2*1))))))*x1*x1*x1*x2*x2*x3*y3*a*a*b +
    (2*(2*(2*(2*(1+2*(2*1))))))*x1*x1*x1*x2*x2*y2*a*b*b + (2*(2*(2*(1+2*(2*1)))))*x1*x1*x1*x2*x2*y2*x3*a*a*b -
    (2*(2*(2*(1+2*(2*1)))))*x1*x1*x1*x2*x2*y2*x3*x3*x3*a*b + (2*(2*(2*(2*(1+2*1)))))*x1*x1*x1*x2*x2*x2*y3*a*a*b +
    (2*(2*(1+2*(2*(2*(1+2*1))))))*x1*x1*x1*x2*x2*x2*x3*y3*b*b - (2*(2*(2*1)))*x1*x1*x1*x2*x2*x2*x3*y3*a*a*a +
    (2*(2*(2*(1+2*(2*1)))))*x1*x1*x1*x2*x2*x2*y2*a*a*b -
    (2*(2*(2*(2*(2*(2*(1+2*1)))))))*x1*x1*x1*x2*x2*x2*y2*x3*b*b + (2*(2*1))*x1*x1*x1*x2*x2*x2*y2*x3*a*a*a -
    (2*(2*(2*(2*(2*1)))))*x1*x1*x1*x2*x2*x2*y2*x3*x3*a*b - (2*(2*1))*x1*x1*x1*x2*x2*x2*y2*x3*x3*x3*a*a +
    (2*(2*(1+2*(2*(2*(2*(2*1)))))))*x1*x1*x1*x2*x2*x2*x2*y3*b*b +
    (2*(2*(2*(2*(2*1)))))*x1*x1*x1*x2*x2*x2*x2*y3*a*a*a + (1+2*(2*(2*1)))*x1*x1*x1*x2*x2*x2*x2*x3*y3*a*b +
    (2*1)*x1*x1*x1*x2*x2*x2*x2*y2*b*b + (2*(2*1))*x1*x1*x1*x2*x2*x2*x2*y2*a*a*a -
    (1+2*(1+2*(1+2*(2*1))))*x1*x1*x1*x2*x2*x2*x2*y2*x3*a*b - (2*(2*1))*x1*x1*x1*x2*x2*x2*x2*y2*x3*x3*a*a -
    x1*x1*x1*x2*x2*x2*x2*y2*x3*x3*x3*b + (2*(2*1))*x1*x1*x1*x2*x2*x2*x2*x2*y3*a*b +
    (2*(2*1))*x1*x1*x1*x2*x2*x2*x2*x2*x3*y3*a*a - x1*x1*x1*x2*x2*x2*x2*x2*x2*x3*y3*b - (2*1)*x1*x1*x1*y1*a*a*b*b -
    x1*x1*x1*y1*a*a*a*a*a - (2*(2*(2*(1+2*1))))*x1*x1*x1*y1*x3*b*b*b + (1+2*1)*x1*x1*x1*y1*x3*a*a*a*b -
    (2*(2*1))*x1*x1*x1*y1*x3*x3*a*b*b + x1*x1*x1*y1*x3*x3*a*a*a*a + (1+2*1)*x1*x1*x1*y1*x3*x3*x3*a*a*b +
    (2*(2*1))*x1*x1*x1*y1*y2*y3*a*a*b - (2*(2*(2*(1+2*1))))*x1*x1*x1*y1*y2*x3*y3*b*b +
    (2*(2*(2*(2*(1+2*1)))))*x1*x1*x1*y1*x2*b*b*b + (2*(2*(1+2*1)))*x1*x1*x1*y1*x2*a*a*a*b -
    (2*(2*(2*(1+2*(2*(2*1))))))*x1*x1*x1*y1*x2*x3*a*b*b - (2*1)*x1*x1*x1*y1*x2*x3*a*a*a*a -
    (2*(2*(2*(2*1))))*x1*x1*x1*y1*x2*x3*x3*a*a*b - (2*(2*(2*(1+2*1))))*x1*x1*x1*y1*x2*x3*x3*x3*b*b +
    (2*1)*x1*x1*x1*y1*x2*x3*x3*x3*a*a*a + (2*(2*(2*(2*(1+2*1)))))*x1*x1*x1*y1*x2*y2*y3*b*b +
    (2*(2*(2*1)))*x1*x1*x1*y1*x2*y2*y3*a*a*a - (2*(2*(1+2*(2*1))))*x1*x1*x1*y1*x2*y2*x3*y3*a*b +
    (2*(2*(1+2*(1+2*(2*1)))))*x1*x1*x1*y1*x2*x2*a*b*b + (1+2*1)*x1*x1*x1*y1*x2*x2*a*a*a*a +
    (2*(2*1))*x1*x1*x1*y1*x2*x2*x3*a*a*b - (1+2*1)*x1*x1*x1*y1*x2*x2*x3*x3*a*a*a -
    (2*(1+2*(1+2*(2*1))))*x1*x1*x1*y1*x2*x2*x3*x3*x3*a*b + (2*(2*(1+2*(2*(2*1)))))*x1*x1*x1*y1*x2*x2*y2*y3*a*b +
    (2*(2*(2*1)))*x1*x1*x1*y1*x2*x2*y2*x3*y3*a*a + (2*(2*(2*(1+2*(2*1)))))*x1*x1*x1*y1*x2*x2*x2*a*a*b -
    (2*(2*(2*(2*(2*(2*(1+2*1)))))))*x1*x1*x1*y1*x2*x2*x2*x3*b*b + (2*(2*1))*x1*x1*x1*y1*x2*x2*x2*x3*a*a*a -
    (2*(2*(2*(2*(2*1)))))*x1*x1*x1*y1*x2*x2*x2*x3*x3*a*b - (2*(2*1))*x1*x1*x1*y1*x2*x2*x2*x3*x3*x3*a*a +
    (2*(2*(2*(1+2*1))))*x1*x1*x1*y1*x2*x2*x2*y2*y3*a*a -
    (2*(2*(1+2*(1+2*(1+2*1)))))*x1*x1*x1*y1*x2*x2*x2*y2*x3*y3*b - (2*(1+2*1))*x1*x1*x1*y1*x2*x2*x2*x2*b*b +
    (1+2*(2*(1+2*1)))*x1*x1*x1*y1*x2*x2*x2*x2*a*a*a - (1+2*(2*(2*(2*(1+2*(2*1))))))*x1*x1*x1*y1*x2*x2*x2*x2*x3*a*b
    - (1+2*(2*(1+2*1)))*x1*x1*x1*y1*x2*x2*x2*x2*x3*x3*a*a + (1+2*1)*x1*x1*x1*y1*x2*x2*x2*x2*x3*x3*x3*b -
    (2*(2*(2*(1+2*1))))*x1*x1*x1*y1*x2*x2*x2*x2*y2*y3*b - (2*(2*(2*1)))*x1*x1*x1*y1*x2*x2*x2*x2*y2*x3*y3*a -
    (2*(2*1))*x1*x1*x1*y1*x2*x2*x2*x2*x2*a*b - (2*1)*x1*x1*x1*y1*x2*x2*x2*x2*x2*x3*a*a +
    (2*1)*x1*x1*x1*y1*x2*x2*x2*x2*x2*x3*x3*x3*a + x1*x1*x1*y1*x2*x2*x2*x2*x2*x2*a*a -
    (2*(1+2*1))*x1*x1*x1*y1*x2*x2*x2*x2*x2*x2*x3*b - x1*x1*x1*y1*x2*x2*x2*x2*x2*x2*x3*x3*a +
    (2*(2*(1+2*(2*(1+2*(2*1))))))*x1*x1*x1*x1*y3*b*b*b + (1+2*(1+2*(2*1)))*x1*x1*x1*x1*y3*a*a*a*b -
    (2*(1+2*(2*(2*1))))*x1*x1*x1*x1*x3*y3*a*b*b - x1*x1*x1*x1*x3*y3*a*a*a*a + (2*(2*(1+2*1)))*x1*x1*x1*x1*y2*b*b*b
    - x1*x1*x1*x1*y2*a*a*a*b - x1*x1*x1*x1*y2*x3*a*a*a*a - x1*x1*x1*x1*y2*x3*x3*a*a*b -
    (2*(1+2*1))*x1*x1*x1*x1*y2*x3*x3*x3*b*b + x1*x1*x1*x1*y2*x3*x3*x3*a*a*a +
    (2*(1+2*(1+2*(1+2*(1+2*(1+2*1))))))*x1*x1*x1*x1*x2*y3*a*b*b + (1+2*(2*(1+2*1)))*x1*x1*x1*x1*x2*y3*a*a*a*a -
    (2*(1+2*(2*(2*1))))*x1*x1*x1*x1*x2*x3*y3*a*a*b + (2*(2*(1+2*(2*(2*1)))))*x1*x1*x1*x1*x2*y2*a*b*b -
    (1+2*1)*x1*x1*x1*x1*x2*y2*a*a*a*a + (2*(2*(1+2*(2*(2*1)))))*x1*x1*x1*x1*x2*y2*x3*a*a*b +
    (1+2*1)*x1*x1*x1*x1*x2*y2*x3*x3*a*a*a - (2*(1+2*(2*(2*1))))*x1*x1*x1*x1*x2*y2*x3*x3*x3*a*b +
    (1+2*(1+2*(2*(1+2*(2*1)))))*x1*x1*x1*x1*x2*x2*y3*a*a*b - (2*(2*(2*1)))*x1*x1*x1*x1*x2*x2*x3*y3*a*a*a +
    (2*(1+2*(2*(2*(1+2*1)))))*x1*x1*x1*x1*x2*x2*y2*a*a*b -
    (2*(2*(2*(1+2*(1+2*(2*(1+2*1)))))))*x1*x1*x1*x1*x2*x2*y2*x3*b*b + (1+2*(1+2*1))*x1*x1*x1*x1*x2*x2*y2*x3*a*a*a -
    (2*(2*(1+2*(2*(2*1)))))*x1*x1*x1*x1*x2*x2*y2*x3*x3*a*b - (1+2*(1+2*1))*x1*x1*x1*x1*x2*x2*y2*x3*x3*x3*a*a +
    (2*(2*(1+2*(2*(2*(2*(2*1)))))))*x1*x1*x1*x1*x2*x2*x2*y3*b*b +
    (2*(2*(2*(2*(2*1)))))*x1*x1*x1*x1*x2*x2*x2*y3*a*a*a + (1+2*(2*(2*1)))*x1*x1*x1*x1*x2*x2*x2*x3*y3*a*b -
    (2*(1+2*1))*x1*x1*x1*x1*x2*x2*x2*y2*b*b + (1+2*(2*(1+2*1)))*x1*x1*x1*x1*x2*x2*x2*y2*a*a*a -
    (1+2*(2*(2*(2*(1+2*(2*1))))))*x1*x1*x1*x1*x2*x2*x2*y2*x3*a*b -
    (1+2*(2*(1+2*1)))*x1*x1*x1*x1*x2*x2*x2*y2*x3*x3*a*a + (1+2*1)*x1*x1*x1*x1*x2*x2*x2*y2*x3*x3*x3*b +
    (2*(2*(1+2*(2*(2*1)))))*x1*x1*x1*x1*x2*x2*x2*x2*y3*a*b + (1+2*(2*(2*1)))*x1*x1*x1*x1*x2*x2*x2*x2*x3*y3*a*a +
    (1+2*(1+2*(2*(2*1))))*x1*x1*x1*x1*x2*x2*x2*x2*x2*y3*a*a -
    (1+2*(1+2*(2*(1+2*1))))*x1*x1*x1*x1*x2*x2*x2*x2*x2*x3*y3*b - (2*(1+2*1))*x1*x1*x1*x1*x2*x2*x2*x2*x2*x2*y3*b +
    (2*(2*1))*x1*x1*x1*x1*y1*b*b*b + x1*x1*x1*x1*y1*a*a*a*b - (2*(2*1))*x1*x1*x1*x1*y1*x3*a*b*b -
    x1*x1*x1*x1*y1*x3*x3*a*a*b - (2*1)*x1*x1*x1*x1*y1*x3*x3*x3*b*b + (2*(2*(1+2*1)))*x1*x1*x1*x1*y1*y2*y3*b*b +
    (2*1)*x1*x1*x1*x1*y1*y2*y3*a*a*a - (2*1)*x1*x1*x1*x1*y1*y2*x3*y3*a*b + (2*(1+2*1))*x1*x1*x1*x1*y1*x2*a*b*b +
    x1*x1*x1*x1*y1*x2*a*a*a*a - (1+2*1)*x1*x1*x1*x1*y1*x2*x3*a*a*b - x1*x1*x1*x1*y1*x2*x3*x3*a*a*a -
    (1+2*1)*x1*x1*x1*x1*y1*x2*x3*x3*x3*a*b + (2*(2*1))*x1*x1*x1*x1*y1*x2*y2*y3*a*b +
    (1+2*(2*1))*x1*x1*x1*x1*y1*x2*x2*a*a*b - (2*(1+2*(2*(2*1))))*x1*x1*x1*x1*y1*x2*x2*x3*b*b +
    x1*x1*x1*x1*y1*x2*x2*x3*a*a*a - (1+2*1)*x1*x1*x1*x1*y1*x2*x2*x3*x3*a*b - x1*x1*x1*x1*y1*x2*x2*x3*x3*x3*a*a +
    (2*(2*(2*1)))*x1*x1*x1*x1*y1*x2*x2*y2*y3*a*a - (2*(1+2*(2*(2*1))))*x1*x1*x1*x1*y1*x2*x2*y2*x3*y3*b +
    (2*1)*x1*x1*x1*x1*y1*x2*x2*x2*b*b + (2*(2*1))*x1*x1*x1*x1*y1*x2*x2*x2*a*a*a -
    (1+2*(1+2*(1+2*(2*1))))*x1*x1*x1*x1*y1*x2*x2*x2*x3*a*b - (2*(2*1))*x1*x1*x1*x1*y1*x2*x2*x2*x3*x3*a*a -
    x1*x1*x1*x1*y1*x2*x2*x2*x3*x3*x3*b - (2*(2*(2*(1+2*1))))*x1*x1*x1*x1*y1*x2*x2*x2*y2*y3*b -
    (2*(2*(2*1)))*x1*x1*x1*x1*y1*x2*x2*x2*y2*x3*y3*a - (2*1)*x1*x1*x1*x1*y1*x2*x2*x2*x2*y2*y3*a +
    (1+2*1)*x1*x1*x1*x1*y1*x2*x2*x2*x2*x2*a*a - (2*(1+2*(2*(2*1))))*x1*x1*x1*x1*y1*x2*x2*x2*x2*x2*x3*b -
    (1+2*1)*x1*x1*x1*x1*y1*x2*x2*x2*x2*x2*x3*x3*a - (2*1)*x1*x1*x1*x1*y1*x2*x2*x2*x2*x2*x2*b -
    x1*x1*x1*x1*y1*x2*x2*x2*x2*x2*x2*x3*a + x1*x1*x1*x1*y1*x2*x2*x2*x2*x2*x2*x3*x3*x3 +
    (2*(1+2*(1+2*1)))*x1*x1*x1*x1*x1*y3*a*b*b + x1*x1*x1*x1*x1*y3*a*a*a*a + x1*x1*x1*x1*x1*x3*y3*a*a*b +
    (2*1)*x1*x1*x1*x1*x1*y2*a*b*b - x1*x1*x1*x1*x1*y2*a*a*a*a + (1+2*(1+2*1))*x1*x1*x1*x1*x1*y2*x3*a*a*b +
    x1*x1*x1*x1*x1*y2*x3*x3*a*a*a - x1*x1*x1*x1*x1*y2*x3*x3*x3*a*b + (2*(2*(2*(2*1))))*x1*x1*x1*x1*x1*x2*y3*a*a*b +
    (2*1)*x1*x1*x1*x1*x1*x2*x3*y3*a*a*a + (2*(2*(2*(2*1))))*x1*x1*x1*x1*x1*x2*y2*a*a*b -
    (2*(2*(2*(1+2*(2*(2*1))))))*x1*x1*x1*x1*x1*x2*y2*x3*b*b + (2*1)*x1*x1*x1*x1*x1*x2*y2*x3*a*a*a -
    (2*(2*(1+2*1)))*x1*x1*x1*x1*x1*x2*y2*x3*x3*a*b - (2*1)*x1*x1*x1*x1*x1*x2*y2*x3*x3*x3*a*a +
    (2*(1+2*(2*(2*1))))*x1*x1*x1*x1*x1*x2*x2*y3*b*b + (1+2*(2*(1+2*1)))*x1*x1*x1*x1*x1*x2*x2*y3*a*a*a -
    (2*(1+2*1))*x1*x1*x1*x1*x1*x2*x2*x3*y3*a*b - (2*(1+2*(2*(2*1))))*x1*x1*x1*x1*x1*x2*x2*y2*b*b +
    (2*(1+2*1))*x1*x1*x1*x1*x1*x2*x2*y2*a*a*a - (1+2*(2*(1+2*(1+2*(2*1)))))*x1*x1*x1*x1*x1*x2*x2*y2*x3*a*b -
    (2*(1+2*1))*x1*x1*x1*x1*x1*x2*x2*y2*x3*x3*a*a + (1+2*(2*(2*1)))*x1*x1*x1*x1*x1*x2*x2*y2*x3*x3*x3*b +
    (2*(2*1))*x1*x1*x1*x1*x1*x2*x2*x2*y3*a*b + (2*(2*1))*x1*x1*x1*x1*x1*x2*x2*x2*x3*y3*a*a -
    (2*(2*1))*x1*x1*x1*x1*x1*x2*x2*x2*y2*a*b - (2*1)*x1*x1*x1*x1*x1*x2*x2*x2*y2*x3*a*a +
    (2*1)*x1*x1*x1*x1*x1*x2*x2*x2*y2*x3*x3*x3*a + (1+2*(1+2*(2*(2*1))))*x1*x1*x1*x1*x1*x2*x2*x2*x2*y3*a*a -
    (1+2*(1+2*(2*(1+2*1))))*x1*x1*x1*x1*x1*x2*x2*x2*x2*x3*y3*b + (1+2*1)*x1*x1*x1*x1*x1*x2*x2*x2*x2*y2*a*a -
    (2*(1+2*(2*(2*1))))*x1*x1*x1*x1*x1*x2*x2*x2*x2*y2*x3*b - (1+2*1)*x1*x1*x1*x1*x1*x2*x2*x2*x2*y2*x3*x3*a -
    (2*(2*(1+2*(2*(2*1)))))*x1*x1*x1*x1*x1*x2*x2*x2*x2*x2*y3*b - (2*(1+2*1))*x1*x1*x1*x1*x1*x2*x2*x2*x2*x2*x3*y3*a
    - x1*x1*x1*x1*x1*x2*x2*x2*x2*x2*x2*y3*a + x1*x1*x1*x1*x1*x1*y3*a*a*b - (2*1)*x1*x1*x1*x1*x1*x1*x3*y3*b*b +
    x1*x1*x1*x1*x1*x1*y2*a*a*b - (2*(1+2*1))*x1*x1*x1*x1*x1*x1*y2*x3*b*b - x1*x1*x1*x1*x1*x1*y2*x3*x3*a*b -
    (2*(1+2*1))*x1*x1*x1*x1*x1*x1*x2*y3*b*b + x1*x1*x1*x1*x1*x1*x2*y3*a*a*a -
    (1+2*1)*x1*x1*x1*x1*x1*x1*x2*x3*y3*a*b - (2*1)*x1*x1*x1*x1*x1*x1*x2*y2*b*b + x1*x1*x1*x1*x1*x1*x2*y2*a*a*a -
    (1+2*(1+2*1))*x1*x1*x1*x1*x1*x1*x2*y2*x3*a*b - x1*x1*x1*x1*x1*x1*x2*y2*x3*x3*a*a +
    x1*x1*x1*x1*x1*x1*x2*y2*x3*x3*x3*b - (1+2*(1+2*1))*x1*x1*x1*x1*x1*x1*x2*x2*y3*a*b -
    x1*x1*x1*x1*x1*x1*x2*x2*x3*y3*a*a - (2*1)*x1*x1*x1*x1*x1*x1*x2*x2*y2*a*b - x1*x1*x1*x1*x1*x1*x2*x2*y2*x3*a*a +
    x1*x1*x1*x1*x1*x1*x2*x2*y2*x3*x3*x3*a - x1*x1*x1*x1*x1*x1*x2*x2*x2*x3*y3*b + x1*x1*x1*x1*x1*x1*x2*x2*x2*y2*a*a
    - (2*(1+2*1))*x1*x1*x1*x1*x1*x1*x2*x2*x2*y2*x3*b - x1*x1*x1*x1*x1*x1*x2*x2*x2*y2*x3*x3*a -
    (2*(1+2*1))*x1*x1*x1*x1*x1*x1*x2*x2*x2*x2*y3*b - (2*1)*x1*x1*x1*x1*x1*x1*x2*x2*x2*x2*y2*b -
    x1*x1*x1*x1*x1*x1*x2*x2*x2*x2*y2*x3*a + x1*x1*x1*x1*x1*x1*x2*x2*x2*x2*y2*x3*x3*x3 -
    x1*x1*x1*x1*x1*x1*x2*x2*x2*x2*x2*y3*a + x1*x1*x1*x1*x1*x1*x2*x2*x2*x2*x2*x2*x3*y3.
  Definition Ly : F :=
    0 - (2*(2*(2*(2*(2*(1+2*(1+2*1)))))))*b*b*b*b*b - (2*(2*(2*(1+2*(2*1)))))*a*a*a*b*b*b - a*a*a*a*a*a*b -
    (2*(2*(2*(2*(2*1)))))*x3*a*b*b*b*b + (2*1)*x3*a*a*a*a*b*b + x3*a*a*a*a*a*a*a +
    (2*(2*(2*(1+2*(2*1)))))*x3*x3*a*a*b*b*b + (2*(1+2*1))*x3*x3*a*a*a*a*a*b +
    (2*(2*(2*(2*(2*(2*1))))))*x3*x3*x3*b*b*b*b + (2*(2*(2*(2*1))))*x3*x3*x3*a*a*a*b*b + x3*x3*x3*a*a*a*a*a*a -
    (2*(2*(2*(2*(1+2*(1+2*(2*(2*1))))))))*x2*a*b*b*b*b - (2*(2*(1+2*(2*(1+2*1)))))*x2*a*a*a*a*b*b -
    x2*a*a*a*a*a*a*a - (2*(2*(2*(2*(2*(2*(2*1)))))))*x2*x3*a*a*b*b*b - (1+2*(1+2*(2*(2*1))))*x2*x3*a*a*a*a*a*b -
    (2*(2*(2*(2*(2*(1+2*(2*(2*1))))))))*x2*x3*x3*b*b*b*b - (2*(2*(2*(1+2*1))))*x2*x3*x3*a*a*a*b*b +
    (1+2*1)*x2*x3*x3*a*a*a*a*a*a + (2*(2*(2*(2*(2*1)))))*x2*x3*x3*x3*a*b*b*b + (2*(2*1))*x2*x3*x3*x3*a*a*a*a*b -
    (2*(1+2*(1+2*(2*(1+2*(2*1))))))*x2*x2*a*a*b*b*b - (1+2*(2*(1+2*1)))*x2*x2*a*a*a*a*a*b +
    (2*(2*(2*(1+2*(2*(1+2*(1+2*(2*1))))))))*x2*x2*x3*b*b*b*b + (2*(2*(2*(1+2*(2*1)))))*x2*x2*x3*a*a*a*b*b -
    (2*1)*x2*x2*x3*a*a*a*a*a*a - (2*(2*(2*(1+2*(2*(1+2*(2*1)))))))*x2*x2*x3*x3*a*b*b*b -
    (1+2*(1+2*(2*(1+2*1))))*x2*x2*x3*x3*a*a*a*a*b + (2*(2*(1+2*(2*1))))*x2*x2*x3*x3*x3*a*a*b*b +
    (2*1)*x2*x2*x3*x3*x3*a*a*a*a*a - (2*(2*(2*(1+2*(2*(1+2*(1+2*1)))))))*x2*x2*x2*b*b*b*b -
    (1+2*(1+2*(1+2*(1+2*(2*1)))))*x2*x2*x2*a*a*a*b*b - (2*1)*x2*x2*x2*a*a*a*a*a*a +
    (2*(2*(2*(1+2*(1+2*1)))))*x2*x2*x2*x3*a*b*b*b + (2*(2*(2*1)))*x2*x2*x2*x3*a*a*a*a*b +
    (2*(2*(2*(1+2*1))))*x2*x2*x2*x3*x3*a*a*b*b + (2*1)*x2*x2*x2*x3*x3*a*a*a*a*a -
    (2*(2*(2*(2*1))))*x2*x2*x2*x3*x3*x3*b*b*b + (2*1)*x2*x2*x2*x3*x3*x3*a*a*a*b -
    (2*(2*(2*(1+2*(1+2*(2*1))))))*x2*x2*x2*x2*a*b*b*b - (1+2*(2*(1+2*1)))*x2*x2*x2*x2*a*a*a*a*b -
    (1+2*(2*(2*(2*1))))*x2*x2*x2*x2*x3*a*a*b*b - (1+2*1)*x2*x2*x2*x2*x3*a*a*a*a*a -
    (2*(1+2*(1+2*(1+2*(1+2*(1+2*1))))))*x2*x2*x2*x2*x3*x3*b*b*b - (2*(1+2*(1+2*1)))*x2*x2*x2*x2*x3*x3*a*a*a*b -
    (2*(2*1))*x2*x2*x2*x2*x3*x3*x3*a*b*b + x2*x2*x2*x2*x3*x3*x3*a*a*a*a - (2*(1+2*1))*x2*x2*x2*x2*x2*a*a*b*b -
    x2*x2*x2*x2*x2*a*a*a*a*a + (2*(2*(1+2*(2*(2*1)))))*x2*x2*x2*x2*x2*x3*b*b*b +
    (1+2*(1+2*1))*x2*x2*x2*x2*x2*x3*a*a*a*b - (1+2*(1+2*(1+2*1)))*x2*x2*x2*x2*x2*x3*x3*a*b*b -
    x2*x2*x2*x2*x2*x3*x3*a*a*a*a - (2*1)*x2*x2*x2*x2*x2*x3*x3*x3*a*a*b - (2*(2*(2*1)))*x2*x2*x2*x2*x2*x2*b*b*b -
    x2*x2*x2*x2*x2*x2*a*a*a*b - (2*1)*x2*x2*x2*x2*x2*x2*x3*a*b*b - x2*x2*x2*x2*x2*x2*x3*x3*a*a*b +
    x2*x2*x2*x2*x2*x2*x3*x3*x3*b*b - (2*(2*(2*(2*(2*(1+2*(2*(2*1))))))))*y1*y2*b*b*b*b -
    (2*(2*(2*(1+2*(1+2*1)))))*y1*y2*a*a*a*b*b - (2*1)*y1*y2*a*a*a*a*a*a -
    (2*(2*(2*(2*(2*(1+2*1))))))*y1*y2*x3*a*b*b*b - (2*(1+2*(1+2*1)))*y1*y2*x3*a*a*a*a*b +
    (2*(2*(2*(1+2*(2*1)))))*y1*y2*x3*x3*a*a*b*b + (2*(1+2*1))*y1*y2*x3*x3*a*a*a*a*a -
    (2*(2*(2*(2*(2*(2*(1+2*1)))))))*y1*x2*y2*a*b*b*b - (2*(2*(1+2*(1+2*1))))*y1*x2*y2*a*a*a*a*b -
    (2*(2*(2*(2*(1+2*(1+2*1))))))*y1*x2*y2*x3*a*a*b*b - (2*(2*(2*(2*1))))*y1*x2*y2*x3*a*a*a*a*a -
    (2*(2*(2*(2*(2*(1+2*(2*(2*1))))))))*y1*x2*y2*x3*x3*b*b*b - (2*(2*(1+2*(1+2*(2*1)))))*y1*x2*y2*x3*x3*a*a*a*b -
    (2*(1+2*(1+2*(1+2*1))))*y1*x2*x2*y2*a*a*b*b - (2*(2*1))*y1*x2*x2*y2*a*a*a*a*a +
    (2*(2*(2*(1+2*(1+2*(2*(1+2*1)))))))*y1*x2*x2*y2*x3*b*b*b + (2*(2*(1+2*(1+2*1))))*y1*x2*x2*y2*x3*a*a*a*b -
    (2*(2*(2*(1+2*(2*(2*1))))))*y1*x2*x2*y2*x3*x3*a*b*b - (2*(2*(1+2*1)))*y1*x2*x2*y2*x3*x3*a*a*a*a -
    (2*(2*(2*(1+2*(2*(2*1))))))*y1*x2*x2*x2*y2*b*b*b - (2*(2*(1+2*1)))*y1*x2*x2*x2*y2*a*a*a*b +
    (2*(2*(1+2*1)))*y1*x2*x2*x2*y2*x3*a*b*b + (2*(2*1))*y1*x2*x2*x2*y2*x3*x3*a*a*b -
    (2*(2*(1+2*1)))*y1*x2*x2*x2*x2*y2*a*b*b - (2*1)*y1*x2*x2*x2*x2*y2*a*a*a*a + (2*1)*y1*x2*x2*x2*x2*y2*x3*a*a*b -
    (2*(1+2*(2*(2*1))))*y1*x2*x2*x2*x2*y2*x3*x3*b*b - (2*1)*y1*x2*x2*x2*x2*y2*x3*x3*a*a*a -
    (2*(2*(2*(2*(1+2*(1+2*(2*(2*1))))))))*x1*a*b*b*b*b - (2*(2*(1+2*(2*(1+2*1)))))*x1*a*a*a*a*b*b -
    x1*a*a*a*a*a*a*a - (2*(2*(2*(2*(2*(2*(2*1)))))))*x1*x3*a*a*b*b*b - (1+2*(1+2*(2*(2*1))))*x1*x3*a*a*a*a*a*b -
    (2*(2*(2*(2*(2*(1+2*(2*(2*1))))))))*x1*x3*x3*b*b*b*b - (2*(2*(2*(1+2*1))))*x1*x3*x3*a*a*a*b*b +
    (1+2*1)*x1*x3*x3*a*a*a*a*a*a + (2*(2*(2*(2*(2*1)))))*x1*x3*x3*x3*a*b*b*b + (2*(2*1))*x1*x3*x3*x3*a*a*a*a*b -
    (2*(2*(1+2*(2*(2*(1+2*(2*(2*1))))))))*x1*x2*a*a*b*b*b - (2*(2*(1+2*(1+2*(2*1)))))*x1*x2*a*a*a*a*a*b +
    (2*(2*(2*(2*(1+2*(1+2*(2*(1+2*1))))))))*x1*x2*x3*b*b*b*b - (2*(2*(2*(1+2*(1+2*1)))))*x1*x2*x3*a*a*a*b*b -
    (2*(1+2*(2*(2*1))))*x1*x2*x3*a*a*a*a*a*a - (2*(2*(2*(2*(2*(2*(1+2*(2*(2*1)))))))))*x1*x2*x3*x3*a*b*b*b -
    (2*(1+2*(2*(1+2*(1+2*(2*1))))))*x1*x2*x3*x3*a*a*a*a*b + (2*(2*(2*(1+2*(1+2*1)))))*x1*x2*x3*x3*x3*a*a*b*b +
    (2*(1+2*1))*x1*x2*x3*x3*x3*a*a*a*a*a - (2*(2*(2*(1+2*(2*(1+2*(1+2*(2*1))))))))*x1*x2*x2*b*b*b*b -
    (1+2*(2*(2*(1+2*(1+2*(1+2*1))))))*x1*x2*x2*a*a*a*b*b - (1+2*(1+2*(2*1)))*x1*x2*x2*a*a*a*a*a*a +
    (2*(2*(2*(1+2*(1+2*(1+2*(1+2*(1+2*1))))))))*x1*x2*x2*x3*a*b*b*b +
    (1+2*(2*(1+2*(1+2*(2*(2*1))))))*x1*x2*x2*x3*a*a*a*a*b - (2*(2*(2*(2*(1+2*(2*(2*1)))))))*x1*x2*x2*x3*x3*a*a*b*b
    - (1+2*(1+2*(2*(1+2*1))))*x1*x2*x2*x3*x3*a*a*a*a*a - (2*(2*(2*(2*(1+2*(2*(2*1)))))))*x1*x2*x2*x3*x3*x3*b*b*b -
    (2*1)*x1*x2*x2*x3*x3*x3*a*a*a*b - (2*(2*(1+2*(2*(1+2*(2*(2*(1+2*1))))))))*x1*x2*x2*x2*a*b*b*b -
    (2*(2*(2*(1+2*(1+2*1)))))*x1*x2*x2*x2*a*a*a*a*b + (2*(2*(1+2*(2*1))))*x1*x2*x2*x2*x3*a*a*b*b +
    (2*(2*1))*x1*x2*x2*x2*x3*a*a*a*a*a - (2*(2*(2*(1+2*(2*(1+2*(1+2*(2*1))))))))*x1*x2*x2*x2*x3*x3*b*b*b -
    (2*(2*(1+2*(1+2*1))))*x1*x2*x2*x2*x3*x3*a*a*a*b - (2*(2*(2*(1+2*(1+2*1)))))*x1*x2*x2*x2*x3*x3*x3*a*b*b +
    (2*(2*1))*x1*x2*x2*x2*x3*x3*x3*a*a*a*a - (1+2*(1+2*(1+2*(1+2*(2*(2*1))))))*x1*x2*x2*x2*x2*a*a*b*b -
    (1+2*(1+2*(2*1)))*x1*x2*x2*x2*x2*a*a*a*a*a + (2*(2*(1+2*(1+2*(2*(1+2*1))))))*x1*x2*x2*x2*x2*x3*b*b*b +
    (1+2*(1+2*(2*(2*1))))*x1*x2*x2*x2*x2*x3*a*a*a*b -
    (1+2*(1+2*(2*(1+2*(2*(1+2*(2*1)))))))*x1*x2*x2*x2*x2*x3*x3*a*b*b -
    (1+2*(1+2*(1+2*1)))*x1*x2*x2*x2*x2*x3*x3*a*a*a*a - (2*(2*(1+2*(1+2*1))))*x1*x2*x2*x2*x2*x3*x3*x3*a*a*b -
    (2*(2*(1+2*(2*(2*1)))))*x1*x2*x2*x2*x2*x2*b*b*b - (2*(2*1))*x1*x2*x2*x2*x2*x2*a*a*a*b +
    (2*(1+2*(2*(2*1))))*x1*x2*x2*x2*x2*x2*x3*a*b*b + (2*(1+2*1))*x1*x2*x2*x2*x2*x2*x3*a*a*a*a -
    (2*(1+2*(2*(2*1))))*x1*x2*x2*x2*x2*x2*x3*x3*a*a*b + (2*(1+2*(2*(2*1))))*x1*x2*x2*x2*x2*x2*x3*x3*x3*b*b -
    (2*1)*x1*x2*x2*x2*x2*x2*x3*x3*x3*a*a*a - (2*(1+2*(2*1)))*x1*x2*x2*x2*x2*x2*x2*a*b*b -
    x1*x2*x2*x2*x2*x2*x2*a*a*a*a - (1+2*(2*1))*x1*x2*x2*x2*x2*x2*x2*x3*a*a*b +
    (1+2*(2*(2*1)))*x1*x2*x2*x2*x2*x2*x2*x3*x3*b*b - x1*x2*x2*x2*x2*x2*x2*x3*x3*a*a*a +
    (2*1)*x1*x2*x2*x2*x2*x2*x2*x3*x3*x3*a*b - (2*(2*(2*(2*(2*(2*(1+2*1)))))))*x1*y1*y2*a*b*b*b -
    (2*(2*(1+2*(1+2*1))))*x1*y1*y2*a*a*a*a*b - (2*(2*(2*(2*(1+2*(1+2*1))))))*x1*y1*y2*x3*a*a*b*b -
    (2*(2*(2*(2*1))))*x1*y1*y2*x3*a*a*a*a*a - (2*(2*(2*(2*(2*(1+2*(2*(2*1))))))))*x1*y1*y2*x3*x3*b*b*b -
    (2*(2*(1+2*(1+2*(2*1)))))*x1*y1*y2*x3*x3*a*a*a*b - (2*(2*(1+2*(2*(1+2*(1+2*1))))))*x1*y1*x2*y2*a*a*b*b -
    (2*(2*(2*(2*1))))*x1*y1*x2*y2*a*a*a*a*a + (2*(2*(2*(2*(1+2*(2*(1+2*(1+2*(2*1)))))))))*x1*y1*x2*y2*x3*b*b*b +
    (2*(2*(2*(2*(2*(1+2*1))))))*x1*y1*x2*y2*x3*a*a*a*b - (2*(2*(2*(2*(2*(2*(1+2*1)))))))*x1*y1*x2*y2*x3*x3*a*b*b -
    (2*(2*(2*(2*(2*1)))))*x1*y1*x2*y2*x3*x3*a*a*a*a - (2*(2*(2*(1+2*(1+2*(2*(1+2*1)))))))*x1*y1*x2*x2*y2*b*b*b -
    (2*(2*(2*(1+2*(2*1)))))*x1*y1*x2*x2*y2*a*a*a*b + (2*(2*(1+2*(2*(1+2*(1+2*(2*1)))))))*x1*y1*x2*x2*y2*x3*a*b*b +
    (2*(2*(2*(2*1))))*x1*y1*x2*x2*y2*x3*a*a*a*a + (2*(2*(2*(1+2*1))))*x1*y1*x2*x2*y2*x3*x3*a*a*b -
    (2*(2*(1+2*(2*(1+2*(2*1))))))*x1*y1*x2*x2*x2*y2*a*b*b - (2*(2*(2*(2*1))))*x1*y1*x2*x2*x2*y2*a*a*a*a +
    (2*(2*(2*(2*(2*1)))))*x1*y1*x2*x2*x2*y2*x3*a*a*b - (2*(2*(2*(1+2*(2*(2*1))))))*x1*y1*x2*x2*x2*y2*x3*x3*b*b +
    (2*(2*1))*x1*y1*x2*x2*x2*x2*y2*a*a*b - (2*(2*(1+2*(2*(2*1)))))*x1*y1*x2*x2*x2*x2*y2*x3*b*b -
    (2*(2*(1+2*1)))*x1*y1*x2*x2*x2*x2*y2*x3*x3*a*b - (2*(1+2*(1+2*(2*(1+2*(2*1))))))*x1*x1*a*a*b*b*b -
    (1+2*(2*(1+2*1)))*x1*x1*a*a*a*a*a*b + (2*(2*(2*(1+2*(2*(1+2*(1+2*(2*1))))))))*x1*x1*x3*b*b*b*b +
    (2*(2*(2*(1+2*(2*1)))))*x1*x1*x3*a*a*a*b*b - (2*1)*x1*x1*x3*a*a*a*a*a*a -
    (2*(2*(2*(1+2*(2*(1+2*(2*1)))))))*x1*x1*x3*x3*a*b*b*b - (1+2*(1+2*(2*(1+2*1))))*x1*x1*x3*x3*a*a*a*a*b +
    (2*(2*(1+2*(2*1))))*x1*x1*x3*x3*x3*a*a*b*b + (2*1)*x1*x1*x3*x3*x3*a*a*a*a*a -
    (2*(2*(2*(1+2*(2*(1+2*(1+2*(2*1))))))))*x1*x1*x2*b*b*b*b - (1+2*(2*(2*(1+2*(1+2*(1+2*1))))))*x1*x1*x2*a*a*a*b*b
    - (1+2*(1+2*(2*1)))*x1*x1*x2*a*a*a*a*a*a + (2*(2*(2*(1+2*(1+2*(1+2*(1+2*(1+2*1))))))))*x1*x1*x2*x3*a*b*b*b +
    (1+2*(2*(1+2*(1+2*(2*(2*1))))))*x1*x1*x2*x3*a*a*a*a*b - (2*(2*(2*(2*(1+2*(2*(2*1)))))))*x1*x1*x2*x3*x3*a*a*b*b
    - (1+2*(1+2*(2*(1+2*1))))*x1*x1*x2*x3*x3*a*a*a*a*a - (2*(2*(2*(2*(1+2*(2*(2*1)))))))*x1*x1*x2*x3*x3*x3*b*b*b -
    (2*1)*x1*x1*x2*x3*x3*x3*a*a*a*b - (2*(2*(2*(2*(1+2*(1+2*(1+2*(2*(2*1)))))))))*x1*x1*x2*x2*a*b*b*b -
    (1+2*(1+2*(2*(2*(1+2*(2*1))))))*x1*x1*x2*x2*a*a*a*a*b + (2*(1+2*(1+2*(2*(1+2*1)))))*x1*x1*x2*x2*x3*a*a*b*b +
    (1+2*(2*(1+2*1)))*x1*x1*x2*x2*x3*a*a*a*a*a - (2*(2*(1+2*(1+2*(2*(1+2*1))))))*x1*x1*x2*x2*x3*x3*b*b*b +
    (2*(2*(2*(1+2*1))))*x1*x1*x2*x2*x3*x3*a*a*a*b - (2*(2*(2*(1+2*(1+2*(1+2*1))))))*x1*x1*x2*x2*x3*x3*x3*a*b*b +
    (1+2*(2*1))*x1*x1*x2*x2*x3*x3*x3*a*a*a*a - (1+2*(1+2*(2*(1+2*(2*(1+2*(2*(2*1))))))))*x1*x1*x2*x2*x2*a*a*b*b -
    (2*(1+2*(1+2*(2*(2*1)))))*x1*x1*x2*x2*x2*a*a*a*a*a +
    (2*(2*(2*(2*(2*(1+2*(2*(2*1))))))))*x1*x1*x2*x2*x2*x3*b*b*b + (2*(2*(2*(2*1))))*x1*x1*x2*x2*x2*x3*a*a*a*b -
    (2*(1+2*(1+2*(1+2*(1+2*(1+2*(2*(2*1))))))))*x1*x1*x2*x2*x2*x3*x3*a*b*b -
    (2*(1+2*(2*(1+2*1))))*x1*x1*x2*x2*x2*x3*x3*a*a*a*a -
    (2*(1+2*(2*(1+2*(1+2*(2*1))))))*x1*x1*x2*x2*x2*x3*x3*x3*a*a*b -
    (2*(1+2*(1+2*(2*(2*(2*(1+2*1)))))))*x1*x1*x2*x2*x2*x2*b*b*b -
    (1+2*(2*(2*(1+2*(2*1)))))*x1*x1*x2*x2*x2*x2*a*a*a*b + (2*(1+2*(2*(2*1))))*x1*x1*x2*x2*x2*x2*x3*a*b*b -
    (2*(2*1))*x1*x1*x2*x2*x2*x2*x3*a*a*a*a - (1+2*(2*(1+2*(1+2*(2*1)))))*x1*x1*x2*x2*x2*x2*x3*x3*a*a*b +
    (1+2*(1+2*(2*(2*(2*(1+2*1))))))*x1*x1*x2*x2*x2*x2*x3*x3*x3*b*b -
    (2*(2*(1+2*1)))*x1*x1*x2*x2*x2*x2*x3*x3*x3*a*a*a - (1+2*(1+2*(2*(1+2*(2*(2*1))))))*x1*x1*x2*x2*x2*x2*x2*a*b*b -
    (1+2*(1+2*(2*1)))*x1*x1*x2*x2*x2*x2*x2*a*a*a*a - (1+2*(2*(2*1)))*x1*x1*x2*x2*x2*x2*x2*x3*a*a*b -
    (1+2*(1+2*(2*(1+2*1))))*x1*x1*x2*x2*x2*x2*x2*x3*x3*b*b - (1+2*(1+2*(1+2*1)))*x1*x1*x2*x2*x2*x2*x2*x3*x3*a*a*a +
    (2*(2*(2*(1+2*1))))*x1*x1*x2*x2*x2*x2*x2*x3*x3*x3*a*b - (1+2*1)*x1*x1*x2*x2*x2*x2*x2*x2*a*a*b +
    (1+2*(2*(2*1)))*x1*x1*x2*x2*x2*x2*x2*x2*x3*b*b - (1+2*1)*x1*x1*x2*x2*x2*x2*x2*x2*x3*a*a*a +
    (2*(2*(1+2*1)))*x1*x1*x2*x2*x2*x2*x2*x2*x3*x3*a*b + x1*x1*x2*x2*x2*x2*x2*x2*x3*x3*x3*a*a -
    (2*(1+2*(1+2*(1+2*1))))*x1*x1*y1*y2*a*a*b*b - (2*(2*1))*x1*x1*y1*y2*a*a*a*a*a +
    (2*(2*(2*(1+2*(1+2*(2*(1+2*1)))))))*x1*x1*y1*y2*x3*b*b*b + (2*(2*(1+2*(1+2*1))))*x1*x1*y1*y2*x3*a*a*a*b -
    (2*(2*(2*(1+2*(2*(2*1))))))*x1*x1*y1*y2*x3*x3*a*b*b - (2*(2*(1+2*1)))*x1*x1*y1*y2*x3*x3*a*a*a*a -
    (2*(2*(2*(1+2*(1+2*(2*(1+2*1)))))))*x1*x1*y1*x2*y2*b*b*b - (2*(2*(2*(1+2*(2*1)))))*x1*x1*y1*x2*y2*a*a*a*b +
    (2*(2*(1+2*(2*(1+2*(1+2*(2*1)))))))*x1*x1*y1*x2*y2*x3*a*b*b + (2*(2*(2*(2*1))))*x1*x1*y1*x2*y2*x3*a*a*a*a +
    (2*(2*(2*(1+2*1))))*x1*x1*y1*x2*y2*x3*x3*a*a*b - (2*(2*(2*(1+2*(1+2*(2*(1+2*1)))))))*x1*x1*y1*x2*x2*y2*a*b*b -
    (2*(2*(2*(1+2*(2*1)))))*x1*x1*y1*x2*x2*y2*a*a*a*a + (2*(2*(2*(1+2*(2*(2*1))))))*x1*x1*y1*x2*x2*y2*x3*a*a*b -
    (2*(2*(1+2*(2*(2*(2*(1+2*(2*1))))))))*x1*x1*y1*x2*x2*y2*x3*x3*b*b -
    (2*(2*(2*(1+2*1))))*x1*x1*y1*x2*x2*y2*x3*x3*a*a*a + (2*(2*(2*(1+2*1))))*x1*x1*y1*x2*x2*x2*y2*a*a*b -
    (2*(2*(1+2*(1+2*(2*(1+2*1))))))*x1*x1*y1*x2*x2*x2*y2*x3*b*b + (2*(2*(2*(2*1))))*x1*x1*y1*x2*x2*x2*y2*x3*a*a*a -
    (2*(2*(2*(1+2*(2*(2*1))))))*x1*x1*y1*x2*x2*x2*y2*x3*x3*a*b -
    (2*(1+2*(1+2*(2*(1+2*1)))))*x1*x1*y1*x2*x2*x2*x2*y2*b*b - (2*(2*1))*x1*x1*y1*x2*x2*x2*x2*y2*a*a*a -
    (2*(2*(1+2*(2*(2*1)))))*x1*x1*y1*x2*x2*x2*x2*y2*x3*a*b - (2*(2*(1+2*1)))*x1*x1*y1*x2*x2*x2*x2*y2*x3*x3*a*a -
    (2*(2*(2*(1+2*(2*(1+2*(1+2*1)))))))*x1*x1*x1*b*b*b*b - (1+2*(1+2*(1+2*(1+2*(2*1)))))*x1*x1*x1*a*a*a*b*b -
    (2*1)*x1*x1*x1*a*a*a*a*a*a + (2*(2*(2*(1+2*(1+2*1)))))*x1*x1*x1*x3*a*b*b*b +
    (2*(2*(2*1)))*x1*x1*x1*x3*a*a*a*a*b + (2*(2*(2*(1+2*1))))*x1*x1*x1*x3*x3*a*a*b*b +
    (2*1)*x1*x1*x1*x3*x3*a*a*a*a*a - (2*(2*(2*(2*1))))*x1*x1*x1*x3*x3*x3*b*b*b + (2*1)*x1*x1*x1*x3*x3*x3*a*a*a*b -
    (2*(2*(1+2*(2*(1+2*(2*(2*(1+2*1))))))))*x1*x1*x1*x2*a*b*b*b - (2*(2*(2*(1+2*(1+2*1)))))*x1*x1*x1*x2*a*a*a*a*b +
    (2*(2*(1+2*(2*1))))*x1*x1*x1*x2*x3*a*a*b*b + (2*(2*1))*x1*x1*x1*x2*x3*a*a*a*a*a -
    (2*(2*(2*(1+2*(2*(1+2*(1+2*(2*1))))))))*x1*x1*x1*x2*x3*x3*b*b*b -
    (2*(2*(1+2*(1+2*1))))*x1*x1*x1*x2*x3*x3*a*a*a*b - (2*(2*(2*(1+2*(1+2*1)))))*x1*x1*x1*x2*x3*x3*x3*a*b*b +
    (2*(2*1))*x1*x1*x1*x2*x3*x3*x3*a*a*a*a - (1+2*(1+2*(2*(1+2*(2*(1+2*(2*(2*1))))))))*x1*x1*x1*x2*x2*a*a*b*b -
    (2*(1+2*(1+2*(2*(2*1)))))*x1*x1*x1*x2*x2*a*a*a*a*a +
    (2*(2*(2*(2*(2*(1+2*(2*(2*1))))))))*x1*x1*x1*x2*x2*x3*b*b*b + (2*(2*(2*(2*1))))*x1*x1*x1*x2*x2*x3*a*a*a*b -
    (2*(1+2*(1+2*(1+2*(1+2*(1+2*(2*(2*1))))))))*x1*x1*x1*x2*x2*x3*x3*a*b*b -
    (2*(1+2*(2*(1+2*1))))*x1*x1*x1*x2*x2*x3*x3*a*a*a*a -
    (2*(1+2*(2*(1+2*(1+2*(2*1))))))*x1*x1*x1*x2*x2*x3*x3*x3*a*a*b + (2*(2*1))*x1*x1*x1*x2*x2*x2*b*b*b -
    (2*(2*(2*(2*(2*1)))))*x1*x1*x1*x2*x2*x2*a*a*a*b +
    (2*(2*(1+2*(2*(1+2*(1+2*(1+2*1)))))))*x1*x1*x1*x2*x2*x2*x3*a*b*b + (2*(2*(2*1)))*x1*x1*x1*x2*x2*x2*x3*a*a*a*a -
    (2*(2*(2*(1+2*(2*1)))))*x1*x1*x1*x2*x2*x2*x3*x3*a*a*b +
    (2*(2*(1+2*(2*(1+2*(2*(2*1)))))))*x1*x1*x1*x2*x2*x2*x3*x3*x3*b*b -
    (2*(2*(2*(1+2*1))))*x1*x1*x1*x2*x2*x2*x3*x3*x3*a*a*a -
    (1+2*(1+2*(2*(2*(1+2*(1+2*(2*1)))))))*x1*x1*x1*x2*x2*x2*x2*a*b*b -
    (2*(1+2*(1+2*(2*(2*1)))))*x1*x1*x1*x2*x2*x2*x2*a*a*a*a +
    (2*(2*(2*(2*(1+2*(2*1))))))*x1*x1*x1*x2*x2*x2*x2*x3*a*a*b -
    (2*(1+2*(1+2*(2*(2*(2*(1+2*1)))))))*x1*x1*x1*x2*x2*x2*x2*x3*x3*b*b -
    (2*(1+2*(2*(1+2*1))))*x1*x1*x1*x2*x2*x2*x2*x3*x3*a*a*a +
    (2*(1+2*(1+2*(2*(2*(2*1))))))*x1*x1*x1*x2*x2*x2*x2*x3*x3*x3*a*b + (2*(2*(2*1)))*x1*x1*x1*x2*x2*x2*x2*x2*a*a*b -
    (2*(2*(1+2*(2*(2*1)))))*x1*x1*x1*x2*x2*x2*x2*x2*x3*b*b + (2*(2*1))*x1*x1*x1*x2*x2*x2*x2*x2*x3*a*a*a -
    (2*(2*(1+2*1)))*x1*x1*x1*x2*x2*x2*x2*x2*x3*x3*a*b + (2*(2*1))*x1*x1*x1*x2*x2*x2*x2*x2*x3*x3*x3*a*a -
    (1+2*(1+2*1))*x1*x1*x1*x2*x2*x2*x2*x2*x2*b*b - (2*1)*x1*x1*x1*x2*x2*x2*x2*x2*x2*a*a*a +
    (2*(2*(2*1)))*x1*x1*x1*x2*x2*x2*x2*x2*x2*x3*a*b + (2*1)*x1*x1*x1*x2*x2*x2*x2*x2*x2*x3*x3*a*a +
    (2*1)*x1*x1*x1*x2*x2*x2*x2*x2*x2*x3*x3*x3*b - (2*(2*(2*(1+2*(2*(2*1))))))*x1*x1*x1*y1*y2*b*b*b -
    (2*(2*(1+2*1)))*x1*x1*x1*y1*y2*a*a*a*b + (2*(2*(1+2*1)))*x1*x1*x1*y1*y2*x3*a*b*b +
    (2*(2*1))*x1*x1*x1*y1*y2*x3*x3*a*a*b - (2*(2*(1+2*(2*(1+2*(2*1))))))*x1*x1*x1*y1*x2*y2*a*b*b -
    (2*(2*(2*(2*1))))*x1*x1*x1*y1*x2*y2*a*a*a*a + (2*(2*(2*(2*(2*1)))))*x1*x1*x1*y1*x2*y2*x3*a*a*b -
    (2*(2*(2*(1+2*(2*(2*1))))))*x1*x1*x1*y1*x2*y2*x3*x3*b*b + (2*(2*(2*(1+2*1))))*x1*x1*x1*y1*x2*x2*y2*a*a*b -
    (2*(2*(1+2*(1+2*(2*(1+2*1))))))*x1*x1*x1*y1*x2*x2*y2*x3*b*b + (2*(2*(2*(2*1))))*x1*x1*x1*y1*x2*x2*y2*x3*a*a*a -
    (2*(2*(2*(1+2*(2*(2*1))))))*x1*x1*x1*y1*x2*x2*y2*x3*x3*a*b -
    (2*(2*(1+2*(2*(1+2*(1+2*(2*1)))))))*x1*x1*x1*y1*x2*x2*x2*y2*b*b -
    (2*(2*(2*(2*1))))*x1*x1*x1*y1*x2*x2*x2*y2*a*a*a - (2*(2*(2*(2*(2*(1+2*1))))))*x1*x1*x1*y1*x2*x2*x2*y2*x3*a*b -
    (2*(2*(2*(2*(2*1)))))*x1*x1*x1*y1*x2*x2*x2*y2*x3*x3*a*a - (2*(2*(1+2*1)))*x1*x1*x1*y1*x2*x2*x2*x2*y2*a*b -
    (2*(2*(2*(2*1))))*x1*x1*x1*y1*x2*x2*x2*x2*y2*x3*a*a +
    (2*(2*(1+2*(2*(2*1)))))*x1*x1*x1*y1*x2*x2*x2*x2*y2*x3*x3*b - (2*(2*(2*(1+2*(1+2*(2*1))))))*x1*x1*x1*x1*a*b*b*b
    - (1+2*(2*(1+2*1)))*x1*x1*x1*x1*a*a*a*a*b - (1+2*(2*(2*(2*1))))*x1*x1*x1*x1*x3*a*a*b*b -
    (1+2*1)*x1*x1*x1*x1*x3*a*a*a*a*a - (2*(1+2*(1+2*(1+2*(1+2*(1+2*1))))))*x1*x1*x1*x1*x3*x3*b*b*b -
    (2*(1+2*(1+2*1)))*x1*x1*x1*x1*x3*x3*a*a*a*b - (2*(2*1))*x1*x1*x1*x1*x3*x3*x3*a*b*b +
    x1*x1*x1*x1*x3*x3*x3*a*a*a*a - (1+2*(1+2*(1+2*(1+2*(2*(2*1))))))*x1*x1*x1*x1*x2*a*a*b*b -
    (1+2*(1+2*(2*1)))*x1*x1*x1*x1*x2*a*a*a*a*a + (2*(2*(1+2*(1+2*(2*(1+2*1))))))*x1*x1*x1*x1*x2*x3*b*b*b +
    (1+2*(1+2*(2*(2*1))))*x1*x1*x1*x1*x2*x3*a*a*a*b -
    (1+2*(1+2*(2*(1+2*(2*(1+2*(2*1)))))))*x1*x1*x1*x1*x2*x3*x3*a*b*b -
    (1+2*(1+2*(1+2*1)))*x1*x1*x1*x1*x2*x3*x3*a*a*a*a - (2*(2*(1+2*(1+2*1))))*x1*x1*x1*x1*x2*x3*x3*x3*a*a*b -
    (2*(1+2*(1+2*(2*(2*(2*(1+2*1)))))))*x1*x1*x1*x1*x2*x2*b*b*b -
    (1+2*(2*(2*(1+2*(2*1)))))*x1*x1*x1*x1*x2*x2*a*a*a*b + (2*(1+2*(2*(2*1))))*x1*x1*x1*x1*x2*x2*x3*a*b*b -
    (2*(2*1))*x1*x1*x1*x1*x2*x2*x3*a*a*a*a - (1+2*(2*(1+2*(1+2*(2*1)))))*x1*x1*x1*x1*x2*x2*x3*x3*a*a*b +
    (1+2*(1+2*(2*(2*(2*(1+2*1))))))*x1*x1*x1*x1*x2*x2*x3*x3*x3*b*b -
    (2*(2*(1+2*1)))*x1*x1*x1*x1*x2*x2*x3*x3*x3*a*a*a -
    (1+2*(1+2*(2*(2*(1+2*(1+2*(2*1)))))))*x1*x1*x1*x1*x2*x2*x2*a*b*b -
    (2*(1+2*(1+2*(2*(2*1)))))*x1*x1*x1*x1*x2*x2*x2*a*a*a*a +
    (2*(2*(2*(2*(1+2*(2*1))))))*x1*x1*x1*x1*x2*x2*x2*x3*a*a*b -
    (2*(1+2*(1+2*(2*(2*(2*(1+2*1)))))))*x1*x1*x1*x1*x2*x2*x2*x3*x3*b*b -
    (2*(1+2*(2*(1+2*1))))*x1*x1*x1*x1*x2*x2*x2*x3*x3*a*a*a +
    (2*(1+2*(1+2*(2*(2*(2*1))))))*x1*x1*x1*x1*x2*x2*x2*x3*x3*x3*a*b +
    (1+2*(1+2*(2*(2*(2*1)))))*x1*x1*x1*x1*x2*x2*x2*x2*a*a*b -
    (2*(2*(2*(1+2*(1+2*(2*(1+2*1)))))))*x1*x1*x1*x1*x2*x2*x2*x2*x3*b*b +
    (1+2*(2*(1+2*1)))*x1*x1*x1*x1*x2*x2*x2*x2*x3*a*a*a -
    (2*(1+2*(2*(1+2*(1+2*(2*1))))))*x1*x1*x1*x1*x2*x2*x2*x2*x3*x3*a*b +
    (1+2*(2*1))*x1*x1*x1*x1*x2*x2*x2*x2*x3*x3*x3*a*a -
    (1+2*(2*(1+2*(2*(1+2*(1+2*1))))))*x1*x1*x1*x1*x2*x2*x2*x2*x2*b*b -
    (1+2*(1+2*(2*1)))*x1*x1*x1*x1*x2*x2*x2*x2*x2*a*a*a -
    (1+2*(1+2*(1+2*(1+2*(1+2*1)))))*x1*x1*x1*x1*x2*x2*x2*x2*x2*x3*a*b -
    (1+2*(1+2*(2*(1+2*1))))*x1*x1*x1*x1*x2*x2*x2*x2*x2*x3*x3*a*a +
    (2*(1+2*(2*(2*1))))*x1*x1*x1*x1*x2*x2*x2*x2*x2*x3*x3*x3*b - x1*x1*x1*x1*x2*x2*x2*x2*x2*x2*a*b -
    (2*1)*x1*x1*x1*x1*x2*x2*x2*x2*x2*x2*x3*a*a + (1+2*(2*(2*1)))*x1*x1*x1*x1*x2*x2*x2*x2*x2*x2*x3*x3*b +
    (2*1)*x1*x1*x1*x1*x2*x2*x2*x2*x2*x2*x3*x3*x3*a - (2*(2*(1+2*1)))*x1*x1*x1*x1*y1*y2*a*b*b -
    (2*1)*x1*x1*x1*x1*y1*y2*a*a*a*a + (2*1)*x1*x1*x1*x1*y1*y2*x3*a*a*b -
    (2*(1+2*(2*(2*1))))*x1*x1*x1*x1*y1*y2*x3*x3*b*b - (2*1)*x1*x1*x1*x1*y1*y2*x3*x3*a*a*a +
    (2*(2*1))*x1*x1*x1*x1*y1*x2*y2*a*a*b - (2*(2*(1+2*(2*(2*1)))))*x1*x1*x1*x1*y1*x2*y2*x3*b*b -
    (2*(2*(1+2*1)))*x1*x1*x1*x1*y1*x2*y2*x3*x3*a*b - (2*(1+2*(1+2*(2*(1+2*1)))))*x1*x1*x1*x1*y1*x2*x2*y2*b*b -
    (2*(2*1))*x1*x1*x1*x1*y1*x2*x2*y2*a*a*a - (2*(2*(1+2*(2*(2*1)))))*x1*x1*x1*x1*y1*x2*x2*y2*x3*a*b -
    (2*(2*(1+2*1)))*x1*x1*x1*x1*y1*x2*x2*y2*x3*x3*a*a - (2*(2*(1+2*1)))*x1*x1*x1*x1*y1*x2*x2*x2*y2*a*b -
    (2*(2*(2*(2*1))))*x1*x1*x1*x1*y1*x2*x2*x2*y2*x3*a*a +
    (2*(2*(1+2*(2*(2*1)))))*x1*x1*x1*x1*y1*x2*x2*x2*y2*x3*x3*b - (2*1)*x1*x1*x1*x1*y1*x2*x2*x2*x2*y2*a*a +
    (2*(1+2*(2*(2*1))))*x1*x1*x1*x1*y1*x2*x2*x2*x2*y2*x3*b + (2*(1+2*1))*x1*x1*x1*x1*y1*x2*x2*x2*x2*y2*x3*x3*a -
    (2*(1+2*1))*x1*x1*x1*x1*x1*a*a*b*b - x1*x1*x1*x1*x1*a*a*a*a*a + (2*(2*(1+2*(2*(2*1)))))*x1*x1*x1*x1*x1*x3*b*b*b
    + (1+2*(1+2*1))*x1*x1*x1*x1*x1*x3*a*a*a*b - (1+2*(1+2*(1+2*1)))*x1*x1*x1*x1*x1*x3*x3*a*b*b -
    x1*x1*x1*x1*x1*x3*x3*a*a*a*a - (2*1)*x1*x1*x1*x1*x1*x3*x3*x3*a*a*b -
    (2*(2*(1+2*(2*(2*1)))))*x1*x1*x1*x1*x1*x2*b*b*b - (2*(2*1))*x1*x1*x1*x1*x1*x2*a*a*a*b +
    (2*(1+2*(2*(2*1))))*x1*x1*x1*x1*x1*x2*x3*a*b*b + (2*(1+2*1))*x1*x1*x1*x1*x1*x2*x3*a*a*a*a -
    (2*(1+2*(2*(2*1))))*x1*x1*x1*x1*x1*x2*x3*x3*a*a*b + (2*(1+2*(2*(2*1))))*x1*x1*x1*x1*x1*x2*x3*x3*x3*b*b -
    (2*1)*x1*x1*x1*x1*x1*x2*x3*x3*x3*a*a*a - (1+2*(1+2*(2*(1+2*(2*(2*1))))))*x1*x1*x1*x1*x1*x2*x2*a*b*b -
    (1+2*(1+2*(2*1)))*x1*x1*x1*x1*x1*x2*x2*a*a*a*a - (1+2*(2*(2*1)))*x1*x1*x1*x1*x1*x2*x2*x3*a*a*b -
    (1+2*(1+2*(2*(1+2*1))))*x1*x1*x1*x1*x1*x2*x2*x3*x3*b*b - (1+2*(1+2*(1+2*1)))*x1*x1*x1*x1*x1*x2*x2*x3*x3*a*a*a +
    (2*(2*(2*(1+2*1))))*x1*x1*x1*x1*x1*x2*x2*x3*x3*x3*a*b + (2*(2*(2*1)))*x1*x1*x1*x1*x1*x2*x2*x2*a*a*b -
    (2*(2*(1+2*(2*(2*1)))))*x1*x1*x1*x1*x1*x2*x2*x2*x3*b*b + (2*(2*1))*x1*x1*x1*x1*x1*x2*x2*x2*x3*a*a*a -
    (2*(2*(1+2*1)))*x1*x1*x1*x1*x1*x2*x2*x2*x3*x3*a*b + (2*(2*1))*x1*x1*x1*x1*x1*x2*x2*x2*x3*x3*x3*a*a -
    (1+2*(2*(1+2*(2*(1+2*(1+2*1))))))*x1*x1*x1*x1*x1*x2*x2*x2*x2*b*b -
    (1+2*(1+2*(2*1)))*x1*x1*x1*x1*x1*x2*x2*x2*x2*a*a*a -
    (1+2*(1+2*(1+2*(1+2*(1+2*1)))))*x1*x1*x1*x1*x1*x2*x2*x2*x2*x3*a*b -
    (1+2*(1+2*(2*(1+2*1))))*x1*x1*x1*x1*x1*x2*x2*x2*x2*x3*x3*a*a +
    (2*(1+2*(2*(2*1))))*x1*x1*x1*x1*x1*x2*x2*x2*x2*x3*x3*x3*b - (2*(2*(1+2*1)))*x1*x1*x1*x1*x1*x2*x2*x2*x2*x2*a*b -
    (2*(1+2*(2*(2*1))))*x1*x1*x1*x1*x1*x2*x2*x2*x2*x2*x3*a*a +
    (2*(1+2*(1+2*(2*(1+2*1)))))*x1*x1*x1*x1*x1*x2*x2*x2*x2*x2*x3*x3*b +
    (2*(1+2*1))*x1*x1*x1*x1*x1*x2*x2*x2*x2*x2*x3*x3*x3*a - x1*x1*x1*x1*x1*x2*x2*x2*x2*x2*x2*a*a +
    (1+2*(2*(2*1)))*x1*x1*x1*x1*x1*x2*x2*x2*x2*x2*x2*x3*b + (1+2*1)*x1*x1*x1*x1*x1*x2*x2*x2*x2*x2*x2*x3*x3*a -
    (2*(2*(2*1)))*x1*x1*x1*x1*x1*x1*b*b*b - x1*x1*x1*x1*x1*x1*a*a*a*b - (2*1)*x1*x1*x1*x1*x1*x1*x3*a*b*b -
    x1*x1*x1*x1*x1*x1*x3*x3*a*a*b + x1*x1*x1*x1*x1*x1*x3*x3*x3*b*b - (2*(1+2*(2*1)))*x1*x1*x1*x1*x1*x1*x2*a*b*b -
    x1*x1*x1*x1*x1*x1*x2*a*a*a*a - (1+2*(2*1))*x1*x1*x1*x1*x1*x1*x2*x3*a*a*b +
    (1+2*(2*(2*1)))*x1*x1*x1*x1*x1*x1*x2*x3*x3*b*b - x1*x1*x1*x1*x1*x1*x2*x3*x3*a*a*a +
    (2*1)*x1*x1*x1*x1*x1*x1*x2*x3*x3*x3*a*b - (1+2*1)*x1*x1*x1*x1*x1*x1*x2*x2*a*a*b +
    (1+2*(2*(2*1)))*x1*x1*x1*x1*x1*x1*x2*x2*x3*b*b - (1+2*1)*x1*x1*x1*x1*x1*x1*x2*x2*x3*a*a*a +
    (2*(2*(1+2*1)))*x1*x1*x1*x1*x1*x1*x2*x2*x3*x3*a*b + x1*x1*x1*x1*x1*x1*x2*x2*x3*x3*x3*a*a -
    (1+2*(1+2*1))*x1*x1*x1*x1*x1*x1*x2*x2*x2*b*b - (2*1)*x1*x1*x1*x1*x1*x1*x2*x2*x2*a*a*a +
    (2*(2*(2*1)))*x1*x1*x1*x1*x1*x1*x2*x2*x2*x3*a*b + (2*1)*x1*x1*x1*x1*x1*x1*x2*x2*x2*x3*x3*a*a +
    (2*1)*x1*x1*x1*x1*x1*x1*x2*x2*x2*x3*x3*x3*b - x1*x1*x1*x1*x1*x1*x2*x2*x2*x2*a*b -
    (2*1)*x1*x1*x1*x1*x1*x1*x2*x2*x2*x2*x3*a*a + (1+2*(2*(2*1)))*x1*x1*x1*x1*x1*x1*x2*x2*x2*x2*x3*x3*b +
    (2*1)*x1*x1*x1*x1*x1*x1*x2*x2*x2*x2*x3*x3*x3*a - x1*x1*x1*x1*x1*x1*x2*x2*x2*x2*x2*a*a +
    (1+2*(2*(2*1)))*x1*x1*x1*x1*x1*x1*x2*x2*x2*x2*x2*x3*b + (1+2*1)*x1*x1*x1*x1*x1*x1*x2*x2*x2*x2*x2*x3*x3*a +
    x1*x1*x1*x1*x1*x1*x2*x2*x2*x2*x2*x2*b + x1*x1*x1*x1*x1*x1*x2*x2*x2*x2*x2*x2*x3*a +
    x1*x1*x1*x1*x1*x1*x2*x2*x2*x2*x2*x2*x3*x3*x3.
  Definition Lz : F :=
    (2*(2*(2*(2*(2*(1+2*(2*1)))))))*y3*b*b*b*b + (2*(2*(2*(2*(2*1)))))*y3*a*a*a*b*b + y3*a*a*a*a*a*a +
    (2*(2*(2*(2*(2*1)))))*x3*y3*a*b*b*b + (2*(1+2*1))*x3*y3*a*a*a*a*b - (2*(2*(2*(2*(2*(2*(2*1)))))))*y2*b*b*b*b -
    (2*(2*(2*(1+2*1))))*y2*a*a*a*b*b - y2*a*a*a*a*a*a - (2*(2*(2*(2*(2*(1+2*1))))))*y2*x3*a*b*b*b -
    (2*(2*(1+2*1)))*y2*x3*a*a*a*a*b - (2*(2*(2*(1+2*1))))*y2*x3*x3*a*a*b*b - (1+2*1)*y2*x3*x3*a*a*a*a*a -
    (2*(2*(2*(2*(2*1)))))*y2*x3*x3*x3*b*b*b - (2*(2*1))*y2*x3*x3*x3*a*a*a*b +
    (2*(2*(2*(2*(1+2*(1+2*1))))))*x2*y3*a*b*b*b + (2*(2*(1+2*(2*1))))*x2*y3*a*a*a*a*b + (1+2*1)*x2*x3*y3*a*a*a*a*a
    - (2*(2*(2*(2*(1+2*1)))))*x2*y2*a*b*b*b - (2*(2*1))*x2*y2*a*a*a*a*b - (2*(2*(2*(2*(1+2*1)))))*x2*y2*x3*a*a*b*b
    - (1+2*1)*x2*y2*x3*a*a*a*a*a + (2*(2*(2*(2*(1+2*1)))))*x2*y2*x3*x3*b*b*b -
    (2*(2*(2*(2*1))))*x2*y2*x3*x3*x3*a*b*b - x2*y2*x3*x3*x3*a*a*a*a + (2*(1+2*(2*1)))*x2*x2*y3*a*a*b*b +
    (2*(2*1))*x2*x2*y3*a*a*a*a*a + (2*(2*(2*(1+2*(1+2*(1+2*1))))))*x2*x2*x3*y3*b*b*b -
    (2*(2*(1+2*(2*1))))*x2*x2*y2*a*a*b*b - x2*x2*y2*a*a*a*a*a - (2*(1+2*(2*(2*1))))*x2*x2*y2*x3*a*a*a*b +
    (2*(2*(1+2*1)))*x2*x2*y2*x3*x3*a*b*b - (1+2*1)*x2*x2*y2*x3*x3*a*a*a*a - (2*(1+2*1))*x2*x2*y2*x3*x3*x3*a*a*b +
    (2*(2*(2*(1+2*(1+2*1)))))*x2*x2*x2*y3*b*b*b + (1+2*(2*1))*x2*x2*x2*y3*a*a*a*b +
    (2*(2*(2*(1+2*(2*(2*1))))))*x2*x2*x2*x3*y3*a*b*b + (2*(2*1))*x2*x2*x2*x3*y3*a*a*a*a +
    (2*(2*(2*(2*1))))*x2*x2*x2*y2*b*b*b - x2*x2*x2*y2*a*a*a*b + (2*(2*(1+2*1)))*x2*x2*x2*y2*x3*a*b*b -
    (1+2*1)*x2*x2*x2*y2*x3*a*a*a*a + (1+2*(2*(2*1)))*x2*x2*x2*y2*x3*x3*a*a*b + (2*(2*1))*x2*x2*x2*y2*x3*x3*x3*b*b -
    x2*x2*x2*y2*x3*x3*x3*a*a*a + (2*(1+2*(2*1)))*x2*x2*x2*x2*y3*a*b*b + (1+2*1)*x2*x2*x2*x2*y3*a*a*a*a +
    (1+2*(2*1))*x2*x2*x2*x2*x3*y3*a*a*b + (2*1)*x2*x2*x2*x2*y2*a*b*b + (1+2*1)*x2*x2*x2*x2*y2*x3*a*a*b -
    (2*(1+2*1))*x2*x2*x2*x2*y2*x3*x3*b*b + x2*x2*x2*x2*y2*x3*x3*x3*a*b - (1+2*(2*1))*x2*x2*x2*x2*x2*y3*a*a*b +
    (2*(2*(1+2*1)))*x2*x2*x2*x2*x2*x3*y3*b*b + x2*x2*x2*x2*x2*x3*y3*a*a*a + (2*(2*1))*x2*x2*x2*x2*x2*x2*y3*b*b +
    x2*x2*x2*x2*x2*x2*x3*y3*a*b - (2*(2*(2*(2*(2*(2*(2*1)))))))*y1*b*b*b*b - (2*(2*(2*(1+2*1))))*y1*a*a*a*b*b -
    y1*a*a*a*a*a*a - (2*(2*(2*(2*(2*(1+2*1))))))*y1*x3*a*b*b*b - (2*(2*(1+2*1)))*y1*x3*a*a*a*a*b -
    (2*(2*(2*(1+2*1))))*y1*x3*x3*a*a*b*b - (1+2*1)*y1*x3*x3*a*a*a*a*a - (2*(2*(2*(2*(2*1)))))*y1*x3*x3*x3*b*b*b -
    (2*(2*1))*y1*x3*x3*x3*a*a*a*b + (2*(2*(2*(2*(2*(1+2*1))))))*y1*y2*y3*b*b*b + (2*(2*(2*(2*1))))*y1*y2*y3*a*a*a*b
    + (2*(2*(2*(2*(2*1)))))*y1*y2*x3*y3*a*b*b + (2*(1+2*1))*y1*y2*x3*y3*a*a*a*a -
    (2*(2*(2*(2*(1+2*(2*1))))))*y1*x2*a*b*b*b - (2*(2*(2*1)))*y1*x2*a*a*a*a*b -
    (2*(2*(2*(2*(2*(1+2*1))))))*y1*x2*x3*a*a*b*b - (1+2*(2*(2*1)))*y1*x2*x3*a*a*a*a*a +
    (2*(2*(2*(2*(1+2*(2*(2*1)))))))*y1*x2*x3*x3*b*b*b + (2*(2*(1+2*1)))*y1*x2*x3*x3*a*a*a*b -
    (2*(2*(2*(2*(2*1)))))*y1*x2*x3*x3*x3*a*b*b - (1+2*1)*y1*x2*x3*x3*x3*a*a*a*a +
    (2*(2*(2*(2*(2*1)))))*y1*x2*y2*y3*a*b*b + (2*(2*(2*1)))*y1*x2*y2*y3*a*a*a*a -
    (2*(2*(2*(2*1))))*y1*x2*y2*x3*y3*a*a*b - (2*(2*(1+2*(2*1))))*y1*x2*x2*a*a*b*b -
    (2*(1+2*(1+2*(1+2*1))))*y1*x2*x2*x3*a*a*a*b + (2*(2*(1+2*(1+2*(1+2*1)))))*y1*x2*x2*x3*x3*a*b*b -
    (2*(1+2*(2*1)))*y1*x2*x2*x3*x3*x3*a*a*b - (2*(1+2*(1+2*1)))*y1*x2*x2*y2*y3*a*a*b +
    (2*(2*(2*(1+2*(2*(2*1))))))*y1*x2*x2*y2*x3*y3*b*b - (2*(2*(2*(2*1))))*y1*x2*x2*x2*b*b*b -
    (1+2*(1+2*1))*y1*x2*x2*x2*a*a*a*b - (2*(2*(1+2*1)))*y1*x2*x2*x2*x3*a*b*b -
    (2*(2*(1+2*1)))*y1*x2*x2*x2*x3*a*a*a*a + (1+2*(1+2*(2*(1+2*1))))*y1*x2*x2*x2*x3*x3*a*a*b -
    (2*(2*1))*y1*x2*x2*x2*x3*x3*x3*b*b - (2*(2*1))*y1*x2*x2*x2*x3*x3*x3*a*a*a +
    (2*(2*(2*(1+2*1))))*y1*x2*x2*x2*y2*y3*b*b + (2*(2*(1+2*(2*1))))*y1*x2*x2*x2*y2*x3*y3*a*b -
    (2*1)*y1*x2*x2*x2*x2*a*b*b + y1*x2*x2*x2*x2*a*a*a*a + (1+2*1)*y1*x2*x2*x2*x2*x3*a*a*b -
    (2*(1+2*(2*(2*1))))*y1*x2*x2*x2*x2*x3*x3*b*b + (1+2*1)*y1*x2*x2*x2*x2*x3*x3*a*a*a + y1*x2*x2*x2*x2*x3*x3*x3*a*b
    + (2*1)*y1*x2*x2*x2*x2*y2*y3*a*b + (2*1)*y1*x2*x2*x2*x2*y2*x3*y3*a*a - (1+2*(2*1))*y1*x2*x2*x2*x2*x2*a*a*b -
    (1+2*1)*y1*x2*x2*x2*x2*x2*x3*a*a*a - (1+2*1)*y1*x2*x2*x2*x2*x2*x3*x3*a*b - y1*x2*x2*x2*x2*x2*x3*x3*x3*a*a +
    (2*(2*1))*y1*x2*x2*x2*x2*x2*x2*b*b + (1+2*1)*y1*x2*x2*x2*x2*x2*x2*x3*a*b + y1*x2*x2*x2*x2*x2*x2*x3*x3*x3*b +
    (2*(2*(2*(2*(1+2*(1+2*1))))))*x1*y3*a*b*b*b + (2*(2*(1+2*(2*1))))*x1*y3*a*a*a*a*b + (1+2*1)*x1*x3*y3*a*a*a*a*a
    - (2*(2*(2*(2*(1+2*(2*1))))))*x1*y2*a*b*b*b - (2*(2*(2*1)))*x1*y2*a*a*a*a*b -
    (2*(2*(2*(2*(2*(1+2*1))))))*x1*y2*x3*a*a*b*b - (1+2*(2*(2*1)))*x1*y2*x3*a*a*a*a*a +
    (2*(2*(2*(2*(1+2*(2*(2*1)))))))*x1*y2*x3*x3*b*b*b + (2*(2*(1+2*1)))*x1*y2*x3*x3*a*a*a*b -
    (2*(2*(2*(2*(2*1)))))*x1*y2*x3*x3*x3*a*b*b - (1+2*1)*x1*y2*x3*x3*x3*a*a*a*a +
    (2*(2*(1+2*(1+2*(2*(2*1))))))*x1*x2*y3*a*a*b*b + (2*(1+2*(2*(2*1))))*x1*x2*y3*a*a*a*a*a +
    (2*(2*(2*(2*(1+2*(2*(2*1)))))))*x1*x2*x3*y3*b*b*b - (2*(2*(2*(1+2*1))))*x1*x2*x3*y3*a*a*a*b -
    (2*(2*(2*(1+2*(1+2*1)))))*x1*x2*y2*a*a*b*b - (2*1)*x1*x2*y2*a*a*a*a*a -
    (2*(2*(1+2*(1+2*(1+2*1)))))*x1*x2*y2*x3*a*a*a*b + (2*(2*(2*(1+2*(2*(2*1))))))*x1*x2*y2*x3*x3*a*b*b -
    (2*(1+2*1))*x1*x2*y2*x3*x3*a*a*a*a - (2*(2*(1+2*(2*1))))*x1*x2*y2*x3*x3*x3*a*a*b -
    (2*(2*(2*(1+2*(2*(2*1))))))*x1*x2*x2*y3*b*b*b - (1+2*(2*(1+2*(2*(2*1)))))*x1*x2*x2*y3*a*a*a*b +
    (2*(2*(2*(1+2*(2*(2*(2*(2*1))))))))*x1*x2*x2*x3*y3*a*b*b + (1+2*1)*x1*x2*x2*x3*y3*a*a*a*a +
    (2*(2*(2*(2*(1+2*(2*(2*1)))))))*x1*x2*x2*y2*b*b*b - x1*x2*x2*y2*a*a*a*b +
    (2*(2*(1+2*(1+2*(2*(1+2*1))))))*x1*x2*x2*y2*x3*a*b*b - (2*(1+2*(2*(2*1))))*x1*x2*x2*y2*x3*a*a*a*a +
    (1+2*(2*(1+2*(2*(2*(2*1))))))*x1*x2*x2*y2*x3*x3*a*a*b + (2*(2*(1+2*(2*(2*1)))))*x1*x2*x2*y2*x3*x3*x3*b*b -
    (2*(1+2*1))*x1*x2*x2*y2*x3*x3*x3*a*a*a + (2*(2*(1+2*(2*1))))*x1*x2*x2*x2*y3*a*b*b +
    (2*(2*1))*x1*x2*x2*x2*y3*a*a*a*a + (2*(2*(1+2*(1+2*(2*(2*1))))))*x1*x2*x2*x2*x3*y3*a*a*b +
    (2*(2*(2*(1+2*(2*1)))))*x1*x2*x2*x2*y2*a*b*b + (2*1)*x1*x2*x2*x2*y2*a*a*a*a +
    (2*(2*(2*(2*(1+2*1)))))*x1*x2*x2*x2*y2*x3*a*a*b - (2*(2*(2*(1+2*(2*(2*1))))))*x1*x2*x2*x2*y2*x3*x3*b*b +
    (2*(1+2*1))*x1*x2*x2*x2*y2*x3*x3*a*a*a + (2*(2*(2*(2*1))))*x1*x2*x2*x2*y2*x3*x3*x3*a*b -
    (2*(1+2*(1+2*(2*(2*1)))))*x1*x2*x2*x2*x2*y3*a*a*b + (2*(2*(1+2*(2*(2*1)))))*x1*x2*x2*x2*x2*x3*y3*b*b +
    (1+2*(2*(2*1)))*x1*x2*x2*x2*x2*x3*y3*a*a*a + x1*x2*x2*x2*x2*y2*a*a*b + (1+2*1)*x1*x2*x2*x2*x2*y2*x3*a*a*a -
    (1+2*(2*(2*1)))*x1*x2*x2*x2*x2*y2*x3*x3*a*b + x1*x2*x2*x2*x2*y2*x3*x3*x3*a*a +
    (2*(2*(1+2*(2*(2*1)))))*x1*x2*x2*x2*x2*x2*y3*b*b - (2*(1+2*1))*x1*x2*x2*x2*x2*x2*y3*a*a*a +
    (2*(2*(1+2*1)))*x1*x2*x2*x2*x2*x2*x3*y3*a*b + (1+2*(1+2*1))*x1*x2*x2*x2*x2*x2*x2*y3*a*b +
    x1*x2*x2*x2*x2*x2*x2*x3*y3*a*a - (2*(2*(2*(2*(1+2*1)))))*x1*y1*a*b*b*b - (2*(2*1))*x1*y1*a*a*a*a*b -
    (2*(2*(2*(2*(1+2*1)))))*x1*y1*x3*a*a*b*b - (1+2*1)*x1*y1*x3*a*a*a*a*a +
    (2*(2*(2*(2*(1+2*1)))))*x1*y1*x3*x3*b*b*b - (2*(2*(2*(2*1))))*x1*y1*x3*x3*x3*a*b*b - x1*y1*x3*x3*x3*a*a*a*a +
    (2*(2*(2*(2*(2*1)))))*x1*y1*y2*y3*a*b*b + (2*(2*(2*1)))*x1*y1*y2*y3*a*a*a*a -
    (2*(2*(2*(2*1))))*x1*y1*y2*x3*y3*a*a*b - (2*(2*(2*(1+2*(1+2*1)))))*x1*y1*x2*a*a*b*b - (2*1)*x1*y1*x2*a*a*a*a*a
    - (2*(2*(1+2*(1+2*(1+2*1)))))*x1*y1*x2*x3*a*a*a*b + (2*(2*(2*(1+2*(2*(2*1))))))*x1*y1*x2*x3*x3*a*b*b -
    (2*(1+2*1))*x1*y1*x2*x3*x3*a*a*a*a - (2*(2*(1+2*(2*1))))*x1*y1*x2*x3*x3*x3*a*a*b -
    (2*(2*(1+2*(2*(2*1)))))*x1*y1*x2*y2*y3*a*a*b + (2*(2*(2*(2*(1+2*(1+2*(1+2*1)))))))*x1*y1*x2*y2*x3*y3*b*b +
    (2*(2*(2*1)))*x1*y1*x2*y2*x3*y3*a*a*a + (2*(2*(2*(2*(1+2*1)))))*x1*y1*x2*x2*b*b*b -
    (1+2*(1+2*(2*(2*1))))*x1*y1*x2*x2*a*a*a*b + (2*(2*(1+2*(2*(2*1)))))*x1*y1*x2*x2*x3*a*b*b -
    (1+2*(1+2*(1+2*(2*(2*1)))))*x1*y1*x2*x2*x3*a*a*a*a + (1+2*(1+2*(2*(2*(2*(1+2*1))))))*x1*y1*x2*x2*x3*x3*a*a*b +
    (2*(2*(1+2*1)))*x1*y1*x2*x2*x3*x3*x3*b*b - (1+2*(2*(1+2*1)))*x1*y1*x2*x2*x3*x3*x3*a*a*a +
    (2*(2*(2*(1+2*(2*(2*1))))))*x1*y1*x2*x2*y2*y3*b*b - (2*(2*(2*1)))*x1*y1*x2*x2*y2*y3*a*a*a +
    (2*(2*(1+2*(1+2*(2*(1+2*1))))))*x1*y1*x2*x2*y2*x3*y3*a*b + (2*(2*(2*(2*(2*1)))))*x1*y1*x2*x2*x2*a*b*b +
    (2*(2*1))*x1*y1*x2*x2*x2*a*a*a*a + (2*(2*(2*(1+2*(2*(2*1))))))*x1*y1*x2*x2*x2*x3*a*a*b -
    (2*(2*(2*(2*(2*(2*(1+2*1)))))))*x1*y1*x2*x2*x2*x3*x3*b*b + (2*(2*(1+2*1)))*x1*y1*x2*x2*x2*x3*x3*a*a*a +
    (2*(2*(2*(1+2*1))))*x1*y1*x2*x2*x2*x3*x3*x3*a*b + (2*(2*(1+2*(2*1))))*x1*y1*x2*x2*x2*y2*y3*a*b +
    (2*(2*(2*(1+2*1))))*x1*y1*x2*x2*x2*y2*x3*y3*a*a - (2*(1+2*(1+2*(1+2*1))))*x1*y1*x2*x2*x2*x2*a*a*b -
    (1+2*(2*(2*1)))*x1*y1*x2*x2*x2*x2*x3*a*a*a - (2*(1+2*(1+2*(2*(1+2*1)))))*x1*y1*x2*x2*x2*x2*x3*x3*a*b -
    (1+2*1)*x1*y1*x2*x2*x2*x2*x3*x3*x3*a*a - (2*(2*(1+2*1)))*x1*y1*x2*x2*x2*x2*y2*x3*y3*b +
    (2*(2*(2*(2*(1+2*1)))))*x1*y1*x2*x2*x2*x2*x2*b*b - (2*1)*x1*y1*x2*x2*x2*x2*x2*a*a*a +
    (2*(2*(1+2*(2*(2*1)))))*x1*y1*x2*x2*x2*x2*x2*x3*a*b - (2*(1+2*1))*x1*y1*x2*x2*x2*x2*x2*x3*x3*a*a +
    (2*(2*(1+2*1)))*x1*y1*x2*x2*x2*x2*x2*x3*x3*x3*b + (1+2*(2*1))*x1*y1*x2*x2*x2*x2*x2*x2*a*b +
    (1+2*1)*x1*y1*x2*x2*x2*x2*x2*x2*x3*a*a + (1+2*1)*x1*y1*x2*x2*x2*x2*x2*x2*x3*x3*b +
    x1*y1*x2*x2*x2*x2*x2*x2*x3*x3*x3*a + (2*(1+2*(2*1)))*x1*x1*y3*a*a*b*b + (2*(2*1))*x1*x1*y3*a*a*a*a*a +
    (2*(2*(2*(1+2*(1+2*(1+2*1))))))*x1*x1*x3*y3*b*b*b - (2*(2*(1+2*(2*1))))*x1*x1*y2*a*a*b*b -
    (2*(1+2*(1+2*(1+2*1))))*x1*x1*y2*x3*a*a*a*b + (2*(2*(1+2*(1+2*(1+2*1)))))*x1*x1*y2*x3*x3*a*b*b -
    (2*(1+2*(2*1)))*x1*x1*y2*x3*x3*x3*a*a*b - (2*(2*(2*(1+2*(2*(2*1))))))*x1*x1*x2*y3*b*b*b -
    (1+2*(2*(1+2*(2*(2*1)))))*x1*x1*x2*y3*a*a*a*b + (2*(2*(2*(1+2*(2*(2*(2*(2*1))))))))*x1*x1*x2*x3*y3*a*b*b +
    (1+2*1)*x1*x1*x2*x3*y3*a*a*a*a + (2*(2*(2*(2*(1+2*1)))))*x1*x1*x2*y2*b*b*b -
    (1+2*(1+2*(2*(2*1))))*x1*x1*x2*y2*a*a*a*b + (2*(2*(1+2*(2*(2*1)))))*x1*x1*x2*y2*x3*a*b*b -
    (1+2*(1+2*(1+2*(2*(2*1)))))*x1*x1*x2*y2*x3*a*a*a*a + (1+2*(1+2*(2*(2*(2*(1+2*1))))))*x1*x1*x2*y2*x3*x3*a*a*b +
    (2*(2*(1+2*1)))*x1*x1*x2*y2*x3*x3*x3*b*b - (1+2*(2*(1+2*1)))*x1*x1*x2*y2*x3*x3*x3*a*a*a +
    (2*(2*(1+2*(2*(2*1)))))*x1*x1*x2*x2*y3*a*b*b + x1*x1*x2*x2*y3*a*a*a*a +
    (2*(1+2*(2*(2*(2*(1+2*(2*1)))))))*x1*x1*x2*x2*x3*y3*a*a*b + (2*(2*(2*(2*(2*(1+2*1))))))*x1*x1*x2*x2*y2*a*b*b +
    (1+2*(1+2*1))*x1*x1*x2*x2*y2*a*a*a*a + (2*(1+2*(1+2*(1+2*(1+2*(1+2*1))))))*x1*x1*x2*x2*y2*x3*a*a*b -
    (2*(2*(2*(1+2*(1+2*(2*(1+2*1)))))))*x1*x1*x2*x2*y2*x3*x3*b*b + (1+2*(2*(1+2*(2*1))))*x1*x1*x2*x2*y2*x3*x3*a*a*a
    + (2*(1+2*(2*(1+2*(2*1)))))*x1*x1*x2*x2*y2*x3*x3*x3*a*b -
    (1+2*(2*(1+2*(1+2*(2*(2*1))))))*x1*x1*x2*x2*x2*y3*a*a*b + (2*(2*(2*(2*(2*(1+2*1))))))*x1*x1*x2*x2*x2*x3*y3*b*b
    + (2*(2*(1+2*(1+2*(2*1)))))*x1*x1*x2*x2*x2*x3*y3*a*a*a - (2*(1+2*(2*1)))*x1*x1*x2*x2*x2*y2*a*a*b +
    (1+2*(2*(2*1)))*x1*x1*x2*x2*x2*y2*x3*a*a*a - (2*(1+2*(2*(2*(2*(2*1))))))*x1*x1*x2*x2*x2*y2*x3*x3*a*b +
    (1+2*1)*x1*x1*x2*x2*x2*y2*x3*x3*x3*a*a + (2*(1+2*(1+2*(2*(2*(2*(1+2*1)))))))*x1*x1*x2*x2*x2*x2*y3*b*b -
    (2*(2*(2*(2*1))))*x1*x1*x2*x2*x2*x2*y3*a*a*a + (1+2*(1+2*(1+2*(2*(2*1)))))*x1*x1*x2*x2*x2*x2*x3*y3*a*b +
    (2*(2*(1+2*1)))*x1*x1*x2*x2*x2*x2*y2*b*b - x1*x1*x2*x2*x2*x2*y2*a*a*a +
    (1+2*(2*(2*1)))*x1*x1*x2*x2*x2*x2*y2*x3*a*b - (1+2*1)*x1*x1*x2*x2*x2*x2*y2*x3*x3*a*a +
    (1+2*1)*x1*x1*x2*x2*x2*x2*y2*x3*x3*x3*b + (2*(1+2*(1+2*(2*(1+2*1)))))*x1*x1*x2*x2*x2*x2*x2*y3*a*b +
    (1+2*(2*(2*1)))*x1*x1*x2*x2*x2*x2*x2*x3*y3*a*a + (1+2*1)*x1*x1*x2*x2*x2*x2*x2*x2*y3*a*a +
    (1+2*1)*x1*x1*x2*x2*x2*x2*x2*x2*x3*y3*b - (2*(2*(1+2*(2*1))))*x1*x1*y1*a*a*b*b - x1*x1*y1*a*a*a*a*a -
    (2*(1+2*(2*(2*1))))*x1*x1*y1*x3*a*a*a*b + (2*(2*(1+2*1)))*x1*x1*y1*x3*x3*a*b*b - (1+2*1)*x1*x1*y1*x3*x3*a*a*a*a
    - (2*(1+2*1))*x1*x1*y1*x3*x3*x3*a*a*b - (2*(1+2*(1+2*1)))*x1*x1*y1*y2*y3*a*a*b +
    (2*(2*(2*(1+2*(2*(2*1))))))*x1*x1*y1*y2*x3*y3*b*b + (2*(2*(2*(2*(1+2*(2*(2*1)))))))*x1*x1*y1*x2*b*b*b -
    x1*x1*y1*x2*a*a*a*b + (2*(2*(1+2*(1+2*(2*(1+2*1))))))*x1*x1*y1*x2*x3*a*b*b -
    (2*(1+2*(2*(2*1))))*x1*x1*y1*x2*x3*a*a*a*a + (1+2*(2*(1+2*(2*(2*(2*1))))))*x1*x1*y1*x2*x3*x3*a*a*b +
    (2*(2*(1+2*(2*(2*1)))))*x1*x1*y1*x2*x3*x3*x3*b*b - (2*(1+2*1))*x1*x1*y1*x2*x3*x3*x3*a*a*a +
    (2*(2*(2*(1+2*(2*(2*1))))))*x1*x1*y1*x2*y2*y3*b*b - (2*(2*(2*1)))*x1*x1*y1*x2*y2*y3*a*a*a +
    (2*(2*(1+2*(1+2*(2*(1+2*1))))))*x1*x1*y1*x2*y2*x3*y3*a*b + (2*(2*(2*(2*(2*(1+2*1))))))*x1*x1*y1*x2*x2*a*b*b +
    (1+2*(1+2*1))*x1*x1*y1*x2*x2*a*a*a*a + (2*(1+2*(1+2*(1+2*(1+2*(1+2*1))))))*x1*x1*y1*x2*x2*x3*a*a*b -
    (2*(2*(2*(1+2*(1+2*(2*(1+2*1)))))))*x1*x1*y1*x2*x2*x3*x3*b*b + (1+2*(2*(1+2*(2*1))))*x1*x1*y1*x2*x2*x3*x3*a*a*a
    + (2*(1+2*(2*(1+2*(2*1)))))*x1*x1*y1*x2*x2*x3*x3*x3*a*b + (2*(2*(1+2*(2*(2*1)))))*x1*x1*y1*x2*x2*y2*y3*a*b +
    (2*(2*(2*(2*(1+2*1)))))*x1*x1*y1*x2*x2*y2*x3*y3*a*a - (2*(2*(2*(1+2*(2*1)))))*x1*x1*y1*x2*x2*x2*a*a*b -
    (2*(2*(2*(1+2*(1+2*(1+2*1))))))*x1*x1*y1*x2*x2*x2*x3*x3*a*b - (2*(2*(2*1)))*x1*x1*y1*x2*x2*x2*y2*y3*a*a -
    (2*(2*(1+2*(2*(2*1)))))*x1*x1*y1*x2*x2*x2*y2*x3*y3*b + (2*(2*(2*(2*(1+2*(2*(2*1)))))))*x1*x1*y1*x2*x2*x2*x2*b*b
    - (1+2*(1+2*1))*x1*x1*y1*x2*x2*x2*x2*a*a*a + (2*(2*(1+2*(1+2*(2*(1+2*1))))))*x1*x1*y1*x2*x2*x2*x2*x3*a*b -
    (1+2*(2*(1+2*(2*1))))*x1*x1*y1*x2*x2*x2*x2*x3*x3*a*a + (2*(2*(1+2*(2*(2*1)))))*x1*x1*y1*x2*x2*x2*x2*x3*x3*x3*b
    + (2*(1+2*(2*(2*1))))*x1*x1*y1*x2*x2*x2*x2*y2*y3*b + (1+2*(2*(2*(2*(2*1)))))*x1*x1*y1*x2*x2*x2*x2*x2*a*b +
    (2*(1+2*(2*(2*1))))*x1*x1*y1*x2*x2*x2*x2*x2*x3*a*a + (1+2*(1+2*(2*(1+2*1))))*x1*x1*y1*x2*x2*x2*x2*x2*x3*x3*b +
    (2*(1+2*1))*x1*x1*y1*x2*x2*x2*x2*x2*x3*x3*x3*a + x1*x1*y1*x2*x2*x2*x2*x2*x2*a*a +
    (1+2*1)*x1*x1*y1*x2*x2*x2*x2*x2*x2*x3*x3*a + (2*(2*(2*(1+2*(1+2*1)))))*x1*x1*x1*y3*b*b*b +
    (1+2*(2*1))*x1*x1*x1*y3*a*a*a*b + (2*(2*(2*(1+2*(2*(2*1))))))*x1*x1*x1*x3*y3*a*b*b +
    (2*(2*1))*x1*x1*x1*x3*y3*a*a*a*a - (2*(2*(2*(2*1))))*x1*x1*x1*y2*b*b*b - (1+2*(1+2*1))*x1*x1*x1*y2*a*a*a*b -
    (2*(2*(1+2*1)))*x1*x1*x1*y2*x3*a*b*b - (2*(2*(1+2*1)))*x1*x1*x1*y2*x3*a*a*a*a +
    (1+2*(1+2*(2*(1+2*1))))*x1*x1*x1*y2*x3*x3*a*a*b - (2*(2*1))*x1*x1*x1*y2*x3*x3*x3*b*b -
    (2*(2*1))*x1*x1*x1*y2*x3*x3*x3*a*a*a + (2*(2*(1+2*(2*1))))*x1*x1*x1*x2*y3*a*b*b +
    (2*(2*1))*x1*x1*x1*x2*y3*a*a*a*a + (2*(2*(1+2*(1+2*(2*(2*1))))))*x1*x1*x1*x2*x3*y3*a*a*b +
    (2*(2*(2*(2*(2*1)))))*x1*x1*x1*x2*y2*a*b*b + (2*(2*1))*x1*x1*x1*x2*y2*a*a*a*a +
    (2*(2*(2*(1+2*(2*(2*1))))))*x1*x1*x1*x2*y2*x3*a*a*b - (2*(2*(2*(2*(2*(2*(1+2*1)))))))*x1*x1*x1*x2*y2*x3*x3*b*b
    + (2*(2*(1+2*1)))*x1*x1*x1*x2*y2*x3*x3*a*a*a + (2*(2*(2*(1+2*1))))*x1*x1*x1*x2*y2*x3*x3*x3*a*b -
    (1+2*(2*(1+2*(1+2*(2*(2*1))))))*x1*x1*x1*x2*x2*y3*a*a*b + (2*(2*(2*(2*(2*(1+2*1))))))*x1*x1*x1*x2*x2*x3*y3*b*b
    + (2*(2*(1+2*(1+2*(2*1)))))*x1*x1*x1*x2*x2*x3*y3*a*a*a - (2*(2*(2*(1+2*(2*1)))))*x1*x1*x1*x2*x2*y2*a*a*b -
    (2*(2*(2*(1+2*(1+2*(1+2*1))))))*x1*x1*x1*x2*x2*y2*x3*x3*a*b +
    (2*(2*(1+2*(2*(2*(2*(1+2*1)))))))*x1*x1*x1*x2*x2*x2*y3*b*b - (2*(2*(2*(1+2*(2*1)))))*x1*x1*x1*x2*x2*x2*y3*a*a*a
    + (2*(2*(2*(2*(2*(2*1))))))*x1*x1*x1*x2*x2*x2*x3*y3*a*b +
    (2*(2*(2*(2*(2*(2*(2*1)))))))*x1*x1*x1*x2*x2*x2*y2*b*b - (2*(2*1))*x1*x1*x1*x2*x2*x2*y2*a*a*a +
    (2*(2*(2*(2*(2*(1+2*1))))))*x1*x1*x1*x2*x2*x2*y2*x3*a*b - (2*(2*(1+2*1)))*x1*x1*x1*x2*x2*x2*y2*x3*x3*a*a +
    (2*(2*(2*(2*(2*1)))))*x1*x1*x1*x2*x2*x2*y2*x3*x3*x3*b +
    (1+2*(1+2*(2*(2*(2*(2*(2*1)))))))*x1*x1*x1*x2*x2*x2*x2*y3*a*b +
    (2*(2*(1+2*(1+2*(2*1)))))*x1*x1*x1*x2*x2*x2*x2*x3*y3*a*a + (1+2*(1+2*(1+2*1)))*x1*x1*x1*x2*x2*x2*x2*y2*a*b +
    (2*(2*(1+2*1)))*x1*x1*x1*x2*x2*x2*x2*y2*x3*a*a - (1+2*1)*x1*x1*x1*x2*x2*x2*x2*y2*x3*x3*b +
    (2*(2*1))*x1*x1*x1*x2*x2*x2*x2*y2*x3*x3*x3*a + (2*(2*1))*x1*x1*x1*x2*x2*x2*x2*x2*y3*a*a -
    (2*(2*(1+2*1)))*x1*x1*x1*x2*x2*x2*x2*x2*x3*y3*b + (1+2*(2*1))*x1*x1*x1*x2*x2*x2*x2*x2*x2*y3*b +
    (2*(2*1))*x1*x1*x1*x2*x2*x2*x2*x2*x2*x3*y3*a + (2*(2*(2*(2*1))))*x1*x1*x1*y1*b*b*b - x1*x1*x1*y1*a*a*a*b +
    (2*(2*(1+2*1)))*x1*x1*x1*y1*x3*a*b*b - (1+2*1)*x1*x1*x1*y1*x3*a*a*a*a + (1+2*(2*(2*1)))*x1*x1*x1*y1*x3*x3*a*a*b
    + (2*(2*1))*x1*x1*x1*y1*x3*x3*x3*b*b - x1*x1*x1*y1*x3*x3*x3*a*a*a + (2*(2*(2*(1+2*1))))*x1*x1*x1*y1*y2*y3*b*b +
    (2*(2*(1+2*(2*1))))*x1*x1*x1*y1*y2*x3*y3*a*b + (2*(2*(2*(1+2*(2*1)))))*x1*x1*x1*y1*x2*a*b*b +
    (2*1)*x1*x1*x1*y1*x2*a*a*a*a + (2*(2*(2*(2*(1+2*1)))))*x1*x1*x1*y1*x2*x3*a*a*b -
    (2*(2*(2*(1+2*(2*(2*1))))))*x1*x1*x1*y1*x2*x3*x3*b*b + (2*(1+2*1))*x1*x1*x1*y1*x2*x3*x3*a*a*a +
    (2*(2*(2*(2*1))))*x1*x1*x1*y1*x2*x3*x3*x3*a*b + (2*(2*(1+2*(2*1))))*x1*x1*x1*y1*x2*y2*y3*a*b +
    (2*(2*(2*(1+2*1))))*x1*x1*x1*y1*x2*y2*x3*y3*a*a - (2*(1+2*(2*1)))*x1*x1*x1*y1*x2*x2*a*a*b +
    (1+2*(2*(2*1)))*x1*x1*x1*y1*x2*x2*x3*a*a*a - (2*(1+2*(2*(2*(2*(2*1))))))*x1*x1*x1*y1*x2*x2*x3*x3*a*b +
    (1+2*1)*x1*x1*x1*y1*x2*x2*x3*x3*x3*a*a - (2*(2*(2*1)))*x1*x1*x1*y1*x2*x2*y2*y3*a*a -
    (2*(2*(1+2*(2*(2*1)))))*x1*x1*x1*y1*x2*x2*y2*x3*y3*b + (2*(2*(2*(2*(2*(2*(2*1)))))))*x1*x1*x1*y1*x2*x2*x2*b*b -
    (2*(2*1))*x1*x1*x1*y1*x2*x2*x2*a*a*a + (2*(2*(2*(2*(2*(1+2*1))))))*x1*x1*x1*y1*x2*x2*x2*x3*a*b -
    (2*(2*(1+2*1)))*x1*x1*x1*y1*x2*x2*x2*x3*x3*a*a + (2*(2*(2*(2*(2*1)))))*x1*x1*x1*y1*x2*x2*x2*x3*x3*x3*b +
    (2*(2*(1+2*(1+2*(1+2*1)))))*x1*x1*x1*y1*x2*x2*x2*y2*y3*b + (2*(2*(2*1)))*x1*x1*x1*y1*x2*x2*x2*y2*x3*y3*a +
    (1+2*(1+2*(1+2*(2*(1+2*1)))))*x1*x1*x1*y1*x2*x2*x2*x2*a*b +
    (1+2*(1+2*(1+2*(2*(2*1)))))*x1*x1*x1*y1*x2*x2*x2*x2*x3*a*a + (1+2*(2*(2*1)))*x1*x1*x1*y1*x2*x2*x2*x2*x3*x3*b +
    (1+2*(2*(1+2*1)))*x1*x1*x1*y1*x2*x2*x2*x2*x3*x3*x3*a + (2*(2*(2*1)))*x1*x1*x1*y1*x2*x2*x2*x2*y2*y3*a +
    (2*1)*x1*x1*x1*y1*x2*x2*x2*x2*x2*a*a + (2*(1+2*1))*x1*x1*x1*y1*x2*x2*x2*x2*x2*x3*x3*a +
    (2*(2*1))*x1*x1*x1*y1*x2*x2*x2*x2*x2*x2*b + (1+2*1)*x1*x1*x1*y1*x2*x2*x2*x2*x2*x2*x3*a +
    x1*x1*x1*y1*x2*x2*x2*x2*x2*x2*x3*x3*x3 + (2*(1+2*(2*1)))*x1*x1*x1*x1*y3*a*b*b + (1+2*1)*x1*x1*x1*x1*y3*a*a*a*a
    + (1+2*(2*1))*x1*x1*x1*x1*x3*y3*a*a*b - (2*1)*x1*x1*x1*x1*y2*a*b*b + x1*x1*x1*x1*y2*a*a*a*a +
    (1+2*1)*x1*x1*x1*x1*y2*x3*a*a*b - (2*(1+2*(2*(2*1))))*x1*x1*x1*x1*y2*x3*x3*b*b +
    (1+2*1)*x1*x1*x1*x1*y2*x3*x3*a*a*a + x1*x1*x1*x1*y2*x3*x3*x3*a*b -
    (2*(1+2*(1+2*(2*(2*1)))))*x1*x1*x1*x1*x2*y3*a*a*b + (2*(2*(1+2*(2*(2*1)))))*x1*x1*x1*x1*x2*x3*y3*b*b +
    (1+2*(2*(2*1)))*x1*x1*x1*x1*x2*x3*y3*a*a*a - (2*(1+2*(1+2*(1+2*1))))*x1*x1*x1*x1*x2*y2*a*a*b -
    (1+2*(2*(2*1)))*x1*x1*x1*x1*x2*y2*x3*a*a*a - (2*(1+2*(1+2*(2*(1+2*1)))))*x1*x1*x1*x1*x2*y2*x3*x3*a*b -
    (1+2*1)*x1*x1*x1*x1*x2*y2*x3*x3*x3*a*a + (2*(1+2*(1+2*(2*(2*(2*(1+2*1)))))))*x1*x1*x1*x1*x2*x2*y3*b*b -
    (2*(2*(2*(2*1))))*x1*x1*x1*x1*x2*x2*y3*a*a*a + (1+2*(1+2*(1+2*(2*(2*1)))))*x1*x1*x1*x1*x2*x2*x3*y3*a*b +
    (2*(2*(2*(2*(1+2*(2*(2*1)))))))*x1*x1*x1*x1*x2*x2*y2*b*b - (1+2*(1+2*1))*x1*x1*x1*x1*x2*x2*y2*a*a*a +
    (2*(2*(1+2*(1+2*(2*(1+2*1))))))*x1*x1*x1*x1*x2*x2*y2*x3*a*b -
    (1+2*(2*(1+2*(2*1))))*x1*x1*x1*x1*x2*x2*y2*x3*x3*a*a + (2*(2*(1+2*(2*(2*1)))))*x1*x1*x1*x1*x2*x2*y2*x3*x3*x3*b
    + (1+2*(1+2*(2*(2*(2*(2*(2*1)))))))*x1*x1*x1*x1*x2*x2*x2*y3*a*b +
    (2*(2*(1+2*(1+2*(2*1)))))*x1*x1*x1*x1*x2*x2*x2*x3*y3*a*a +
    (1+2*(1+2*(1+2*(2*(1+2*1)))))*x1*x1*x1*x1*x2*x2*x2*y2*a*b +
    (1+2*(1+2*(1+2*(2*(2*1)))))*x1*x1*x1*x1*x2*x2*x2*y2*x3*a*a + (1+2*(2*(2*1)))*x1*x1*x1*x1*x2*x2*x2*y2*x3*x3*b +
    (1+2*(2*(1+2*1)))*x1*x1*x1*x1*x2*x2*x2*y2*x3*x3*x3*a + x1*x1*x1*x1*x2*x2*x2*x2*y3*a*a -
    (2*(2*(2*(1+2*(2*(2*1))))))*x1*x1*x1*x1*x2*x2*x2*x2*x3*y3*b +
    (1+2*(1+2*(1+2*(1+2*(1+2*1)))))*x1*x1*x1*x1*x2*x2*x2*x2*x2*y3*b + (1+2*1)*x1*x1*x1*x1*x2*x2*x2*x2*x2*x3*y3*a +
    (2*(2*1))*x1*x1*x1*x1*x2*x2*x2*x2*x2*x2*y3*a + (2*1)*x1*x1*x1*x1*y1*a*b*b + (1+2*1)*x1*x1*x1*x1*y1*x3*a*a*b -
    (2*(1+2*1))*x1*x1*x1*x1*y1*x3*x3*b*b + x1*x1*x1*x1*y1*x3*x3*x3*a*b + (2*1)*x1*x1*x1*x1*y1*y2*y3*a*b +
    (2*1)*x1*x1*x1*x1*y1*y2*x3*y3*a*a + x1*x1*x1*x1*y1*x2*a*a*b + (1+2*1)*x1*x1*x1*x1*y1*x2*x3*a*a*a -
    (1+2*(2*(2*1)))*x1*x1*x1*x1*y1*x2*x3*x3*a*b + x1*x1*x1*x1*y1*x2*x3*x3*x3*a*a -
    (2*(2*(1+2*1)))*x1*x1*x1*x1*y1*x2*y2*x3*y3*b + (2*(2*(1+2*1)))*x1*x1*x1*x1*y1*x2*x2*b*b -
    x1*x1*x1*x1*y1*x2*x2*a*a*a + (1+2*(2*(2*1)))*x1*x1*x1*x1*y1*x2*x2*x3*a*b -
    (1+2*1)*x1*x1*x1*x1*y1*x2*x2*x3*x3*a*a + (1+2*1)*x1*x1*x1*x1*y1*x2*x2*x3*x3*x3*b +
    (2*(1+2*(2*(2*1))))*x1*x1*x1*x1*y1*x2*x2*y2*y3*b + (1+2*(1+2*(1+2*1)))*x1*x1*x1*x1*y1*x2*x2*x2*a*b +
    (2*(2*(1+2*1)))*x1*x1*x1*x1*y1*x2*x2*x2*x3*a*a - (1+2*1)*x1*x1*x1*x1*y1*x2*x2*x2*x3*x3*b +
    (2*(2*1))*x1*x1*x1*x1*y1*x2*x2*x2*x3*x3*x3*a + (2*(2*(2*1)))*x1*x1*x1*x1*y1*x2*x2*x2*y2*y3*a +
    (2*(1+2*1))*x1*x1*x1*x1*y1*x2*x2*x2*x2*y2*x3*y3 + (2*(2*(1+2*1)))*x1*x1*x1*x1*y1*x2*x2*x2*x2*x2*b +
    (1+2*(2*(2*1)))*x1*x1*x1*x1*y1*x2*x2*x2*x2*x2*x3*a + (1+2*1)*x1*x1*x1*x1*y1*x2*x2*x2*x2*x2*x3*x3*x3 +
    x1*x1*x1*x1*y1*x2*x2*x2*x2*x2*x2*a + (1+2*1)*x1*x1*x1*x1*y1*x2*x2*x2*x2*x2*x2*x3*x3 -
    (1+2*(2*1))*x1*x1*x1*x1*x1*y3*a*a*b + (2*(2*(1+2*1)))*x1*x1*x1*x1*x1*x3*y3*b*b + x1*x1*x1*x1*x1*x3*y3*a*a*a -
    (1+2*(2*1))*x1*x1*x1*x1*x1*y2*a*a*b - (1+2*1)*x1*x1*x1*x1*x1*y2*x3*a*a*a - (1+2*1)*x1*x1*x1*x1*x1*y2*x3*x3*a*b
    - x1*x1*x1*x1*x1*y2*x3*x3*x3*a*a + (2*(2*(1+2*(2*(2*1)))))*x1*x1*x1*x1*x1*x2*y3*b*b -
    (2*(1+2*1))*x1*x1*x1*x1*x1*x2*y3*a*a*a + (2*(2*(1+2*1)))*x1*x1*x1*x1*x1*x2*x3*y3*a*b +
    (2*(2*(2*(2*(1+2*1)))))*x1*x1*x1*x1*x1*x2*y2*b*b - (2*1)*x1*x1*x1*x1*x1*x2*y2*a*a*a +
    (2*(2*(1+2*(2*(2*1)))))*x1*x1*x1*x1*x1*x2*y2*x3*a*b - (2*(1+2*1))*x1*x1*x1*x1*x1*x2*y2*x3*x3*a*a +
    (2*(2*(1+2*1)))*x1*x1*x1*x1*x1*x2*y2*x3*x3*x3*b + (2*(1+2*(1+2*(2*(1+2*1)))))*x1*x1*x1*x1*x1*x2*x2*y3*a*b +
    (1+2*(2*(2*1)))*x1*x1*x1*x1*x1*x2*x2*x3*y3*a*a + (1+2*(2*(2*(2*(2*1)))))*x1*x1*x1*x1*x1*x2*x2*y2*a*b +
    (2*(1+2*(2*(2*1))))*x1*x1*x1*x1*x1*x2*x2*y2*x3*a*a + (1+2*(1+2*(2*(1+2*1))))*x1*x1*x1*x1*x1*x2*x2*y2*x3*x3*b +
    (2*(1+2*1))*x1*x1*x1*x1*x1*x2*x2*y2*x3*x3*x3*a + (2*(2*1))*x1*x1*x1*x1*x1*x2*x2*x2*y3*a*a -
    (2*(2*(1+2*1)))*x1*x1*x1*x1*x1*x2*x2*x2*x3*y3*b + (2*1)*x1*x1*x1*x1*x1*x2*x2*x2*y2*a*a +
    (2*(1+2*1))*x1*x1*x1*x1*x1*x2*x2*x2*y2*x3*x3*a +
    (1+2*(1+2*(1+2*(1+2*(1+2*1)))))*x1*x1*x1*x1*x1*x2*x2*x2*x2*y3*b + (1+2*1)*x1*x1*x1*x1*x1*x2*x2*x2*x2*x3*y3*a +
    (2*(2*(1+2*1)))*x1*x1*x1*x1*x1*x2*x2*x2*x2*y2*b + (1+2*(2*(2*1)))*x1*x1*x1*x1*x1*x2*x2*x2*x2*y2*x3*a +
    (1+2*1)*x1*x1*x1*x1*x1*x2*x2*x2*x2*y2*x3*x3*x3 + (2*(1+2*(2*(2*1))))*x1*x1*x1*x1*x1*x2*x2*x2*x2*x2*y3*a +
    (1+2*1)*x1*x1*x1*x1*x1*x2*x2*x2*x2*x2*x2*x3*y3 + (2*(2*1))*x1*x1*x1*x1*x1*x1*y3*b*b +
    x1*x1*x1*x1*x1*x1*x3*y3*a*b + (2*(2*1))*x1*x1*x1*x1*x1*x1*y2*b*b + (1+2*1)*x1*x1*x1*x1*x1*x1*y2*x3*a*b +
    x1*x1*x1*x1*x1*x1*y2*x3*x3*x3*b + (1+2*(1+2*1))*x1*x1*x1*x1*x1*x1*x2*y3*a*b + x1*x1*x1*x1*x1*x1*x2*x3*y3*a*a +
    (1+2*(2*1))*x1*x1*x1*x1*x1*x1*x2*y2*a*b + (1+2*1)*x1*x1*x1*x1*x1*x1*x2*y2*x3*a*a +
    (1+2*1)*x1*x1*x1*x1*x1*x1*x2*y2*x3*x3*b + x1*x1*x1*x1*x1*x1*x2*y2*x3*x3*x3*a +
    (1+2*1)*x1*x1*x1*x1*x1*x1*x2*x2*y3*a*a + (1+2*1)*x1*x1*x1*x1*x1*x1*x2*x2*x3*y3*b +
    x1*x1*x1*x1*x1*x1*x2*x2*y2*a*a + (1+2*1)*x1*x1*x1*x1*x1*x1*x2*x2*y2*x3*x3*a +
    (1+2*(2*1))*x1*x1*x1*x1*x1*x1*x2*x2*x2*y3*b + (2*(2*1))*x1*x1*x1*x1*x1*x1*x2*x2*x2*x3*y3*a +
    (2*(2*1))*x1*x1*x1*x1*x1*x1*x2*x2*x2*y2*b + (1+2*1)*x1*x1*x1*x1*x1*x1*x2*x2*x2*y2*x3*a +
    x1*x1*x1*x1*x1*x1*x2*x2*x2*y2*x3*x3*x3 + (2*(2*1))*x1*x1*x1*x1*x1*x1*x2*x2*x2*x2*y3*a +
    x1*x1*x1*x1*x1*x1*x2*x2*x2*x2*y2*a + (1+2*1)*x1*x1*x1*x1*x1*x1*x2*x2*x2*x2*y2*x3*x3 +
    (1+2*1)*x1*x1*x1*x1*x1*x1*x2*x2*x2*x2*x2*x3*y3 + x1*x1*x1*x1*x1*x1*x2*x2*x2*x2*x2*x2*y3.
  Definition Mx : F :=
    0 - (2*(2*(2*(2*1))))*y3*a*a*b*b*b - (2*1)*y3*a*a*a*a*a*b - (2*(2*(2*(2*(2*1)))))*x3*y3*b*b*b*b -
    (2*(2*(2*(2*1))))*x3*y3*a*a*a*b*b - x3*y3*a*a*a*a*a*a - (2*(2*(2*1)))*x3*x3*y3*a*b*b*b -
    (2*(2*1))*x3*x3*y3*a*a*a*a*b - (2*1)*x3*x3*x3*y3*a*a*b*b - x3*x3*x3*y3*a*a*a*a*a +
    (2*(2*1))*x3*x3*x3*x3*y3*b*b*b + x3*x3*x3*x3*y3*a*a*a*b - (2*(2*(2*(2*1))))*y2*a*a*b*b*b - (2*1)*y2*a*a*a*a*a*b
    - (2*(2*(2*(2*(2*(1+2*1))))))*y2*x3*b*b*b*b - (2*(2*(2*(1+2*(2*1)))))*y2*x3*a*a*a*b*b -
    (1+2*1)*y2*x3*a*a*a*a*a*a - (2*(2*(2*(1+2*(2*1)))))*y2*x3*x3*a*b*b*b - (2*(1+2*(2*1)))*y2*x3*x3*a*a*a*a*b -
    (2*(1+2*(1+2*(2*1))))*y2*x3*x3*x3*a*a*b*b - (2*(2*1))*y2*x3*x3*x3*a*a*a*a*a +
    (2*(2*(1+2*1)))*y2*x3*x3*x3*x3*b*b*b - y2*x3*x3*x3*x3*a*a*a*b + (2*1)*y2*x3*x3*x3*x3*x3*a*b*b -
    y2*x3*x3*x3*x3*x3*a*a*a*a + y2*x3*x3*x3*x3*x3*x3*a*a*b - (2*(2*(2*(2*(2*(1+2*1))))))*x2*y3*b*b*b*b -
    (2*(2*(2*(1+2*(2*1)))))*x2*y3*a*a*a*b*b - (1+2*1)*x2*y3*a*a*a*a*a*a - (2*(2*(2*(2*(1+2*1)))))*x2*x3*y3*a*b*b*b
    - (2*(2*(2*(2*1))))*x2*x3*y3*a*a*a*a*b - (2*(1+2*(2*1)))*x2*x3*x3*y3*a*a*b*b -
    (2*(1+2*1))*x2*x3*x3*y3*a*a*a*a*a + (2*(2*(2*(2*(1+2*1)))))*x2*x3*x3*x3*y3*b*b*b +
    (2*(2*(1+2*1)))*x2*x3*x3*x3*y3*a*a*a*b + (2*(1+2*1))*x2*x3*x3*x3*x3*y3*a*b*b + x2*x3*x3*x3*x3*y3*a*a*a*a -
    (2*(2*(2*(2*(2*1)))))*x2*y2*b*b*b*b - (2*(2*(2*(2*1))))*x2*y2*a*a*a*b*b - x2*y2*a*a*a*a*a*a -
    (2*(2*(2*(2*(1+2*1)))))*x2*y2*x3*a*b*b*b - (2*(2*(2*(2*1))))*x2*y2*x3*a*a*a*a*b -
    (2*(1+2*(1+2*(2*(1+2*1)))))*x2*y2*x3*x3*a*a*b*b - (1+2*(2*(1+2*1)))*x2*y2*x3*x3*a*a*a*a*a +
    (2*(2*(2*(2*(2*(2*(2*1)))))))*x2*y2*x3*x3*x3*b*b*b + (2*(2*(2*(2*1))))*x2*y2*x3*x3*x3*a*a*a*b +
    (2*(2*(1+2*(2*(2*1)))))*x2*y2*x3*x3*x3*x3*a*b*b - (1+2*1)*x2*y2*x3*x3*x3*x3*a*a*a*a +
    (2*(2*(2*(2*1))))*x2*y2*x3*x3*x3*x3*x3*a*a*b - (2*1)*x2*y2*x3*x3*x3*x3*x3*x3*b*b +
    x2*y2*x3*x3*x3*x3*x3*x3*a*a*a - (2*(2*(2*(1+2*(2*1)))))*x2*x2*y3*a*b*b*b - (2*(1+2*(2*1)))*x2*x2*y3*a*a*a*a*b -
    (2*(1+2*(1+2*(2*(1+2*1)))))*x2*x2*x3*y3*a*a*b*b - (1+2*(2*(1+2*1)))*x2*x2*x3*y3*a*a*a*a*a +
    (2*(2*(2*(2*(1+2*(2*(2*1)))))))*x2*x2*x3*x3*y3*b*b*b + (2*(2*(1+2*(1+2*1))))*x2*x2*x3*x3*y3*a*a*a*b +
    (2*(2*(1+2*(1+2*(2*1)))))*x2*x2*x3*x3*x3*y3*a*b*b + (1+2*1)*x2*x2*x3*x3*x3*y3*a*a*a*a +
    (1+2*(2*1))*x2*x2*x3*x3*x3*x3*y3*a*a*b - (2*(2*(2*1)))*x2*x2*y2*a*b*b*b - (2*(2*1))*x2*x2*y2*a*a*a*a*b -
    (2*(1+2*(2*1)))*x2*x2*y2*x3*a*a*b*b - (2*(1+2*1))*x2*x2*y2*x3*a*a*a*a*a +
    (2*(2*(2*(2*(1+2*(2*(2*1)))))))*x2*x2*y2*x3*x3*b*b*b + (2*(2*(1+2*(1+2*1))))*x2*x2*y2*x3*x3*a*a*a*b +
    (2*(2*(2*(2*(1+2*(2*1))))))*x2*x2*y2*x3*x3*x3*a*b*b + (2*(1+2*(2*(2*(1+2*1)))))*x2*x2*y2*x3*x3*x3*x3*a*a*b -
    (2*(1+2*(2*(2*1))))*x2*x2*y2*x3*x3*x3*x3*x3*b*b + (2*(1+2*1))*x2*x2*y2*x3*x3*x3*x3*x3*a*a*a -
    (2*1)*x2*x2*y2*x3*x3*x3*x3*x3*x3*a*b - (2*(1+2*(1+2*(2*1))))*x2*x2*x2*y3*a*a*b*b -
    (2*(2*1))*x2*x2*x2*y3*a*a*a*a*a + (2*(2*(2*(2*(2*(2*(2*1)))))))*x2*x2*x2*x3*y3*b*b*b +
    (2*(2*(2*(2*1))))*x2*x2*x2*x3*y3*a*a*a*b + (2*(2*(2*(2*(1+2*(2*1))))))*x2*x2*x2*x3*x3*y3*a*b*b +
    (2*(2*(2*(1+2*(2*1)))))*x2*x2*x2*x3*x3*x3*y3*a*a*b + (2*1)*x2*x2*x2*x3*x3*x3*x3*y3*b*b +
    (2*(2*1))*x2*x2*x2*x3*x3*x3*x3*y3*a*a*a - (2*1)*x2*x2*x2*y2*a*a*b*b - x2*x2*x2*y2*a*a*a*a*a +
    (2*(2*(2*(2*(1+2*1)))))*x2*x2*x2*y2*x3*b*b*b + (2*(2*(1+2*1)))*x2*x2*x2*y2*x3*a*a*a*b +
    (2*(2*(1+2*(1+2*(2*1)))))*x2*x2*x2*y2*x3*x3*a*b*b + (1+2*1)*x2*x2*x2*y2*x3*x3*a*a*a*a +
    (2*(2*(2*(1+2*(2*1)))))*x2*x2*x2*y2*x3*x3*x3*a*a*b - (2*(1+2*1))*x2*x2*x2*y2*x3*x3*x3*x3*b*b +
    (1+2*(2*(1+2*1)))*x2*x2*x2*y2*x3*x3*x3*x3*a*a*a - (2*(2*1))*x2*x2*x2*y2*x3*x3*x3*x3*x3*a*b +
    x2*x2*x2*y2*x3*x3*x3*x3*x3*x3*a*a + (2*(2*(1+2*1)))*x2*x2*x2*x2*y3*b*b*b - x2*x2*x2*x2*y3*a*a*a*b +
    (2*(2*(1+2*(2*(2*1)))))*x2*x2*x2*x2*x3*y3*a*b*b - (1+2*1)*x2*x2*x2*x2*x3*y3*a*a*a*a +
    (2*(1+2*(2*(2*(1+2*1)))))*x2*x2*x2*x2*x3*x3*y3*a*a*b - (2*(1+2*1))*x2*x2*x2*x2*x3*x3*x3*y3*b*b +
    (1+2*(2*(1+2*1)))*x2*x2*x2*x2*x3*x3*x3*y3*a*a*a + (2*(2*1))*x2*x2*x2*x2*y2*b*b*b + x2*x2*x2*x2*y2*a*a*a*b +
    (2*(1+2*1))*x2*x2*x2*x2*y2*x3*a*b*b + x2*x2*x2*x2*y2*x3*a*a*a*a + (1+2*(2*1))*x2*x2*x2*x2*y2*x3*x3*a*a*b +
    (2*1)*x2*x2*x2*x2*y2*x3*x3*x3*b*b + (2*(2*1))*x2*x2*x2*x2*y2*x3*x3*x3*a*a*a +
    (1+2*1)*x2*x2*x2*x2*y2*x3*x3*x3*x3*x3*a*a - (2*1)*x2*x2*x2*x2*y2*x3*x3*x3*x3*x3*x3*b +
    (2*1)*x2*x2*x2*x2*x2*y3*a*b*b - x2*x2*x2*x2*x2*y3*a*a*a*a + (2*(2*(2*(2*1))))*x2*x2*x2*x2*x2*x3*y3*a*a*b -
    (2*(1+2*(2*(2*1))))*x2*x2*x2*x2*x2*x3*x3*y3*b*b + (2*(1+2*1))*x2*x2*x2*x2*x2*x3*x3*y3*a*a*a -
    (2*(2*1))*x2*x2*x2*x2*x2*x3*x3*x3*y3*a*b + (1+2*1)*x2*x2*x2*x2*x2*x3*x3*x3*x3*y3*a*a +
    x2*x2*x2*x2*x2*x2*y3*a*a*b - (2*1)*x2*x2*x2*x2*x2*x2*x3*y3*b*b + x2*x2*x2*x2*x2*x2*x3*y3*a*a*a -
    (2*1)*x2*x2*x2*x2*x2*x2*x3*x3*y3*a*b + x2*x2*x2*x2*x2*x2*x3*x3*x3*y3*a*a -
    (2*1)*x2*x2*x2*x2*x2*x2*x3*x3*x3*x3*y3*b - (2*(2*(2*(2*1))))*y1*a*a*b*b*b - (2*1)*y1*a*a*a*a*a*b +
    (2*(2*(2*(2*(2*(2*(1+2*1)))))))*y1*x3*b*b*b*b + (2*(2*(2*(2*1))))*y1*x3*a*a*a*b*b - y1*x3*a*a*a*a*a*a +
    (2*(2*(2*(1+2*(1+2*(2*(2*1)))))))*y1*x3*x3*a*b*b*b + (2*(1+2*(2*(2*1))))*y1*x3*x3*a*a*a*a*b +
    (2*(2*(2*1)))*y1*x3*x3*x3*a*a*b*b + (2*(2*(1+2*(2*(1+2*(2*1))))))*y1*x3*x3*x3*x3*b*b*b +
    (1+2*(1+2*(2*1)))*y1*x3*x3*x3*x3*a*a*a*b + (2*(1+2*(1+2*1)))*y1*x3*x3*x3*x3*x3*a*b*b +
    y1*x3*x3*x3*x3*x3*a*a*a*a + y1*x3*x3*x3*x3*x3*x3*a*a*b - (2*(2*(2*(2*1))))*y1*y2*y3*a*a*b*b -
    (2*1)*y1*y2*y3*a*a*a*a*a + (2*(2*(2*(2*(2*(2*(1+2*1)))))))*y1*y2*x3*y3*b*b*b +
    (2*(2*(2*(1+2*1))))*y1*y2*x3*y3*a*a*a*b + (2*(2*(2*(1+2*(2*(2*1))))))*y1*y2*x3*x3*y3*a*b*b +
    (2*(2*(2*1)))*y1*y2*x3*x3*y3*a*a*a*a + (2*(2*1))*y1*y2*x3*x3*x3*y3*a*a*b +
    (2*(2*(1+2*1)))*y1*y2*x3*x3*x3*x3*y3*b*b + (2*1)*y1*y2*x3*x3*x3*x3*y3*a*a*a +
    (2*(2*(2*(2*(2*(2*(1+2*1)))))))*y1*x2*b*b*b*b + (2*(2*(2*(2*1))))*y1*x2*a*a*a*b*b - y1*x2*a*a*a*a*a*a +
    (2*(2*(2*(2*(1+2*(1+2*(2*(1+2*1))))))))*y1*x2*x3*a*b*b*b + (2*(2*(1+2*(2*(1+2*1)))))*y1*x2*x3*a*a*a*a*b +
    (2*(2*(2*(1+2*(1+2*(1+2*(2*1)))))))*y1*x2*x3*x3*a*a*b*b + (1+2*(1+2*(2*(2*1))))*y1*x2*x3*x3*a*a*a*a*a +
    (2*(2*(2*(2*(1+2*(1+2*(1+2*1)))))))*y1*x2*x3*x3*x3*b*b*b + (2*(2*(1+2*(1+2*(2*1)))))*y1*x2*x3*x3*x3*a*a*a*b +
    (2*(1+2*(1+2*(1+2*(1+2*(1+2*1))))))*y1*x2*x3*x3*x3*x3*a*b*b + (1+2*(2*(1+2*1)))*y1*x2*x3*x3*x3*x3*a*a*a*a +
    (2*(2*(2*(2*1))))*y1*x2*x3*x3*x3*x3*x3*a*a*b - (2*(1+2*1))*y1*x2*x3*x3*x3*x3*x3*x3*b*b +
    y1*x2*x3*x3*x3*x3*x3*x3*a*a*a + (2*(2*(2*(2*(2*(2*(1+2*1)))))))*y1*x2*y2*y3*b*b*b +
    (2*(2*(2*(1+2*1))))*y1*x2*y2*y3*a*a*a*b + (2*(2*(2*(2*(1+2*(2*(1+2*1)))))))*y1*x2*y2*x3*y3*a*b*b +
    (2*(2*(2*(1+2*1))))*y1*x2*y2*x3*y3*a*a*a*a + (2*(2*(1+2*(2*1))))*y1*x2*y2*x3*x3*y3*a*a*b +
    (2*(2*(2*(2*(1+2*1)))))*y1*x2*y2*x3*x3*x3*y3*b*b + (2*(2*(2*1)))*y1*x2*y2*x3*x3*x3*y3*a*a*a +
    (2*(2*1))*y1*x2*y2*x3*x3*x3*x3*y3*a*b + (2*(2*(2*(1+2*(1+2*(2*(2*1)))))))*y1*x2*x2*a*b*b*b +
    (2*(1+2*(2*(2*1))))*y1*x2*x2*a*a*a*a*b + (2*(2*(2*(1+2*(1+2*(1+2*(2*1)))))))*y1*x2*x2*x3*a*a*b*b +
    (1+2*(1+2*(2*(2*1))))*y1*x2*x2*x3*a*a*a*a*a + (2*(2*(2*(1+2*(2*(2*1))))))*y1*x2*x2*x3*x3*b*b*b +
    (2*(1+2*(1+2*(2*(2*1)))))*y1*x2*x2*x3*x3*a*a*a*b +
    (2*(2*(1+2*(2*(1+2*(1+2*(1+2*1)))))))*y1*x2*x2*x3*x3*x3*a*b*b + (2*(2*(2*(2*(2*1)))))*y1*x2*x2*x3*x3*x3*a*a*a*a
    + (1+2*(1+2*(2*(1+2*(2*1)))))*y1*x2*x2*x3*x3*x3*x3*a*a*b + (2*(1+2*(2*(2*1))))*y1*x2*x2*x3*x3*x3*x3*x3*b*b +
    (1+2*(2*(1+2*1)))*y1*x2*x2*x3*x3*x3*x3*x3*a*a*a - (1+2*(1+2*1))*y1*x2*x2*x3*x3*x3*x3*x3*x3*a*b +
    (2*(2*(2*(1+2*(2*(2*1))))))*y1*x2*x2*y2*y3*a*b*b + (2*(2*(2*1)))*y1*x2*x2*y2*y3*a*a*a*a +
    (2*(2*(1+2*(2*1))))*y1*x2*x2*y2*x3*y3*a*a*b + (2*(2*(2*(1+2*(1+2*(2*(1+2*1)))))))*y1*x2*x2*y2*x3*x3*y3*b*b +
    (2*(2*(2*(2*(2*1)))))*y1*x2*x2*y2*x3*x3*y3*a*a*a + (2*(2*(1+2*(2*(2*1)))))*y1*x2*x2*y2*x3*x3*x3*y3*a*b +
    (2*(2*(2*1)))*y1*x2*x2*y2*x3*x3*x3*x3*y3*a*a + (2*(2*(2*1)))*y1*x2*x2*x2*a*a*b*b +
    (2*(2*(2*(2*(1+2*(1+2*(1+2*1)))))))*y1*x2*x2*x2*x3*b*b*b + (2*(2*(1+2*(1+2*(2*1)))))*y1*x2*x2*x2*x3*a*a*a*b +
    (2*(2*(1+2*(2*(1+2*(1+2*(1+2*1)))))))*y1*x2*x2*x2*x3*x3*a*b*b + (2*(2*(2*(2*(2*1)))))*y1*x2*x2*x2*x3*x3*a*a*a*a
    + (2*(2*(2*(2*(1+2*1)))))*y1*x2*x2*x2*x3*x3*x3*a*a*b +
    (2*(2*(1+2*(2*(2*(2*(2*1)))))))*y1*x2*x2*x2*x3*x3*x3*x3*b*b +
    (2*(2*(2*(2*(2*1)))))*y1*x2*x2*x2*x3*x3*x3*x3*a*a*a + (2*(2*1))*y1*x2*x2*x2*x3*x3*x3*x3*x3*a*b +
    (2*(2*1))*y1*x2*x2*x2*y2*y3*a*a*b + (2*(2*(2*(2*(1+2*1)))))*y1*x2*x2*x2*y2*x3*y3*b*b +
    (2*(2*(2*1)))*y1*x2*x2*x2*y2*x3*y3*a*a*a + (2*(2*(1+2*(2*(2*1)))))*y1*x2*x2*x2*y2*x3*x3*y3*a*b +
    (2*(2*(2*(1+2*1))))*y1*x2*x2*x2*y2*x3*x3*x3*y3*a*a - (2*(2*(2*(1+2*1))))*y1*x2*x2*x2*y2*x3*x3*x3*x3*y3*b +
    (2*(2*(1+2*(2*(1+2*(2*1))))))*y1*x2*x2*x2*x2*b*b*b + (1+2*(1+2*(2*1)))*y1*x2*x2*x2*x2*a*a*a*b +
    (2*(1+2*(1+2*(1+2*(1+2*(1+2*1))))))*y1*x2*x2*x2*x2*x3*a*b*b + (1+2*(2*(1+2*1)))*y1*x2*x2*x2*x2*x3*a*a*a*a +
    (1+2*(1+2*(2*(1+2*(2*1)))))*y1*x2*x2*x2*x2*x3*x3*a*a*b +
    (2*(2*(1+2*(2*(2*(2*(2*1)))))))*y1*x2*x2*x2*x2*x3*x3*x3*b*b +
    (2*(2*(2*(2*(2*1)))))*y1*x2*x2*x2*x2*x3*x3*x3*a*a*a + (2*(2*(1+2*(2*(2*1)))))*y1*x2*x2*x2*x2*x3*x3*x3*x3*a*b +
    (1+2*(1+2*(2*(2*1))))*y1*x2*x2*x2*x2*x3*x3*x3*x3*x3*a*a - (2*(1+2*1))*y1*x2*x2*x2*x2*x3*x3*x3*x3*x3*x3*b +
    (2*(2*(1+2*1)))*y1*x2*x2*x2*x2*y2*y3*b*b + (2*1)*y1*x2*x2*x2*x2*y2*y3*a*a*a +
    (2*(2*1))*y1*x2*x2*x2*x2*y2*x3*y3*a*b + (2*(2*(2*1)))*y1*x2*x2*x2*x2*y2*x3*x3*y3*a*a -
    (2*(2*(2*(1+2*1))))*y1*x2*x2*x2*x2*y2*x3*x3*x3*y3*b - (2*1)*y1*x2*x2*x2*x2*y2*x3*x3*x3*x3*y3*a +
    (2*(1+2*(1+2*1)))*y1*x2*x2*x2*x2*x2*a*b*b + y1*x2*x2*x2*x2*x2*a*a*a*a +
    (2*(2*(2*(2*1))))*y1*x2*x2*x2*x2*x2*x3*a*a*b + (2*(1+2*(2*(2*1))))*y1*x2*x2*x2*x2*x2*x3*x3*b*b +
    (1+2*(2*(1+2*1)))*y1*x2*x2*x2*x2*x2*x3*x3*a*a*a + (2*(2*1))*y1*x2*x2*x2*x2*x2*x3*x3*x3*a*b +
    (1+2*(1+2*(2*(2*1))))*y1*x2*x2*x2*x2*x2*x3*x3*x3*x3*a*a -
    (2*(2*(1+2*(2*(2*1)))))*y1*x2*x2*x2*x2*x2*x3*x3*x3*x3*x3*b - y1*x2*x2*x2*x2*x2*x3*x3*x3*x3*x3*x3*a +
    y1*x2*x2*x2*x2*x2*x2*a*a*b - (2*(1+2*1))*y1*x2*x2*x2*x2*x2*x2*x3*b*b + y1*x2*x2*x2*x2*x2*x2*x3*a*a*a -
    (1+2*(1+2*1))*y1*x2*x2*x2*x2*x2*x2*x3*x3*a*b - (2*(1+2*1))*y1*x2*x2*x2*x2*x2*x2*x3*x3*x3*x3*b -
    y1*x2*x2*x2*x2*x2*x2*x3*x3*x3*x3*x3*a + (2*(2*(2*(2*(2*(2*(1+2*1)))))))*x1*y3*b*b*b*b +
    (2*(2*(2*(2*(2*1)))))*x1*y3*a*a*a*b*b + x1*y3*a*a*a*a*a*a + (2*(2*(2*(2*(1+2*(2*1))))))*x1*x3*y3*a*b*b*b +
    (2*(1+2*1))*x1*x3*y3*a*a*a*a*b + (2*(2*(2*(2*(2*1)))))*x1*x3*x3*y3*a*a*b*b + x1*x3*x3*y3*a*a*a*a*a -
    (2*(2*(2*(1+2*1))))*x1*x3*x3*x3*y3*b*b*b + (1+2*1)*x1*x3*x3*x3*y3*a*a*a*b - (2*(2*1))*x1*x3*x3*x3*x3*y3*a*b*b +
    (2*(2*(2*(2*(2*(2*(1+2*1)))))))*x1*y2*b*b*b*b + (2*(2*(2*(2*(2*1)))))*x1*y2*a*a*a*b*b + x1*y2*a*a*a*a*a*a +
    (2*(2*(2*(2*(1+2*(2*(2*1)))))))*x1*y2*x3*a*b*b*b + (2*(1+2*(1+2*1)))*x1*y2*x3*a*a*a*a*b +
    (2*(2*(2*(1+2*(2*1)))))*x1*y2*x3*x3*a*a*b*b + (2*(2*(2*(1+2*1))))*x1*y2*x3*x3*x3*b*b*b +
    (1+2*(1+2*(1+2*1)))*x1*y2*x3*x3*x3*a*a*a*b - x1*y2*x3*x3*x3*x3*a*a*a*a +
    (1+2*(1+2*1))*x1*y2*x3*x3*x3*x3*x3*a*a*b - (2*(1+2*1))*x1*y2*x3*x3*x3*x3*x3*x3*b*b +
    (2*(2*(2*(2*(1+2*(2*(2*1)))))))*x1*x2*y3*a*b*b*b + (2*(1+2*(1+2*1)))*x1*x2*y3*a*a*a*a*b +
    (2*(2*(2*(2*(2*(1+2*1))))))*x1*x2*x3*y3*a*a*b*b + (2*1)*x1*x2*x3*y3*a*a*a*a*a -
    (2*(2*(2*(1+2*(1+2*(2*(1+2*1)))))))*x1*x2*x3*x3*y3*b*b*b + (1+2*(2*(1+2*1)))*x1*x2*x3*x3*y3*a*a*a*b -
    (2*(2*(2*(1+2*(2*(2*1))))))*x1*x2*x3*x3*x3*y3*a*b*b - (2*1)*x1*x2*x3*x3*x3*y3*a*a*a*a -
    (1+2*1)*x1*x2*x3*x3*x3*x3*y3*a*a*b + (2*(2*(2*(2*(1+2*(2*1))))))*x1*x2*y2*a*b*b*b +
    (2*(1+2*1))*x1*x2*y2*a*a*a*a*b + (2*(2*(2*(2*(2*(1+2*1))))))*x1*x2*y2*x3*a*a*b*b + (2*1)*x1*x2*y2*x3*a*a*a*a*a
    - (2*(2*(2*(1+2*(2*(2*1))))))*x1*x2*y2*x3*x3*b*b*b + (1+2*(2*(1+2*(1+2*(2*1)))))*x1*x2*y2*x3*x3*a*a*a*b -
    (2*(2*(2*(2*(1+2*(2*1))))))*x1*x2*y2*x3*x3*x3*a*b*b - (2*(2*1))*x1*x2*y2*x3*x3*x3*a*a*a*a +
    (2*(2*(1+2*(2*(2*1)))))*x1*x2*y2*x3*x3*x3*x3*a*a*b - (2*(2*(2*(1+2*(2*(2*1))))))*x1*x2*y2*x3*x3*x3*x3*x3*b*b +
    (2*1)*x1*x2*y2*x3*x3*x3*x3*x3*a*a*a - (1+2*(1+2*1))*x1*x2*y2*x3*x3*x3*x3*x3*x3*a*b +
    (2*(2*(2*(1+2*(2*1)))))*x1*x2*x2*y3*a*a*b*b - (2*(2*(2*(1+2*(2*(2*1))))))*x1*x2*x2*x3*y3*b*b*b +
    (1+2*(2*(1+2*(1+2*(2*1)))))*x1*x2*x2*x3*y3*a*a*a*b -
    (2*(2*(1+2*(2*(1+2*(1+2*(2*1)))))))*x1*x2*x2*x3*x3*y3*a*b*b - (1+2*(1+2*1))*x1*x2*x2*x3*x3*y3*a*a*a*a +
    (2*(2*1))*x1*x2*x2*x3*x3*x3*y3*a*a*b - (2*(1+2*(2*(2*1))))*x1*x2*x2*x3*x3*x3*x3*y3*b*b +
    x1*x2*x2*x3*x3*x3*x3*y3*a*a*a + (2*(2*(2*(2*(2*1)))))*x1*x2*x2*y2*a*a*b*b + x1*x2*x2*y2*a*a*a*a*a -
    (2*(2*(2*(1+2*(1+2*(2*(1+2*1)))))))*x1*x2*x2*y2*x3*b*b*b + (1+2*(2*(1+2*1)))*x1*x2*x2*y2*x3*a*a*a*b -
    (2*(2*(1+2*(2*(1+2*(1+2*(2*1)))))))*x1*x2*x2*y2*x3*x3*a*b*b - (1+2*(1+2*1))*x1*x2*x2*y2*x3*x3*a*a*a*a +
    (2*(2*(2*(1+2*(2*1)))))*x1*x2*x2*y2*x3*x3*x3*a*a*b -
    (2*(2*(2*(1+2*(1+2*(2*(1+2*1)))))))*x1*x2*x2*y2*x3*x3*x3*x3*b*b + (1+2*(1+2*1))*x1*x2*x2*y2*x3*x3*x3*x3*a*a*a -
    (1+2*(2*(1+2*(1+2*(2*1)))))*x1*x2*x2*y2*x3*x3*x3*x3*x3*a*b - x1*x2*x2*y2*x3*x3*x3*x3*x3*x3*a*a +
    (2*(2*(2*(1+2*1))))*x1*x2*x2*x2*y3*b*b*b + (1+2*(1+2*(1+2*1)))*x1*x2*x2*x2*y3*a*a*a*b -
    (2*(2*(2*(2*(1+2*(2*1))))))*x1*x2*x2*x2*x3*y3*a*b*b - (2*(2*1))*x1*x2*x2*x2*x3*y3*a*a*a*a +
    (2*(2*(2*(1+2*(2*1)))))*x1*x2*x2*x2*x3*x3*y3*a*a*b -
    (2*(2*(2*(2*(2*(2*(1+2*1)))))))*x1*x2*x2*x2*x3*x3*x3*y3*b*b + (2*(2*1))*x1*x2*x2*x2*x3*x3*x3*y3*a*a*a -
    (1+2*(1+2*(1+2*(2*1))))*x1*x2*x2*x2*x3*x3*x3*x3*y3*a*b - (2*(2*(2*(1+2*1))))*x1*x2*x2*x2*y2*b*b*b +
    (1+2*1)*x1*x2*x2*x2*y2*a*a*a*b - (2*(2*(2*(1+2*(2*(2*1))))))*x1*x2*x2*x2*y2*x3*a*b*b -
    (2*1)*x1*x2*x2*x2*y2*x3*a*a*a*a + (2*(2*1))*x1*x2*x2*x2*y2*x3*x3*a*a*b -
    (2*(2*(2*(2*(2*(2*(1+2*1)))))))*x1*x2*x2*x2*y2*x3*x3*x3*b*b + (2*(2*1))*x1*x2*x2*x2*y2*x3*x3*x3*a*a*a -
    (1+2*(2*(2*(2*(1+2*(2*1))))))*x1*x2*x2*x2*y2*x3*x3*x3*x3*a*b - (2*1)*x1*x2*x2*x2*y2*x3*x3*x3*x3*x3*a*a -
    (2*(1+2*1))*x1*x2*x2*x2*y2*x3*x3*x3*x3*x3*x3*b - x1*x2*x2*x2*x2*y3*a*a*a*a +
    (2*(2*(1+2*(2*(2*1)))))*x1*x2*x2*x2*x2*x3*y3*a*a*b -
    (2*(2*(2*(1+2*(1+2*(2*(1+2*1)))))))*x1*x2*x2*x2*x2*x3*x3*y3*b*b + (1+2*(1+2*1))*x1*x2*x2*x2*x2*x3*x3*y3*a*a*a -
    (1+2*(2*(2*(2*(1+2*(2*1))))))*x1*x2*x2*x2*x2*x3*x3*x3*y3*a*b - (2*(2*1))*x1*x2*x2*x2*x2*y2*a*b*b -
    (1+2*1)*x1*x2*x2*x2*x2*y2*x3*a*a*b - (2*(1+2*(2*(2*1))))*x1*x2*x2*x2*x2*y2*x3*x3*b*b +
    x1*x2*x2*x2*x2*y2*x3*x3*a*a*a - (1+2*(1+2*(1+2*(2*1))))*x1*x2*x2*x2*x2*y2*x3*x3*x3*a*b -
    (2*(1+2*(2*(2*1))))*x1*x2*x2*x2*x2*y2*x3*x3*x3*x3*x3*b - x1*x2*x2*x2*x2*y2*x3*x3*x3*x3*x3*x3*a +
    (1+2*(1+2*1))*x1*x2*x2*x2*x2*x2*y3*a*a*b - (2*(2*(2*(1+2*(2*(2*1))))))*x1*x2*x2*x2*x2*x2*x3*y3*b*b +
    (2*1)*x1*x2*x2*x2*x2*x2*x3*y3*a*a*a - (1+2*(2*(1+2*(1+2*(2*1)))))*x1*x2*x2*x2*x2*x2*x3*x3*y3*a*b -
    (2*1)*x1*x2*x2*x2*x2*x2*x3*x3*x3*y3*a*a - (2*(1+2*(2*(2*1))))*x1*x2*x2*x2*x2*x2*x3*x3*x3*x3*y3*b -
    (2*(1+2*1))*x1*x2*x2*x2*x2*x2*x2*y3*b*b - (1+2*(1+2*1))*x1*x2*x2*x2*x2*x2*x2*x3*y3*a*b -
    x1*x2*x2*x2*x2*x2*x2*x3*x3*y3*a*a - (2*(1+2*1))*x1*x2*x2*x2*x2*x2*x2*x3*x3*x3*y3*b -
    x1*x2*x2*x2*x2*x2*x2*x3*x3*x3*x3*y3*a - (2*(2*(2*(2*(2*1)))))*x1*y1*b*b*b*b + x1*y1*a*a*a*a*a*a -
    (2*(2*(2*(2*(1+2*1)))))*x1*y1*x3*a*b*b*b - (2*(2*(1+2*1)))*x1*y1*x3*a*a*a*a*b +
    (2*(1+2*(1+2*(1+2*1))))*x1*y1*x3*x3*a*a*b*b - (2*(2*(2*(1+2*(1+2*(2*1))))))*x1*y1*x3*x3*x3*b*b*b -
    x1*y1*x3*x3*x3*a*a*a*b - (2*(1+2*(2*(2*1))))*x1*y1*x3*x3*x3*x3*a*b*b - x1*y1*x3*x3*x3*x3*a*a*a*a +
    x1*y1*x3*x3*x3*x3*x3*a*a*b - (2*1)*x1*y1*x3*x3*x3*x3*x3*x3*b*b - (2*(2*(2*(2*(2*(1+2*1))))))*x1*y1*y2*y3*b*b*b
    - (2*(2*(2*(2*1))))*x1*y1*y2*y3*a*a*a*b - (2*(2*(2*(2*(2*1)))))*x1*y1*y2*x3*y3*a*b*b -
    (2*(2*(2*1)))*x1*y1*y2*x3*y3*a*a*a*a + (2*(1+2*(1+2*1)))*x1*y1*y2*x3*x3*y3*a*a*b -
    (2*(2*(2*(1+2*1))))*x1*y1*y2*x3*x3*x3*y3*b*b - (2*1)*x1*y1*y2*x3*x3*x3*x3*y3*a*b -
    (2*(2*(2*(2*(1+2*1)))))*x1*y1*x2*a*b*b*b - (2*(2*(1+2*1)))*x1*y1*x2*a*a*a*a*b +
    (2*(2*(1+2*(2*(2*1)))))*x1*y1*x2*x3*a*a*b*b - (2*(1+2*1))*x1*y1*x2*x3*a*a*a*a*a -
    (2*(2*(2*(1+2*(1+2*(2*(1+2*1)))))))*x1*y1*x2*x3*x3*b*b*b + (1+2*(2*(2*(2*(2*1)))))*x1*y1*x2*x3*x3*a*a*a*b -
    (2*(2*(1+2*(2*(2*(2*(2*1)))))))*x1*y1*x2*x3*x3*x3*a*b*b + (2*(2*1))*x1*y1*x2*x3*x3*x3*a*a*a*a -
    (2*(1+2*(2*(2*1))))*x1*y1*x2*x3*x3*x3*x3*a*a*b + (2*1)*x1*y1*x2*x3*x3*x3*x3*x3*a*a*a -
    (1+2*1)*x1*y1*x2*x3*x3*x3*x3*x3*x3*a*b - (2*(2*(2*(2*(2*1)))))*x1*y1*x2*y2*y3*a*b*b -
    (2*(2*(2*1)))*x1*y1*x2*y2*y3*a*a*a*a + (2*(2*(1+2*(2*(2*1)))))*x1*y1*x2*y2*x3*y3*a*a*b -
    (2*(2*(2*(1+2*(2*(2*1))))))*x1*y1*x2*y2*x3*x3*y3*b*b + (2*(2*(2*1)))*x1*y1*x2*y2*x3*x3*y3*a*a*a -
    (2*(2*(1+2*(2*1))))*x1*y1*x2*y2*x3*x3*x3*y3*a*b + (2*(1+2*(1+2*(1+2*1))))*x1*y1*x2*x2*a*a*b*b -
    (2*(2*(2*(1+2*(1+2*(2*(1+2*1)))))))*x1*y1*x2*x2*x3*b*b*b + (1+2*(2*(2*(2*(2*1)))))*x1*y1*x2*x2*x3*a*a*a*b -
    (2*(2*(1+2*(2*(1+2*(2*(2*(2*1))))))))*x1*y1*x2*x2*x3*x3*a*b*b + (1+2*(2*(2*1)))*x1*y1*x2*x2*x3*x3*a*a*a*a -
    (1+2*(1+2*(1+2*(2*(2*(1+2*1))))))*x1*y1*x2*x2*x3*x3*x3*a*a*b - (2*(2*(2*1)))*x1*y1*x2*x2*x3*x3*x3*x3*a*a*a -
    (2*(1+2*1))*x1*y1*x2*x2*x3*x3*x3*x3*x3*a*b - x1*y1*x2*x2*x3*x3*x3*x3*x3*x3*a*a +
    (2*(1+2*(1+2*1)))*x1*y1*x2*x2*y2*y3*a*a*b - (2*(2*(2*(1+2*(2*(2*1))))))*x1*y1*x2*x2*y2*x3*y3*b*b +
    (2*(2*(2*1)))*x1*y1*x2*x2*y2*x3*y3*a*a*a - (2*(2*(1+2*(2*(2*1)))))*x1*y1*x2*x2*y2*x3*x3*y3*a*b +
    (2*(2*(2*1)))*x1*y1*x2*x2*y2*x3*x3*x3*y3*a*a - (2*(1+2*(2*(2*1))))*x1*y1*x2*x2*y2*x3*x3*x3*x3*y3*b -
    (2*(2*(2*(1+2*(1+2*(2*1))))))*x1*y1*x2*x2*x2*b*b*b - x1*y1*x2*x2*x2*a*a*a*b -
    (2*(2*(1+2*(2*(2*(2*(2*1)))))))*x1*y1*x2*x2*x2*x3*a*b*b + (2*(2*1))*x1*y1*x2*x2*x2*x3*a*a*a*a -
    (1+2*(1+2*(1+2*(2*(2*(1+2*1))))))*x1*y1*x2*x2*x2*x3*x3*a*a*b +
    (2*(2*(1+2*(2*(2*(1+2*1))))))*x1*y1*x2*x2*x2*x3*x3*x3*b*b - (2*(2*(2*1)))*x1*y1*x2*x2*x2*x3*x3*x3*a*a*a +
    (1+2*(2*(2*1)))*x1*y1*x2*x2*x2*x3*x3*x3*x3*a*b + (2*(2*1))*x1*y1*x2*x2*x2*x3*x3*x3*x3*x3*a*a -
    x1*y1*x2*x2*x2*x3*x3*x3*x3*x3*x3*b - (2*(2*(2*(1+2*1))))*x1*y1*x2*x2*x2*y2*y3*b*b -
    (2*(2*(1+2*(2*1))))*x1*y1*x2*x2*x2*y2*x3*y3*a*b + (2*(2*(2*1)))*x1*y1*x2*x2*x2*y2*x3*x3*y3*a*a -
    (2*(2*(1+2*(1+2*(1+2*1)))))*x1*y1*x2*x2*x2*y2*x3*x3*x3*y3*b - (2*(2*(2*1)))*x1*y1*x2*x2*x2*y2*x3*x3*x3*x3*y3*a
    - (2*(1+2*(2*(2*1))))*x1*y1*x2*x2*x2*x2*a*b*b - x1*y1*x2*x2*x2*x2*a*a*a*a -
    (2*(1+2*(2*(2*1))))*x1*y1*x2*x2*x2*x2*x3*a*a*b - (2*(2*(2*1)))*x1*y1*x2*x2*x2*x2*x3*x3*a*a*a +
    (1+2*(2*(2*1)))*x1*y1*x2*x2*x2*x2*x3*x3*x3*a*b + (1+2*(2*(2*1)))*x1*y1*x2*x2*x2*x2*x3*x3*x3*x3*a*a -
    (1+2*(1+2*(2*(1+2*1))))*x1*y1*x2*x2*x2*x2*x3*x3*x3*x3*x3*b - (2*1)*x1*y1*x2*x2*x2*x2*y2*y3*a*b -
    (2*(1+2*(2*(2*1))))*x1*y1*x2*x2*x2*x2*y2*x3*x3*y3*b - (2*(2*(2*1)))*x1*y1*x2*x2*x2*x2*y2*x3*x3*x3*y3*a +
    x1*y1*x2*x2*x2*x2*x2*a*a*b + (2*1)*x1*y1*x2*x2*x2*x2*x2*x3*a*a*a - (2*(1+2*1))*x1*y1*x2*x2*x2*x2*x2*x3*x3*a*b +
    (2*(2*1))*x1*y1*x2*x2*x2*x2*x2*x3*x3*x3*a*a - (1+2*(1+2*(2*(1+2*1))))*x1*y1*x2*x2*x2*x2*x2*x3*x3*x3*x3*b -
    (2*(1+2*1))*x1*y1*x2*x2*x2*x2*x2*x3*x3*x3*x3*x3*a - (2*1)*x1*y1*x2*x2*x2*x2*x2*x2*b*b -
    (1+2*1)*x1*y1*x2*x2*x2*x2*x2*x2*x3*a*b - x1*y1*x2*x2*x2*x2*x2*x2*x3*x3*a*a - x1*y1*x2*x2*x2*x2*x2*x2*x3*x3*x3*b
    + x1*y1*x2*x2*x2*x2*x2*x2*x3*x3*x3*x3*x3*x3 + (2*(2*(2*(2*(2*1)))))*x1*x1*y3*a*b*b*b +
    (2*(2*1))*x1*x1*y3*a*a*a*a*b + (2*(2*(2*(2*1))))*x1*x1*x3*y3*a*a*b*b + x1*x1*x3*y3*a*a*a*a*a +
    (2*(1+2*1))*x1*x1*x3*x3*y3*a*a*a*b - (2*(2*1))*x1*x1*x3*x3*x3*y3*a*b*b + x1*x1*x3*x3*x3*y3*a*a*a*a -
    x1*x1*x3*x3*x3*x3*y3*a*a*b + (2*(2*(2*(2*(2*1)))))*x1*x1*y2*a*b*b*b + (2*(2*1))*x1*x1*y2*a*a*a*a*b +
    (2*(2*(2*(2*(2*1)))))*x1*x1*y2*x3*a*a*b*b + (1+2*1)*x1*x1*y2*x3*a*a*a*a*a +
    (2*(1+2*(2*1)))*x1*x1*y2*x3*x3*a*a*a*b + (2*(2*1))*x1*x1*y2*x3*x3*x3*a*b*b +
    (2*(2*1))*x1*x1*y2*x3*x3*x3*a*a*a*a - x1*x1*y2*x3*x3*x3*x3*a*a*b + x1*x1*y2*x3*x3*x3*x3*x3*a*a*a -
    x1*x1*y2*x3*x3*x3*x3*x3*x3*a*b + (2*(2*(2*(2*(2*1)))))*x1*x1*x2*y3*a*a*b*b + (1+2*1)*x1*x1*x2*y3*a*a*a*a*a +
    (2*(2*(1+2*(2*1))))*x1*x1*x2*x3*y3*a*a*a*b - (2*(2*(1+2*(2*(2*1)))))*x1*x1*x2*x3*x3*y3*a*b*b +
    (2*(1+2*1))*x1*x1*x2*x3*x3*y3*a*a*a*a - (2*(2*(2*(2*1))))*x1*x1*x2*x3*x3*x3*y3*a*a*b -
    x1*x1*x2*x3*x3*x3*x3*y3*a*a*a + (2*(2*(2*(2*1))))*x1*x1*x2*y2*a*a*b*b + x1*x1*x2*y2*a*a*a*a*a +
    (2*(2*(1+2*(2*1))))*x1*x1*x2*y2*x3*a*a*a*b - (2*(2*(1+2*1)))*x1*x1*x2*y2*x3*x3*a*b*b +
    (1+2*(2*(1+2*1)))*x1*x1*x2*y2*x3*x3*a*a*a*a - (2*(2*(2*(1+2*1))))*x1*x1*x2*y2*x3*x3*x3*a*a*b +
    (1+2*1)*x1*x1*x2*y2*x3*x3*x3*x3*a*a*a - (2*(2*(1+2*1)))*x1*x1*x2*y2*x3*x3*x3*x3*x3*a*b -
    x1*x1*x2*y2*x3*x3*x3*x3*x3*x3*a*a + (2*(1+2*(2*1)))*x1*x1*x2*x2*y3*a*a*a*b -
    (2*(2*(1+2*1)))*x1*x1*x2*x2*x3*y3*a*b*b + (1+2*(2*(1+2*1)))*x1*x1*x2*x2*x3*y3*a*a*a*a -
    (2*(1+2*(2*(1+2*(2*1)))))*x1*x1*x2*x2*x3*x3*y3*a*a*b - (1+2*1)*x1*x1*x2*x2*x3*x3*x3*y3*a*a*a -
    (1+2*1)*x1*x1*x2*x2*x3*x3*x3*x3*y3*a*b + (2*(1+2*1))*x1*x1*x2*x2*y2*a*a*a*b -
    (2*(2*(1+2*(2*(2*1)))))*x1*x1*x2*x2*y2*x3*a*b*b + (2*(1+2*1))*x1*x1*x2*x2*y2*x3*a*a*a*a -
    (2*(1+2*(2*(1+2*(2*1)))))*x1*x1*x2*x2*y2*x3*x3*a*a*b - (2*(2*(1+2*(2*(2*1)))))*x1*x1*x2*x2*y2*x3*x3*x3*x3*a*b -
    (2*(1+2*1))*x1*x1*x2*x2*y2*x3*x3*x3*x3*x3*a*a + (2*(2*1))*x1*x1*x2*x2*x2*y3*a*b*b +
    (2*(2*1))*x1*x1*x2*x2*x2*y3*a*a*a*a - (2*(2*(2*(1+2*1))))*x1*x1*x2*x2*x2*x3*y3*a*a*b -
    (2*(2*(2*(2*(2*1)))))*x1*x1*x2*x2*x2*x3*x3*x3*y3*a*b - (2*(2*1))*x1*x1*x2*x2*x2*x3*x3*x3*x3*y3*a*a -
    (2*(2*1))*x1*x1*x2*x2*x2*y2*a*b*b + x1*x1*x2*x2*x2*y2*a*a*a*a - (2*(2*(2*(2*1))))*x1*x1*x2*x2*x2*y2*x3*a*a*b -
    (1+2*1)*x1*x1*x2*x2*x2*y2*x3*x3*a*a*a - (2*(2*(2*(2*(2*1)))))*x1*x1*x2*x2*x2*y2*x3*x3*x3*a*b -
    (1+2*(2*(1+2*1)))*x1*x1*x2*x2*x2*y2*x3*x3*x3*x3*a*a - x1*x1*x2*x2*x2*y2*x3*x3*x3*x3*x3*x3*a -
    x1*x1*x2*x2*x2*x2*y3*a*a*b + (1+2*1)*x1*x1*x2*x2*x2*x2*x3*y3*a*a*a -
    (2*(2*(1+2*(2*(2*1)))))*x1*x1*x2*x2*x2*x2*x3*x3*y3*a*b - (1+2*(2*(1+2*1)))*x1*x1*x2*x2*x2*x2*x3*x3*x3*y3*a*a -
    x1*x1*x2*x2*x2*x2*y2*a*a*b - x1*x1*x2*x2*x2*x2*y2*x3*a*a*a - (1+2*1)*x1*x1*x2*x2*x2*x2*y2*x3*x3*a*b -
    (2*(2*1))*x1*x1*x2*x2*x2*x2*y2*x3*x3*x3*a*a - (1+2*1)*x1*x1*x2*x2*x2*x2*y2*x3*x3*x3*x3*x3*a +
    x1*x1*x2*x2*x2*x2*x2*y3*a*a*a - (2*(2*(1+2*1)))*x1*x1*x2*x2*x2*x2*x2*x3*y3*a*b -
    (2*(1+2*1))*x1*x1*x2*x2*x2*x2*x2*x3*x3*y3*a*a - (1+2*1)*x1*x1*x2*x2*x2*x2*x2*x3*x3*x3*x3*y3*a -
    x1*x1*x2*x2*x2*x2*x2*x2*y3*a*b - x1*x1*x2*x2*x2*x2*x2*x2*x3*y3*a*a - x1*x1*x2*x2*x2*x2*x2*x2*x3*x3*x3*y3*a -
    (2*(2*(2*1)))*x1*x1*x1*y3*a*a*b*b - x1*x1*x1*y3*a*a*a*a*a + (2*(2*(2*(2*1))))*x1*x1*x1*x3*y3*b*b*b +
    (2*(2*1))*x1*x1*x1*x3*x3*y3*a*b*b - x1*x1*x1*x3*x3*y3*a*a*a*a + (1+2*1)*x1*x1*x1*x3*x3*x3*y3*a*a*b -
    (2*1)*x1*x1*x1*x3*x3*x3*x3*y3*b*b - (2*(2*(2*1)))*x1*x1*x1*y2*a*a*b*b - x1*x1*x1*y2*a*a*a*a*a +
    (2*(2*(2*(2*(1+2*1)))))*x1*x1*x1*y2*x3*b*b*b + (2*(2*1))*x1*x1*x1*y2*x3*a*a*a*b +
    (2*(2*(1+2*(2*1))))*x1*x1*x1*y2*x3*x3*a*b*b + (1+2*(2*(2*1)))*x1*x1*x1*y2*x3*x3*x3*a*a*b -
    (2*(1+2*1))*x1*x1*x1*y2*x3*x3*x3*x3*b*b + x1*x1*x1*y2*x3*x3*x3*x3*a*a*a - x1*x1*x1*y2*x3*x3*x3*x3*x3*a*b +
    (2*(2*(2*(2*(1+2*1)))))*x1*x1*x1*x2*y3*b*b*b + (2*(2*1))*x1*x1*x1*x2*y3*a*a*a*b +
    (2*(2*(2*(1+2*1))))*x1*x1*x1*x2*x3*y3*a*b*b - (2*1)*x1*x1*x1*x2*x3*y3*a*a*a*a +
    (1+2*(1+2*(1+2*(2*1))))*x1*x1*x1*x2*x3*x3*y3*a*a*b - (2*(2*(2*(1+2*1))))*x1*x1*x1*x2*x3*x3*x3*y3*b*b +
    (2*1)*x1*x1*x1*x2*x3*x3*x3*y3*a*a*a - (1+2*1)*x1*x1*x1*x2*x3*x3*x3*x3*y3*a*b +
    (2*(2*(2*(2*1))))*x1*x1*x1*x2*y2*b*b*b + (2*(2*(2*(1+2*1))))*x1*x1*x1*x2*y2*x3*a*b*b -
    (2*1)*x1*x1*x1*x2*y2*x3*a*a*a*a + (1+2*(2*(2*(2*(2*1)))))*x1*x1*x1*x2*y2*x3*x3*a*a*b -
    (2*(2*(2*(2*(2*(2*1))))))*x1*x1*x1*x2*y2*x3*x3*x3*b*b + (2*(2*1))*x1*x1*x1*x2*y2*x3*x3*x3*a*a*a -
    (2*(1+2*(2*(2*1))))*x1*x1*x1*x2*y2*x3*x3*x3*x3*a*b - (2*1)*x1*x1*x1*x2*y2*x3*x3*x3*x3*x3*a*a +
    x1*x1*x1*x2*y2*x3*x3*x3*x3*x3*x3*b + (2*(2*(1+2*(2*1))))*x1*x1*x1*x2*x2*y3*a*b*b +
    (1+2*(2*(2*(2*(2*1)))))*x1*x1*x1*x2*x2*x3*y3*a*a*b - (2*(2*(2*(1+2*(2*(2*1))))))*x1*x1*x1*x2*x2*x3*x3*y3*b*b +
    (1+2*(1+2*1))*x1*x1*x1*x2*x2*x3*x3*y3*a*a*a - (2*(1+2*(1+2*(2*1))))*x1*x1*x1*x2*x2*x3*x3*x3*y3*a*b -
    x1*x1*x1*x2*x2*x3*x3*x3*x3*y3*a*a + (2*(2*1))*x1*x1*x1*x2*x2*y2*a*b*b - x1*x1*x1*x2*x2*y2*a*a*a*a +
    (1+2*(1+2*(1+2*(2*1))))*x1*x1*x1*x2*x2*y2*x3*a*a*b - (2*(2*(2*(1+2*(2*(2*1))))))*x1*x1*x1*x2*x2*y2*x3*x3*b*b +
    (1+2*(1+2*1))*x1*x1*x1*x2*x2*y2*x3*x3*a*a*a - (2*(2*(2*(1+2*(2*1)))))*x1*x1*x1*x2*x2*y2*x3*x3*x3*a*b -
    (1+2*(1+2*1))*x1*x1*x1*x2*x2*y2*x3*x3*x3*x3*a*a + (1+2*(2*(2*1)))*x1*x1*x1*x2*x2*y2*x3*x3*x3*x3*x3*b +
    x1*x1*x1*x2*x2*y2*x3*x3*x3*x3*x3*x3*a + (1+2*(2*(2*1)))*x1*x1*x1*x2*x2*x2*y3*a*a*b -
    (2*(2*(2*(2*(2*(2*1))))))*x1*x1*x1*x2*x2*x2*x3*y3*b*b + (2*(2*1))*x1*x1*x1*x2*x2*x2*x3*y3*a*a*a -
    (2*(2*(2*(1+2*(2*1)))))*x1*x1*x1*x2*x2*x2*x3*x3*y3*a*b - (2*(2*1))*x1*x1*x1*x2*x2*x2*x3*x3*x3*y3*a*a -
    x1*x1*x1*x2*x2*x2*x3*x3*x3*x3*y3*b + (1+2*1)*x1*x1*x1*x2*x2*x2*y2*a*a*b -
    (2*(2*(2*(1+2*1))))*x1*x1*x1*x2*x2*x2*y2*x3*b*b + (2*1)*x1*x1*x1*x2*x2*x2*y2*x3*a*a*a -
    (2*(1+2*(1+2*(2*1))))*x1*x1*x1*x2*x2*x2*y2*x3*x3*a*b - (2*(2*1))*x1*x1*x1*x2*x2*x2*y2*x3*x3*x3*a*a +
    (1+2*1)*x1*x1*x1*x2*x2*x2*y2*x3*x3*x3*x3*b + (2*1)*x1*x1*x1*x2*x2*x2*y2*x3*x3*x3*x3*x3*a -
    (2*(1+2*1))*x1*x1*x1*x2*x2*x2*x2*y3*b*b + x1*x1*x1*x2*x2*x2*x2*y3*a*a*a -
    (2*(1+2*(2*(2*1))))*x1*x1*x1*x2*x2*x2*x2*x3*y3*a*b - (1+2*(1+2*1))*x1*x1*x1*x2*x2*x2*x2*x3*x3*y3*a*a +
    (1+2*1)*x1*x1*x1*x2*x2*x2*x2*x3*x3*x3*y3*b - (2*1)*x1*x1*x1*x2*x2*x2*x2*y2*b*b -
    (1+2*1)*x1*x1*x1*x2*x2*x2*x2*y2*x3*a*b - x1*x1*x1*x2*x2*x2*x2*y2*x3*x3*a*a - x1*x1*x1*x2*x2*x2*x2*y2*x3*x3*x3*b
    + x1*x1*x1*x2*x2*x2*x2*y2*x3*x3*x3*x3*x3*x3 - x1*x1*x1*x2*x2*x2*x2*x2*y3*a*b -
    (2*1)*x1*x1*x1*x2*x2*x2*x2*x2*x3*y3*a*a + (1+2*(2*(2*1)))*x1*x1*x1*x2*x2*x2*x2*x2*x3*x3*y3*b +
    (2*1)*x1*x1*x1*x2*x2*x2*x2*x2*x3*x3*x3*y3*a + x1*x1*x1*x2*x2*x2*x2*x2*x2*x3*y3*b +
    x1*x1*x1*x2*x2*x2*x2*x2*x2*x3*x3*y3*a + x1*x1*x1*x2*x2*x2*x2*x2*x2*x3*x3*x3*x3*y3.
  Definition My : F :=
    0 - (2*(2*(2*(2*(2*(1+2*(1+2*1)))))))*b*b*b*b*b - (2*(2*(2*(1+2*(2*1)))))*a*a*a*b*b*b - a*a*a*a*a*a*b -
    (2*(2*(2*(2*(1+2*(1+2*(2*(2*1))))))))*x3*a*b*b*b*b - (2*(2*(1+2*(2*(1+2*1)))))*x3*a*a*a*a*b*b -
    x3*a*a*a*a*a*a*a - (2*(1+2*(1+2*(2*(1+2*(2*1))))))*x3*x3*a*a*b*b*b - (1+2*(2*(1+2*1)))*x3*x3*a*a*a*a*a*b -
    (2*(2*(2*(1+2*(2*(1+2*(1+2*1)))))))*x3*x3*x3*b*b*b*b - (1+2*(1+2*(1+2*(1+2*(2*1)))))*x3*x3*x3*a*a*a*b*b -
    (2*1)*x3*x3*x3*a*a*a*a*a*a - (2*(2*(2*(1+2*(1+2*(2*1))))))*x3*x3*x3*x3*a*b*b*b -
    (1+2*(2*(1+2*1)))*x3*x3*x3*x3*a*a*a*a*b - (2*(1+2*1))*x3*x3*x3*x3*x3*a*a*b*b - x3*x3*x3*x3*x3*a*a*a*a*a -
    (2*(2*(2*1)))*x3*x3*x3*x3*x3*x3*b*b*b - x3*x3*x3*x3*x3*x3*a*a*a*b -
    (2*(2*(2*(2*(2*(1+2*(2*(2*1))))))))*y2*y3*b*b*b*b - (2*(2*(2*(1+2*(1+2*1)))))*y2*y3*a*a*a*b*b -
    (2*1)*y2*y3*a*a*a*a*a*a - (2*(2*(2*(2*(2*(2*(1+2*1)))))))*y2*x3*y3*a*b*b*b -
    (2*(2*(1+2*(1+2*1))))*y2*x3*y3*a*a*a*a*b - (2*(1+2*(1+2*(1+2*1))))*y2*x3*x3*y3*a*a*b*b -
    (2*(2*1))*y2*x3*x3*y3*a*a*a*a*a - (2*(2*(2*(1+2*(2*(2*1))))))*y2*x3*x3*x3*y3*b*b*b -
    (2*(2*(1+2*1)))*y2*x3*x3*x3*y3*a*a*a*b - (2*(2*(1+2*1)))*y2*x3*x3*x3*x3*y3*a*b*b -
    (2*1)*y2*x3*x3*x3*x3*y3*a*a*a*a - (2*(2*(2*(2*(1+2*(1+2*(2*(2*1))))))))*x2*a*b*b*b*b -
    (2*(2*(1+2*(2*(1+2*1)))))*x2*a*a*a*a*b*b - x2*a*a*a*a*a*a*a -
    (2*(2*(1+2*(2*(2*(1+2*(2*(2*1))))))))*x2*x3*a*a*b*b*b - (2*(2*(1+2*(1+2*(2*1)))))*x2*x3*a*a*a*a*a*b -
    (2*(2*(2*(1+2*(2*(1+2*(1+2*(2*1))))))))*x2*x3*x3*b*b*b*b - (1+2*(2*(2*(1+2*(1+2*(1+2*1))))))*x2*x3*x3*a*a*a*b*b
    - (1+2*(1+2*(2*1)))*x2*x3*x3*a*a*a*a*a*a - (2*(2*(1+2*(2*(1+2*(2*(2*(1+2*1))))))))*x2*x3*x3*x3*a*b*b*b -
    (2*(2*(2*(1+2*(1+2*1)))))*x2*x3*x3*x3*a*a*a*a*b - (1+2*(1+2*(1+2*(1+2*(2*(2*1))))))*x2*x3*x3*x3*x3*a*a*b*b -
    (1+2*(1+2*(2*1)))*x2*x3*x3*x3*x3*a*a*a*a*a - (2*(2*(1+2*(2*(2*1)))))*x2*x3*x3*x3*x3*x3*b*b*b -
    (2*(2*1))*x2*x3*x3*x3*x3*x3*a*a*a*b - (2*(1+2*(2*1)))*x2*x3*x3*x3*x3*x3*x3*a*b*b - x2*x3*x3*x3*x3*x3*x3*a*a*a*a
    - (2*(2*(2*(2*(2*(2*(1+2*1)))))))*x2*y2*y3*a*b*b*b - (2*(2*(1+2*(1+2*1))))*x2*y2*y3*a*a*a*a*b -
    (2*(2*(1+2*(2*(1+2*(1+2*1))))))*x2*y2*x3*y3*a*a*b*b - (2*(2*(2*(2*1))))*x2*y2*x3*y3*a*a*a*a*a -
    (2*(2*(2*(1+2*(1+2*(2*(1+2*1)))))))*x2*y2*x3*x3*y3*b*b*b - (2*(2*(2*(1+2*(2*1)))))*x2*y2*x3*x3*y3*a*a*a*b -
    (2*(2*(1+2*(2*(1+2*(2*1))))))*x2*y2*x3*x3*x3*y3*a*b*b - (2*(2*(2*(2*1))))*x2*y2*x3*x3*x3*y3*a*a*a*a +
    (2*(2*1))*x2*y2*x3*x3*x3*x3*y3*a*a*b - (2*(1+2*(1+2*(2*(1+2*(2*1))))))*x2*x2*a*a*b*b*b -
    (1+2*(2*(1+2*1)))*x2*x2*a*a*a*a*a*b - (2*(2*(2*(1+2*(2*(1+2*(1+2*(2*1))))))))*x2*x2*x3*b*b*b*b -
    (1+2*(2*(2*(1+2*(1+2*(1+2*1))))))*x2*x2*x3*a*a*a*b*b - (1+2*(1+2*(2*1)))*x2*x2*x3*a*a*a*a*a*a -
    (2*(2*(2*(2*(1+2*(1+2*(1+2*(2*(2*1)))))))))*x2*x2*x3*x3*a*b*b*b -
    (1+2*(1+2*(2*(2*(1+2*(2*1))))))*x2*x2*x3*x3*a*a*a*a*b -
    (1+2*(1+2*(2*(1+2*(2*(1+2*(2*(2*1))))))))*x2*x2*x3*x3*x3*a*a*b*b -
    (2*(1+2*(1+2*(2*(2*1)))))*x2*x2*x3*x3*x3*a*a*a*a*a -
    (2*(1+2*(1+2*(2*(2*(2*(1+2*1)))))))*x2*x2*x3*x3*x3*x3*b*b*b -
    (1+2*(2*(2*(1+2*(2*1)))))*x2*x2*x3*x3*x3*x3*a*a*a*b -
    (1+2*(1+2*(2*(1+2*(2*(2*1))))))*x2*x2*x3*x3*x3*x3*x3*a*b*b - (1+2*(1+2*(2*1)))*x2*x2*x3*x3*x3*x3*x3*a*a*a*a -
    (1+2*1)*x2*x2*x3*x3*x3*x3*x3*x3*a*a*b - (2*(1+2*(1+2*(1+2*1))))*x2*x2*y2*y3*a*a*b*b -
    (2*(2*1))*x2*x2*y2*y3*a*a*a*a*a - (2*(2*(2*(1+2*(1+2*(2*(1+2*1)))))))*x2*x2*y2*x3*y3*b*b*b -
    (2*(2*(2*(1+2*(2*1)))))*x2*x2*y2*x3*y3*a*a*a*b - (2*(2*(2*(1+2*(1+2*(2*(1+2*1)))))))*x2*x2*y2*x3*x3*y3*a*b*b -
    (2*(2*(2*(1+2*(2*1)))))*x2*x2*y2*x3*x3*y3*a*a*a*a + (2*(2*(2*(1+2*1))))*x2*x2*y2*x3*x3*x3*y3*a*a*b -
    (2*(1+2*(1+2*(2*(1+2*1)))))*x2*x2*y2*x3*x3*x3*x3*y3*b*b - (2*(2*1))*x2*x2*y2*x3*x3*x3*x3*y3*a*a*a -
    (2*(2*(2*(1+2*(2*(1+2*(1+2*1)))))))*x2*x2*x2*b*b*b*b - (1+2*(1+2*(1+2*(1+2*(2*1)))))*x2*x2*x2*a*a*a*b*b -
    (2*1)*x2*x2*x2*a*a*a*a*a*a - (2*(2*(1+2*(2*(1+2*(2*(2*(1+2*1))))))))*x2*x2*x2*x3*a*b*b*b -
    (2*(2*(2*(1+2*(1+2*1)))))*x2*x2*x2*x3*a*a*a*a*b -
    (1+2*(1+2*(2*(1+2*(2*(1+2*(2*(2*1))))))))*x2*x2*x2*x3*x3*a*a*b*b -
    (2*(1+2*(1+2*(2*(2*1)))))*x2*x2*x2*x3*x3*a*a*a*a*a + (2*(2*1))*x2*x2*x2*x3*x3*x3*b*b*b -
    (2*(2*(2*(2*(2*1)))))*x2*x2*x2*x3*x3*x3*a*a*a*b -
    (1+2*(1+2*(2*(2*(1+2*(1+2*(2*1)))))))*x2*x2*x2*x3*x3*x3*x3*a*b*b -
    (2*(1+2*(1+2*(2*(2*1)))))*x2*x2*x2*x3*x3*x3*x3*a*a*a*a + (2*(2*(2*1)))*x2*x2*x2*x3*x3*x3*x3*x3*a*a*b -
    (1+2*(1+2*1))*x2*x2*x2*x3*x3*x3*x3*x3*x3*b*b - (2*1)*x2*x2*x2*x3*x3*x3*x3*x3*x3*a*a*a -
    (2*(2*(2*(1+2*(2*(2*1))))))*x2*x2*x2*y2*y3*b*b*b - (2*(2*(1+2*1)))*x2*x2*x2*y2*y3*a*a*a*b -
    (2*(2*(1+2*(2*(1+2*(2*1))))))*x2*x2*x2*y2*x3*y3*a*b*b - (2*(2*(2*(2*1))))*x2*x2*x2*y2*x3*y3*a*a*a*a +
    (2*(2*(2*(1+2*1))))*x2*x2*x2*y2*x3*x3*y3*a*a*b -
    (2*(2*(1+2*(2*(1+2*(1+2*(2*1)))))))*x2*x2*x2*y2*x3*x3*x3*y3*b*b -
    (2*(2*(2*(2*1))))*x2*x2*x2*y2*x3*x3*x3*y3*a*a*a - (2*(2*(1+2*1)))*x2*x2*x2*y2*x3*x3*x3*x3*y3*a*b -
    (2*(2*(2*(1+2*(1+2*(2*1))))))*x2*x2*x2*x2*a*b*b*b - (1+2*(2*(1+2*1)))*x2*x2*x2*x2*a*a*a*a*b -
    (1+2*(1+2*(1+2*(1+2*(2*(2*1))))))*x2*x2*x2*x2*x3*a*a*b*b - (1+2*(1+2*(2*1)))*x2*x2*x2*x2*x3*a*a*a*a*a -
    (2*(1+2*(1+2*(2*(2*(2*(1+2*1)))))))*x2*x2*x2*x2*x3*x3*b*b*b -
    (1+2*(2*(2*(1+2*(2*1)))))*x2*x2*x2*x2*x3*x3*a*a*a*b -
    (1+2*(1+2*(2*(2*(1+2*(1+2*(2*1)))))))*x2*x2*x2*x2*x3*x3*x3*a*b*b -
    (2*(1+2*(1+2*(2*(2*1)))))*x2*x2*x2*x2*x3*x3*x3*a*a*a*a +
    (1+2*(1+2*(2*(2*(2*1)))))*x2*x2*x2*x2*x3*x3*x3*x3*a*a*b -
    (1+2*(2*(1+2*(2*(1+2*(1+2*1))))))*x2*x2*x2*x2*x3*x3*x3*x3*x3*b*b -
    (1+2*(1+2*(2*1)))*x2*x2*x2*x2*x3*x3*x3*x3*x3*a*a*a - x2*x2*x2*x2*x3*x3*x3*x3*x3*x3*a*b -
    (2*(2*(1+2*1)))*x2*x2*x2*x2*y2*y3*a*b*b - (2*1)*x2*x2*x2*x2*y2*y3*a*a*a*a +
    (2*(2*1))*x2*x2*x2*x2*y2*x3*y3*a*a*b - (2*(1+2*(1+2*(2*(1+2*1)))))*x2*x2*x2*x2*y2*x3*x3*y3*b*b -
    (2*(2*1))*x2*x2*x2*x2*y2*x3*x3*y3*a*a*a - (2*(2*(1+2*1)))*x2*x2*x2*x2*y2*x3*x3*x3*y3*a*b -
    (2*1)*x2*x2*x2*x2*y2*x3*x3*x3*x3*y3*a*a - (2*(1+2*1))*x2*x2*x2*x2*x2*a*a*b*b - x2*x2*x2*x2*x2*a*a*a*a*a -
    (2*(2*(1+2*(2*(2*1)))))*x2*x2*x2*x2*x2*x3*b*b*b - (2*(2*1))*x2*x2*x2*x2*x2*x3*a*a*a*b -
    (1+2*(1+2*(2*(1+2*(2*(2*1))))))*x2*x2*x2*x2*x2*x3*x3*a*b*b - (1+2*(1+2*(2*1)))*x2*x2*x2*x2*x2*x3*x3*a*a*a*a +
    (2*(2*(2*1)))*x2*x2*x2*x2*x2*x3*x3*x3*a*a*b - (1+2*(2*(1+2*(2*(1+2*(1+2*1))))))*x2*x2*x2*x2*x2*x3*x3*x3*x3*b*b
    - (1+2*(1+2*(2*1)))*x2*x2*x2*x2*x2*x3*x3*x3*x3*a*a*a - (2*(2*(1+2*1)))*x2*x2*x2*x2*x2*x3*x3*x3*x3*x3*a*b -
    x2*x2*x2*x2*x2*x3*x3*x3*x3*x3*x3*a*a - (2*(2*(2*1)))*x2*x2*x2*x2*x2*x2*b*b*b - x2*x2*x2*x2*x2*x2*a*a*a*b -
    (2*(1+2*(2*1)))*x2*x2*x2*x2*x2*x2*x3*a*b*b - x2*x2*x2*x2*x2*x2*x3*a*a*a*a -
    (1+2*1)*x2*x2*x2*x2*x2*x2*x3*x3*a*a*b - (1+2*(1+2*1))*x2*x2*x2*x2*x2*x2*x3*x3*x3*b*b -
    (2*1)*x2*x2*x2*x2*x2*x2*x3*x3*x3*a*a*a - x2*x2*x2*x2*x2*x2*x3*x3*x3*x3*a*b -
    x2*x2*x2*x2*x2*x2*x3*x3*x3*x3*x3*a*a + x2*x2*x2*x2*x2*x2*x3*x3*x3*x3*x3*x3*b -
    (2*(2*(2*(2*(2*1)))))*x1*a*b*b*b*b + (2*1)*x1*a*a*a*a*b*b + x1*a*a*a*a*a*a*a -
    (2*(2*(2*(2*(2*(2*(2*1)))))))*x1*x3*a*a*b*b*b - (1+2*(1+2*(2*(2*1))))*x1*x3*a*a*a*a*a*b +
    (2*(2*(2*(1+2*(2*(1+2*(1+2*(2*1))))))))*x1*x3*x3*b*b*b*b + (2*(2*(2*(1+2*(2*1)))))*x1*x3*x3*a*a*a*b*b -
    (2*1)*x1*x3*x3*a*a*a*a*a*a + (2*(2*(2*(1+2*(1+2*1)))))*x1*x3*x3*x3*a*b*b*b +
    (2*(2*(2*1)))*x1*x3*x3*x3*a*a*a*a*b - (1+2*(2*(2*(2*1))))*x1*x3*x3*x3*x3*a*a*b*b -
    (1+2*1)*x1*x3*x3*x3*x3*a*a*a*a*a + (2*(2*(1+2*(2*(2*1)))))*x1*x3*x3*x3*x3*x3*b*b*b +
    (1+2*(1+2*1))*x1*x3*x3*x3*x3*x3*a*a*a*b - (2*1)*x1*x3*x3*x3*x3*x3*x3*a*b*b -
    (2*(2*(2*(2*(2*(1+2*1))))))*x1*y2*y3*a*b*b*b - (2*(1+2*(1+2*1)))*x1*y2*y3*a*a*a*a*b -
    (2*(2*(2*(2*(1+2*(1+2*1))))))*x1*y2*x3*y3*a*a*b*b - (2*(2*(2*(2*1))))*x1*y2*x3*y3*a*a*a*a*a +
    (2*(2*(2*(1+2*(1+2*(2*(1+2*1)))))))*x1*y2*x3*x3*y3*b*b*b + (2*(2*(1+2*(1+2*1))))*x1*y2*x3*x3*y3*a*a*a*b +
    (2*(2*(1+2*1)))*x1*y2*x3*x3*x3*y3*a*b*b + (2*1)*x1*y2*x3*x3*x3*x3*y3*a*a*b -
    (2*(2*(2*(2*(2*(2*(2*1)))))))*x1*x2*a*a*b*b*b - (1+2*(1+2*(2*(2*1))))*x1*x2*a*a*a*a*a*b +
    (2*(2*(2*(2*(1+2*(1+2*(2*(1+2*1))))))))*x1*x2*x3*b*b*b*b - (2*(2*(2*(1+2*(1+2*1)))))*x1*x2*x3*a*a*a*b*b -
    (2*(1+2*(2*(2*1))))*x1*x2*x3*a*a*a*a*a*a + (2*(2*(2*(1+2*(1+2*(1+2*(1+2*(1+2*1))))))))*x1*x2*x3*x3*a*b*b*b +
    (1+2*(2*(1+2*(1+2*(2*(2*1))))))*x1*x2*x3*x3*a*a*a*a*b + (2*(2*(1+2*(2*1))))*x1*x2*x3*x3*x3*a*a*b*b +
    (2*(2*1))*x1*x2*x3*x3*x3*a*a*a*a*a + (2*(2*(1+2*(1+2*(2*(1+2*1))))))*x1*x2*x3*x3*x3*x3*b*b*b +
    (1+2*(1+2*(2*(2*1))))*x1*x2*x3*x3*x3*x3*a*a*a*b + (2*(1+2*(2*(2*1))))*x1*x2*x3*x3*x3*x3*x3*a*b*b +
    (2*(1+2*1))*x1*x2*x3*x3*x3*x3*x3*a*a*a*a - (1+2*(2*1))*x1*x2*x3*x3*x3*x3*x3*x3*a*a*b -
    (2*(2*(2*(2*(1+2*(1+2*1))))))*x1*x2*y2*y3*a*a*b*b - (2*(2*(2*(2*1))))*x1*x2*y2*y3*a*a*a*a*a +
    (2*(2*(2*(2*(1+2*(2*(1+2*(1+2*(2*1)))))))))*x1*x2*y2*x3*y3*b*b*b +
    (2*(2*(2*(2*(2*(1+2*1))))))*x1*x2*y2*x3*y3*a*a*a*b +
    (2*(2*(1+2*(2*(1+2*(1+2*(2*1)))))))*x1*x2*y2*x3*x3*y3*a*b*b + (2*(2*(2*(2*1))))*x1*x2*y2*x3*x3*y3*a*a*a*a +
    (2*(2*(2*(2*(2*1)))))*x1*x2*y2*x3*x3*x3*y3*a*a*b - (2*(2*(1+2*(2*(2*1)))))*x1*x2*y2*x3*x3*x3*x3*y3*b*b +
    (2*(2*(2*(1+2*(2*(1+2*(1+2*(2*1))))))))*x1*x2*x2*b*b*b*b + (2*(2*(2*(1+2*(2*1)))))*x1*x2*x2*a*a*a*b*b -
    (2*1)*x1*x2*x2*a*a*a*a*a*a + (2*(2*(2*(1+2*(1+2*(1+2*(1+2*(1+2*1))))))))*x1*x2*x2*x3*a*b*b*b +
    (1+2*(2*(1+2*(1+2*(2*(2*1))))))*x1*x2*x2*x3*a*a*a*a*b + (2*(1+2*(1+2*(2*(1+2*1)))))*x1*x2*x2*x3*x3*a*a*b*b +
    (1+2*(2*(1+2*1)))*x1*x2*x2*x3*x3*a*a*a*a*a + (2*(2*(2*(2*(2*(1+2*(2*(2*1))))))))*x1*x2*x2*x3*x3*x3*b*b*b +
    (2*(2*(2*(2*1))))*x1*x2*x2*x3*x3*x3*a*a*a*b + (2*(1+2*(2*(2*1))))*x1*x2*x2*x3*x3*x3*x3*a*b*b -
    (2*(2*1))*x1*x2*x2*x3*x3*x3*x3*a*a*a*a - (1+2*(2*(2*1)))*x1*x2*x2*x3*x3*x3*x3*x3*a*a*b +
    (1+2*(2*(2*1)))*x1*x2*x2*x3*x3*x3*x3*x3*x3*b*b - (1+2*1)*x1*x2*x2*x3*x3*x3*x3*x3*x3*a*a*a +
    (2*(2*(2*(1+2*(1+2*(2*(1+2*1)))))))*x1*x2*x2*y2*y3*b*b*b + (2*(2*(1+2*(1+2*1))))*x1*x2*x2*y2*y3*a*a*a*b +
    (2*(2*(1+2*(2*(1+2*(1+2*(2*1)))))))*x1*x2*x2*y2*x3*y3*a*b*b + (2*(2*(2*(2*1))))*x1*x2*x2*y2*x3*y3*a*a*a*a +
    (2*(2*(2*(1+2*(2*(2*1))))))*x1*x2*x2*y2*x3*x3*y3*a*a*b -
    (2*(2*(1+2*(1+2*(2*(1+2*1))))))*x1*x2*x2*y2*x3*x3*x3*y3*b*b + (2*(2*(2*(2*1))))*x1*x2*x2*y2*x3*x3*x3*y3*a*a*a -
    (2*(2*(1+2*(2*(2*1)))))*x1*x2*x2*y2*x3*x3*x3*x3*y3*a*b + (2*(2*(2*(1+2*(1+2*1)))))*x1*x2*x2*x2*a*b*b*b +
    (2*(2*(2*1)))*x1*x2*x2*x2*a*a*a*a*b + (2*(2*(1+2*(2*1))))*x1*x2*x2*x2*x3*a*a*b*b +
    (2*(2*1))*x1*x2*x2*x2*x3*a*a*a*a*a + (2*(2*(2*(2*(2*(1+2*(2*(2*1))))))))*x1*x2*x2*x2*x3*x3*b*b*b +
    (2*(2*(2*(2*1))))*x1*x2*x2*x2*x3*x3*a*a*a*b + (2*(2*(1+2*(2*(1+2*(1+2*(1+2*1)))))))*x1*x2*x2*x2*x3*x3*x3*a*b*b
    + (2*(2*(2*1)))*x1*x2*x2*x2*x3*x3*x3*a*a*a*a + (2*(2*(2*(2*(1+2*(2*1))))))*x1*x2*x2*x2*x3*x3*x3*x3*a*a*b -
    (2*(2*(1+2*(2*(2*1)))))*x1*x2*x2*x2*x3*x3*x3*x3*x3*b*b + (2*(2*1))*x1*x2*x2*x2*x3*x3*x3*x3*x3*a*a*a +
    (2*(2*(2*1)))*x1*x2*x2*x2*x3*x3*x3*x3*x3*x3*a*b + (2*(2*(1+2*1)))*x1*x2*x2*x2*y2*y3*a*b*b +
    (2*(2*(2*(2*(2*1)))))*x1*x2*x2*x2*y2*x3*y3*a*a*b - (2*(2*(1+2*(1+2*(2*(1+2*1))))))*x1*x2*x2*x2*y2*x3*x3*y3*b*b
    + (2*(2*(2*(2*1))))*x1*x2*x2*x2*y2*x3*x3*y3*a*a*a - (2*(2*(2*(2*(2*(1+2*1))))))*x1*x2*x2*x2*y2*x3*x3*x3*y3*a*b
    - (2*(2*(2*(2*1))))*x1*x2*x2*x2*y2*x3*x3*x3*x3*y3*a*a - (1+2*(2*(2*(2*1))))*x1*x2*x2*x2*x2*a*a*b*b -
    (1+2*1)*x1*x2*x2*x2*x2*a*a*a*a*a + (2*(2*(1+2*(1+2*(2*(1+2*1))))))*x1*x2*x2*x2*x2*x3*b*b*b +
    (1+2*(1+2*(2*(2*1))))*x1*x2*x2*x2*x2*x3*a*a*a*b + (2*(1+2*(2*(2*1))))*x1*x2*x2*x2*x2*x3*x3*a*b*b -
    (2*(2*1))*x1*x2*x2*x2*x2*x3*x3*a*a*a*a + (2*(2*(2*(2*(1+2*(2*1))))))*x1*x2*x2*x2*x2*x3*x3*x3*a*a*b -
    (2*(2*(2*(1+2*(1+2*(2*(1+2*1)))))))*x1*x2*x2*x2*x2*x3*x3*x3*x3*b*b +
    (1+2*(2*(1+2*1)))*x1*x2*x2*x2*x2*x3*x3*x3*x3*a*a*a -
    (1+2*(1+2*(1+2*(1+2*(1+2*1)))))*x1*x2*x2*x2*x2*x3*x3*x3*x3*x3*a*b - (2*1)*x1*x2*x2*x2*x2*x3*x3*x3*x3*x3*x3*a*a
    + (2*1)*x1*x2*x2*x2*x2*y2*y3*a*a*b - (2*(2*(1+2*(2*(2*1)))))*x1*x2*x2*x2*x2*y2*x3*y3*b*b -
    (2*(2*(1+2*(2*(2*1)))))*x1*x2*x2*x2*x2*y2*x3*x3*y3*a*b - (2*(2*(2*(2*1))))*x1*x2*x2*x2*x2*y2*x3*x3*x3*y3*a*a +
    (2*(1+2*(2*(2*1))))*x1*x2*x2*x2*x2*y2*x3*x3*x3*x3*y3*b + (2*(2*(1+2*(2*(2*1)))))*x1*x2*x2*x2*x2*x2*b*b*b +
    (1+2*(1+2*1))*x1*x2*x2*x2*x2*x2*a*a*a*b + (2*(1+2*(2*(2*1))))*x1*x2*x2*x2*x2*x2*x3*a*b*b +
    (2*(1+2*1))*x1*x2*x2*x2*x2*x2*x3*a*a*a*a - (1+2*(2*(2*1)))*x1*x2*x2*x2*x2*x2*x3*x3*a*a*b -
    (2*(2*(1+2*(2*(2*1)))))*x1*x2*x2*x2*x2*x2*x3*x3*x3*b*b + (2*(2*1))*x1*x2*x2*x2*x2*x2*x3*x3*x3*a*a*a -
    (1+2*(1+2*(1+2*(1+2*(1+2*1)))))*x1*x2*x2*x2*x2*x2*x3*x3*x3*x3*a*b -
    (2*(1+2*(2*(2*1))))*x1*x2*x2*x2*x2*x2*x3*x3*x3*x3*x3*a*a +
    (1+2*(2*(2*1)))*x1*x2*x2*x2*x2*x2*x3*x3*x3*x3*x3*x3*b - (2*1)*x1*x2*x2*x2*x2*x2*x2*a*b*b -
    (1+2*(2*1))*x1*x2*x2*x2*x2*x2*x2*x3*a*a*b + (1+2*(2*(2*1)))*x1*x2*x2*x2*x2*x2*x2*x3*x3*b*b -
    (1+2*1)*x1*x2*x2*x2*x2*x2*x2*x3*x3*a*a*a + (2*(2*(2*1)))*x1*x2*x2*x2*x2*x2*x2*x3*x3*x3*a*b -
    (2*1)*x1*x2*x2*x2*x2*x2*x2*x3*x3*x3*x3*a*a + (1+2*(2*(2*1)))*x1*x2*x2*x2*x2*x2*x2*x3*x3*x3*x3*x3*b +
    x1*x2*x2*x2*x2*x2*x2*x3*x3*x3*x3*x3*x3*a + (2*(2*(2*(1+2*(2*1)))))*x1*x1*a*a*b*b*b +
    (2*(1+2*1))*x1*x1*a*a*a*a*a*b - (2*(2*(2*(2*(2*(1+2*(2*(2*1))))))))*x1*x1*x3*b*b*b*b -
    (2*(2*(2*(1+2*1))))*x1*x1*x3*a*a*a*b*b + (1+2*1)*x1*x1*x3*a*a*a*a*a*a -
    (2*(2*(2*(1+2*(2*(1+2*(2*1)))))))*x1*x1*x3*x3*a*b*b*b - (1+2*(1+2*(2*(1+2*1))))*x1*x1*x3*x3*a*a*a*a*b +
    (2*(2*(2*(1+2*1))))*x1*x1*x3*x3*x3*a*a*b*b + (2*1)*x1*x1*x3*x3*x3*a*a*a*a*a -
    (2*(1+2*(1+2*(1+2*(1+2*(1+2*1))))))*x1*x1*x3*x3*x3*x3*b*b*b - (2*(1+2*(1+2*1)))*x1*x1*x3*x3*x3*x3*a*a*a*b -
    (1+2*(1+2*(1+2*1)))*x1*x1*x3*x3*x3*x3*x3*a*b*b - x1*x1*x3*x3*x3*x3*x3*a*a*a*a - x1*x1*x3*x3*x3*x3*x3*x3*a*a*b +
    (2*(2*(2*(1+2*(2*1)))))*x1*x1*y2*y3*a*a*b*b + (2*(1+2*1))*x1*x1*y2*y3*a*a*a*a*a -
    (2*(2*(2*(2*(2*(1+2*(2*(2*1))))))))*x1*x1*y2*x3*y3*b*b*b - (2*(2*(1+2*(1+2*(2*1)))))*x1*x1*y2*x3*y3*a*a*a*b -
    (2*(2*(2*(1+2*(2*(2*1))))))*x1*x1*y2*x3*x3*y3*a*b*b - (2*(2*(1+2*1)))*x1*x1*y2*x3*x3*y3*a*a*a*a +
    (2*(2*1))*x1*x1*y2*x3*x3*x3*y3*a*a*b - (2*(1+2*(2*(2*1))))*x1*x1*y2*x3*x3*x3*x3*y3*b*b -
    (2*1)*x1*x1*y2*x3*x3*x3*x3*y3*a*a*a - (2*(2*(2*(2*(2*(1+2*(2*(2*1))))))))*x1*x1*x2*b*b*b*b -
    (2*(2*(2*(1+2*1))))*x1*x1*x2*a*a*a*b*b + (1+2*1)*x1*x1*x2*a*a*a*a*a*a -
    (2*(2*(2*(2*(2*(2*(1+2*(2*(2*1)))))))))*x1*x1*x2*x3*a*b*b*b -
    (2*(1+2*(2*(1+2*(1+2*(2*1))))))*x1*x1*x2*x3*a*a*a*a*b - (2*(2*(2*(2*(1+2*(2*(2*1)))))))*x1*x1*x2*x3*x3*a*a*b*b
    - (1+2*(1+2*(2*(1+2*1))))*x1*x1*x2*x3*x3*a*a*a*a*a -
    (2*(2*(2*(1+2*(2*(1+2*(1+2*(2*1))))))))*x1*x1*x2*x3*x3*x3*b*b*b -
    (2*(2*(1+2*(1+2*1))))*x1*x1*x2*x3*x3*x3*a*a*a*b -
    (1+2*(1+2*(2*(1+2*(2*(1+2*(2*1)))))))*x1*x1*x2*x3*x3*x3*x3*a*b*b -
    (1+2*(1+2*(1+2*1)))*x1*x1*x2*x3*x3*x3*x3*a*a*a*a - (2*(1+2*(2*(2*1))))*x1*x1*x2*x3*x3*x3*x3*x3*a*a*b +
    (1+2*(2*(2*1)))*x1*x1*x2*x3*x3*x3*x3*x3*x3*b*b - x1*x1*x2*x3*x3*x3*x3*x3*x3*a*a*a -
    (2*(2*(2*(2*(2*(1+2*(2*(2*1))))))))*x1*x1*x2*y2*y3*b*b*b - (2*(2*(1+2*(1+2*(2*1)))))*x1*x1*x2*y2*y3*a*a*a*b -
    (2*(2*(2*(2*(2*(2*(1+2*1)))))))*x1*x1*x2*y2*x3*y3*a*b*b - (2*(2*(2*(2*(2*1)))))*x1*x1*x2*y2*x3*y3*a*a*a*a +
    (2*(2*(2*(1+2*1))))*x1*x1*x2*y2*x3*x3*y3*a*a*b - (2*(2*(2*(1+2*(2*(2*1))))))*x1*x1*x2*y2*x3*x3*x3*y3*b*b -
    (2*(2*(1+2*1)))*x1*x1*x2*y2*x3*x3*x3*x3*y3*a*b - (2*(2*(2*(1+2*(2*(1+2*(2*1)))))))*x1*x1*x2*x2*a*b*b*b -
    (1+2*(1+2*(2*(1+2*1))))*x1*x1*x2*x2*a*a*a*a*b - (2*(2*(2*(2*(1+2*(2*(2*1)))))))*x1*x1*x2*x2*x3*a*a*b*b -
    (1+2*(1+2*(2*(1+2*1))))*x1*x1*x2*x2*x3*a*a*a*a*a - (2*(2*(1+2*(1+2*(2*(1+2*1))))))*x1*x1*x2*x2*x3*x3*b*b*b +
    (2*(2*(2*(1+2*1))))*x1*x1*x2*x2*x3*x3*a*a*a*b -
    (2*(1+2*(1+2*(1+2*(1+2*(1+2*(2*(2*1))))))))*x1*x1*x2*x2*x3*x3*x3*a*b*b -
    (2*(1+2*(2*(1+2*1))))*x1*x1*x2*x2*x3*x3*x3*a*a*a*a - (1+2*(2*(1+2*(1+2*(2*1)))))*x1*x1*x2*x2*x3*x3*x3*x3*a*a*b
    - (1+2*(1+2*(2*(1+2*1))))*x1*x1*x2*x2*x3*x3*x3*x3*x3*b*b - (1+2*(1+2*(1+2*1)))*x1*x1*x2*x2*x3*x3*x3*x3*x3*a*a*a
    + (2*(2*(1+2*1)))*x1*x1*x2*x2*x3*x3*x3*x3*x3*x3*a*b - (2*(2*(2*(1+2*(2*(2*1))))))*x1*x1*x2*x2*y2*y3*a*b*b -
    (2*(2*(1+2*1)))*x1*x1*x2*x2*y2*y3*a*a*a*a + (2*(2*(2*(1+2*1))))*x1*x1*x2*x2*y2*x3*y3*a*a*b -
    (2*(2*(1+2*(2*(2*(2*(1+2*(2*1))))))))*x1*x1*x2*x2*y2*x3*x3*y3*b*b -
    (2*(2*(2*(1+2*1))))*x1*x1*x2*x2*y2*x3*x3*y3*a*a*a - (2*(2*(2*(1+2*(2*(2*1))))))*x1*x1*x2*x2*y2*x3*x3*x3*y3*a*b
    - (2*(2*(1+2*1)))*x1*x1*x2*x2*y2*x3*x3*x3*x3*y3*a*a + (2*(2*(2*(1+2*1))))*x1*x1*x2*x2*x2*a*a*b*b +
    (2*1)*x1*x1*x2*x2*x2*a*a*a*a*a - (2*(2*(2*(1+2*(2*(1+2*(1+2*(2*1))))))))*x1*x1*x2*x2*x2*x3*b*b*b -
    (2*(2*(1+2*(1+2*1))))*x1*x1*x2*x2*x2*x3*a*a*a*b -
    (2*(1+2*(1+2*(1+2*(1+2*(1+2*(2*(2*1))))))))*x1*x1*x2*x2*x2*x3*x3*a*b*b -
    (2*(1+2*(2*(1+2*1))))*x1*x1*x2*x2*x2*x3*x3*a*a*a*a - (2*(2*(2*(1+2*(2*1)))))*x1*x1*x2*x2*x2*x3*x3*x3*a*a*b -
    (2*(1+2*(1+2*(2*(2*(2*(1+2*1)))))))*x1*x1*x2*x2*x2*x3*x3*x3*x3*b*b -
    (2*(1+2*(2*(1+2*1))))*x1*x1*x2*x2*x2*x3*x3*x3*x3*a*a*a - (2*(2*(1+2*1)))*x1*x1*x2*x2*x2*x3*x3*x3*x3*x3*a*b +
    (2*1)*x1*x1*x2*x2*x2*x3*x3*x3*x3*x3*x3*a*a + (2*(2*1))*x1*x1*x2*x2*x2*y2*y3*a*a*b -
    (2*(2*(2*(1+2*(2*(2*1))))))*x1*x1*x2*x2*x2*y2*x3*y3*b*b -
    (2*(2*(2*(1+2*(2*(2*1))))))*x1*x1*x2*x2*x2*y2*x3*x3*y3*a*b -
    (2*(2*(2*(2*(2*1)))))*x1*x1*x2*x2*x2*y2*x3*x3*x3*y3*a*a +
    (2*(2*(1+2*(2*(2*1)))))*x1*x1*x2*x2*x2*y2*x3*x3*x3*x3*y3*b -
    (2*(1+2*(1+2*(1+2*(1+2*(1+2*1))))))*x1*x1*x2*x2*x2*x2*b*b*b - (2*(1+2*(1+2*1)))*x1*x1*x2*x2*x2*x2*a*a*a*b -
    (1+2*(1+2*(2*(1+2*(2*(1+2*(2*1)))))))*x1*x1*x2*x2*x2*x2*x3*a*b*b -
    (1+2*(1+2*(1+2*1)))*x1*x1*x2*x2*x2*x2*x3*a*a*a*a - (1+2*(2*(1+2*(1+2*(2*1)))))*x1*x1*x2*x2*x2*x2*x3*x3*a*a*b -
    (2*(1+2*(1+2*(2*(2*(2*(1+2*1)))))))*x1*x1*x2*x2*x2*x2*x3*x3*x3*b*b -
    (2*(1+2*(2*(1+2*1))))*x1*x1*x2*x2*x2*x2*x3*x3*x3*a*a*a -
    (2*(1+2*(2*(1+2*(1+2*(2*1))))))*x1*x1*x2*x2*x2*x2*x3*x3*x3*x3*a*b -
    (1+2*(1+2*(2*(1+2*1))))*x1*x1*x2*x2*x2*x2*x3*x3*x3*x3*x3*a*a +
    (1+2*(2*(2*1)))*x1*x1*x2*x2*x2*x2*x3*x3*x3*x3*x3*x3*b - (2*(1+2*(2*(2*1))))*x1*x1*x2*x2*x2*x2*y2*y3*b*b -
    (2*1)*x1*x1*x2*x2*x2*x2*y2*y3*a*a*a - (2*(2*(1+2*1)))*x1*x1*x2*x2*x2*x2*y2*x3*y3*a*b -
    (2*(2*(1+2*1)))*x1*x1*x2*x2*x2*x2*y2*x3*x3*y3*a*a + (2*(2*(1+2*(2*(2*1)))))*x1*x1*x2*x2*x2*x2*y2*x3*x3*x3*y3*b
    + (2*(1+2*1))*x1*x1*x2*x2*x2*x2*y2*x3*x3*x3*x3*y3*a - (1+2*(1+2*(1+2*1)))*x1*x1*x2*x2*x2*x2*x2*a*b*b -
    x1*x1*x2*x2*x2*x2*x2*a*a*a*a - (2*(1+2*(2*(2*1))))*x1*x1*x2*x2*x2*x2*x2*x3*a*a*b -
    (1+2*(1+2*(2*(1+2*1))))*x1*x1*x2*x2*x2*x2*x2*x3*x3*b*b - (1+2*(1+2*(1+2*1)))*x1*x1*x2*x2*x2*x2*x2*x3*x3*a*a*a -
    (2*(2*(1+2*1)))*x1*x1*x2*x2*x2*x2*x2*x3*x3*x3*a*b -
    (1+2*(1+2*(2*(1+2*1))))*x1*x1*x2*x2*x2*x2*x2*x3*x3*x3*x3*a*a +
    (2*(1+2*(1+2*(2*(1+2*1)))))*x1*x1*x2*x2*x2*x2*x2*x3*x3*x3*x3*x3*b +
    (1+2*1)*x1*x1*x2*x2*x2*x2*x2*x3*x3*x3*x3*x3*x3*a - x1*x1*x2*x2*x2*x2*x2*x2*a*a*b +
    (1+2*(2*(2*1)))*x1*x1*x2*x2*x2*x2*x2*x2*x3*b*b - x1*x1*x2*x2*x2*x2*x2*x2*x3*a*a*a +
    (2*(2*(1+2*1)))*x1*x1*x2*x2*x2*x2*x2*x2*x3*x3*a*b + (2*1)*x1*x1*x2*x2*x2*x2*x2*x2*x3*x3*x3*a*a +
    (1+2*(2*(2*1)))*x1*x1*x2*x2*x2*x2*x2*x2*x3*x3*x3*x3*b + (1+2*1)*x1*x1*x2*x2*x2*x2*x2*x2*x3*x3*x3*x3*x3*a +
    (2*(2*(2*(2*(2*(2*1))))))*x1*x1*x1*b*b*b*b + (2*(2*(2*(2*1))))*x1*x1*x1*a*a*a*b*b + x1*x1*x1*a*a*a*a*a*a +
    (2*(2*(2*(2*(2*1)))))*x1*x1*x1*x3*a*b*b*b + (2*(2*1))*x1*x1*x1*x3*a*a*a*a*b +
    (2*(2*(1+2*(2*1))))*x1*x1*x1*x3*x3*a*a*b*b + (2*1)*x1*x1*x1*x3*x3*a*a*a*a*a -
    (2*(2*(2*(2*1))))*x1*x1*x1*x3*x3*x3*b*b*b + (2*1)*x1*x1*x1*x3*x3*x3*a*a*a*b -
    (2*(2*1))*x1*x1*x1*x3*x3*x3*x3*a*b*b + x1*x1*x1*x3*x3*x3*x3*a*a*a*a - (2*1)*x1*x1*x1*x3*x3*x3*x3*x3*a*a*b +
    x1*x1*x1*x3*x3*x3*x3*x3*x3*b*b + (2*(2*(2*(2*(2*1)))))*x1*x1*x1*x2*a*b*b*b + (2*(2*1))*x1*x1*x1*x2*a*a*a*a*b +
    (2*(2*(2*(1+2*(1+2*1)))))*x1*x1*x1*x2*x3*a*a*b*b + (2*(1+2*1))*x1*x1*x1*x2*x3*a*a*a*a*a -
    (2*(2*(2*(2*(1+2*(2*(2*1)))))))*x1*x1*x1*x2*x3*x3*b*b*b - (2*1)*x1*x1*x1*x2*x3*x3*a*a*a*b -
    (2*(2*(2*(1+2*(1+2*1)))))*x1*x1*x1*x2*x3*x3*x3*a*b*b + (2*(2*1))*x1*x1*x1*x2*x3*x3*x3*a*a*a*a -
    (2*(2*(1+2*(1+2*1))))*x1*x1*x1*x2*x3*x3*x3*x3*a*a*b + (2*(1+2*(2*(2*1))))*x1*x1*x1*x2*x3*x3*x3*x3*x3*b*b -
    (2*1)*x1*x1*x1*x2*x3*x3*x3*x3*x3*a*a*a + (2*1)*x1*x1*x1*x2*x3*x3*x3*x3*x3*x3*a*b +
    (2*(2*(1+2*(2*1))))*x1*x1*x1*x2*x2*a*a*b*b + (2*1)*x1*x1*x1*x2*x2*a*a*a*a*a -
    (2*(2*(2*(2*(1+2*(2*(2*1)))))))*x1*x1*x1*x2*x2*x3*b*b*b - (2*1)*x1*x1*x1*x2*x2*x3*a*a*a*b -
    (2*(2*(2*(1+2*(1+2*(1+2*1))))))*x1*x1*x1*x2*x2*x3*x3*a*b*b + (1+2*(2*1))*x1*x1*x1*x2*x2*x3*x3*a*a*a*a -
    (2*(1+2*(2*(1+2*(1+2*(2*1))))))*x1*x1*x1*x2*x2*x3*x3*x3*a*a*b +
    (1+2*(1+2*(2*(2*(2*(1+2*1))))))*x1*x1*x1*x2*x2*x3*x3*x3*x3*b*b -
    (2*(2*(1+2*1)))*x1*x1*x1*x2*x2*x3*x3*x3*x3*a*a*a + (2*(2*(2*(1+2*1))))*x1*x1*x1*x2*x2*x3*x3*x3*x3*x3*a*b +
    x1*x1*x1*x2*x2*x3*x3*x3*x3*x3*x3*a*a - (2*(2*(2*(2*1))))*x1*x1*x1*x2*x2*x2*b*b*b +
    (2*1)*x1*x1*x1*x2*x2*x2*a*a*a*b - (2*(2*(2*(1+2*(1+2*1)))))*x1*x1*x1*x2*x2*x2*x3*a*b*b +
    (2*(2*1))*x1*x1*x1*x2*x2*x2*x3*a*a*a*a - (2*(1+2*(2*(1+2*(1+2*(2*1))))))*x1*x1*x1*x2*x2*x2*x3*x3*a*a*b +
    (2*(2*(1+2*(2*(1+2*(2*(2*1)))))))*x1*x1*x1*x2*x2*x2*x3*x3*x3*b*b -
    (2*(2*(2*(1+2*1))))*x1*x1*x1*x2*x2*x2*x3*x3*x3*a*a*a +
    (2*(1+2*(1+2*(2*(2*(2*1))))))*x1*x1*x1*x2*x2*x2*x3*x3*x3*x3*a*b +
    (2*(2*1))*x1*x1*x1*x2*x2*x2*x3*x3*x3*x3*x3*a*a + (2*1)*x1*x1*x1*x2*x2*x2*x3*x3*x3*x3*x3*x3*b -
    (2*(2*1))*x1*x1*x1*x2*x2*x2*x2*a*b*b + x1*x1*x1*x2*x2*x2*x2*a*a*a*a -
    (2*(2*(1+2*(1+2*1))))*x1*x1*x1*x2*x2*x2*x2*x3*a*a*b +
    (1+2*(1+2*(2*(2*(2*(1+2*1))))))*x1*x1*x1*x2*x2*x2*x2*x3*x3*b*b -
    (2*(2*(1+2*1)))*x1*x1*x1*x2*x2*x2*x2*x3*x3*a*a*a +
    (2*(1+2*(1+2*(2*(2*(2*1))))))*x1*x1*x1*x2*x2*x2*x2*x3*x3*x3*a*b +
    (1+2*(2*1))*x1*x1*x1*x2*x2*x2*x2*x3*x3*x3*x3*a*a + (2*(1+2*(2*(2*1))))*x1*x1*x1*x2*x2*x2*x2*x3*x3*x3*x3*x3*b +
    (2*1)*x1*x1*x1*x2*x2*x2*x2*x3*x3*x3*x3*x3*x3*a - (2*1)*x1*x1*x1*x2*x2*x2*x2*x2*a*a*b +
    (2*(1+2*(2*(2*1))))*x1*x1*x1*x2*x2*x2*x2*x2*x3*b*b - (2*1)*x1*x1*x1*x2*x2*x2*x2*x2*x3*a*a*a +
    (2*(2*(2*(1+2*1))))*x1*x1*x1*x2*x2*x2*x2*x2*x3*x3*a*b + (2*(2*1))*x1*x1*x1*x2*x2*x2*x2*x2*x3*x3*x3*a*a +
    (2*(1+2*(2*(2*1))))*x1*x1*x1*x2*x2*x2*x2*x2*x3*x3*x3*x3*b +
    (2*(1+2*1))*x1*x1*x1*x2*x2*x2*x2*x2*x3*x3*x3*x3*x3*a + x1*x1*x1*x2*x2*x2*x2*x2*x2*b*b +
    (2*1)*x1*x1*x1*x2*x2*x2*x2*x2*x2*x3*a*b + x1*x1*x1*x2*x2*x2*x2*x2*x2*x3*x3*a*a +
    (2*1)*x1*x1*x1*x2*x2*x2*x2*x2*x2*x3*x3*x3*b + (2*1)*x1*x1*x1*x2*x2*x2*x2*x2*x2*x3*x3*x3*x3*a +
    x1*x1*x1*x2*x2*x2*x2*x2*x2*x3*x3*x3*x3*x3*x3.
  Definition Mz : F :=
    0 - (2*(2*(2*(2*(2*(2*(2*1)))))))*y3*b*b*b*b - (2*(2*(2*(1+2*1))))*y3*a*a*a*b*b - y3*a*a*a*a*a*a -
    (2*(2*(2*(2*(1+2*1)))))*x3*y3*a*b*b*b - (2*(2*1))*x3*y3*a*a*a*a*b - (2*(2*(1+2*(2*1))))*x3*x3*y3*a*a*b*b -
    x3*x3*y3*a*a*a*a*a + (2*(2*(2*(2*1))))*x3*x3*x3*y3*b*b*b - x3*x3*x3*y3*a*a*a*b + (2*1)*x3*x3*x3*x3*y3*a*b*b -
    (2*(2*(2*(2*(2*(2*(2*1)))))))*y2*b*b*b*b - (2*(2*(2*(1+2*1))))*y2*a*a*a*b*b - y2*a*a*a*a*a*a -
    (2*(2*(2*(2*(1+2*(2*1))))))*y2*x3*a*b*b*b - (2*(2*(2*1)))*y2*x3*a*a*a*a*b -
    (2*(2*(1+2*(2*1))))*y2*x3*x3*a*a*b*b - (2*(2*(2*(2*1))))*y2*x3*x3*x3*b*b*b - (1+2*(1+2*1))*y2*x3*x3*x3*a*a*a*b
    - (2*1)*y2*x3*x3*x3*x3*a*b*b + y2*x3*x3*x3*x3*a*a*a*a - (1+2*(2*1))*y2*x3*x3*x3*x3*x3*a*a*b +
    (2*(2*1))*y2*x3*x3*x3*x3*x3*x3*b*b - (2*(2*(2*(2*(1+2*(2*1))))))*x2*y3*a*b*b*b - (2*(2*(2*1)))*x2*y3*a*a*a*a*b
    - (2*(2*(2*(1+2*(1+2*1)))))*x2*x3*y3*a*a*b*b - (2*1)*x2*x3*y3*a*a*a*a*a +
    (2*(2*(2*(2*(1+2*(2*(2*1)))))))*x2*x3*x3*y3*b*b*b - x2*x3*x3*y3*a*a*a*b +
    (2*(2*(2*(1+2*(2*1)))))*x2*x3*x3*x3*y3*a*b*b + (2*1)*x2*x3*x3*x3*y3*a*a*a*a + x2*x3*x3*x3*x3*y3*a*a*b -
    (2*(2*(2*(2*(1+2*1)))))*x2*y2*a*b*b*b - (2*(2*1))*x2*y2*a*a*a*a*b - (2*(2*(2*(1+2*(1+2*1)))))*x2*y2*x3*a*a*b*b
    - (2*1)*x2*y2*x3*a*a*a*a*a + (2*(2*(2*(2*(1+2*1)))))*x2*y2*x3*x3*b*b*b -
    (1+2*(1+2*(2*(2*1))))*x2*y2*x3*x3*a*a*a*b + (2*(2*(2*(2*(2*1)))))*x2*y2*x3*x3*x3*a*b*b +
    (2*(2*1))*x2*y2*x3*x3*x3*a*a*a*a - (2*(1+2*(1+2*(1+2*1))))*x2*y2*x3*x3*x3*x3*a*a*b +
    (2*(2*(2*(2*(1+2*1)))))*x2*y2*x3*x3*x3*x3*x3*b*b - (2*1)*x2*y2*x3*x3*x3*x3*x3*a*a*a +
    (1+2*(2*1))*x2*y2*x3*x3*x3*x3*x3*x3*a*b - (2*(2*(1+2*(2*1))))*x2*x2*y3*a*a*b*b +
    (2*(2*(2*(2*(1+2*1)))))*x2*x2*x3*y3*b*b*b - (1+2*(1+2*(2*(2*1))))*x2*x2*x3*y3*a*a*a*b +
    (2*(2*(2*(2*(2*(1+2*1))))))*x2*x2*x3*x3*y3*a*b*b + (1+2*(1+2*1))*x2*x2*x3*x3*y3*a*a*a*a -
    (2*(1+2*(2*1)))*x2*x2*x3*x3*x3*y3*a*a*b + (2*(2*(1+2*1)))*x2*x2*x3*x3*x3*x3*y3*b*b - x2*x2*x3*x3*x3*x3*y3*a*a*a
    - (2*(2*(1+2*(2*1))))*x2*x2*y2*a*a*b*b - x2*x2*y2*a*a*a*a*a + (2*(2*(2*(2*(1+2*(2*(2*1)))))))*x2*x2*y2*x3*b*b*b
    - x2*x2*y2*x3*a*a*a*b + (2*(2*(2*(2*(2*(1+2*1))))))*x2*x2*y2*x3*x3*a*b*b + (1+2*(1+2*1))*x2*x2*y2*x3*x3*a*a*a*a
    - (2*(2*(2*(1+2*(2*1)))))*x2*x2*y2*x3*x3*x3*a*a*b + (2*(2*(2*(2*(1+2*(2*(2*1)))))))*x2*x2*y2*x3*x3*x3*x3*b*b -
    (1+2*(1+2*1))*x2*x2*y2*x3*x3*x3*x3*a*a*a + (1+2*(2*(2*(2*(2*1)))))*x2*x2*y2*x3*x3*x3*x3*x3*a*b +
    x2*x2*y2*x3*x3*x3*x3*x3*x3*a*a - (2*(2*(2*(2*1))))*x2*x2*x2*y3*b*b*b - (1+2*(1+2*1))*x2*x2*x2*y3*a*a*a*b +
    (2*(2*(2*(2*(2*1)))))*x2*x2*x2*x3*y3*a*b*b + (2*(2*1))*x2*x2*x2*x3*y3*a*a*a*a -
    (2*(2*(2*(1+2*(2*1)))))*x2*x2*x2*x3*x3*y3*a*a*b + (2*(2*(2*(2*(2*(2*(2*1)))))))*x2*x2*x2*x3*x3*x3*y3*b*b -
    (2*(2*1))*x2*x2*x2*x3*x3*x3*y3*a*a*a + (1+2*(1+2*(1+2*1)))*x2*x2*x2*x3*x3*x3*x3*y3*a*b +
    (2*(2*(2*(2*1))))*x2*x2*x2*y2*b*b*b - x2*x2*x2*y2*a*a*a*b + (2*(2*(2*(1+2*(2*1)))))*x2*x2*x2*y2*x3*a*b*b +
    (2*1)*x2*x2*x2*y2*x3*a*a*a*a - (2*(1+2*(2*1)))*x2*x2*x2*y2*x3*x3*a*a*b +
    (2*(2*(2*(2*(2*(2*(2*1)))))))*x2*x2*x2*y2*x3*x3*x3*b*b - (2*(2*1))*x2*x2*x2*y2*x3*x3*x3*a*a*a +
    (1+2*(1+2*(1+2*(2*(1+2*1)))))*x2*x2*x2*y2*x3*x3*x3*x3*a*b + (2*1)*x2*x2*x2*y2*x3*x3*x3*x3*x3*a*a +
    (2*(2*1))*x2*x2*x2*y2*x3*x3*x3*x3*x3*x3*b - (2*1)*x2*x2*x2*x2*y3*a*b*b + x2*x2*x2*x2*y3*a*a*a*a -
    (2*(1+2*(1+2*(1+2*1))))*x2*x2*x2*x2*x3*y3*a*a*b + (2*(2*(2*(2*(1+2*(2*(2*1)))))))*x2*x2*x2*x2*x3*x3*y3*b*b -
    (1+2*(1+2*1))*x2*x2*x2*x2*x3*x3*y3*a*a*a + (1+2*(1+2*(1+2*(2*(1+2*1)))))*x2*x2*x2*x2*x3*x3*x3*y3*a*b +
    (2*1)*x2*x2*x2*x2*y2*a*b*b + x2*x2*x2*x2*y2*x3*a*a*b + (2*(2*(1+2*1)))*x2*x2*x2*x2*y2*x3*x3*b*b -
    x2*x2*x2*x2*y2*x3*x3*a*a*a + (1+2*(1+2*(1+2*1)))*x2*x2*x2*x2*y2*x3*x3*x3*a*b +
    (2*(2*(1+2*1)))*x2*x2*x2*x2*y2*x3*x3*x3*x3*x3*b + x2*x2*x2*x2*y2*x3*x3*x3*x3*x3*x3*a -
    (1+2*(2*1))*x2*x2*x2*x2*x2*y3*a*a*b + (2*(2*(2*(2*(1+2*1)))))*x2*x2*x2*x2*x2*x3*y3*b*b -
    (2*1)*x2*x2*x2*x2*x2*x3*y3*a*a*a + (1+2*(2*(2*(2*(2*1)))))*x2*x2*x2*x2*x2*x3*x3*y3*a*b +
    (2*1)*x2*x2*x2*x2*x2*x3*x3*x3*y3*a*a + (2*(2*(1+2*1)))*x2*x2*x2*x2*x2*x3*x3*x3*x3*y3*b +
    (2*(2*1))*x2*x2*x2*x2*x2*x2*y3*b*b + (1+2*(2*1))*x2*x2*x2*x2*x2*x2*x3*y3*a*b + x2*x2*x2*x2*x2*x2*x3*x3*y3*a*a +
    (2*(2*1))*x2*x2*x2*x2*x2*x2*x3*x3*x3*y3*b + x2*x2*x2*x2*x2*x2*x3*x3*x3*x3*y3*a +
    (2*(2*(2*(2*(2*(1+2*(2*1)))))))*y1*b*b*b*b + (2*(2*(2*(2*(2*1)))))*y1*a*a*a*b*b + y1*a*a*a*a*a*a +
    (2*(2*(2*(2*(1+2*(1+2*1))))))*y1*x3*a*b*b*b + (2*(2*(1+2*(2*1))))*y1*x3*a*a*a*a*b +
    (2*(1+2*(2*1)))*y1*x3*x3*a*a*b*b + (2*(2*1))*y1*x3*x3*a*a*a*a*a + (2*(2*(2*(1+2*(1+2*1)))))*y1*x3*x3*x3*b*b*b +
    (1+2*(2*1))*y1*x3*x3*x3*a*a*a*b + (2*(1+2*(2*1)))*y1*x3*x3*x3*x3*a*b*b + (1+2*1)*y1*x3*x3*x3*x3*a*a*a*a -
    (1+2*(2*1))*y1*x3*x3*x3*x3*x3*a*a*b + (2*(2*1))*y1*x3*x3*x3*x3*x3*x3*b*b +
    (2*(2*(2*(2*(2*(1+2*1))))))*y1*y2*y3*b*b*b + (2*(2*(2*(2*1))))*y1*y2*y3*a*a*a*b +
    (2*(2*(2*(2*(2*1)))))*y1*y2*x3*y3*a*b*b + (2*(2*(2*1)))*y1*y2*x3*y3*a*a*a*a -
    (2*(1+2*(1+2*1)))*y1*y2*x3*x3*y3*a*a*b + (2*(2*(2*(1+2*1))))*y1*y2*x3*x3*x3*y3*b*b +
    (2*1)*y1*y2*x3*x3*x3*x3*y3*a*b + (2*(2*(2*(2*(1+2*(1+2*1))))))*y1*x2*a*b*b*b +
    (2*(2*(1+2*(2*1))))*y1*x2*a*a*a*a*b + (2*(2*(1+2*(1+2*(2*(2*1))))))*y1*x2*x3*a*a*b*b +
    (2*(1+2*(2*(2*1))))*y1*x2*x3*a*a*a*a*a - (2*(2*(2*(1+2*(2*(2*1))))))*y1*x2*x3*x3*b*b*b -
    (1+2*(2*(1+2*(2*(2*1)))))*y1*x2*x3*x3*a*a*a*b + (2*(2*(1+2*(2*1))))*y1*x2*x3*x3*x3*a*b*b +
    (2*(2*1))*y1*x2*x3*x3*x3*a*a*a*a - (2*(1+2*(1+2*(2*(2*1)))))*y1*x2*x3*x3*x3*x3*a*a*b +
    (2*(2*(1+2*(2*(2*1)))))*y1*x2*x3*x3*x3*x3*x3*b*b - (2*(1+2*1))*y1*x2*x3*x3*x3*x3*x3*a*a*a +
    (1+2*(1+2*1))*y1*x2*x3*x3*x3*x3*x3*x3*a*b + (2*(2*(2*(2*(2*1)))))*y1*x2*y2*y3*a*b*b +
    (2*(2*(2*1)))*y1*x2*y2*y3*a*a*a*a - (2*(2*(1+2*(2*(2*1)))))*y1*x2*y2*x3*y3*a*a*b +
    (2*(2*(2*(1+2*(2*(2*1))))))*y1*x2*y2*x3*x3*y3*b*b - (2*(2*(2*1)))*y1*x2*y2*x3*x3*y3*a*a*a +
    (2*(2*(1+2*(2*1))))*y1*x2*y2*x3*x3*x3*y3*a*b + (2*(1+2*(2*1)))*y1*x2*x2*a*a*b*b + (2*(2*1))*y1*x2*x2*a*a*a*a*a
    - (2*(2*(2*(1+2*(2*(2*1))))))*y1*x2*x2*x3*b*b*b - (1+2*(2*(1+2*(2*(2*1)))))*y1*x2*x2*x3*a*a*a*b +
    (2*(2*(1+2*(2*(2*1)))))*y1*x2*x2*x3*x3*a*b*b + y1*x2*x2*x3*x3*a*a*a*a -
    (1+2*(2*(1+2*(1+2*(2*(2*1))))))*y1*x2*x2*x3*x3*x3*a*a*b +
    (2*(1+2*(1+2*(2*(2*(2*(1+2*1)))))))*y1*x2*x2*x3*x3*x3*x3*b*b - (2*(2*(2*(2*1))))*y1*x2*x2*x3*x3*x3*x3*a*a*a +
    (2*(1+2*(1+2*(2*(1+2*1)))))*y1*x2*x2*x3*x3*x3*x3*x3*a*b + (1+2*1)*y1*x2*x2*x3*x3*x3*x3*x3*x3*a*a -
    (2*(1+2*(1+2*1)))*y1*x2*x2*y2*y3*a*a*b + (2*(2*(2*(1+2*(2*(2*1))))))*y1*x2*x2*y2*x3*y3*b*b -
    (2*(2*(2*1)))*y1*x2*x2*y2*x3*y3*a*a*a + (2*(2*(1+2*(2*(2*1)))))*y1*x2*x2*y2*x3*x3*y3*a*b -
    (2*(2*(2*1)))*y1*x2*x2*y2*x3*x3*x3*y3*a*a + (2*(1+2*(2*(2*1))))*y1*x2*x2*y2*x3*x3*x3*x3*y3*b +
    (2*(2*(2*(1+2*(1+2*1)))))*y1*x2*x2*x2*b*b*b + (1+2*(2*1))*y1*x2*x2*x2*a*a*a*b +
    (2*(2*(1+2*(2*1))))*y1*x2*x2*x2*x3*a*b*b + (2*(2*1))*y1*x2*x2*x2*x3*a*a*a*a -
    (1+2*(2*(1+2*(1+2*(2*(2*1))))))*y1*x2*x2*x2*x3*x3*a*a*b +
    (2*(2*(1+2*(2*(2*(2*(1+2*1)))))))*y1*x2*x2*x2*x3*x3*x3*b*b - (2*(2*(2*(1+2*(2*1)))))*y1*x2*x2*x2*x3*x3*x3*a*a*a
    + (1+2*(1+2*(2*(2*(2*(2*(2*1)))))))*y1*x2*x2*x2*x3*x3*x3*x3*a*b + (2*(2*1))*y1*x2*x2*x2*x3*x3*x3*x3*x3*a*a +
    (1+2*(2*1))*y1*x2*x2*x2*x3*x3*x3*x3*x3*x3*b + (2*(2*(2*(1+2*1))))*y1*x2*x2*x2*y2*y3*b*b +
    (2*(2*(1+2*(2*1))))*y1*x2*x2*x2*y2*x3*y3*a*b - (2*(2*(2*1)))*y1*x2*x2*x2*y2*x3*x3*y3*a*a +
    (2*(2*(1+2*(1+2*(1+2*1)))))*y1*x2*x2*x2*y2*x3*x3*x3*y3*b + (2*(2*(2*1)))*y1*x2*x2*x2*y2*x3*x3*x3*x3*y3*a +
    (2*(1+2*(2*1)))*y1*x2*x2*x2*x2*a*b*b + (1+2*1)*y1*x2*x2*x2*x2*a*a*a*a -
    (2*(1+2*(1+2*(2*(2*1)))))*y1*x2*x2*x2*x2*x3*a*a*b +
    (2*(1+2*(1+2*(2*(2*(2*(1+2*1)))))))*y1*x2*x2*x2*x2*x3*x3*b*b - (2*(2*(2*(2*1))))*y1*x2*x2*x2*x2*x3*x3*a*a*a +
    (1+2*(1+2*(2*(2*(2*(2*(2*1)))))))*y1*x2*x2*x2*x2*x3*x3*x3*a*b + y1*x2*x2*x2*x2*x3*x3*x3*x3*a*a +
    (1+2*(1+2*(1+2*(1+2*(1+2*1)))))*y1*x2*x2*x2*x2*x3*x3*x3*x3*x3*b + (2*(2*1))*y1*x2*x2*x2*x2*x3*x3*x3*x3*x3*x3*a
    + (2*1)*y1*x2*x2*x2*x2*y2*y3*a*b + (2*(1+2*(2*(2*1))))*y1*x2*x2*x2*x2*y2*x3*x3*y3*b +
    (2*(2*(2*1)))*y1*x2*x2*x2*x2*y2*x3*x3*x3*y3*a - (1+2*(2*1))*y1*x2*x2*x2*x2*x2*a*a*b +
    (2*(2*(1+2*(2*(2*1)))))*y1*x2*x2*x2*x2*x2*x3*b*b - (2*(1+2*1))*y1*x2*x2*x2*x2*x2*x3*a*a*a +
    (2*(1+2*(1+2*(2*(1+2*1)))))*y1*x2*x2*x2*x2*x2*x3*x3*a*b + (2*(2*1))*y1*x2*x2*x2*x2*x2*x3*x3*x3*a*a +
    (1+2*(1+2*(1+2*(1+2*(1+2*1)))))*y1*x2*x2*x2*x2*x2*x3*x3*x3*x3*b +
    (2*(1+2*(2*(2*1))))*y1*x2*x2*x2*x2*x2*x3*x3*x3*x3*x3*a + (2*(2*1))*y1*x2*x2*x2*x2*x2*x2*b*b +
    (1+2*(1+2*1))*y1*x2*x2*x2*x2*x2*x2*x3*a*b + (1+2*1)*y1*x2*x2*x2*x2*x2*x2*x3*x3*a*a +
    (1+2*(2*1))*y1*x2*x2*x2*x2*x2*x2*x3*x3*x3*b + (2*(2*1))*y1*x2*x2*x2*x2*x2*x2*x3*x3*x3*x3*a +
    y1*x2*x2*x2*x2*x2*x2*x3*x3*x3*x3*x3*x3 - (2*(2*(2*(2*(2*(1+2*1))))))*x1*y3*a*b*b*b -
    (2*(2*(1+2*1)))*x1*y3*a*a*a*a*b - (2*(2*(2*(2*(1+2*1)))))*x1*x3*y3*a*a*b*b - (1+2*1)*x1*x3*y3*a*a*a*a*a -
    (2*(1+2*(2*(2*1))))*x1*x3*x3*y3*a*a*a*b + (2*(2*(1+2*1)))*x1*x3*x3*x3*y3*a*b*b - (1+2*1)*x1*x3*x3*x3*y3*a*a*a*a
    + (1+2*1)*x1*x3*x3*x3*x3*y3*a*a*b - (2*(2*(2*(2*(2*(1+2*1))))))*x1*y2*a*b*b*b - (2*(2*(1+2*1)))*x1*y2*a*a*a*a*b
    - (2*(2*(2*(2*(2*(1+2*1))))))*x1*y2*x3*a*a*b*b - (1+2*(2*(2*1)))*x1*y2*x3*a*a*a*a*a -
    (2*(1+2*(1+2*(1+2*1))))*x1*y2*x3*x3*a*a*a*b - (2*(2*(1+2*1)))*x1*y2*x3*x3*x3*a*b*b -
    (2*(2*(1+2*1)))*x1*y2*x3*x3*x3*a*a*a*a + (1+2*1)*x1*y2*x3*x3*x3*x3*a*a*b - (1+2*1)*x1*y2*x3*x3*x3*x3*x3*a*a*a +
    (1+2*1)*x1*y2*x3*x3*x3*x3*x3*x3*a*b - (2*(2*(2*(2*(2*(1+2*1))))))*x1*x2*y3*a*a*b*b -
    (1+2*(2*(2*1)))*x1*x2*y3*a*a*a*a*a - (2*(2*(1+2*(1+2*(1+2*1)))))*x1*x2*x3*y3*a*a*a*b +
    (2*(2*(1+2*(1+2*(2*(1+2*1))))))*x1*x2*x3*x3*y3*a*b*b - (2*(1+2*(2*(2*1))))*x1*x2*x3*x3*y3*a*a*a*a +
    (2*(2*(2*(2*(1+2*1)))))*x1*x2*x3*x3*x3*y3*a*a*b + (1+2*1)*x1*x2*x3*x3*x3*x3*y3*a*a*a -
    (2*(2*(2*(2*(1+2*1)))))*x1*x2*y2*a*a*b*b - (1+2*1)*x1*x2*y2*a*a*a*a*a -
    (2*(2*(1+2*(1+2*(1+2*1)))))*x1*x2*y2*x3*a*a*a*b + (2*(2*(1+2*(2*(2*1)))))*x1*x2*y2*x3*x3*a*b*b -
    (1+2*(1+2*(1+2*(2*(2*1)))))*x1*x2*y2*x3*x3*a*a*a*a + (2*(2*(2*(1+2*(2*(2*1))))))*x1*x2*y2*x3*x3*x3*a*a*b -
    (1+2*(2*(2*1)))*x1*x2*y2*x3*x3*x3*x3*a*a*a + (2*(2*(1+2*(2*(2*1)))))*x1*x2*y2*x3*x3*x3*x3*x3*a*b +
    (1+2*1)*x1*x2*y2*x3*x3*x3*x3*x3*x3*a*a - (2*(1+2*(1+2*(1+2*1))))*x1*x2*x2*y3*a*a*a*b +
    (2*(2*(1+2*(2*(2*1)))))*x1*x2*x2*x3*y3*a*b*b - (1+2*(1+2*(1+2*(2*(2*1)))))*x1*x2*x2*x3*y3*a*a*a*a +
    (2*(1+2*(1+2*(1+2*(1+2*(1+2*1))))))*x1*x2*x2*x3*x3*y3*a*a*b + (1+2*(2*(2*1)))*x1*x2*x2*x3*x3*x3*y3*a*a*a +
    (1+2*(2*(2*1)))*x1*x2*x2*x3*x3*x3*x3*y3*a*b - (2*(1+2*(2*(2*1))))*x1*x2*x2*y2*a*a*a*b +
    (2*(2*(1+2*(1+2*(2*(1+2*1))))))*x1*x2*x2*y2*x3*a*b*b - (2*(1+2*(2*(2*1))))*x1*x2*x2*y2*x3*a*a*a*a +
    (2*(1+2*(1+2*(1+2*(1+2*(1+2*1))))))*x1*x2*x2*y2*x3*x3*a*a*b +
    (2*(2*(1+2*(1+2*(2*(1+2*1))))))*x1*x2*x2*y2*x3*x3*x3*x3*a*b +
    (2*(1+2*(2*(2*1))))*x1*x2*x2*y2*x3*x3*x3*x3*x3*a*a - (2*(2*(1+2*1)))*x1*x2*x2*x2*y3*a*b*b -
    (2*(2*(1+2*1)))*x1*x2*x2*x2*y3*a*a*a*a + (2*(2*(2*(1+2*(2*(2*1))))))*x1*x2*x2*x2*x3*y3*a*a*b +
    (2*(2*(2*(2*(2*(1+2*1))))))*x1*x2*x2*x2*x3*x3*x3*y3*a*b + (2*(2*(1+2*1)))*x1*x2*x2*x2*x3*x3*x3*x3*y3*a*a +
    (2*(2*(1+2*1)))*x1*x2*x2*x2*y2*a*b*b - (1+2*1)*x1*x2*x2*x2*y2*a*a*a*a +
    (2*(2*(2*(2*(1+2*1)))))*x1*x2*x2*x2*y2*x3*a*a*b + (1+2*(2*(2*1)))*x1*x2*x2*x2*y2*x3*x3*a*a*a +
    (2*(2*(2*(2*(2*(1+2*1))))))*x1*x2*x2*x2*y2*x3*x3*x3*a*b +
    (1+2*(1+2*(1+2*(2*(2*1)))))*x1*x2*x2*x2*y2*x3*x3*x3*x3*a*a + (1+2*1)*x1*x2*x2*x2*y2*x3*x3*x3*x3*x3*x3*a +
    (1+2*1)*x1*x2*x2*x2*x2*y3*a*a*b - (1+2*(2*(2*1)))*x1*x2*x2*x2*x2*x3*y3*a*a*a +
    (2*(2*(1+2*(1+2*(2*(1+2*1))))))*x1*x2*x2*x2*x2*x3*x3*y3*a*b +
    (1+2*(1+2*(1+2*(2*(2*1)))))*x1*x2*x2*x2*x2*x3*x3*x3*y3*a*a + (1+2*1)*x1*x2*x2*x2*x2*y2*a*a*b +
    (1+2*1)*x1*x2*x2*x2*x2*y2*x3*a*a*a + (1+2*(2*(2*1)))*x1*x2*x2*x2*x2*y2*x3*x3*a*b +
    (2*(2*(1+2*1)))*x1*x2*x2*x2*x2*y2*x3*x3*x3*a*a + (1+2*(2*(2*1)))*x1*x2*x2*x2*x2*y2*x3*x3*x3*x3*x3*a -
    (1+2*1)*x1*x2*x2*x2*x2*x2*y3*a*a*a + (2*(2*(1+2*(2*(2*1)))))*x1*x2*x2*x2*x2*x2*x3*y3*a*b +
    (2*(1+2*(2*(2*1))))*x1*x2*x2*x2*x2*x2*x3*x3*y3*a*a + (1+2*(2*(2*1)))*x1*x2*x2*x2*x2*x2*x3*x3*x3*x3*y3*a +
    (1+2*1)*x1*x2*x2*x2*x2*x2*x2*y3*a*b + (1+2*1)*x1*x2*x2*x2*x2*x2*x2*x3*y3*a*a +
    (1+2*1)*x1*x2*x2*x2*x2*x2*x2*x3*x3*x3*y3*a + (2*(2*(2*(2*(2*1)))))*x1*y1*a*b*b*b + (2*(1+2*1))*x1*y1*a*a*a*a*b
    + (1+2*1)*x1*y1*x3*a*a*a*a*a + (2*(2*(2*(1+2*(1+2*(1+2*1))))))*x1*y1*x3*x3*b*b*b +
    (2*(2*(2*(1+2*(2*(2*1))))))*x1*y1*x3*x3*x3*a*b*b + (2*(2*1))*x1*y1*x3*x3*x3*a*a*a*a +
    (1+2*(2*1))*x1*y1*x3*x3*x3*x3*a*a*b + (2*(2*(1+2*1)))*x1*y1*x3*x3*x3*x3*x3*b*b + x1*y1*x3*x3*x3*x3*x3*a*a*a +
    x1*y1*x3*x3*x3*x3*x3*x3*a*b + (2*(2*(2*(2*(2*1)))))*x1*y1*y2*y3*a*b*b + (2*(1+2*1))*x1*y1*y2*y3*a*a*a*a -
    (2*(2*(2*(2*1))))*x1*y1*y2*x3*y3*a*a*b + (2*(2*(2*(1+2*(2*(2*1))))))*x1*y1*y2*x3*x3*y3*b*b +
    (2*(2*(1+2*(2*1))))*x1*y1*y2*x3*x3*x3*y3*a*b + (2*1)*x1*y1*y2*x3*x3*x3*x3*y3*a*a + (1+2*1)*x1*y1*x2*a*a*a*a*a +
    (2*(2*(2*(2*(1+2*(2*(2*1)))))))*x1*y1*x2*x3*b*b*b - (2*(2*(2*(1+2*1))))*x1*y1*x2*x3*a*a*a*b +
    (2*(2*(2*(1+2*(2*(2*(2*(2*1))))))))*x1*y1*x2*x3*x3*a*b*b + (1+2*1)*x1*y1*x2*x3*x3*a*a*a*a +
    (2*(2*(1+2*(1+2*(2*(2*1))))))*x1*y1*x2*x3*x3*x3*a*a*b + (2*(2*(1+2*(2*(2*1)))))*x1*y1*x2*x3*x3*x3*x3*b*b +
    (1+2*(2*(2*1)))*x1*y1*x2*x3*x3*x3*x3*a*a*a + (2*(2*(1+2*1)))*x1*y1*x2*x3*x3*x3*x3*x3*a*b +
    x1*y1*x2*x3*x3*x3*x3*x3*x3*a*a - (2*(2*(2*(2*1))))*x1*y1*x2*y2*y3*a*a*b +
    (2*(2*(2*(2*(1+2*(1+2*(1+2*1)))))))*x1*y1*x2*y2*x3*y3*b*b + (2*(2*(2*1)))*x1*y1*x2*y2*x3*y3*a*a*a +
    (2*(2*(1+2*(1+2*(2*(1+2*1))))))*x1*y1*x2*y2*x3*x3*y3*a*b + (2*(2*(2*(1+2*1))))*x1*y1*x2*y2*x3*x3*x3*y3*a*a -
    (2*(2*(1+2*1)))*x1*y1*x2*y2*x3*x3*x3*x3*y3*b + (2*(2*(2*(1+2*(1+2*(1+2*1))))))*x1*y1*x2*x2*b*b*b +
    (2*(2*(2*(1+2*(2*(2*(2*(2*1))))))))*x1*y1*x2*x2*x3*a*b*b + (1+2*1)*x1*y1*x2*x2*x3*a*a*a*a +
    (2*(1+2*(2*(2*(2*(1+2*(2*1)))))))*x1*y1*x2*x2*x3*x3*a*a*b +
    (2*(2*(2*(2*(2*(1+2*1))))))*x1*y1*x2*x2*x3*x3*x3*b*b + (2*(2*(1+2*(1+2*(2*1)))))*x1*y1*x2*x2*x3*x3*x3*a*a*a +
    (1+2*(1+2*(1+2*(2*(2*1)))))*x1*y1*x2*x2*x3*x3*x3*x3*a*b + (1+2*(2*(2*1)))*x1*y1*x2*x2*x3*x3*x3*x3*x3*a*a +
    (1+2*1)*x1*y1*x2*x2*x3*x3*x3*x3*x3*x3*b + (2*(2*(2*(1+2*(2*(2*1))))))*x1*y1*x2*x2*y2*y3*b*b +
    (2*(2*(1+2*(1+2*(2*(1+2*1))))))*x1*y1*x2*x2*y2*x3*y3*a*b + (2*(2*(2*(2*(1+2*1)))))*x1*y1*x2*x2*y2*x3*x3*y3*a*a
    - (2*(2*(1+2*(2*(2*1)))))*x1*y1*x2*x2*y2*x3*x3*x3*y3*b + (2*(2*(2*(1+2*(2*(2*1))))))*x1*y1*x2*x2*x2*a*b*b +
    (2*(2*1))*x1*y1*x2*x2*x2*a*a*a*a + (2*(2*(1+2*(1+2*(2*(2*1))))))*x1*y1*x2*x2*x2*x3*a*a*b +
    (2*(2*(2*(2*(2*(1+2*1))))))*x1*y1*x2*x2*x2*x3*x3*b*b + (2*(2*(1+2*(1+2*(2*1)))))*x1*y1*x2*x2*x2*x3*x3*a*a*a +
    (2*(2*(2*(2*(2*(2*1))))))*x1*y1*x2*x2*x2*x3*x3*x3*a*b +
    (2*(2*(1+2*(1+2*(2*1)))))*x1*y1*x2*x2*x2*x3*x3*x3*x3*a*a - (2*(2*(1+2*1)))*x1*y1*x2*x2*x2*x3*x3*x3*x3*x3*b +
    (2*(2*1))*x1*y1*x2*x2*x2*x3*x3*x3*x3*x3*x3*a + (2*(2*(1+2*(2*1))))*x1*y1*x2*x2*x2*y2*y3*a*b +
    (2*(2*(2*(1+2*1))))*x1*y1*x2*x2*x2*y2*x3*y3*a*a - (2*(2*(1+2*(2*(2*1)))))*x1*y1*x2*x2*x2*y2*x3*x3*y3*b +
    (2*(2*(2*1)))*x1*y1*x2*x2*x2*y2*x3*x3*x3*y3*a + (1+2*(2*1))*x1*y1*x2*x2*x2*x2*a*a*b +
    (2*(2*(1+2*(2*(2*1)))))*x1*y1*x2*x2*x2*x2*x3*b*b + (1+2*(2*(2*1)))*x1*y1*x2*x2*x2*x2*x3*a*a*a +
    (1+2*(1+2*(1+2*(2*(2*1)))))*x1*y1*x2*x2*x2*x2*x3*x3*a*b +
    (2*(2*(1+2*(1+2*(2*1)))))*x1*y1*x2*x2*x2*x2*x3*x3*x3*a*a -
    (2*(2*(2*(1+2*(2*(2*1))))))*x1*y1*x2*x2*x2*x2*x3*x3*x3*x3*b + (1+2*1)*x1*y1*x2*x2*x2*x2*x3*x3*x3*x3*x3*a +
    (2*1)*x1*y1*x2*x2*x2*x2*y2*y3*a*a - (2*(2*(1+2*1)))*x1*y1*x2*x2*x2*x2*y2*x3*y3*b +
    (2*(1+2*1))*x1*y1*x2*x2*x2*x2*y2*x3*x3*x3*x3*y3 + (2*(2*(1+2*1)))*x1*y1*x2*x2*x2*x2*x2*b*b +
    x1*y1*x2*x2*x2*x2*x2*a*a*a + (2*(2*(1+2*1)))*x1*y1*x2*x2*x2*x2*x2*x3*a*b +
    (1+2*(2*(2*1)))*x1*y1*x2*x2*x2*x2*x2*x3*x3*a*a - (2*(2*(1+2*1)))*x1*y1*x2*x2*x2*x2*x2*x3*x3*x3*b +
    (1+2*1)*x1*y1*x2*x2*x2*x2*x2*x3*x3*x3*x3*a + (1+2*1)*x1*y1*x2*x2*x2*x2*x2*x3*x3*x3*x3*x3*x3 +
    x1*y1*x2*x2*x2*x2*x2*x2*a*b + x1*y1*x2*x2*x2*x2*x2*x2*x3*a*a + (1+2*1)*x1*y1*x2*x2*x2*x2*x2*x2*x3*x3*b +
    (2*(2*1))*x1*y1*x2*x2*x2*x2*x2*x2*x3*x3*x3*a + (1+2*1)*x1*y1*x2*x2*x2*x2*x2*x2*x3*x3*x3*x3*x3 -
    (2*(2*(2*(1+2*1))))*x1*x1*y3*a*a*b*b - (1+2*1)*x1*x1*y3*a*a*a*a*a + (2*(2*(2*(2*(1+2*1)))))*x1*x1*x3*y3*b*b*b +
    (2*(2*(1+2*1)))*x1*x1*x3*x3*y3*a*b*b - (1+2*1)*x1*x1*x3*x3*y3*a*a*a*a + (1+2*(2*(2*1)))*x1*x1*x3*x3*x3*y3*a*a*b
    - (2*(1+2*1))*x1*x1*x3*x3*x3*x3*y3*b*b - (2*(2*(2*(1+2*1))))*x1*x1*y2*a*a*b*b - (1+2*1)*x1*x1*y2*a*a*a*a*a +
    (2*(2*(2*(2*(1+2*(2*(2*1)))))))*x1*x1*y2*x3*b*b*b + (2*(2*(1+2*1)))*x1*x1*y2*x3*a*a*a*b +
    (2*(2*(1+2*(1+2*(1+2*1)))))*x1*x1*y2*x3*x3*a*b*b + (1+2*(1+2*(2*(1+2*1))))*x1*x1*y2*x3*x3*x3*a*a*b -
    (2*(1+2*(2*(2*1))))*x1*x1*y2*x3*x3*x3*x3*b*b + (1+2*1)*x1*x1*y2*x3*x3*x3*x3*a*a*a -
    (1+2*1)*x1*x1*y2*x3*x3*x3*x3*x3*a*b + (2*(2*(2*(2*(1+2*(2*(2*1)))))))*x1*x1*x2*y3*b*b*b +
    (2*(2*(1+2*1)))*x1*x1*x2*y3*a*a*a*b + (2*(2*(2*(1+2*(2*(2*1))))))*x1*x1*x2*x3*y3*a*b*b -
    (2*(1+2*1))*x1*x1*x2*x3*y3*a*a*a*a + (1+2*(2*(1+2*(2*(2*(2*1))))))*x1*x1*x2*x3*x3*y3*a*a*b -
    (2*(2*(2*(1+2*(2*(2*1))))))*x1*x1*x2*x3*x3*x3*y3*b*b + (2*(1+2*1))*x1*x1*x2*x3*x3*x3*y3*a*a*a -
    (1+2*(2*(2*1)))*x1*x1*x2*x3*x3*x3*x3*y3*a*b + (2*(2*(2*(2*(1+2*1)))))*x1*x1*x2*y2*b*b*b +
    (2*(2*(2*(1+2*(2*(2*1))))))*x1*x1*x2*y2*x3*a*b*b - (2*(1+2*1))*x1*x1*x2*y2*x3*a*a*a*a +
    (1+2*(1+2*(2*(2*(2*(1+2*1))))))*x1*x1*x2*y2*x3*x3*a*a*b -
    (2*(2*(2*(2*(2*(2*(1+2*1)))))))*x1*x1*x2*y2*x3*x3*x3*b*b + (2*(2*(1+2*1)))*x1*x1*x2*y2*x3*x3*x3*a*a*a -
    (2*(1+2*(1+2*(2*(1+2*1)))))*x1*x1*x2*y2*x3*x3*x3*x3*a*b - (2*(1+2*1))*x1*x1*x2*y2*x3*x3*x3*x3*x3*a*a +
    (1+2*1)*x1*x1*x2*y2*x3*x3*x3*x3*x3*x3*b + (2*(2*(1+2*(1+2*(1+2*1)))))*x1*x1*x2*x2*y3*a*b*b +
    (1+2*(1+2*(2*(2*(2*(1+2*1))))))*x1*x1*x2*x2*x3*y3*a*a*b -
    (2*(2*(2*(1+2*(1+2*(2*(1+2*1)))))))*x1*x1*x2*x2*x3*x3*y3*b*b + (1+2*(2*(1+2*(2*1))))*x1*x1*x2*x2*x3*x3*y3*a*a*a
    - (2*(1+2*(2*(2*(2*(2*1))))))*x1*x1*x2*x2*x3*x3*x3*y3*a*b - (1+2*1)*x1*x1*x2*x2*x3*x3*x3*x3*y3*a*a +
    (2*(2*(1+2*1)))*x1*x1*x2*x2*y2*a*b*b - (1+2*1)*x1*x1*x2*x2*y2*a*a*a*a +
    (1+2*(2*(1+2*(2*(2*(2*1))))))*x1*x1*x2*x2*y2*x3*a*a*b -
    (2*(2*(2*(1+2*(1+2*(2*(1+2*1)))))))*x1*x1*x2*x2*y2*x3*x3*b*b + (1+2*(2*(1+2*(2*1))))*x1*x1*x2*x2*y2*x3*x3*a*a*a
    - (2*(2*(2*(1+2*(1+2*(1+2*1))))))*x1*x1*x2*x2*y2*x3*x3*x3*a*b -
    (1+2*(2*(1+2*(2*1))))*x1*x1*x2*x2*y2*x3*x3*x3*x3*a*a + (1+2*(1+2*(2*(1+2*1))))*x1*x1*x2*x2*y2*x3*x3*x3*x3*x3*b
    + (1+2*1)*x1*x1*x2*x2*y2*x3*x3*x3*x3*x3*x3*a + (1+2*(1+2*(2*(1+2*1))))*x1*x1*x2*x2*x2*y3*a*a*b -
    (2*(2*(2*(2*(2*(2*(1+2*1)))))))*x1*x1*x2*x2*x2*x3*y3*b*b + (2*(2*(1+2*1)))*x1*x1*x2*x2*x2*x3*y3*a*a*a -
    (2*(2*(2*(1+2*(1+2*(1+2*1))))))*x1*x1*x2*x2*x2*x3*x3*y3*a*b - (2*(2*(1+2*1)))*x1*x1*x2*x2*x2*x3*x3*x3*y3*a*a -
    (1+2*1)*x1*x1*x2*x2*x2*x3*x3*x3*x3*y3*b + (1+2*(2*(2*1)))*x1*x1*x2*x2*x2*y2*a*a*b -
    (2*(2*(2*(1+2*(2*(2*1))))))*x1*x1*x2*x2*x2*y2*x3*b*b + (2*(1+2*1))*x1*x1*x2*x2*x2*y2*x3*a*a*a -
    (2*(1+2*(2*(2*(2*(2*1))))))*x1*x1*x2*x2*x2*y2*x3*x3*a*b - (2*(2*(1+2*1)))*x1*x1*x2*x2*x2*y2*x3*x3*x3*a*a +
    (1+2*(2*(2*1)))*x1*x1*x2*x2*x2*y2*x3*x3*x3*x3*b + (2*(1+2*1))*x1*x1*x2*x2*x2*y2*x3*x3*x3*x3*x3*a -
    (2*(1+2*(2*(2*1))))*x1*x1*x2*x2*x2*x2*y3*b*b + (1+2*1)*x1*x1*x2*x2*x2*x2*y3*a*a*a -
    (2*(1+2*(1+2*(2*(1+2*1)))))*x1*x1*x2*x2*x2*x2*x3*y3*a*b - (1+2*(2*(1+2*(2*1))))*x1*x1*x2*x2*x2*x2*x3*x3*y3*a*a
    + (1+2*(2*(2*1)))*x1*x1*x2*x2*x2*x2*x3*x3*x3*y3*b - (2*(1+2*1))*x1*x1*x2*x2*x2*x2*y2*b*b -
    (1+2*(2*(2*1)))*x1*x1*x2*x2*x2*x2*y2*x3*a*b - (1+2*1)*x1*x1*x2*x2*x2*x2*y2*x3*x3*a*a -
    (1+2*1)*x1*x1*x2*x2*x2*x2*y2*x3*x3*x3*b + (1+2*1)*x1*x1*x2*x2*x2*x2*y2*x3*x3*x3*x3*x3*x3 -
    (1+2*1)*x1*x1*x2*x2*x2*x2*x2*y3*a*b - (2*(1+2*1))*x1*x1*x2*x2*x2*x2*x2*x3*y3*a*a +
    (1+2*(1+2*(2*(1+2*1))))*x1*x1*x2*x2*x2*x2*x2*x3*x3*y3*b + (2*(1+2*1))*x1*x1*x2*x2*x2*x2*x2*x3*x3*x3*y3*a +
    (1+2*1)*x1*x1*x2*x2*x2*x2*x2*x2*x3*y3*b + (1+2*1)*x1*x1*x2*x2*x2*x2*x2*x2*x3*x3*y3*a +
    (1+2*1)*x1*x1*x2*x2*x2*x2*x2*x2*x3*x3*x3*x3*y3 - (2*(2*(2*(2*(2*1)))))*x1*x1*x1*y3*b*b*b -
    (2*(2*1))*x1*x1*x1*y3*a*a*a*b - (2*(2*(2*(2*1))))*x1*x1*x1*x3*y3*a*b*b - x1*x1*x1*x3*y3*a*a*a*a -
    (2*(1+2*1))*x1*x1*x1*x3*x3*y3*a*a*b + (2*(2*1))*x1*x1*x1*x3*x3*x3*y3*b*b - x1*x1*x1*x3*x3*x3*y3*a*a*a +
    x1*x1*x1*x3*x3*x3*x3*y3*a*b - (2*(2*(2*(2*(2*1)))))*x1*x1*x1*y2*b*b*b - (2*(2*1))*x1*x1*x1*y2*a*a*a*b -
    (2*(2*(2*(2*(2*1)))))*x1*x1*x1*y2*x3*a*b*b - (1+2*1)*x1*x1*x1*y2*x3*a*a*a*a -
    (2*(1+2*(2*1)))*x1*x1*x1*y2*x3*x3*a*a*b - (2*(2*1))*x1*x1*x1*y2*x3*x3*x3*b*b -
    (2*(2*1))*x1*x1*x1*y2*x3*x3*x3*a*a*a + x1*x1*x1*y2*x3*x3*x3*x3*a*b - x1*x1*x1*y2*x3*x3*x3*x3*x3*a*a +
    x1*x1*x1*y2*x3*x3*x3*x3*x3*x3*b - (2*(2*(2*(2*(2*1)))))*x1*x1*x1*x2*y3*a*b*b - (1+2*1)*x1*x1*x1*x2*y3*a*a*a*a -
    (2*(2*(1+2*(2*1))))*x1*x1*x1*x2*x3*y3*a*a*b + (2*(2*(1+2*(2*(2*1)))))*x1*x1*x1*x2*x3*x3*y3*b*b -
    (2*(1+2*1))*x1*x1*x1*x2*x3*x3*y3*a*a*a + (2*(2*(2*(2*1))))*x1*x1*x1*x2*x3*x3*x3*y3*a*b +
    x1*x1*x1*x2*x3*x3*x3*x3*y3*a*a - (2*(2*(2*(2*1))))*x1*x1*x1*x2*y2*a*b*b - x1*x1*x1*x2*y2*a*a*a*a -
    (2*(2*(1+2*(2*1))))*x1*x1*x1*x2*y2*x3*a*a*b + (2*(2*(1+2*1)))*x1*x1*x1*x2*y2*x3*x3*b*b -
    (1+2*(2*(1+2*1)))*x1*x1*x1*x2*y2*x3*x3*a*a*a + (2*(2*(2*(1+2*1))))*x1*x1*x1*x2*y2*x3*x3*x3*a*b -
    (1+2*1)*x1*x1*x1*x2*y2*x3*x3*x3*x3*a*a + (2*(2*(1+2*1)))*x1*x1*x1*x2*y2*x3*x3*x3*x3*x3*b +
    x1*x1*x1*x2*y2*x3*x3*x3*x3*x3*x3*a - (2*(1+2*(2*1)))*x1*x1*x1*x2*x2*y3*a*a*b +
    (2*(2*(1+2*1)))*x1*x1*x1*x2*x2*x3*y3*b*b - (1+2*(2*(1+2*1)))*x1*x1*x1*x2*x2*x3*y3*a*a*a +
    (2*(1+2*(2*(1+2*(2*1)))))*x1*x1*x1*x2*x2*x3*x3*y3*a*b + (1+2*1)*x1*x1*x1*x2*x2*x3*x3*x3*y3*a*a +
    (1+2*1)*x1*x1*x1*x2*x2*x3*x3*x3*x3*y3*b - (2*(1+2*1))*x1*x1*x1*x2*x2*y2*a*a*b +
    (2*(2*(1+2*(2*(2*1)))))*x1*x1*x1*x2*x2*y2*x3*b*b - (2*(1+2*1))*x1*x1*x1*x2*x2*y2*x3*a*a*a +
    (2*(1+2*(2*(1+2*(2*1)))))*x1*x1*x1*x2*x2*y2*x3*x3*a*b + (2*(2*(1+2*(2*(2*1)))))*x1*x1*x1*x2*x2*y2*x3*x3*x3*x3*b
    + (2*(1+2*1))*x1*x1*x1*x2*x2*y2*x3*x3*x3*x3*x3*a - (2*(2*1))*x1*x1*x1*x2*x2*x2*y3*b*b -
    (2*(2*1))*x1*x1*x1*x2*x2*x2*y3*a*a*a + (2*(2*(2*(1+2*1))))*x1*x1*x1*x2*x2*x2*x3*y3*a*b +
    (2*(2*(2*(2*(2*1)))))*x1*x1*x1*x2*x2*x2*x3*x3*x3*y3*b + (2*(2*1))*x1*x1*x1*x2*x2*x2*x3*x3*x3*x3*y3*a +
    (2*(2*1))*x1*x1*x1*x2*x2*x2*y2*b*b - x1*x1*x1*x2*x2*x2*y2*a*a*a + (2*(2*(2*(2*1))))*x1*x1*x1*x2*x2*x2*y2*x3*a*b
    + (1+2*1)*x1*x1*x1*x2*x2*x2*y2*x3*x3*a*a + (2*(2*(2*(2*(2*1)))))*x1*x1*x1*x2*x2*x2*y2*x3*x3*x3*b +
    (1+2*(2*(1+2*1)))*x1*x1*x1*x2*x2*x2*y2*x3*x3*x3*x3*a + x1*x1*x1*x2*x2*x2*y2*x3*x3*x3*x3*x3*x3 +
    x1*x1*x1*x2*x2*x2*x2*y3*a*b - (1+2*1)*x1*x1*x1*x2*x2*x2*x2*x3*y3*a*a +
    (2*(2*(1+2*(2*(2*1)))))*x1*x1*x1*x2*x2*x2*x2*x3*x3*y3*b + (1+2*(2*(1+2*1)))*x1*x1*x1*x2*x2*x2*x2*x3*x3*x3*y3*a
    + x1*x1*x1*x2*x2*x2*x2*y2*a*b + x1*x1*x1*x2*x2*x2*x2*y2*x3*a*a + (1+2*1)*x1*x1*x1*x2*x2*x2*x2*y2*x3*x3*b +
    (2*(2*1))*x1*x1*x1*x2*x2*x2*x2*y2*x3*x3*x3*a + (1+2*1)*x1*x1*x1*x2*x2*x2*x2*y2*x3*x3*x3*x3*x3 -
    x1*x1*x1*x2*x2*x2*x2*x2*y3*a*a + (2*(2*(1+2*1)))*x1*x1*x1*x2*x2*x2*x2*x2*x3*y3*b +
    (2*(1+2*1))*x1*x1*x1*x2*x2*x2*x2*x2*x3*x3*y3*a + (1+2*1)*x1*x1*x1*x2*x2*x2*x2*x2*x3*x3*x3*x3*y3 +
    x1*x1*x1*x2*x2*x2*x2*x2*x2*y3*b + x1*x1*x1*x2*x2*x2*x2*x2*x2*x3*y3*a + x1*x1*x1*x2*x2*x2*x2*x2*x2*x3*x3*x3*y3.
  Lemma Sx_ok : cx F a b x1 y1 1 x2 y2 1 = Sx.
  Proof. unfold cx, Sx. ring [H1 H2]. Qed.
  Lemma Tx_ok : cx F a b x2 y2 1 x3 y3 1 = Tx.
  Proof. unfold cx, Tx. ring [H2 H3]. Qed.
  Lemma Sy_ok : cy F a b x1 y1 1 x2 y2 1 = Sy.
  Proof. unfold cy, Sy. ring [H1 H2]. Qed.
  Lemma Ty_ok : cy F a b x2 y2 1 x3 y3 1 = Ty.
  Proof. unfold cy, Ty. ring [H2 H3]. Qed.
  Lemma Sz_ok : cz F a b x1 y1 1 x2 y2 1 = Sz.
  Proof. unfold cz, Sz. ring [H1 H2]. Qed.
  Lemma Tz_ok : cz F a b x2 y2 1 x3 y3 1 = Tz.
  Proof. unfold cz, Tz. ring [H2 H3]. Qed.
  Lemma Lx_ok : cx F a b Sx Sy Sz x3 y3 1 = Lx.
  Proof. unfold cx, Lx, Sx, Sy, Sz. ring [H1 H2 H3]. Qed.
  Lemma Mx_ok : cx F a b x1 y1 1 Tx Ty Tz = Mx.
  Proof. unfold cx, Mx, Tx, Ty, Tz. ring [H1 H2 H3]. Qed.
  Lemma Ly_ok : cy F a b Sx Sy Sz x3 y3 1 = Ly.
  Proof. unfold cy, Ly, Sx, Sy, Sz. ring [H1 H2 H3]. Qed.
  Lemma My_ok : cy F a b x1 y1 1 Tx Ty Tz = My.
  Proof. unfold cy, My, Tx, Ty, Tz. ring [H1 H2 H3]. Qed.
  Lemma Lz_ok : cz F a b Sx Sy Sz x3 y3 1 = Lz.
  Proof. unfold cz, Lz, Sx, Sy, Sz. ring [H1 H2 H3]. Qed.
  Lemma Mz_ok : cz F a b x1 y1 1 Tx Ty Tz = Mz.
  Proof. unfold cz, Mz, Tx, Ty, Tz. ring [H1 H2 H3]. Qed.
  Lemma LM_xz : Lx * Mz = Lz * Mx.
  Proof. unfold Lx, Mz, Lz, Mx. ring [H1 H2 H3]. Qed.
  Lemma LM_yz : Ly * Mz = Lz * My.
  Proof. unfold Ly, Mz, Lz, My. ring [H1 H2 H3]. Qed.
  Lemma LM_xy : Lx * My = Ly * Mx.
  Proof. unfold Lx, My, Ly, Mx. ring [H1 H2 H3]. Qed.
End Alg.
