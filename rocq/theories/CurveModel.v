(** Model of the point arithmetic of secp256k1 and P-256 on limb arrays
    (crypto/core/curves/native/k256/point.go, native/p256/point.go, native/point.go).

    The four straight-line methods are translated statement by statement from the Go text by
    tools/gen_points.py.  Simplifications: as in [EncodeModel]; in Add and Sub the receiver is not
    the right operand (for that case see C78). *)
From Coq Require Import ZArith List Bool.
From Verif Require Import LimbBase NativeField NativeInstances EncodeModel.
Import ListNotations.
Open Scope Z_scope.

Section Arith.
  Variable F : native_field.
  Variable b : limbs4.

  (** native/k256/point.go:279-321: Double *)
  Definition np_k256_double (arg : npoint) : npoint :=
    let yy := nf_square F (np_y arg) in
    let zz := nf_square F (np_z arg) in
    let xy2 := nf_mul F (np_x arg) (np_y arg) in
    let xy2 := nf_add F xy2 xy2 in
    let bzz := nf_mul F zz b in
    let bzz3 := nf_add F bzz bzz in
    let bzz3 := nf_add F bzz3 bzz in
    let bzz9 := nf_add F bzz3 bzz3 in
    let bzz9 := nf_add F bzz9 bzz3 in
    let yyMBzz9 := nf_neg F bzz9 in
    let yyMBzz9 := nf_add F yyMBzz9 yy in
    let yyPBzz3 := nf_add F yy bzz3 in
    let yyzz := nf_mul F yy zz in
    let yyzz8 := nf_add F yyzz yyzz in
    let yyzz8 := nf_add F yyzz8 yyzz8 in
    let yyzz8 := nf_add F yyzz8 yyzz8 in
    let t := nf_add F yyzz8 yyzz8 in
    let t := nf_add F t yyzz8 in
    let t := nf_mul F t b in
    let x := nf_mul F xy2 yyMBzz9 in
    let y := nf_mul F yyMBzz9 yyPBzz3 in
    let y := nf_add F y t in
    let z := nf_mul F yy (np_y arg) in
    let z := nf_mul F z (np_z arg) in
    let z := nf_add F z z in
    let z := nf_add F z z in
    let z := nf_add F z z in
    NP x y z.
  (** native/k256/point.go:323-408: Add *)
  Definition np_k256_add (arg1 arg2 : npoint) : npoint :=
    let xx := nf_mul F (np_x arg1) (np_x arg2) in
    let yy := nf_mul F (np_y arg1) (np_y arg2) in
    let zz := nf_mul F (np_z arg1) (np_z arg2) in
    let nXxYy := nf_add F xx yy in
    let nXxYy := nf_neg F nXxYy in
    let nYyZz := nf_add F yy zz in
    let nYyZz := nf_neg F nYyZz in
    let nXxZz := nf_add F xx zz in
    let nXxZz := nf_neg F nXxZz in
    let tv1 := nf_add F (np_x arg1) (np_y arg1) in
    let tv2 := nf_add F (np_x arg2) (np_y arg2) in
    let xyPairs := nf_mul F tv1 tv2 in
    let xyPairs := nf_add F xyPairs nXxYy in
    let tv1 := nf_add F (np_y arg1) (np_z arg1) in
    let tv2 := nf_add F (np_y arg2) (np_z arg2) in
    let yzPairs := nf_mul F tv1 tv2 in
    let yzPairs := nf_add F yzPairs nYyZz in
    let tv1 := nf_add F (np_x arg1) (np_z arg1) in
    let tv2 := nf_add F (np_x arg2) (np_z arg2) in
    let xzPairs := nf_mul F tv1 tv2 in
    let xzPairs := nf_add F xzPairs nXxZz in
    let bzz := nf_mul F zz b in
    let bzz3 := nf_add F bzz bzz in
    let bzz3 := nf_add F bzz3 bzz in
    let yyMBzz3 := nf_neg F bzz3 in
    let yyMBzz3 := nf_add F yyMBzz3 yy in
    let yyPBzz3 := nf_add F yy bzz3 in
    let byz := nf_mul F yzPairs b in
    let byz3 := nf_add F byz byz in
    let byz3 := nf_add F byz3 byz in
    let xx3 := nf_add F xx xx in
    let xx3 := nf_add F xx3 xx in
    let bxx9 := nf_add F xx3 xx3 in
    let bxx9 := nf_add F bxx9 xx3 in
    let bxx9 := nf_mul F bxx9 b in
    let tv1 := nf_mul F xyPairs yyMBzz3 in
    let tv2 := nf_mul F byz3 xzPairs in
    let tv2 := nf_neg F tv2 in
    let x := nf_add F tv1 tv2 in
    let tv1 := nf_mul F yyPBzz3 yyMBzz3 in
    let tv2 := nf_mul F bxx9 xzPairs in
    let y := nf_add F tv1 tv2 in
    let tv1 := nf_mul F yzPairs yyPBzz3 in
    let tv2 := nf_mul F xx3 xyPairs in
    let z := nf_add F tv1 tv2 in
    let e1 := nf_is_zero (np_z arg1) in
    let e2 := nf_is_zero (np_z arg2) in
    let z := nf_cmove F z (np_z arg2) e1 in
    let y := nf_cmove F y (np_y arg2) e1 in
    let x := nf_cmove F x (np_x arg2) e1 in
    let z := nf_cmove F z (np_z arg1) e2 in
    let y := nf_cmove F y (np_y arg1) e2 in
    let x := nf_cmove F x (np_x arg1) e2 in
    NP x y z.
  (** native/p256/point.go:134-194: Double *)
  Definition np_p256_double (arg : npoint) : npoint :=
    let xx := nf_square F (np_x arg) in
    let yy := nf_square F (np_y arg) in
    let zz := nf_square F (np_z arg) in
    let xy2 := nf_mul F (np_x arg) (np_y arg) in
    let xy2 := nf_add F xy2 xy2 in
    let yz2 := nf_mul F (np_y arg) (np_z arg) in
    let yz2 := nf_add F yz2 yz2 in
    let xz2 := nf_mul F (np_x arg) (np_z arg) in
    let xz2 := nf_add F xz2 xz2 in
    let bzz := nf_mul F b zz in
    let bzz := nf_sub F bzz xz2 in
    let bzz3 := nf_add F bzz bzz in
    let bzz3 := nf_add F bzz3 bzz in
    let yyMBzz3 := nf_sub F yy bzz3 in
    let yyPBzz3 := nf_add F yy bzz3 in
    let yFrag := nf_mul F yyPBzz3 yyMBzz3 in
    let xFrag := nf_mul F yyMBzz3 xy2 in
    let zz3 := nf_add F zz zz in
    let zz3 := nf_add F zz3 zz in
    let bxz2 := nf_mul F b xz2 in
    let bxz2 := nf_sub F bxz2 zz3 in
    let bxz2 := nf_sub F bxz2 xx in
    let bxz6 := nf_add F bxz2 bxz2 in
    let bxz6 := nf_add F bxz6 bxz2 in
    let xx3Mzz3 := nf_add F xx xx in
    let xx3Mzz3 := nf_add F xx3Mzz3 xx in
    let xx3Mzz3 := nf_sub F xx3Mzz3 zz3 in
    let x := nf_mul F bxz6 yz2 in
    let x := nf_sub F xFrag x in
    let y := nf_mul F xx3Mzz3 bxz6 in
    let y := nf_add F yFrag y in
    let z := nf_mul F yz2 yy in
    let z := nf_add F z z in
    let z := nf_add F z z in
    NP x y z.
  (** native/p256/point.go:196-278: Add *)
  Definition np_p256_add (arg1 arg2 : npoint) : npoint :=
    let xx := nf_mul F (np_x arg1) (np_x arg2) in
    let yy := nf_mul F (np_y arg1) (np_y arg2) in
    let zz := nf_mul F (np_z arg1) (np_z arg2) in
    let tv1 := nf_add F (np_x arg2) (np_y arg2) in
    let xyPairs := nf_add F (np_x arg1) (np_y arg1) in
    let xyPairs := nf_mul F xyPairs tv1 in
    let xyPairs := nf_sub F xyPairs xx in
    let xyPairs := nf_sub F xyPairs yy in
    let tv1 := nf_add F (np_y arg2) (np_z arg2) in
    let yzPairs := nf_add F (np_y arg1) (np_z arg1) in
    let yzPairs := nf_mul F yzPairs tv1 in
    let yzPairs := nf_sub F yzPairs yy in
    let yzPairs := nf_sub F yzPairs zz in
    let tv1 := nf_add F (np_x arg2) (np_z arg2) in
    let xzPairs := nf_add F (np_x arg1) (np_z arg1) in
    let xzPairs := nf_mul F xzPairs tv1 in
    let xzPairs := nf_sub F xzPairs xx in
    let xzPairs := nf_sub F xzPairs zz in
    let bzz := nf_mul F b zz in
    let bzz := nf_sub F xzPairs bzz in
    let bzz3 := nf_add F bzz bzz in
    let bzz3 := nf_add F bzz3 bzz in
    let yyMBzz3 := nf_sub F yy bzz3 in
    let yyPBzz3 := nf_add F yy bzz3 in
    let zz3 := nf_add F zz zz in
    let zz3 := nf_add F zz3 zz in
    let bxz := nf_mul F b xzPairs in
    let bxz := nf_sub F bxz zz3 in
    let bxz := nf_sub F bxz xx in
    let bxz3 := nf_add F bxz bxz in
    let bxz3 := nf_add F bxz3 bxz in
    let xx3Mzz3 := nf_add F xx xx in
    let xx3Mzz3 := nf_add F xx3Mzz3 xx in
    let xx3Mzz3 := nf_sub F xx3Mzz3 zz3 in
    let tv1 := nf_mul F yzPairs bxz3 in
    let x := nf_mul F yyPBzz3 xyPairs in
    let x := nf_sub F x tv1 in
    let tv1 := nf_mul F xx3Mzz3 bxz3 in
    let y := nf_mul F yyPBzz3 yyMBzz3 in
    let y := nf_add F y tv1 in
    let tv1 := nf_mul F xyPairs xx3Mzz3 in
    let z := nf_mul F yyMBzz3 yzPairs in
    let z := nf_add F z tv1 in
    let e1 := nf_is_zero (np_z arg1) in
    let e2 := nf_is_zero (np_z arg2) in
    let z := nf_cmove F z (np_z arg2) e1 in
    let y := nf_cmove F y (np_y arg2) e1 in
    let x := nf_cmove F x (np_x arg2) e1 in
    let z := nf_cmove F z (np_z arg1) e2 in
    let y := nf_cmove F y (np_y arg1) e2 in
    let x := nf_cmove F x (np_x arg1) e2 in
    NP x y z.
End Arith.

(** the Arithmetic of a curve, and its scalar field *)
Record narith := NA { na_add : npoint -> npoint -> npoint; na_double : npoint -> npoint; na_scalar : native_field }.
Definition k256_arith : narith := NA (np_k256_add k256fp_field k256_B) (np_k256_double k256fp_field k256_B) k256fq_field.
Definition p256_arith : narith := NA (np_p256_add p256fp_field p256_B) (np_p256_double p256fp_field p256_B) p256fq_field.

Section Ops.
  Variables (C : ncurve) (A : narith).

  (** native/point.go:287-291: Sub *)
  Definition np_sub (lhs rhs : npoint) : npoint := na_add A lhs (np_neg C rhs).

  (** native/point.go:294-313: Mul.  [np_window bytes i] is
      bytes[32-1-i>>3] >> (4 - i&0x04) & 0x0F *)
  Definition np_window (bytes : list Z) (i : Z) : Z :=
    Z.land (Z.shiftr (nth (Z.to_nat (32 - 1 - Z.shiftr i 3)) bytes 0) (4 - Z.land i 4)) 15.
  Fixpoint np_table_fill (n : nat) (point : npoint) (precomputed : list npoint) : list npoint :=
    match n with
    | O => precomputed
    | S n' =>
        let i := length precomputed in
        let even := na_double A (nth (Nat.div2 i) precomputed np_identity) in
        let odd := na_add A even point in
        np_table_fill n' point (precomputed ++ [even; odd])
    end.
  Definition np_table (point : npoint) : list npoint := np_table_fill 7 point [np_identity; point].
  Definition np_mul_step (precomputed : list npoint) (bytes : list Z) (p : npoint) (k : nat) : npoint :=
    let p := na_double A (na_double A (na_double A (na_double A p))) in
    na_add A p (nth (Z.to_nat (np_window bytes (4 * Z.of_nat k))) precomputed np_identity).
  Definition np_mul (point : npoint) (scalar : limbs4) : npoint :=
    let bytes := nf_bytes (na_scalar A) scalar in
    fold_left (np_mul_step (np_table point) bytes) (seq 0 64) np_identity.
End Ops.
