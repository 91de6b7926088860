(** Model of the point arithmetic of crypto/core/curves/native (secp256k1, P-256), .../native/bls12381 (G1, G2) and
    crypto/core/curves/pallas_curve.go (Pallas).
    Simplifications: base-field elements are elements of an abstract field (their limb and Montgomery representation is
    not modelled); Go's 0/1 choice of [Selectznz]/[CMove] is an [if]; a method's receiver is its result, except in
    [store_add]/[store_sub], which model the receiver as a cell that may be one of the arguments. *)
From Coq Require Import Bool List NArith ZArith PArith.
From Verif Require Import EcField.
Set Implicit Arguments.
Unset Strict Implicit.
Import ListNotations.
Local Open Scope fld_scope.

(** native/point.go:41-47 (EllipticPoint: X, Y, Z), bls12381/g1.go:533-535, g2.go:497-499, pallas_curve.go:700-704 *)
Record pt (F : field) := Pt { px : F; py : F; pz : F }.
Arguments Pt {F}. Arguments px {F}. Arguments py {F}. Arguments pz {F}.

Section Points.
  Variable F : field.
  Implicit Types (b : F) (p q : pt F).
  (** Selectznz(out, a1, a2, choice): a1 if choice = 0, a2 otherwise (native/k256/fp/fp.go:171-175) *)
  Definition sel (c : bool) (x y : F) : F := if c then y else x.
  Definition is_zero (x : F) : bool := feqb x 0.

  (** k256/point.go:279-321, Double *)
  Definition k256_double b p : pt F :=
    let yy := py p * py p in
    let zz := pz p * pz p in
    let xy2 := px p * py p in
    let xy2 := xy2 + xy2 in
    let bzz := zz * b in
    let bzz3 := bzz + bzz in
    let bzz3 := bzz3 + bzz in
    let bzz9 := bzz3 + bzz3 in
    let bzz9 := bzz9 + bzz3 in
    let yyMBzz9 := - bzz9 in
    let yyMBzz9 := yyMBzz9 + yy in
    let yyPBzz3 := yy + bzz3 in
    let yyzz := yy * zz in
    let yyzz8 := yyzz + yyzz in
    let yyzz8 := yyzz8 + yyzz8 in
    let yyzz8 := yyzz8 + yyzz8 in
    let t := yyzz8 + yyzz8 in
    let t := t + yyzz8 in
    let t := t * b in
    let x := xy2 * yyMBzz9 in
    let y := yyMBzz9 * yyPBzz3 in
    let y := y + t in
    let z := yy * py p in
    let z := z * pz p in
    let z := z + z in
    let z := z + z in
    let z := z + z in
    Pt x y z.

  (** k256/point.go:323-408, Add *)
  Definition k256_add b p q : pt F :=
    let xx := px p * px q in
    let yy := py p * py q in
    let zz := pz p * pz q in
    let nXxYy := - (xx + yy) in
    let nYyZz := - (yy + zz) in
    let nXxZz := - (xx + zz) in
    let xyPairs := (px p + py p) * (px q + py q) + nXxYy in
    let yzPairs := (py p + pz p) * (py q + pz q) + nYyZz in
    let xzPairs := (px p + pz p) * (px q + pz q) + nXxZz in
    let bzz := zz * b in
    let bzz3 := bzz + bzz in
    let bzz3 := bzz3 + bzz in
    let yyMBzz3 := - bzz3 + yy in
    let yyPBzz3 := yy + bzz3 in
    let byz := yzPairs * b in
    let byz3 := byz + byz in
    let byz3 := byz3 + byz in
    let xx3 := xx + xx in
    let xx3 := xx3 + xx in
    let bxx9 := xx3 + xx3 in
    let bxx9 := bxx9 + xx3 in
    let bxx9 := bxx9 * b in
    let tv1 := xyPairs * yyMBzz3 in
    let tv2 := byz3 * xzPairs in
    let x := tv1 + - tv2 in
    let tv1 := yyPBzz3 * yyMBzz3 in
    let tv2 := bxx9 * xzPairs in
    let y := tv1 + tv2 in
    let tv1 := yzPairs * yyPBzz3 in
    let tv2 := xx3 * xyPairs in
    let z := tv1 + tv2 in
    let e1 := is_zero (pz p) in
    let e2 := is_zero (pz q) in
    let z := sel e1 z (pz q) in
    let y := sel e1 y (py q) in
    let x := sel e1 x (px q) in
    let z := sel e2 z (pz p) in
    let y := sel e2 y (py p) in
    let x := sel e2 x (px p) in
    Pt x y z.

  (** p256/point.go:134-194, Double (a = -3) *)
  Definition p256_double b p : pt F :=
    let xx := px p * px p in
    let yy := py p * py p in
    let zz := pz p * pz p in
    let xy2 := px p * py p in
    let xy2 := xy2 + xy2 in
    let yz2 := py p * pz p in
    let yz2 := yz2 + yz2 in
    let xz2 := px p * pz p in
    let xz2 := xz2 + xz2 in
    let bzz := b * zz in
    let bzz := bzz - xz2 in
    let bzz3 := bzz + bzz in
    let bzz3 := bzz3 + bzz in
    let yyMBzz3 := yy - bzz3 in
    let yyPBzz3 := yy + bzz3 in
    let yFrag := yyPBzz3 * yyMBzz3 in
    let xFrag := yyMBzz3 * xy2 in
    let zz3 := zz + zz in
    let zz3 := zz3 + zz in
    let bxz2 := b * xz2 in
    let bxz2 := bxz2 - zz3 in
    let bxz2 := bxz2 - xx in
    let bxz6 := bxz2 + bxz2 in
    let bxz6 := bxz6 + bxz2 in
    let xx3Mzz3 := xx + xx in
    let xx3Mzz3 := xx3Mzz3 + xx in
    let xx3Mzz3 := xx3Mzz3 - zz3 in
    let x := bxz6 * yz2 in
    let x := xFrag - x in
    let y := xx3Mzz3 * bxz6 in
    let y := yFrag + y in
    let z := yz2 * yy in
    let z := z + z in
    let z := z + z in
    Pt x y z.

  (** p256/point.go:196-278, Add *)
  Definition p256_add b p q : pt F :=
    let xx := px p * px q in
    let yy := py p * py q in
    let zz := pz p * pz q in
    let tv1 := px q + py q in
    let xyPairs := px p + py p in
    let xyPairs := xyPairs * tv1 in
    let xyPairs := xyPairs - xx in
    let xyPairs := xyPairs - yy in
    let tv1 := py q + pz q in
    let yzPairs := py p + pz p in
    let yzPairs := yzPairs * tv1 in
    let yzPairs := yzPairs - yy in
    let yzPairs := yzPairs - zz in
    let tv1 := px q + pz q in
    let xzPairs := px p + pz p in
    let xzPairs := xzPairs * tv1 in
    let xzPairs := xzPairs - xx in
    let xzPairs := xzPairs - zz in
    let bzz := b * zz in
    let bzz := xzPairs - bzz in
    let bzz3 := bzz + bzz in
    let bzz3 := bzz3 + bzz in
    let yyMBzz3 := yy - bzz3 in
    let yyPBzz3 := yy + bzz3 in
    let zz3 := zz + zz in
    let zz3 := zz3 + zz in
    let bxz := b * xzPairs in
    let bxz := bxz - zz3 in
    let bxz := bxz - xx in
    let bxz3 := bxz + bxz in
    let bxz3 := bxz3 + bxz in
    let xx3Mzz3 := xx + xx in
    let xx3Mzz3 := xx3Mzz3 + xx in
    let xx3Mzz3 := xx3Mzz3 - zz3 in
    let tv1 := yzPairs * bxz3 in
    let x := yyPBzz3 * xyPairs in
    let x := x - tv1 in
    let tv1 := xx3Mzz3 * bxz3 in
    let y := yyPBzz3 * yyMBzz3 in
    let y := y + tv1 in
    let tv1 := xyPairs * xx3Mzz3 in
    let z := yyMBzz3 * yzPairs in
    let z := z + tv1 in
    let e1 := is_zero (pz p) in
    let e2 := is_zero (pz q) in
    let z := sel e1 z (pz q) in
    let y := sel e1 y (py q) in
    let x := sel e1 x (px q) in
    let z := sel e2 z (pz p) in
    let y := sel e2 y (py p) in
    let x := sel e2 x (px p) in
    Pt x y z.

  (** native/point.go:245-250 (Identity), 261-263 (IsIdentity), 273-277 (Neg), 287-291 (Sub) *)
  Definition native_id : pt F := Pt 0 0 0.
  Definition is_identity p : bool := is_zero (pz p).
  Definition native_neg p : pt F := Pt (px p) (- py p) (pz p).
  Definition native_sub (add : pt F -> pt F -> pt F) p q : pt F := add p (native_neg q).

  (** Go's int results of IsZero/Equal and the bit operations of native/point.go:316-335, g1.go:948-965, g2.go:944-961 *)
  Definition z01 (c : bool) : Z := if c then 1%Z else 0%Z.
  Definition proj_equal p q : Z :=
    let x1 := px p * pz q in
    let x2 := px q * pz p in
    let y1 := py p * pz q in
    let y2 := py q * pz p in
    let e1 := z01 (is_zero (pz p)) in
    let e2 := z01 (is_zero (pz q)) in
    Z.lor (Z.land e1 e2)
          (Z.land (Z.land (Z.land (Z.lnot e1) (Z.lnot e2)) (z01 (feqb x1 x2))) (z01 (feqb y1 y2))).

  (** k256/point.go:419-439, p256/point.go:289-309, g1.go:920-931, g2.go:916-927: ToAffine.
      Invert leaves 0 for 0 and reports whether the argument was invertible. *)
  Definition invert (x : F) : F * bool := if is_zero x then (0, false) else (finv x, true).
  Definition to_affine p : pt F :=
    let '(z, ok) := invert (pz p) in
    let x := px p * z in
    let y := py p * z in
    Pt (sel ok 0 x) (sel ok 0 y) (sel ok 0 1).

  (** k256/point.go:441-446, p256/point.go:311-317: RhsEq *)
  Definition k256_rhs b (x : F) : F := x * x * x + b.
  Definition p256_rhs (a b x : F) : F := x * x * x + b + a * x.
  (** k256/point.go:410-417, p256/point.go:280-287: IsOnCurve *)
  Definition native_on_curve (rhs : F -> F) p : bool :=
    let t := to_affine p in feqb (py t * py t) (rhs (px t)).

  (** native/point.go:358-381: SetBigInt, after the reduction of x and y into the field *)
  Definition native_set (rhs : F -> F) (x y : F) : option (pt F) :=
    let isId := is_zero x && is_zero y in
    let pp := Pt (sel isId x 0) (sel isId y 0) (sel isId 1 0) in
    if negb (native_on_curve rhs pp) && negb isId then None else Some pp.
  (** native/point.go:348-354: BigInt, as field elements *)
  Definition affine_xy p : F * F := let t := to_affine p in (px t, py t).

  (** bls12381/fp.go:364-372: MulBy3b of G1 *)
  Definition mul12 (x : F) : F :=
    let a := x + x in
    let t := a + a in
    let a := t + t in
    a + t.

  (** bls12381/g1.go:625-667 and g2.go:593-635: Add; [m3b] is MulBy3b of the group *)
  Definition bls_add (m3b : F -> F) p q : pt F :=
    let t0 := px p * px q in
    let t1 := py p * py q in
    let t2 := pz p * pz q in
    let t3 := px p + py p in
    let t4 := px q + py q in
    let t3 := t3 * t4 in
    let t4 := t0 + t1 in
    let t3 := t3 - t4 in
    let t4 := py p + pz p in
    let x3 := py q + pz q in
    let t4 := t4 * x3 in
    let x3 := t1 + t2 in
    let t4 := t4 - x3 in
    let x3 := px p + pz p in
    let y3 := px q + pz q in
    let x3 := x3 * y3 in
    let y3 := t0 + t2 in
    let y3 := x3 - y3 in
    let x3 := t0 + t0 in
    let t0 := t0 + x3 in
    let t2 := m3b t2 in
    let z3 := t1 + t2 in
    let t1 := t1 - t2 in
    let y3 := m3b y3 in
    let x3 := t4 * y3 in
    let t2 := t3 * t1 in
    let x3 := t2 - x3 in
    let y3 := y3 * t0 in
    let t1 := t1 * z3 in
    let y3 := t1 + y3 in
    let t0 := t0 * t3 in
    let z3 := z3 * t4 in
    let z3 := z3 + t0 in
    Pt x3 y3 z3.

  (** bls12381/g1.go:677-705 and g2.go:645-673: Double *)
  Definition bls_double (m3b : F -> F) p : pt F :=
    let t0 := py p * py p in
    let z3 := t0 + t0 in
    let z3 := z3 + z3 in
    let z3 := z3 + z3 in
    let t1 := py p * pz p in
    let t2 := pz p * pz p in
    let t2 := m3b t2 in
    let x3 := t2 * z3 in
    let y3 := t0 + t2 in
    let z3 := t1 * z3 in
    let t1 := t2 + t2 in
    let t2 := t2 + t1 in
    let t0 := t0 - t2 in
    let y3 := t0 * y3 in
    let y3 := y3 + x3 in
    let t1 := px p * py p in
    let x3 := t0 * t1 in
    let x3 := x3 + x3 in
    let e := is_identity p in
    Pt (sel e x3 0) (sel e y3 1) (sel e z3 0).

  (** bls12381/g1.go:580-585, g2.go:548-553: Identity; g1.go:760-764, g2.go:741-745: Neg; g1.go:670-674, g2.go:638-642: Sub *)
  Definition bls_id : pt F := Pt 0 1 0.
  Definition bls_neg p : pt F := Pt (px p) (sel (negb (is_identity p)) (py p) (- py p)) (pz p).
  Definition bls_sub (m3b : F -> F) p q : pt F := bls_add m3b p (bls_neg q).
  (** bls12381/g1.go:601-615, g2.go:569-583: IsOnCurve *)
  Definition bls_on_curve b p : bool :=
    let lhs := py p * py p * pz p in
    let rhs := px p * px p * px p in
    let t := pz p * pz p * pz p * b in
    feqb lhs (rhs + t).

  (** native/point.go:294-313, g1.go:713-732, g2.go:681-700, pallas_curve.go:839-858: the windowed multiplication.
      The bytes are little-endian; [window] is the 4-bit digit of bit position 252 - i of the scalar. *)
  Section Mul.
    Variables (add : pt F -> pt F -> pt F) (dbl : pt F -> pt F) (ident : pt F).
    Definition window (bytes : list N) (i : N) : N :=
      N.land (N.shiftr (nth (31 - N.to_nat (N.shiftr i 3)) bytes 0%N) (4 - N.land i 4)) 15.
    (** the precomputed table: entry 2k is the double of entry k, entry 2k+1 adds the point to it *)
    Fixpoint table_fill (n : nat) (a : pt F) (t : list (pt F)) : list (pt F) :=
      match n with
      | O => t
      | S n' =>
          let i := length t in
          let even := dbl (nth (Nat.div2 i) t ident) in
          let odd := add even a in
          table_fill n' a (t ++ [even; odd])
      end.
    Definition table (a : pt F) : list (pt F) := table_fill 7 a [ident; a].
    Definition mul_step (t : list (pt F)) (bytes : list N) (acc : pt F) (k : nat) : pt F :=
      add (dbl (dbl (dbl (dbl acc)))) (nth (N.to_nat (window bytes (4 * N.of_nat k))) t ident).
    Definition point_mul (a : pt F) (bytes : list N) : pt F :=
      fold_left (mul_step (table a) bytes) (seq 0 64) ident.
  End Mul.

  (** bls12381/g1.go:735-748, g2.go:703-716: MulByX; the loop runs over the bits of paramX >> 1 *)
  Definition param_x : positive := 15132376222941642752. (* 0xd201000000010000 *)
  Section MulByX.
    Variables (add : pt F -> pt F -> pt F) (dbl neg : pt F -> pt F) (ident : pt F).
    Fixpoint mulx_loop (x : positive) (t r : pt F) : pt F :=
      let t := dbl t in
      let s := add r t in
      match x with
      | xH => s
      | xO x' => mulx_loop x' t r
      | xI x' => mulx_loop x' t s
      end.
    Definition mul_by_x (a : pt F) : pt F := neg (mulx_loop (Pos.div2 param_x) a ident).
    (** g1.go:753-757: ClearCofactor *)
    Definition clear_cofactor (a : pt F) : pt F := add a (neg (mul_by_x a)).
  End MulByX.

  (** bls12381/bls12381.go:9: fqModulusBytes *)
  Definition fq_modulus_bytes : list N :=
    [1; 0; 0; 0; 255; 255; 255; 255; 254; 91; 254; 255; 2; 164; 189; 83;
     5; 216; 161; 9; 8; 216; 57; 51; 72; 125; 157; 41; 83; 167; 237; 115]%N.
  (** g1.go:708-711, g2.go:676-679 (Mul), g1.go:618-622, g2.go:586-590 (InCorrectSubgroup) *)
  Definition bls_mul (m3b : F -> F) := point_mul (bls_add m3b) (bls_double m3b) bls_id.
  Definition in_correct_subgroup (m3b : F -> F) p : bool := is_identity (bls_mul m3b p fq_modulus_bytes).
  Definition bls_mul_by_x (m3b : F -> F) := mul_by_x (bls_add m3b) (bls_double m3b) bls_neg bls_id.
  Definition bls_clear_cofactor (m3b : F -> F) := clear_cofactor (bls_add m3b) (bls_double m3b) bls_neg bls_id.
  (** g1.go:785-803: SetBigInt, after the reduction of x and y into the field *)
  Definition g1_set (m3b : F -> F) b (x y : F) : option (pt F) :=
    if is_zero x && is_zero y then Some bls_id
    else
      let pp := Pt x y 1 in
      if negb ((bls_on_curve b pp && in_correct_subgroup m3b pp) || (is_zero x && is_zero y)) then None else Some pp.

  (** pallas_curve.go:749-776: Double; [three] and [eight] are the field constants 3 and 8 *)
  Definition three : F := 1 + 1 + 1.
  Definition eight : F := (1 + 1) * (1 + 1) * (1 + 1).
  Definition pallas_double p : pt F :=
    if is_identity p then p
    else
      let a := px p * px p in
      let b := py p * py p in
      let c := b * b in
      let rx := px p + b in
      let ry := rx * rx in
      let rz := ry - a in
      let rx := rz - c in
      let d := rx + rx in
      let e := three * a in
      let f := e * e in
      let ry := d + d in
      let rx := f - ry in
      let ry := d - rx in
      let f := eight * c in
      let rz := e * ry in
      let ry := rz - f in
      let f := py p * pz p in
      let rz := f + f in
      Pt rx ry rz.
  (** pallas_curve.go:785-833: Add *)
  Definition pallas_add p q : pt F :=
    if is_identity p then q
    else if is_identity q then p
    else
      let z1z1 := pz p * pz p in
      let z2z2 := pz q * pz q in
      let u1 := px p * z2z2 in
      let u2 := px q * z1z1 in
      let s1 := py p * z2z2 in
      let s1 := s1 * pz q in
      let s2 := py q * z1z1 in
      let s2 := s2 * pz p in
      if feqb u1 u2 then (if feqb s1 s2 then pallas_double p else native_id)
      else
        let h := u2 - u1 in
        let i := h + h in
        let i := i * i in
        let j := i * h in
        let r := s2 - s1 in
        let r := r + r in
        let v := u1 * i in
        let x3 := r * r in
        let x3 := x3 - j in
        let x3 := x3 - (v + v) in
        let s1 := s1 * j in
        let s1 := s1 + s1 in
        let y3 := r * (v - x3) in
        let y3 := y3 - s1 in
        let z3 := pz p + pz q in
        let z3 := z3 * z3 in
        let z3 := z3 - z1z1 in
        let z3 := z3 - z2z2 in
        let z3 := z3 * h in
        Pt x3 y3 z3.
  (** pallas_curve.go:778-783 (Neg), 835-837 (Sub), 839-858 (Mul) *)
  Definition pallas_neg p : pt F := Pt (px p) (- py p) (pz p).
  Definition pallas_sub p q : pt F := pallas_add p (pallas_neg q).
  Definition pallas_mul := point_mul pallas_add pallas_double native_id.
  (** pallas_curve.go:880-896: toAffine (the identity becomes (0, 0, 1)) *)
  Definition pallas_affine p : pt F :=
    if is_identity p then Pt 0 0 1
    else
      let zInv3 := finv (pz p) in
      let zInv2 := zInv3 * zInv3 in
      let zInv3 := zInv3 * zInv2 in
      Pt (px p * zInv2) (py p * zInv3) 1.
  (** pallas_curve.go:860-870: Equal *)
  Definition pallas_equal p q : bool :=
    let l := pallas_affine p in
    let r := pallas_affine q in
    feqb (px l) (px r) && feqb (py l) (py r).
  (** pallas_curve.go:1006-1021: IsOnCurve; [five] is 5 *)
  Definition five : F := 1 + 1 + 1 + 1 + 1.
  Definition pallas_on_curve p : bool :=
    let z2 := pz p * pz p in
    let z4 := z2 * z2 in
    let z6 := z2 * z4 in
    let x2 := px p * px p in
    let x3 := x2 * px p in
    is_zero (pz p) || feqb (py p * py p) (five * z6 + x3).

  (** native/point.go:280-291: Add and Sub write the receiver before they read the right operand.
      A store maps addresses to points; [d] is the receiver. *)
  Definition store := nat -> pt F.
  Definition write (s : store) (d : nat) (v : pt F) : store := fun k => if Nat.eqb k d then v else s k.
  Definition store_add (add : pt F -> pt F -> pt F) (s : store) (d l r : nat) : store :=
    let s := write s d (s l) in
    write s d (add (s l) (s r)).
  Definition store_sub (add : pt F -> pt F -> pt F) (s : store) (d l r : nat) : store :=
    let s := write s d (s l) in
    write s d (add (s l) (native_neg (s r))).
End Points.
Arguments native_id {F}. Arguments bls_id {F}.
