(** The generators of BLS12-381 G1 and G2 and the endomorphism-based cofactor clearing of G2
    (crypto/core/curves/native/bls12381/g1.go, g2.go). *)
From Coq Require Import ZArith NArith List Bool.
From Verif Require Import EcField EcSpec PointModel PointSpec LimbBase LimbField LimbBls TowerModel TowerSpec TowerField TowerBls TowerInst.
Import ListNotations.
Set Implicit Arguments.
Unset Strict Implicit.
Local Open Scope fld_scope.

Section G2.
  Variable F : field.
  Hypothesis N1 : forall x : F, x * x <> fopp f1.
  Local Notation K := (Fp2 N1).
  Variables (m3b : K -> K) (psiCoeffX psiCoeffY psi2CoeffX : fp2 F).
  (** g2.go:1027-1039 [psi] *)
  Definition g2_psi (a : pt K) : pt K :=
    let x := fp2_frobenius (PointModel.px a) in
    let y := fp2_frobenius (PointModel.py a) in
    let z := fp2_frobenius (pz a) in
    let x := fp2_mul x psiCoeffX in
    let y := fp2_mul y psiCoeffY in
    Pt (F := K) x y z.
  (** g2.go:1041-1048 [psi2] *)
  Definition g2_psi2 (a : pt K) : pt K :=
    Pt (F := K) (fp2_mul (PointModel.px a) psi2CoeffX) (fp2_neg (PointModel.py a)) (pz a).
  (** g2.go:721-738 [ClearCofactor] *)
  Definition g2_clear_cofactor (a : pt K) : pt K :=
    let t1 := bls_mul_by_x m3b a in
    let t2 := g2_psi a in
    let p := bls_double m3b a in
    let p := g2_psi2 p in
    let t3 := bls_add m3b t1 t2 in
    let t3 := bls_mul_by_x m3b t3 in
    let p := bls_add m3b p t3 in
    let p := bls_sub m3b p t1 in
    let p := bls_sub m3b p t2 in
    bls_sub m3b p a.
End G2.

Local Open Scope Z_scope.
(** g2.go:451-461 [psiCoeffX] *)
Definition bls_psi_x : fp2 BlsFp := Quad f0 (bls_const (L6 0x890dc9e4867545c3 0x2af322533285a5d5 0x50880866309b7e2c 0xa20d1b8c7e881024 0x14e4f04fe2db9068 0x14e56d3f1564853a)).
(** g2.go:462-480 [psiCoeffY] *)
Definition bls_psi_y : fp2 BlsFp := Quad
  (bls_const (L6 0x3e2f585da55c9ad1 0x4294213d86c18183 0x382844c88b623732 0x92ad2afd19103e18 0x1d794e4fac7cf0b9 0x0bd592fc7d825ec8))
  (bls_const (L6 0x7bcfa7a25aa30fda 0xdc17dec12a927e7c 0x2f088dd86b4ebef1 0xd1ca2087da74d4a7 0x2da2596696cebc1d 0x0e2b7eedbbfd87d2)).
(** g2.go:482-493 [psi2CoeffX] *)
Definition bls_psi2_x : fp2 BlsFp := Quad (bls_const (L6 0xcd03c9e48671f071 0x5dab22461fcda5d2 0x587042afd3851b95 0x8eb60ebe01bacb9e 0x03f97d6e83d050d2 0x18f0206554638741)) f0.
(** g2.go:556-561 [Generator] *)
Definition bls_g2_point : pt Bls2 := Pt (F := Bls2) (jx bls_g2_gen) (jy bls_g2_gen) f1.
(** g1.go:15-30 [g1x], [g1y], 588-593 [Generator] *)
Definition bls_g1_point : pt BlsFp := Pt
  (bls_const (L6 0x5cb38790fd530c16 0x7817fc679976fff5 0x154f95c7143ba1c1 0xf0ae6acdf3d0e747 0xedce6ecc21dbf440 0x120177419e0bfb75))
  (bls_const (L6 0xbaac93d50ce72271 0x8c22631a7918fd8e 0xdd595f13570725ce 0x51ac582950405194 0x0e1c8c3fad0059c0 0x0bbc3efc5008a26a)) f1.
(** g1.go:31-38 [curveG1B] *)
Definition bls_b1 : BlsFp := bls_const (L6 0xaa270000000cfff3 0x53cc0032fc34000a 0x478fe97a6b0a807f 0xb1d37ebee6ba24d7 0x8ec9733bbf78ab2f 0x09d645513d83de7e).
(** fp.go:364-372 [MulBy3b] *)
Definition g1_m3b (x : BlsFp) : BlsFp := mul12 x.
