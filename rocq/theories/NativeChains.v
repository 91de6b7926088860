(** * GENERATED by tools/gen_limbs.py from crypto/core/curves/native/{k256/fp,k256/fq,p256/fq}/f*.go and
    bls12381/fq.go - do not edit by hand.  The addition chains of [Invert], one [let] per statement;
    [A] is the arithmetic of the same package ([f], or the package functions it wraps). *)
From Coq Require Import ZArith.
From Verif Require Import LimbBase NativeField.

(** k256/fp/fp.go:106-159 [Invert], the addition chain (up to the assignment of *wasInverted). *)
Definition k256fp_inv_chain (A : field_arith) (arg : limbs4) : limbs4 :=
  let x2 := pow2k A arg 1 in
  let x2 := fa_mul A x2 arg in
  let x3 := pow2k A x2 1 in
  let x3 := fa_mul A x3 arg in
  let x6 := pow2k A x3 3 in
  let x6 := fa_mul A x6 x3 in
  let x9 := pow2k A x6 3 in
  let x9 := fa_mul A x9 x3 in
  let x11 := pow2k A x9 2 in
  let x11 := fa_mul A x11 x2 in
  let x22 := pow2k A x11 11 in
  let x22 := fa_mul A x22 x11 in
  let x44 := pow2k A x22 22 in
  let x44 := fa_mul A x44 x22 in
  let x88 := pow2k A x44 44 in
  let x88 := fa_mul A x88 x44 in
  let x176 := pow2k A x88 88 in
  let x176 := fa_mul A x176 x88 in
  let x220 := pow2k A x176 44 in
  let x220 := fa_mul A x220 x44 in
  let x223 := pow2k A x220 3 in
  let x223 := fa_mul A x223 x3 in
  let s := pow2k A x223 23 in
  let s := fa_mul A s x22 in
  let s := pow2k A s 5 in
  let s := fa_mul A s arg in
  let s := pow2k A s 3 in
  let s := fa_mul A s x2 in
  let s := pow2k A s 2 in
  let s := fa_mul A s arg in
  s.

(** k256/fq/fq.go:149-263 [Invert], the addition chain (up to the assignment of *wasInverted). *)
Definition k256fq_inv_chain (A : field_arith) (arg : limbs4) : limbs4 :=
  let x1 := arg in
  let x10 := pow2k A arg 1 in
  let x11 := fa_mul A x10 x1 in
  let x101 := fa_mul A x10 x11 in
  let x111 := fa_mul A x10 x101 in
  let x1001 := fa_mul A x10 x111 in
  let x1011 := fa_mul A x10 x1001 in
  let x1101 := fa_mul A x10 x1011 in
  let x6 := pow2k A x1101 2 in
  let x6 := fa_mul A x6 x1011 in
  let x8 := pow2k A x6 2 in
  let x8 := fa_mul A x8 x11 in
  let x14 := pow2k A x8 6 in
  let x14 := fa_mul A x14 x6 in
  let x28 := pow2k A x14 14 in
  let x28 := fa_mul A x28 x14 in
  let x56 := pow2k A x28 28 in
  let x56 := fa_mul A x56 x28 in
  let tmp := pow2k A x56 56 in
  let tmp := fa_mul A tmp x56 in
  let tmp := pow2k A tmp 14 in
  let tmp := fa_mul A tmp x14 in
  let tmp := pow2k A tmp 3 in
  let tmp := fa_mul A tmp x101 in
  let tmp := pow2k A tmp 4 in
  let tmp := fa_mul A tmp x111 in
  let tmp := pow2k A tmp 4 in
  let tmp := fa_mul A tmp x101 in
  let tmp := pow2k A tmp 5 in
  let tmp := fa_mul A tmp x1011 in
  let tmp := pow2k A tmp 4 in
  let tmp := fa_mul A tmp x1011 in
  let tmp := pow2k A tmp 4 in
  let tmp := fa_mul A tmp x111 in
  let tmp := pow2k A tmp 5 in
  let tmp := fa_mul A tmp x111 in
  let tmp := pow2k A tmp 6 in
  let tmp := fa_mul A tmp x1101 in
  let tmp := pow2k A tmp 4 in
  let tmp := fa_mul A tmp x101 in
  let tmp := pow2k A tmp 3 in
  let tmp := fa_mul A tmp x111 in
  let tmp := pow2k A tmp 5 in
  let tmp := fa_mul A tmp x1001 in
  let tmp := pow2k A tmp 6 in
  let tmp := fa_mul A tmp x101 in
  let tmp := pow2k A tmp 10 in
  let tmp := fa_mul A tmp x111 in
  let tmp := pow2k A tmp 4 in
  let tmp := fa_mul A tmp x111 in
  let tmp := pow2k A tmp 9 in
  let tmp := fa_mul A tmp x8 in
  let tmp := pow2k A tmp 5 in
  let tmp := fa_mul A tmp x1001 in
  let tmp := pow2k A tmp 6 in
  let tmp := fa_mul A tmp x1011 in
  let tmp := pow2k A tmp 4 in
  let tmp := fa_mul A tmp x1101 in
  let tmp := pow2k A tmp 5 in
  let tmp := fa_mul A tmp x11 in
  let tmp := pow2k A tmp 6 in
  let tmp := fa_mul A tmp x1101 in
  let tmp := pow2k A tmp 10 in
  let tmp := fa_mul A tmp x1101 in
  let tmp := pow2k A tmp 4 in
  let tmp := fa_mul A tmp x1001 in
  let tmp := pow2k A tmp 6 in
  let tmp := fa_mul A tmp x1 in
  let tmp := pow2k A tmp 8 in
  let tmp := fa_mul A tmp x6 in
  tmp.

(** p256/fq/fq.go:149-268 [Invert], the addition chain (up to the assignment of *wasInverted). *)
Definition p256fq_inv_chain (A : field_arith) (arg : limbs4) : limbs4 :=
  let x1 := arg in
  let x10 := pow2k A arg 1 in
  let x11 := fa_mul A x10 x1 in
  let x101 := fa_mul A x10 x11 in
  let x111 := fa_mul A x10 x101 in
  let x1010 := pow2k A x101 1 in
  let x1111 := fa_mul A x101 x1010 in
  let x10101 := pow2k A x1010 1 in
  let x10101 := fa_mul A x10101 x1 in
  let x101010 := pow2k A x10101 1 in
  let x101111 := fa_mul A x101 x101010 in
  let x6 := fa_mul A x10101 x101010 in
  let x8 := pow2k A x6 2 in
  let x8 := fa_mul A x8 x11 in
  let x16 := pow2k A x8 8 in
  let x16 := fa_mul A x16 x8 in
  let x32 := pow2k A x16 16 in
  let x32 := fa_mul A x32 x16 in
  let tmp := pow2k A x32 64 in
  let tmp := fa_mul A tmp x32 in
  let tmp := pow2k A tmp 32 in
  let tmp := fa_mul A tmp x32 in
  let tmp := pow2k A tmp 6 in
  let tmp := fa_mul A tmp x101111 in
  let tmp := pow2k A tmp 5 in
  let tmp := fa_mul A tmp x111 in
  let tmp := pow2k A tmp 4 in
  let tmp := fa_mul A tmp x11 in
  let tmp := pow2k A tmp 5 in
  let tmp := fa_mul A tmp x1111 in
  let tmp := pow2k A tmp 5 in
  let tmp := fa_mul A tmp x10101 in
  let tmp := pow2k A tmp 4 in
  let tmp := fa_mul A tmp x101 in
  let tmp := pow2k A tmp 3 in
  let tmp := fa_mul A tmp x101 in
  let tmp := pow2k A tmp 3 in
  let tmp := fa_mul A tmp x101 in
  let tmp := pow2k A tmp 5 in
  let tmp := fa_mul A tmp x111 in
  let tmp := pow2k A tmp 9 in
  let tmp := fa_mul A tmp x101111 in
  let tmp := pow2k A tmp 6 in
  let tmp := fa_mul A tmp x1111 in
  let tmp := pow2k A tmp 2 in
  let tmp := fa_mul A tmp x1 in
  let tmp := pow2k A tmp 5 in
  let tmp := fa_mul A tmp x1 in
  let tmp := pow2k A tmp 6 in
  let tmp := fa_mul A tmp x1111 in
  let tmp := pow2k A tmp 5 in
  let tmp := fa_mul A tmp x111 in
  let tmp := pow2k A tmp 4 in
  let tmp := fa_mul A tmp x111 in
  let tmp := pow2k A tmp 5 in
  let tmp := fa_mul A tmp x111 in
  let tmp := pow2k A tmp 5 in
  let tmp := fa_mul A tmp x101 in
  let tmp := pow2k A tmp 3 in
  let tmp := fa_mul A tmp x11 in
  let tmp := pow2k A tmp 10 in
  let tmp := fa_mul A tmp x101111 in
  let tmp := pow2k A tmp 2 in
  let tmp := fa_mul A tmp x11 in
  let tmp := pow2k A tmp 5 in
  let tmp := fa_mul A tmp x11 in
  let tmp := pow2k A tmp 5 in
  let tmp := fa_mul A tmp x11 in
  let tmp := pow2k A tmp 3 in
  let tmp := fa_mul A tmp x1 in
  let tmp := pow2k A tmp 7 in
  let tmp := fa_mul A tmp x10101 in
  let tmp := pow2k A tmp 6 in
  let tmp := fa_mul A tmp x1111 in
  tmp.

(** bls12381/fq.go:256-354 [Invert], the addition chain (up to the assignment of *wasInverted). *)
Definition blsfq_inv_chain (A : field_arith) (arg : limbs4) : limbs4 :=
  let t0 := fa_square A arg in
  let t1 := fa_mul A t0 arg in
  let t16 := fa_square A t0 in
  let t6 := fa_square A t16 in
  let t5 := fa_mul A t6 t0 in
  let t0 := fa_mul A t6 t16 in
  let t12 := fa_mul A t5 t16 in
  let t2 := fa_square A t6 in
  let t7 := fa_mul A t5 t6 in
  let t15 := fa_mul A t0 t5 in
  let t17 := fa_square A t12 in
  let t1 := fa_mul A t1 t17 in
  let t3 := fa_mul A t7 t2 in
  let t8 := fa_mul A t1 t17 in
  let t4 := fa_mul A t8 t2 in
  let t9 := fa_mul A t8 t7 in
  let t7 := fa_mul A t4 t5 in
  let t11 := fa_mul A t4 t17 in
  let t5 := fa_mul A t9 t17 in
  let t14 := fa_mul A t7 t15 in
  let t13 := fa_mul A t11 t12 in
  let t12 := fa_mul A t11 t17 in
  let t15 := fa_mul A t15 t12 in
  let t16 := fa_mul A t16 t15 in
  let t3 := fa_mul A t3 t16 in
  let t17 := fa_mul A t17 t3 in
  let t0 := fa_mul A t0 t17 in
  let t6 := fa_mul A t6 t0 in
  let t2 := fa_mul A t2 t6 in
  let t0 := pow2k A t0 8 in
  let t0 := fa_mul A t0 t17 in
  let t0 := pow2k A t0 9 in
  let t0 := fa_mul A t0 t16 in
  let t0 := pow2k A t0 9 in
  let t0 := fa_mul A t0 t15 in
  let t0 := pow2k A t0 9 in
  let t0 := fa_mul A t0 t15 in
  let t0 := pow2k A t0 7 in
  let t0 := fa_mul A t0 t14 in
  let t0 := pow2k A t0 7 in
  let t0 := fa_mul A t0 t13 in
  let t0 := pow2k A t0 10 in
  let t0 := fa_mul A t0 t12 in
  let t0 := pow2k A t0 9 in
  let t0 := fa_mul A t0 t11 in
  let t0 := pow2k A t0 8 in
  let t0 := fa_mul A t0 t8 in
  let t0 := pow2k A t0 8 in
  let t0 := fa_mul A t0 arg in
  let t0 := pow2k A t0 14 in
  let t0 := fa_mul A t0 t9 in
  let t0 := pow2k A t0 10 in
  let t0 := fa_mul A t0 t8 in
  let t0 := pow2k A t0 15 in
  let t0 := fa_mul A t0 t7 in
  let t0 := pow2k A t0 10 in
  let t0 := fa_mul A t0 t6 in
  let t0 := pow2k A t0 8 in
  let t0 := fa_mul A t0 t5 in
  let t0 := pow2k A t0 16 in
  let t0 := fa_mul A t0 t3 in
  let t0 := pow2k A t0 8 in
  let t0 := fa_mul A t0 t2 in
  let t0 := pow2k A t0 7 in
  let t0 := fa_mul A t0 t4 in
  let t0 := pow2k A t0 9 in
  let t0 := fa_mul A t0 t2 in
  let t0 := pow2k A t0 8 in
  let t0 := fa_mul A t0 t3 in
  let t0 := pow2k A t0 8 in
  let t0 := fa_mul A t0 t2 in
  let t0 := pow2k A t0 8 in
  let t0 := fa_mul A t0 t2 in
  let t0 := pow2k A t0 8 in
  let t0 := fa_mul A t0 t2 in
  let t0 := pow2k A t0 8 in
  let t0 := fa_mul A t0 t3 in
  let t0 := pow2k A t0 8 in
  let t0 := fa_mul A t0 t2 in
  let t0 := pow2k A t0 8 in
  let t0 := fa_mul A t0 t2 in
  let t0 := pow2k A t0 5 in
  let t0 := fa_mul A t0 t1 in
  let t0 := pow2k A t0 5 in
  let t0 := fa_mul A t0 t1 in
  t0.
