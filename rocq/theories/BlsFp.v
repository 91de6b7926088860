(** * crypto/core/curves/native/bls12381/fp.go: the methods of the BLS12-381 base field.

    Mul, Square, Add, Sub, Neg, montReduce and the body of CMove are translated
    in LimbBls.v; this file has the rest.  An element is six Montgomery limbs;
    methods return the new receiver, and take its old value [f] where the code
    reads it.  encoding/binary and math/big by contract as in NativeField.v.
    Hash and Random (which hash and read) are not modelled. *)
From Coq Require Import ZArith List Bool.
From Verif Require Import LimbBase LimbBls NativeField.
Import ListNotations.
Open Scope Z_scope.

(** fp.go:60-63 [biModulus]. *)
Definition blsfp_bi_modulus : Z := 0x1a0111ea397fe69a4b1ba7b6434bacd764774b84f38512bf6730d2a0f6b0f6241eabfffeb153ffffb9feffffffffaaab.

(** fp.go:73-81 [IsZero], 84-92 [IsNonZero], 128-136 [Equal], 95-97 [IsOne]. *)
Definition blsfp_is_zero (f : limbs6) : Z :=
  let '(L6 f0 f1 f2 f3 f4 f5) := f in
  let t := f0 in let t := wor t f1 in let t := wor t f2 in let t := wor t f3 in let t := wor t f4 in let t := wor t f5 in
  Z.shiftr (Z.lor (to_int64 t) (to_int64 (wneg t))) 63 + 1.
Definition blsfp_is_non_zero (f : limbs6) : Z :=
  let '(L6 f0 f1 f2 f3 f4 f5) := f in
  let t := f0 in let t := wor t f1 in let t := wor t f2 in let t := wor t f3 in let t := wor t f4 in let t := wor t f5 in
  - Z.shiftr (Z.lor (to_int64 t) (to_int64 (wneg t))) 63.
Definition blsfp_equal (f rhs : limbs6) : Z :=
  let '(L6 f0 f1 f2 f3 f4 f5) := f in
  let '(L6 r0 r1 r2 r3 r4 r5) := rhs in
  let t := wxor f0 r0 in
  let t := wor t (wxor f1 r1) in
  let t := wor t (wxor f2 r2) in
  let t := wor t (wxor f3 r3) in
  let t := wor t (wxor f4 r4) in
  let t := wor t (wxor f5 r5) in
  Z.shiftr (Z.lor (to_int64 t) (to_int64 (wneg t))) 63 + 1.
Definition blsfp_is_one (f : limbs6) : Z := blsfp_equal f fp_r.

(** fp.go:102-125 [Cmp]; the loop body is that of field.go's cmpHelper. *)
Definition blsfp_cmp (f rhs : limbs6) : Z :=
  let '(L6 f0 f1 f2 f3 f4 f5) := f in
  let '(L6 r0 r1 r2 r3 r4 r5) := rhs in
  let s := (0, 0) in
  let s := cmp_limb s f5 r5 in
  let s := cmp_limb s f4 r4 in
  let s := cmp_limb s f3 r3 in
  let s := cmp_limb s f2 r2 in
  let s := cmp_limb s f1 r1 in
  let s := cmp_limb s f0 r0 in
  to_int64 (fst s) - to_int64 (snd s).

(** fp.go:217-220 [toMontgomery], 223-227 [fromMontgomery]. *)
Definition blsfp_to_mont (a : limbs6) : limbs6 := fp_mul a fp_r2.
Definition blsfp_from_mont (a : limbs6) : limbs6 :=
  let '(L6 a0 a1 a2 a3 a4 a5) := a in fp_mont_reduce a0 a1 a2 a3 a4 a5 0 0 0 0 0 0.

(** The borrow of the six-limb subtraction x - y in 145-150 and 471-476. *)
Definition blsfp_borrow (x y : limbs6) : Z :=
  let '(L6 x0 x1 x2 x3 x4 x5) := x in
  let '(L6 y0 y1 y2 y3 y4 y5) := y in
  let '(_, borrow) := sbb x0 y0 0 in
  let '(_, borrow) := sbb x1 y1 borrow in
  let '(_, borrow) := sbb x2 y2 borrow in
  let '(_, borrow) := sbb x3 y3 borrow in
  let '(_, borrow) := sbb x4 y4 borrow in
  let '(_, borrow) := sbb x5 y5 borrow in
  borrow.
(** fp.go:141-153 [LexicographicallyLargest], 156-159 [Sgn0]. *)
Definition blsfp_lex_largest (f : limbs6) : Z :=
  Z.land (blsfp_borrow (blsfp_from_mont f) fp_half_modulus - 1) 1.
Definition blsfp_sgn0 (f : limbs6) : Z :=
  let '(L6 t0 _ _ _ _ _) := blsfp_from_mont f in wand t0 1.

(** fp.go:162-170 [SetOne], 173-181 [SetZero], 184-192 [SetUint64], 549-551 [SetLimbs]. *)
Definition blsfp_one : limbs6 := fp_r.
Definition blsfp_zero : limbs6 := L6 0 0 0 0 0 0.
Definition blsfp_set_uint64 (rhs : Z) : limbs6 := blsfp_to_mont (L6 rhs 0 0 0 0 0).
Definition blsfp_set_limbs (a : limbs6) : limbs6 := blsfp_to_mont a.

(** fp.go:309-311 [Double], 365-372 [MulBy3b]. *)
Definition blsfp_double (a : limbs6) : limbs6 := fp_add a a.
Definition blsfp_mul_by_3b (arg : limbs6) : limbs6 :=
  let a := blsfp_double arg in
  let t := blsfp_double a in
  let a := blsfp_double t in
  let a := fp_add a t in
  a.

(** fp.go:592-601 [CMove], 604-608 [CNeg] (which keeps the old receiver, not [a], when choice is 0). *)
Definition blsfp_cmove (arg1 arg2 : limbs6) (choice : Z) : limbs6 := fp_cmove_mask arg1 arg2 (to_uint64 (- choice)).
Definition blsfp_cneg (f a : limbs6) (choice : Z) : limbs6 := blsfp_cmove f (fp_neg a) choice.

(** fp.go:616-635 [pow]: i = 5 .. 0, j = 63 .. 0; 611-614 [Exp]. *)
Definition blsfp_pow_bit (base : limbs6) (e : Z) (res : limbs6) (j : Z) : limbs6 :=
  let res := fp_square res in
  let tmp := fp_mul res base in
  blsfp_cmove res tmp (Z.land (to_int64 (wshr e j)) 1).
Definition blsfp_pow_limb (base : limbs6) (res : limbs6) (e : Z) : limbs6 := fold_left (blsfp_pow_bit base e) down64 res.
Definition blsfp_pow (base e : limbs6) : limbs6 :=
  let '(L6 e0 e1 e2 e3 e4 e5) := e in
  fold_left (blsfp_pow_limb base) [e5; e4; e3; e2; e1; e0] blsfp_one.
Definition blsfp_exp (base exp : limbs6) : limbs6 := blsfp_pow base (blsfp_from_mont exp).

(** fp.go:420-440 [Sqrt], 442-456 [Invert] (which stores [a] itself when it is zero). *)
Definition blsfp_sqrt_exp : limbs6 :=
  L6 0xee7fbfffffffeaab 0x07aaffffac54ffff 0xd9cc34a83dac3d89 0xd91dd2e13ce144af 0x92c6e9ed90d2eb35 0x0680447a8e5ff9a6.
Definition blsfp_inv_exp : limbs6 :=
  L6 0xb9feffffffffaaa9 0x1eabfffeb153ffff 0x6730d2a0f6b0f624 0x64774b84f38512bf 0x4b1ba7b6434bacd7 0x1a0111ea397fe69a.
Definition blsfp_sqrt (f a : limbs6) : limbs6 * Z :=
  let z := blsfp_pow a blsfp_sqrt_exp in
  let c := fp_square z in
  let wasSquare := blsfp_equal c a in
  (blsfp_cmove f z wasSquare, wasSquare).
Definition blsfp_invert (a : limbs6) : limbs6 * Z :=
  let t := blsfp_pow a blsfp_inv_exp in
  let wasInverted := blsfp_is_non_zero a in
  (blsfp_cmove a t wasInverted, wasInverted).

(** fp.go:460-484 [SetBytes]. *)
Definition blsfp_set_bytes (f : limbs6) (arg : list Z) : limbs6 * Z :=
  let t := L6 (get_uint64 (slice 0 8 arg)) (get_uint64 (slice 8 16 arg)) (get_uint64 (slice 16 24 arg))
              (get_uint64 (slice 24 32 arg)) (get_uint64 (slice 32 40 arg)) (get_uint64 (slice 40 48 arg)) in
  let mask := blsfp_borrow t fp_modulus in
  (blsfp_cmove f (blsfp_to_mont t) mask, mask).
(** fp.go:501-522 [SetBytesWide]. *)
Definition blsfp_set_bytes_wide (a : list Z) : limbs6 :=
  let d0 := L6 (get_uint64 (slice 0 8 a)) (get_uint64 (slice 8 16 a)) (get_uint64 (slice 16 24 a))
               (get_uint64 (slice 24 32 a)) (get_uint64 (slice 32 40 a)) (get_uint64 (slice 40 48 a)) in
  let d1 := L6 (get_uint64 (slice 48 56 a)) (get_uint64 (slice 56 64 a)) (get_uint64 (slice 64 72 a))
               (get_uint64 (slice 72 80 a)) (get_uint64 (slice 80 88 a)) (get_uint64 (slice 88 96 a)) in
  let d0 := fp_mul d0 fp_r2 in
  let d1 := fp_mul d1 fp_r3 in
  fp_add d0 d1.
(** fp.go:526-534 [SetBigInt]. *)
Definition blsfp_set_big_int (f : limbs6) (bi : Z) : limbs6 :=
  let t := bi mod blsfp_bi_modulus in
  let buffer := fill_be 48 t in
  let buffer := reverse_scalar_bytes buffer in
  fst (blsfp_set_bytes f buffer).
(** fp.go:566-576 [Bytes], 579-582 [BigInt], 585-588 [Raw]. *)
Definition blsfp_bytes (f : limbs6) : list Z :=
  let '(L6 t0 t1 t2 t3 t4 t5) := blsfp_from_mont f in
  put_uint64 t0 ++ put_uint64 t1 ++ put_uint64 t2 ++ put_uint64 t3 ++ put_uint64 t4 ++ put_uint64 t5.
Definition blsfp_big_int (f : limbs6) : Z := big_of_bytes (reverse_scalar_bytes (blsfp_bytes f)).
Definition blsfp_raw (f : limbs6) : limbs6 := blsfp_from_mont f.
