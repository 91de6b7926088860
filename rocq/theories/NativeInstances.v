(** * The five packages that instantiate native.Field.

    crypto/core/curves/native/{k256/fp/fp.go, k256/fq/fq.go, p256/fp/fp.go,
    p256/fq/fq.go, bls12381/fq.go}: their parameters, their arithmetic records
    and their [Sqrt] and [Invert].  The generated fiat-crypto functions are in
    the Limb*.v files, the addition chains in NativeChains.v.  [sync.Once] is
    not modelled: the parameters are constants.  The code writes results
    through pointers that may alias its arguments; every routine reads its
    arguments into locals before it writes, so the model returns values. *)
From Coq Require Import ZArith List Bool.
From Verif Require Import LimbBase LimbBls LimbK256Fp LimbK256Fq LimbP256Fp LimbP256Fq NativeField NativeChains.
Import ListNotations.
Open Scope Z_scope.

(** k256/fp/fp.go:29-39 [k256FpParamsInit]. *)
Definition k256fp_params : field_params := FP
  (L4 0x00000001000003d1 0x0000000000000000 0x0000000000000000 0x0000000000000000)
  (L4 0x000007a2000e90a1 0x0000000000000001 0x0000000000000000 0x0000000000000000)
  (L4 0x002bb1e33795f671 0x0000000100000b73 0x0000000000000000 0x0000000000000000)
  (L4 0xfffffffefffffc2f 0xffffffffffffffff 0xffffffffffffffff 0xffffffffffffffff)
  0xfffffffffffffffffffffffffffffffffffffffffffffffffffffffefffffc2f.
(** k256/fq/fq.go:29-40 [k256FqParamsInit]. *)
Definition k256fq_params : field_params := FP
  (L4 0x402da1732fc9bebf 0x4551231950b75fc4 0x0000000000000001 0x0000000000000000)
  (L4 0x896cf21467d7d140 0x741496c20e7cf878 0xe697f5e45bcd07c6 0x9d671cd581c69bc5)
  (L4 0x7bc0cfe0e9ff41ed 0x0017648444d4322c 0xb1b31347f1d0b2da 0x555d800c18ef116d)
  (L4 0xbfd25e8cd0364141 0xbaaedce6af48a03b 0xfffffffffffffffe 0xffffffffffffffff)
  0xfffffffffffffffffffffffffffffffebaaedce6af48a03bbfd25e8cd0364141.
(** p256/fp/fp.go:29-40 [p256FpParamsInit]. *)
Definition p256fp_params : field_params := FP
  (L4 0x0000000000000001 0xffffffff00000000 0xffffffffffffffff 0x00000000fffffffe)
  (L4 0x0000000000000003 0xfffffffbffffffff 0xfffffffffffffffe 0x00000004fffffffd)
  (L4 0xfffffffd0000000a 0xffffffedfffffff7 0x00000005fffffffc 0x0000001800000001)
  (L4 0xffffffffffffffff 0x00000000ffffffff 0x0000000000000000 0xffffffff00000001)
  0xffffffff00000001000000000000000000000000ffffffffffffffffffffffff.
(** p256/fq/fq.go:29-40 [p256FqParamsInit]. *)
Definition p256fq_params : field_params := FP
  (L4 0x0c46353d039cdaaf 0x4319055258e8617b 0x0000000000000000 0x00000000ffffffff)
  (L4 0x83244c95be79eea2 0x4699799c49bd6fa6 0x2845b2392b6bec59 0x66e12d94f3d95620)
  (L4 0xac8ebec90b65a624 0x111f28ae0c0555c9 0x2543b9246ba5e93f 0x503a54e76407be65)
  (L4 0xf3b9cac2fc632551 0xbce6faada7179e84 0xffffffffffffffff 0xffffffff00000000)
  0xffffffff00000000ffffffffffffffffbce6faada7179e84f3b9cac2fc632551.
(** bls12381/fq.go:38-48 [bls12381FqParamsInit]. *)
Definition blsfq_params : field_params := FP fq_r fq_r2 fq_r3 fq_params_modulus
  0x73eda753299d7d483339d80809a1d80553bda402fffe5bfeffffffff00000001.

(** The wrapper methods of k256/fp/fp.go:51-83,162-175 [k256FpArithmetic]. *)
Definition k256fp_arith : field_arith := FA
  k256fp_to_montgomery k256fp_from_montgomery k256fp_opp k256fp_square k256fp_mul
  k256fp_add k256fp_sub k256fp_from_bytes k256fp_to_bytes
  (fun arg1 arg2 choice => k256fp_selectznz (to_uint64 choice) arg1 arg2).
(** k256/fq/fq.go:52-84,266-279 [k256FqArithmetic]. *)
Definition k256fq_arith : field_arith := FA
  k256fq_to_montgomery k256fq_from_montgomery k256fq_opp k256fq_square k256fq_mul
  k256fq_add k256fq_sub k256fq_from_bytes k256fq_to_bytes
  (fun arg1 arg2 choice => k256fq_selectznz (to_uint64 choice) arg1 arg2).
(** p256/fp/fp.go:52-84,159-172 [p256FpArithmetic]. *)
Definition p256fp_arith : field_arith := FA
  p256fp_to_montgomery p256fp_from_montgomery p256fp_opp p256fp_square p256fp_mul
  p256fp_add p256fp_sub p256fp_from_bytes p256fp_to_bytes
  (fun arg1 arg2 choice => p256fp_selectznz (to_uint64 choice) arg1 arg2).
(** p256/fq/fq.go:52-84,271-284 [p256FqArithmetic]. *)
Definition p256fq_arith : field_arith := FA
  p256fq_to_montgomery p256fq_from_montgomery p256fq_opp p256fq_square p256fq_mul
  p256fq_add p256fq_sub p256fq_from_bytes p256fq_to_bytes
  (fun arg1 arg2 choice => p256fq_selectznz (to_uint64 choice) arg1 arg2).

(** bls12381/fq.go:60-63 [ToMontgomery], 66-70 [FromMontgomery], 357-362 [FromBytes],
    365-370 [ToBytes], 374-380 [Selectznz]. *)
Definition blsfq_to_mont (arg : limbs4) : limbs4 := fq_mul arg (fp_R2 blsfq_params).
Definition blsfq_from_mont (arg : limbs4) : limbs4 :=
  let '(L4 arg_0 arg_1 arg_2 arg_3) := arg in fq_mont_reduce arg_0 arg_1 arg_2 arg_3 0 0 0 0.
Definition blsfq_from_bytes (arg : list Z) : limbs4 :=
  L4 (get_uint64 (slice 0 8 arg)) (get_uint64 (slice 8 16 arg))
     (get_uint64 (slice 16 24 arg)) (get_uint64 (slice 24 32 arg)).
Definition blsfq_to_bytes (arg : limbs4) : list Z :=
  let '(L4 arg_0 arg_1 arg_2 arg_3) := arg in
  put_uint64 arg_0 ++ put_uint64 arg_1 ++ put_uint64 arg_2 ++ put_uint64 arg_3.
Definition blsfq_selectznz (arg1 arg2 : limbs4) (choice : Z) : limbs4 :=
  let b := to_uint64 (- choice) in fq_select_mask arg1 arg2 b.
(** bls12381/fq.go:55-190 [bls12381FqArithmetic]. *)
Definition blsfq_arith : field_arith := FA
  blsfq_to_mont blsfq_from_mont fq_neg fq_square fq_mul fq_add fq_sub
  blsfq_from_bytes blsfq_to_bytes blsfq_selectznz.

(** Sqrt for p = 3 mod 4 (k256/fp/fp.go:86-103, p256/fp/fp.go:87-103); [out] is the old value at
    the output pointer, [c1] the exponent constant. *)
Definition sqrt_3mod4 (P : field_params) (A : field_arith) (c1 out arg : limbs4) : Z * limbs4 :=
  let s := nf_pow P A arg c1 in
  let t := fa_square A s in
  let wasSquare := equal_helper t arg in
  (wasSquare, fa_selectznz A out s wasSquare).

(** Sqrt by Tonelli-Shanks (k256/fq/fq.go:87-146, p256/fq/fq.go:87-146, bls12381/fq.go:193-253):
    one iteration of the outer loop over (z, t, b, c), with the inner loop j = 1 .. i-2. *)
Definition ts_step (P : field_params) (A : field_arith) (st : limbs4 * limbs4 * limbs4 * limbs4) (i : nat)
  : limbs4 * limbs4 * limbs4 * limbs4 :=
  let '(z, t, b, c) := st in
  let b := square_times A (i - 2) b in
  let flag := - equal_helper b (fp_R P) + 1 in
  let tv := fa_mul A z c in
  let z := fa_selectznz A z tv flag in
  let c := fa_square A c in
  let tv := fa_mul A t c in
  let t := fa_selectznz A t tv flag in
  let b := t in
  (z, t, b, c).
(** for i := s; i >= 2; i-- *)
Definition ts_indices (s : nat) : list nat := rev (seq 2 (s - 1)).
Definition sqrt_ts (P : field_params) (A : field_arith) (s : nat) (c3 c5 out arg : limbs4) : Z * limbs4 :=
  let z := nf_pow P A arg c3 in
  let t := fa_square A z in
  let t := fa_mul A t arg in
  let z := fa_mul A z arg in
  let b := t in
  let c := c5 in
  let '(z, t, b, c) := fold_left (ts_step P A) (ts_indices s) (z, t, b, c) in
  let c := fa_square A z in
  let wasSquare := equal_helper c arg in
  (wasSquare, fa_selectznz A out z wasSquare).

(** The end of every Invert: the flag of the argument, then the selection. *)
Definition invert_with (A : field_arith) (chain : field_arith -> limbs4 -> limbs4) (out arg : limbs4) : Z * limbs4 :=
  let s := chain A arg in
  let wasInverted := nf_is_non_zero arg in
  (wasInverted, fa_selectznz A out s wasInverted).

(** k256/fp/fp.go:86-103 [Sqrt], 106-159 [Invert]. *)
Definition k256fp_sqrt_c1 : limbs4 := L4 0xffffffffbfffff0c 0xffffffffffffffff 0xffffffffffffffff 0x3fffffffffffffff.
Definition k256fp_field : native_field := NF k256fp_params k256fp_arith
  (sqrt_3mod4 k256fp_params k256fp_arith k256fp_sqrt_c1)
  (invert_with k256fp_arith k256fp_inv_chain).

(** k256/fq/fq.go:87-146 [Sqrt], 149-263 [Invert]. *)
Definition k256fq_sqrt_c3 : limbs4 := L4 0x777fa4bd19a06c82 0xfd755db9cd5e9140 0xffffffffffffffff 0x01ffffffffffffff.
Definition k256fq_sqrt_c5 : limbs4 := L4 0x944cf2a220910e04 0x815c829c780589f4 0x55980b07bc222113 0xc702b0d248825b36.
Definition k256fq_field : native_field := NF k256fq_params k256fq_arith
  (sqrt_ts k256fq_params k256fq_arith 6 k256fq_sqrt_c3 k256fq_sqrt_c5)
  (invert_with k256fq_arith k256fq_inv_chain).

(** p256/fp/fp.go:87-103 [Sqrt]; 106-156 [Invert]: its two loops. *)
Definition p256fp_sqrt_c1 : limbs4 := L4 0x0000000000000000 0x0000000040000000 0x4000000000000000 0x3fffffffc0000000.
Fixpoint p256fp_inv_t (A : field_arith) (arg : limbs4) (n : nat) (t : limbs4) : limbs4 :=
  match n with O => t | S n => p256fp_inv_t A arg n (fa_mul A (fa_square A t) arg) end.
Definition p256fp_inv_step (A : field_arith) (arg t : limbs4) (r : limbs4) (i : Z) : limbs4 :=
  let r := fa_square A r in
  if (i =? 0) || (i =? 2) || (i =? 192) || (i =? 224) then fa_mul A r arg
  else if (i =? 3) || (i =? 34) || (i =? 65) then fa_mul A r t
  else r.
Definition p256fp_inv_chain (A : field_arith) (arg : limbs4) : limbs4 :=
  let t := arg in
  let t := p256fp_inv_t A arg 30 t in
  let r := t in
  fold_left (p256fp_inv_step A arg t) (map Z.of_nat (rev (seq 0 225))) r.
Definition p256fp_field : native_field := NF p256fp_params p256fp_arith
  (sqrt_3mod4 p256fp_params p256fp_arith p256fp_sqrt_c1)
  (invert_with p256fp_arith p256fp_inv_chain).

(** p256/fq/fq.go:87-146 [Sqrt], 149-268 [Invert]. *)
Definition p256fq_sqrt_c3 : limbs4 := L4 0x279dce5617e3192a 0xfde737d56d38bcf4 0x07ffffffffffffff 0x07fffffff8000000.
Definition p256fq_sqrt_c5 : limbs4 := L4 0x1015708f7e368fe1 0x31c6c5456ecc4511 0x5281fe8998a19ea1 0x0279089e10c63fe8.
Definition p256fq_field : native_field := NF p256fq_params p256fq_arith
  (sqrt_ts p256fq_params p256fq_arith 4 p256fq_sqrt_c3 p256fq_sqrt_c5)
  (invert_with p256fq_arith p256fq_inv_chain).

(** bls12381/fq.go:193-253 [Sqrt] (c5 is computed from the generator), 256-354 [Invert]. *)
Definition blsfq_sqrt_c2 : limbs4 := L4 0xfffe5bfeffffffff 0x09a1d80553bda402 0x299d7d483339d808 0x0000000073eda753.
Definition blsfq_sqrt_c3 : limbs4 := L4 0x7fff2dff7fffffff 0x04d0ec02a9ded201 0x94cebea4199cec04 0x0000000039f6d3a9.
Definition blsfq_sqrt_c5 : limbs4 := nf_pow blsfq_params blsfq_arith fq_generator blsfq_sqrt_c2.
Definition blsfq_field : native_field := NF blsfq_params blsfq_arith
  (sqrt_ts blsfq_params blsfq_arith 32 blsfq_sqrt_c3 blsfq_sqrt_c5)
  (invert_with blsfq_arith blsfq_inv_chain).
