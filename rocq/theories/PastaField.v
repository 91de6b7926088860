(** * crypto/core/curves/native/pasta/{fp/fp.go, fq/fq.go}: the two Pasta fields.

    The two files are the same code over different constants; line numbers are
    those of fp/fp.go, those of fq/fq.go follow after a slash.  Elements are
    four Montgomery limbs; methods return the new value of the receiver, and
    take its old value as first argument where they may leave it unchanged.
    The generated fiat-crypto functions are in LimbPastaFp.v and LimbPastaFq.v,
    encoding/binary and math/big are by contract as in NativeField.v. *)
From Coq Require Import ZArith List Bool.
From Verif Require Import LimbBase LimbPastaFp LimbPastaFq NativeField.
Import ListNotations.
Open Scope Z_scope.

(** fp.go:19-43 / fq.go:19-43: r, r2, r3, modulus, biModulus. *)
Definition pastafp_params : field_params := FP
  (L4 0x34786d38fffffffd 0x992c350be41914ad 0xffffffffffffffff 0x3fffffffffffffff)
  (L4 0x8c78ecb30000000f 0xd7d30dbd8b0de0e7 0x7797a99bc3c95d18 0x096d41af7b9cb714)
  (L4 0xf185a5993a9e10f9 0xf6a68f3b6ac5b1d1 0xdf8d1014353fd42c 0x2ae309222d2d9910)
  (L4 0x992d30ed00000001 0x224698fc094cf91b 0x0000000000000000 0x4000000000000000)
  0x40000000000000000000000000000000224698fc094cf91b992d30ed00000001.
Definition pastafq_params : field_params := FP
  (L4 0x5b2b3e9cfffffffd 0x992c350be3420567 0xffffffffffffffff 0x3fffffffffffffff)
  (L4 0xfc9678ff0000000f 0x67bb433d891a16e3 0x7fae231004ccf590 0x096d41af7ccfdaa9)
  (L4 0x008b421c249dae4c 0xe13bda50dba41326 0x88fececb8e15cb63 0x07dd97a06e6792c8)
  (L4 0x8c46eb2100000001 0x224698fc0994a8dd 0x0000000000000000 0x4000000000000000)
  0x40000000000000000000000000000000224698fc0994a8dd8c46eb2100000001.
(** The generated functions each file calls; CMove (357-362 / 351-356) converts its int choice. *)
Definition pastafp_arith : field_arith := FA
  pastafp_to_montgomery pastafp_from_montgomery pastafp_opp pastafp_square pastafp_mul
  pastafp_add pastafp_sub pastafp_from_bytes pastafp_to_bytes
  (fun lhs rhs choice => pastafp_selectznz (to_uint64 choice) lhs rhs).
Definition pastafq_arith : field_arith := FA
  pastafq_to_montgomery pastafq_from_montgomery pastafq_opp pastafq_square pastafq_mul
  pastafq_add pastafq_sub pastafq_from_bytes pastafq_to_bytes
  (fun lhs rhs choice => pastafq_selectznz (to_uint64 choice) lhs rhs).

(** The constants inside tonelliShanks (c3, c5) and Invert (exp), with the package's s = 32. *)
Record pasta_field := PF {
  pf_params : field_params; pf_arith : field_arith; pf_s : nat; pf_c3 : limbs4; pf_c5 : limbs4; pf_inv_exp : limbs4 }.
Definition pastafp_field : pasta_field := PF pastafp_params pastafp_arith 32
  (L4 0x04a67c8dcc969876 0x0000000011234c7e 0x0000000000000000 0x0000000020000000)
  (L4 0xa28db849bad6dbf0 0x9083cd03d3b539df 0xfba6b9ca9dc8448e 0x3ec928747b89c6da)
  (L4 0x992d30ecffffffff 0x224698fc094cf91b 0x0000000000000000 0x4000000000000000).
Definition pastafq_field : pasta_field := PF pastafq_params pastafq_arith 32
  (L4 0x04ca546ec6237590 0x0000000011234c7e 0x0000000000000000 0x0000000020000000)
  (L4 0x218077428c9942de 0xcc49578921b60494 0xac2e5d27b2efbee2 0x0b79fa897f2db056)
  (L4 0x8c46eb20ffffffff 0x224698fc0994a8dd 0x0000000000000000 0x4000000000000000).

(** fp.go:48-56 / fq.go:48-56 [Cmp]: one iteration, then i = 3 .. 0.  gt and lt are ints that are 0 or 1. *)
Definition pasta_cmp_limb (s : Z * Z) (fp rhs : Z) : Z * Z :=
  let '(gt, lt) := s in
  let gt := wor gt (wandnot (wshr (wsub rhs fp) 63) lt) in
  let lt := wor lt (wandnot (wshr (wsub fp rhs) 63) gt) in
  (gt, lt).
Definition pasta_cmp (fp rhs : limbs4) : Z :=
  let '(L4 f0 f1 f2 f3) := fp in
  let '(L4 r0 r1 r2 r3) := rhs in
  let s := (0, 0) in
  let s := pasta_cmp_limb s f3 r3 in
  let s := pasta_cmp_limb s f2 r2 in
  let s := pasta_cmp_limb s f1 r1 in
  let s := pasta_cmp_limb s f0 r0 in
  fst s - snd s.
(** fp.go:59-65 [Equal], 68-74 [IsZero] / same lines. *)
Definition pasta_equal (fp rhs : limbs4) : bool :=
  let '(L4 f0 f1 f2 f3) := fp in
  let '(L4 r0 r1 r2 r3) := rhs in
  let t := wxor f0 r0 in
  let t := wor t (wxor f1 r1) in
  let t := wor t (wxor f2 r2) in
  let t := wor t (wxor f3 r3) in
  t =? 0.
Definition pasta_is_zero (fp : limbs4) : bool :=
  let '(L4 f0 f1 f2 f3) := fp in
  let t := f0 in let t := wor t f1 in let t := wor t f2 in let t := wor t f3 in
  t =? 0.

Section Methods.
  Variable F : pasta_field.
  Let P := pf_params F.
  Let A := pf_arith F.

  (** fp.go:77-79 [IsOne], 81-85 [IsOdd] (fp only). *)
  Definition pasta_is_one (fp : limbs4) : bool := pasta_equal fp (fp_R P).
  Definition pasta_is_odd (fp : limbs4) : bool :=
    let '(L4 tv_0 _ _ _) := fa_from_mont A fp in wand tv_0 1 =? 1.

  (** fp.go:97-101 [SetUint64], 103-110 [SetBool], 113-115 [SetOne], 118-124 [SetZero]. *)
  Definition pasta_set_uint64 (rhs : Z) : limbs4 := fa_to_mont A (L4 rhs 0 0 0).
  Definition pasta_one : limbs4 := fp_R P.
  Definition pasta_zero : limbs4 := L4 0 0 0 0.
  Definition pasta_set_bool (rhs : bool) : limbs4 := if rhs then pasta_one else pasta_zero.

  (** fp.go:141-162 [SetBytesWide]. *)
  Definition pasta_set_bytes_wide (input : list Z) : limbs4 :=
    let d0 := L4 (get_uint64 (slice 0 8 input)) (get_uint64 (slice 8 16 input))
                 (get_uint64 (slice 16 24 input)) (get_uint64 (slice 24 32 input)) in
    let d1 := L4 (get_uint64 (slice 32 40 input)) (get_uint64 (slice 40 48 input))
                 (get_uint64 (slice 48 56 input)) (get_uint64 (slice 56 64 input)) in
    let tv1 := fa_mul A d0 (fp_R2 P) in
    let tv2 := fa_mul A d1 (fp_R3 P) in
    fa_add A tv1 tv2.

  (** fp.go:166-179 [SetBytes]. *)
  Definition pasta_set_bytes (input : list Z) : option limbs4 :=
    let d0 := L4 (get_uint64 (slice 0 8 input)) (get_uint64 (slice 8 16 input))
                 (get_uint64 (slice 16 24 input)) (get_uint64 (slice 24 32 input)) in
    if negb (pasta_cmp d0 (fp_Modulus P) =? -1) then None
    else Some (fa_to_mont A (fa_from_bytes A input)).

  (** fp.go:183-191 [SetBigInt]; the error of SetBytes is dropped and [fp] stays as it was. *)
  Definition pasta_set_big_int (fp : limbs4) (bi : Z) : limbs4 :=
    let r := bi mod (fp_BiModulus P) in
    let buffer := fill_be 32 r in
    let buffer := reverse_scalar_bytes buffer in
    match pasta_set_bytes buffer with Some x => x | None => fp end.

  (** fp.go:194-197 [SetRaw], 201-207 [Bytes], 210-213 [BigInt], 365-369 [ToRaw]. *)
  Definition pasta_set_raw (array : limbs4) : limbs4 := fa_to_mont A array.
  Definition pasta_bytes (fp : limbs4) : list Z := fa_to_bytes A (fa_from_mont A fp).
  Definition pasta_big_int (fp : limbs4) : Z := big_of_bytes (reverse_scalar_bytes (pasta_bytes fp)).
  Definition pasta_to_raw (fp : limbs4) : limbs4 := fa_from_mont A fp.

  (** fp.go:216-220 [Double], 223-227 [Square], 302-307 [Mul], 310-315 [Sub], 318-323 [Add], 326-330 [Neg], 357-362 [CMove]. *)
  Definition pasta_double (elem : limbs4) : limbs4 := fa_add A elem elem.
  Definition pasta_square (elem : limbs4) : limbs4 := fa_square A elem.
  Definition pasta_mul (lhs rhs : limbs4) : limbs4 := fa_mul A lhs rhs.
  Definition pasta_sub (lhs rhs : limbs4) : limbs4 := fa_sub A lhs rhs.
  Definition pasta_add (lhs rhs : limbs4) : limbs4 := fa_add A lhs rhs.
  Definition pasta_neg (elem : limbs4) : limbs4 := fa_neg A elem.
  Definition pasta_cmove (lhs rhs : limbs4) (choice : Z) : limbs4 := fa_selectznz A lhs rhs choice.

  (** fp.go:342-354 [pow]: the loops of field.go's Pow. *)
  Definition pasta_pow (base exp : limbs4) : limbs4 := nf_pow P A base exp.
  (** fp.go:333-340 [Exp], 290-299 [Invert]. *)
  Definition pasta_exp (base exp : limbs4) : limbs4 := pasta_pow base (fa_from_mont A exp).
  Definition pasta_invert (elem : limbs4) : limbs4 * bool := (pasta_pow elem (pf_inv_exp F), negb (pasta_is_zero elem)).

  (** fp.go:237-286 [tonelliShanks], 231-233 [Sqrt]. *)
  Definition pasta_flag (b : bool) : Z := if b then 1 else 0.
  Definition pasta_ts_step (st : limbs4 * limbs4 * limbs4 * limbs4) (i : nat) : limbs4 * limbs4 * limbs4 * limbs4 :=
    let '(z, t, b, c) := st in
    let b := square_times A (i - 2) b in
    let z := pasta_cmove z (pasta_mul z c) (pasta_flag (negb (pasta_is_one b))) in
    let c := pasta_square c in
    let t := pasta_cmove t (pasta_mul t c) (pasta_flag (negb (pasta_is_one b))) in
    let b := t in
    (z, t, b, c).
  Definition pasta_sqrt (elem : limbs4) : limbs4 * bool :=
    let z := pasta_pow elem (pf_c3 F) in
    let t := pasta_square z in
    let t := pasta_mul t elem in
    let z := pasta_mul z elem in
    let b := t in
    let c := pf_c5 F in
    let '(z, t, b, c) := fold_left pasta_ts_step (rev (seq 2 (pf_s F - 1))) (z, t, b, c) in
    let wasSquare := pasta_equal (pasta_square z) elem in
    (z, wasSquare).
End Methods.
