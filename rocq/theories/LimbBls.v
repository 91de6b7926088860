(** * GENERATED by tools/gen_limbs.py from
    crypto/core/curves/native/bls12381/{fp,fq}.go - do not edit by hand.

    Straight-line limb code of the BLS12-381 base field (fp, six limbs) and
    scalar field (Fq, four limbs).  One [let] per Go statement; the only
    simplification is that the methods return the new limbs instead of
    writing them through the receiver/out pointer after the last read. *)
From Coq Require Import ZArith.
From Verif Require Import LimbBase.
Open Scope Z_scope.

(** bls12381/fp.go:17 [modulus]. *)
Definition fp_modulus_0 : Z := 13402431016077863595.
Definition fp_modulus_1 : Z := 2210141511517208575.
Definition fp_modulus_2 : Z := 7435674573564081700.
Definition fp_modulus_3 : Z := 7239337960414712511.
Definition fp_modulus_4 : Z := 5412103778470702295.
Definition fp_modulus_5 : Z := 1873798617647539866.
Definition fp_modulus : limbs6 := L6 fp_modulus_0 fp_modulus_1 fp_modulus_2 fp_modulus_3 fp_modulus_4 fp_modulus_5.

(** bls12381/fp.go:25 [halfModulus]. *)
Definition fp_half_modulus_0 : Z := 15924587544893707606.
Definition fp_half_modulus_1 : Z := 1105070755758604287.
Definition fp_half_modulus_2 : Z := 12941209323636816658.
Definition fp_half_modulus_3 : Z := 12843041017062132063.
Definition fp_half_modulus_4 : Z := 2706051889235351147.
Definition fp_half_modulus_5 : Z := 936899308823769933.
Definition fp_half_modulus : limbs6 := L6 fp_half_modulus_0 fp_half_modulus_1 fp_half_modulus_2 fp_half_modulus_3 fp_half_modulus_4 fp_half_modulus_5.

(** bls12381/fp.go:34 [r]. *)
Definition fp_r_0 : Z := 8505329371266088957.
Definition fp_r_1 : Z := 17002214543764226050.
Definition fp_r_2 : Z := 6865905132761471162.
Definition fp_r_3 : Z := 8632934651105793861.
Definition fp_r_4 : Z := 6631298214892334189.
Definition fp_r_5 : Z := 1582556514881692819.
Definition fp_r : limbs6 := L6 fp_r_0 fp_r_1 fp_r_2 fp_r_3 fp_r_4 fp_r_5.

(** bls12381/fp.go:43 [r2]. *)
Definition fp_r2_0 : Z := 17644856173732828998.
Definition fp_r2_1 : Z := 754043588434789617.
Definition fp_r2_2 : Z := 10224657059481499349.
Definition fp_r2_3 : Z := 7488229067341005760.
Definition fp_r2_4 : Z := 11130996698012816685.
Definition fp_r2_5 : Z := 1267921511277847466.
Definition fp_r2 : limbs6 := L6 fp_r2_0 fp_r2_1 fp_r2_2 fp_r2_3 fp_r2_4 fp_r2_5.

(** bls12381/fp.go:52 [r3]. *)
Definition fp_r3_0 : Z := 17098105564519244256.
Definition fp_r3_1 : Z := 3557706395579559416.
Definition fp_r3_2 : Z := 11120290361046346205.
Definition fp_r3_3 : Z := 3801124253586036577.
Definition fp_r3_4 : Z := 2671430854784468776.
Definition fp_r3_5 : Z := 767358375875140941.
Definition fp_r3 : limbs6 := L6 fp_r3_0 fp_r3_1 fp_r3_2 fp_r3_3 fp_r3_4 fp_r3_5.

(** bls12381/fp.go:68 [inv]. *)
Definition fp_inv : Z := 9940570264628428797.

(** bls12381/fp.go:392-417 [Sub]. *)
Definition fp_sub (arg1 arg2 : limbs6) : limbs6 :=
  let '(L6 arg1_0 arg1_1 arg1_2 arg1_3 arg1_4 arg1_5) := arg1 in
  let '(L6 arg2_0 arg2_1 arg2_2 arg2_3 arg2_4 arg2_5) := arg2 in
  let '(d0, borrow) := sbb arg1_0 arg2_0 0 in
  let '(d1, borrow) := sbb arg1_1 arg2_1 borrow in
  let '(d2, borrow) := sbb arg1_2 arg2_2 borrow in
  let '(d3, borrow) := sbb arg1_3 arg2_3 borrow in
  let '(d4, borrow) := sbb arg1_4 arg2_4 borrow in
  let '(d5, borrow) := sbb arg1_5 arg2_5 borrow in
  let borrow := (wneg borrow) in
  let '(d0, carry) := adc d0 (wand fp_modulus_0 borrow) 0 in
  let '(d1, carry) := adc d1 (wand fp_modulus_1 borrow) carry in
  let '(d2, carry) := adc d2 (wand fp_modulus_2 borrow) carry in
  let '(d3, carry) := adc d3 (wand fp_modulus_3 borrow) carry in
  let '(d4, carry) := adc d4 (wand fp_modulus_4 borrow) carry in
  let '(d5, _) := adc d5 (wand fp_modulus_5 borrow) carry in
  L6 d0 d1 d2 d3 d4 d5.

(** bls12381/fp.go:375-389 [Add]. *)
Definition fp_add (arg1 arg2 : limbs6) : limbs6 :=
  let '(L6 arg1_0 arg1_1 arg1_2 arg1_3 arg1_4 arg1_5) := arg1 in
  let '(L6 arg2_0 arg2_1 arg2_2 arg2_3 arg2_4 arg2_5) := arg2 in
  let '(t_0, carry) := adc arg1_0 arg2_0 0 in
  let '(t_1, carry) := adc arg1_1 arg2_1 carry in
  let '(t_2, carry) := adc arg1_2 arg2_2 carry in
  let '(t_3, carry) := adc arg1_3 arg2_3 carry in
  let '(t_4, carry) := adc arg1_4 arg2_4 carry in
  let '(t_5, _) := adc arg1_5 arg2_5 carry in
  fp_sub (L6 t_0 t_1 t_2 t_3 t_4 t_5) fp_modulus.

(** bls12381/fp.go:230-253 [Neg]. *)
Definition fp_neg (a : limbs6) : limbs6 :=
  let '(L6 a_0 a_1 a_2 a_3 a_4 a_5) := a in
  let '(t_0, borrow) := sbb fp_modulus_0 a_0 0 in
  let '(t_1, borrow) := sbb fp_modulus_1 a_1 borrow in
  let '(t_2, borrow) := sbb fp_modulus_2 a_2 borrow in
  let '(t_3, borrow) := sbb fp_modulus_3 a_3 borrow in
  let '(t_4, borrow) := sbb fp_modulus_4 a_4 borrow in
  let '(t_5, _) := sbb fp_modulus_5 a_5 borrow in
  let mask := (wor (wor (wor (wor (wor a_0 a_1) a_2) a_3) a_4) a_5) in
  let mask := (wneg (wshr (wor mask (wneg mask)) 63)) in
  let f_0 := (wand t_0 mask) in
  let f_1 := (wand t_1 mask) in
  let f_2 := (wand t_2 mask) in
  let f_3 := (wand t_3 mask) in
  let f_4 := (wand t_4 mask) in
  let f_5 := (wand t_5 mask) in
  L6 f_0 f_1 f_2 f_3 f_4 f_5.

(** bls12381/fp.go:637-697 [montReduce]. *)
Definition fp_mont_reduce (r_0 r_1 r_2 r_3 r_4 r_5 r_6 r_7 r_8 r_9 r_10 r_11 : Z) : limbs6 :=
  let k := (wmul r_0 fp_inv) in
  let '(_, carry) := mac r_0 k fp_modulus_0 0 in
  let '(r1, carry) := mac r_1 k fp_modulus_1 carry in
  let '(r2, carry) := mac r_2 k fp_modulus_2 carry in
  let '(r3, carry) := mac r_3 k fp_modulus_3 carry in
  let '(r4, carry) := mac r_4 k fp_modulus_4 carry in
  let '(r5, carry) := mac r_5 k fp_modulus_5 carry in
  let '(r6, r7) := adc r_6 0 carry in
  let k := (wmul r1 fp_inv) in
  let '(_, carry) := mac r1 k fp_modulus_0 0 in
  let '(r2, carry) := mac r2 k fp_modulus_1 carry in
  let '(r3, carry) := mac r3 k fp_modulus_2 carry in
  let '(r4, carry) := mac r4 k fp_modulus_3 carry in
  let '(r5, carry) := mac r5 k fp_modulus_4 carry in
  let '(r6, carry) := mac r6 k fp_modulus_5 carry in
  let '(r7, r8) := adc r7 r_7 carry in
  let k := (wmul r2 fp_inv) in
  let '(_, carry) := mac r2 k fp_modulus_0 0 in
  let '(r3, carry) := mac r3 k fp_modulus_1 carry in
  let '(r4, carry) := mac r4 k fp_modulus_2 carry in
  let '(r5, carry) := mac r5 k fp_modulus_3 carry in
  let '(r6, carry) := mac r6 k fp_modulus_4 carry in
  let '(r7, carry) := mac r7 k fp_modulus_5 carry in
  let '(r8, r9) := adc r8 r_8 carry in
  let k := (wmul r3 fp_inv) in
  let '(_, carry) := mac r3 k fp_modulus_0 0 in
  let '(r4, carry) := mac r4 k fp_modulus_1 carry in
  let '(r5, carry) := mac r5 k fp_modulus_2 carry in
  let '(r6, carry) := mac r6 k fp_modulus_3 carry in
  let '(r7, carry) := mac r7 k fp_modulus_4 carry in
  let '(r8, carry) := mac r8 k fp_modulus_5 carry in
  let '(r9, r10) := adc r9 r_9 carry in
  let k := (wmul r4 fp_inv) in
  let '(_, carry) := mac r4 k fp_modulus_0 0 in
  let '(r5, carry) := mac r5 k fp_modulus_1 carry in
  let '(r6, carry) := mac r6 k fp_modulus_2 carry in
  let '(r7, carry) := mac r7 k fp_modulus_3 carry in
  let '(r8, carry) := mac r8 k fp_modulus_4 carry in
  let '(r9, carry) := mac r9 k fp_modulus_5 carry in
  let '(r10, r11) := adc r10 r_10 carry in
  let k := (wmul r5 fp_inv) in
  let '(_, carry) := mac r5 k fp_modulus_0 0 in
  let '(rr_0, carry) := mac r6 k fp_modulus_1 carry in
  let '(rr_1, carry) := mac r7 k fp_modulus_2 carry in
  let '(rr_2, carry) := mac r8 k fp_modulus_3 carry in
  let '(rr_3, carry) := mac r9 k fp_modulus_4 carry in
  let '(rr_4, carry) := mac r10 k fp_modulus_5 carry in
  let '(rr_5, _) := adc r11 r_11 carry in
  fp_sub (L6 rr_0 rr_1 rr_2 rr_3 rr_4 rr_5) fp_modulus.

(** bls12381/fp.go:256-306 [Square]. *)
Definition fp_square (a : limbs6) : limbs6 :=
  let '(L6 a_0 a_1 a_2 a_3 a_4 a_5) := a in
  let '(r_1, carry) := mac 0 a_0 a_1 0 in
  let '(r_2, carry) := mac 0 a_0 a_2 carry in
  let '(r_3, carry) := mac 0 a_0 a_3 carry in
  let '(r_4, carry) := mac 0 a_0 a_4 carry in
  let '(r_5, r_6) := mac 0 a_0 a_5 carry in
  let '(r_3, carry) := mac r_3 a_1 a_2 0 in
  let '(r_4, carry) := mac r_4 a_1 a_3 carry in
  let '(r_5, carry) := mac r_5 a_1 a_4 carry in
  let '(r_6, r_7) := mac r_6 a_1 a_5 carry in
  let '(r_5, carry) := mac r_5 a_2 a_3 0 in
  let '(r_6, carry) := mac r_6 a_2 a_4 carry in
  let '(r_7, r_8) := mac r_7 a_2 a_5 carry in
  let '(r_7, carry) := mac r_7 a_3 a_4 0 in
  let '(r_8, r_9) := mac r_8 a_3 a_5 carry in
  let '(r_9, r_10) := mac r_9 a_4 a_5 0 in
  let r_11 := (wshr r_10 63) in
  let r_10 := (wor (wshl r_10 1) (wshr r_9 63)) in
  let r_9 := (wor (wshl r_9 1) (wshr r_8 63)) in
  let r_8 := (wor (wshl r_8 1) (wshr r_7 63)) in
  let r_7 := (wor (wshl r_7 1) (wshr r_6 63)) in
  let r_6 := (wor (wshl r_6 1) (wshr r_5 63)) in
  let r_5 := (wor (wshl r_5 1) (wshr r_4 63)) in
  let r_4 := (wor (wshl r_4 1) (wshr r_3 63)) in
  let r_3 := (wor (wshl r_3 1) (wshr r_2 63)) in
  let r_2 := (wor (wshl r_2 1) (wshr r_1 63)) in
  let r_1 := (wshl r_1 1) in
  let '(r_0, carry) := mac 0 a_0 a_0 0 in
  let '(r_1, carry) := adc 0 r_1 carry in
  let '(r_2, carry) := mac r_2 a_1 a_1 carry in
  let '(r_3, carry) := adc 0 r_3 carry in
  let '(r_4, carry) := mac r_4 a_2 a_2 carry in
  let '(r_5, carry) := adc 0 r_5 carry in
  let '(r_6, carry) := mac r_6 a_3 a_3 carry in
  let '(r_7, carry) := adc 0 r_7 carry in
  let '(r_8, carry) := mac r_8 a_4 a_4 carry in
  let '(r_9, carry) := adc 0 r_9 carry in
  let '(r_10, carry) := mac r_10 a_5 a_5 carry in
  let '(r_11, _) := adc 0 r_11 carry in
  fp_mont_reduce r_0 r_1 r_2 r_3 r_4 r_5 r_6 r_7 r_8 r_9 r_10 r_11.

(** bls12381/fp.go:314-362 [Mul]. *)
Definition fp_mul (arg1 arg2 : limbs6) : limbs6 :=
  let '(L6 arg1_0 arg1_1 arg1_2 arg1_3 arg1_4 arg1_5) := arg1 in
  let '(L6 arg2_0 arg2_1 arg2_2 arg2_3 arg2_4 arg2_5) := arg2 in
  let '(r_0, carry) := mac 0 arg1_0 arg2_0 0 in
  let '(r_1, carry) := mac 0 arg1_0 arg2_1 carry in
  let '(r_2, carry) := mac 0 arg1_0 arg2_2 carry in
  let '(r_3, carry) := mac 0 arg1_0 arg2_3 carry in
  let '(r_4, carry) := mac 0 arg1_0 arg2_4 carry in
  let '(r_5, r_6) := mac 0 arg1_0 arg2_5 carry in
  let '(r_1, carry) := mac r_1 arg1_1 arg2_0 0 in
  let '(r_2, carry) := mac r_2 arg1_1 arg2_1 carry in
  let '(r_3, carry) := mac r_3 arg1_1 arg2_2 carry in
  let '(r_4, carry) := mac r_4 arg1_1 arg2_3 carry in
  let '(r_5, carry) := mac r_5 arg1_1 arg2_4 carry in
  let '(r_6, r_7) := mac r_6 arg1_1 arg2_5 carry in
  let '(r_2, carry) := mac r_2 arg1_2 arg2_0 0 in
  let '(r_3, carry) := mac r_3 arg1_2 arg2_1 carry in
  let '(r_4, carry) := mac r_4 arg1_2 arg2_2 carry in
  let '(r_5, carry) := mac r_5 arg1_2 arg2_3 carry in
  let '(r_6, carry) := mac r_6 arg1_2 arg2_4 carry in
  let '(r_7, r_8) := mac r_7 arg1_2 arg2_5 carry in
  let '(r_3, carry) := mac r_3 arg1_3 arg2_0 0 in
  let '(r_4, carry) := mac r_4 arg1_3 arg2_1 carry in
  let '(r_5, carry) := mac r_5 arg1_3 arg2_2 carry in
  let '(r_6, carry) := mac r_6 arg1_3 arg2_3 carry in
  let '(r_7, carry) := mac r_7 arg1_3 arg2_4 carry in
  let '(r_8, r_9) := mac r_8 arg1_3 arg2_5 carry in
  let '(r_4, carry) := mac r_4 arg1_4 arg2_0 0 in
  let '(r_5, carry) := mac r_5 arg1_4 arg2_1 carry in
  let '(r_6, carry) := mac r_6 arg1_4 arg2_2 carry in
  let '(r_7, carry) := mac r_7 arg1_4 arg2_3 carry in
  let '(r_8, carry) := mac r_8 arg1_4 arg2_4 carry in
  let '(r_9, r_10) := mac r_9 arg1_4 arg2_5 carry in
  let '(r_5, carry) := mac r_5 arg1_5 arg2_0 0 in
  let '(r_6, carry) := mac r_6 arg1_5 arg2_1 carry in
  let '(r_7, carry) := mac r_7 arg1_5 arg2_2 carry in
  let '(r_8, carry) := mac r_8 arg1_5 arg2_3 carry in
  let '(r_9, carry) := mac r_9 arg1_5 arg2_4 carry in
  let '(r_10, r_11) := mac r_10 arg1_5 arg2_5 carry in
  fp_mont_reduce r_0 r_1 r_2 r_3 r_4 r_5 r_6 r_7 r_8 r_9 r_10 r_11.

(** bls12381/fp.go:592-601 [CMove]. *)
Definition fp_cmove_mask (arg1 arg2 : limbs6) (mask : Z) : limbs6 :=
  let '(L6 arg1_0 arg1_1 arg1_2 arg1_3 arg1_4 arg1_5) := arg1 in
  let '(L6 arg2_0 arg2_1 arg2_2 arg2_3 arg2_4 arg2_5) := arg2 in
  let f_0 := (wxor arg1_0 (wand (wxor arg1_0 arg2_0) mask)) in
  let f_1 := (wxor arg1_1 (wand (wxor arg1_1 arg2_1) mask)) in
  let f_2 := (wxor arg1_2 (wand (wxor arg1_2 arg2_2) mask)) in
  let f_3 := (wxor arg1_3 (wand (wxor arg1_3 arg2_3) mask)) in
  let f_4 := (wxor arg1_4 (wand (wxor arg1_4 arg2_4) mask)) in
  let f_5 := (wxor arg1_5 (wand (wxor arg1_5 arg2_5) mask)) in
  L6 f_0 f_1 f_2 f_3 f_4 f_5.

(** bls12381/fq.go [fqModulus]. *)
Definition fq_modulus_0 : Z := 18446744069414584321.
Definition fq_modulus_1 : Z := 6034159408538082302.
Definition fq_modulus_2 : Z := 3691218898639771653.
Definition fq_modulus_3 : Z := 8353516859464449352.
Definition fq_modulus : limbs4 := L4 fq_modulus_0 fq_modulus_1 fq_modulus_2 fq_modulus_3.

(** bls12381/fq.go [fqGenerator]. *)
Definition fq_generator_0 : Z := 64424509425.
Definition fq_generator_1 : Z := 1721329240476523535.
Definition fq_generator_2 : Z := 18418692815241631664.
Definition fq_generator_3 : Z := 3824455624000121028.
Definition fq_generator : limbs4 := L4 fq_generator_0 fq_generator_1 fq_generator_2 fq_generator_3.

(** bls12381/fq.go [R]. *)
Definition fq_r_0 : Z := 8589934590.
Definition fq_r_1 : Z := 6378425256633387010.
Definition fq_r_2 : Z := 11064306276430008309.
Definition fq_r_3 : Z := 1739710354780652911.
Definition fq_r : limbs4 := L4 fq_r_0 fq_r_1 fq_r_2 fq_r_3.

(** bls12381/fq.go [R2]. *)
Definition fq_r2_0 : Z := 14526898881837571181.
Definition fq_r2_1 : Z := 3129137299524312099.
Definition fq_r2_2 : Z := 419701826671360399.
Definition fq_r2_3 : Z := 524908885293268753.
Definition fq_r2 : limbs4 := L4 fq_r2_0 fq_r2_1 fq_r2_2 fq_r2_3.

(** bls12381/fq.go [R3]. *)
Definition fq_r3_0 : Z := 14279814937963099055.
Definition fq_r3_1 : Z := 1963020886675057040.
Definition fq_r3_2 : Z := 8345518043873801240.
Definition fq_r3_3 : Z := 7938258146690806761.
Definition fq_r3 : limbs4 := L4 fq_r3_0 fq_r3_1 fq_r3_2 fq_r3_3.

(** bls12381/fq.go [Modulus]. *)
Definition fq_params_modulus_0 : Z := 18446744069414584321.
Definition fq_params_modulus_1 : Z := 6034159408538082302.
Definition fq_params_modulus_2 : Z := 3691218898639771653.
Definition fq_params_modulus_3 : Z := 8353516859464449352.
Definition fq_params_modulus : limbs4 := L4 fq_params_modulus_0 fq_params_modulus_1 fq_params_modulus_2 fq_params_modulus_3.

(** bls12381/fq.go:22 [qInv]. *)
Definition fq_inv : Z := 18446744069414584319.

(** bls12381/fq.go:172-190 [Sub]. *)
Definition fq_sub (arg1 arg2 : limbs4) : limbs4 :=
  let '(L4 arg1_0 arg1_1 arg1_2 arg1_3) := arg1 in
  let '(L4 arg2_0 arg2_1 arg2_2 arg2_3) := arg2 in
  let '(d0, borrow) := sbb arg1_0 arg2_0 0 in
  let '(d1, borrow) := sbb arg1_1 arg2_1 borrow in
  let '(d2, borrow) := sbb arg1_2 arg2_2 borrow in
  let '(d3, borrow) := sbb arg1_3 arg2_3 borrow in
  let borrow := (wneg borrow) in
  let '(d0, carry) := adc d0 (wand fq_modulus_0 borrow) 0 in
  let '(d1, carry) := adc d1 (wand fq_modulus_1 borrow) carry in
  let '(d2, carry) := adc d2 (wand fq_modulus_2 borrow) carry in
  let '(d3, _) := adc d3 (wand fq_modulus_3 borrow) carry in
  let out_0 := d0 in
  let out_1 := d1 in
  let out_2 := d2 in
  let out_3 := d3 in
  L4 out_0 out_1 out_2 out_3.

(** bls12381/fq.go:157-169 [Add]. *)
Definition fq_add (arg1 arg2 : limbs4) : limbs4 :=
  let '(L4 arg1_0 arg1_1 arg1_2 arg1_3) := arg1 in
  let '(L4 arg2_0 arg2_1 arg2_2 arg2_3) := arg2 in
  let '(t_0, carry) := adc arg1_0 arg2_0 0 in
  let '(t_1, carry) := adc arg1_1 arg2_1 carry in
  let '(t_2, carry) := adc arg1_2 arg2_2 carry in
  let '(t_3, _) := adc arg1_3 arg2_3 carry in
  fq_sub (L4 t_0 t_1 t_2 t_3) fq_modulus.

(** bls12381/fq.go:73-91 [Neg]. *)
Definition fq_neg (arg : limbs4) : limbs4 :=
  let '(L4 arg_0 arg_1 arg_2 arg_3) := arg in
  let '(t_0, borrow) := sbb fq_modulus_0 arg_0 0 in
  let '(t_1, borrow) := sbb fq_modulus_1 arg_1 borrow in
  let '(t_2, borrow) := sbb fq_modulus_2 arg_2 borrow in
  let '(t_3, _) := sbb fq_modulus_3 arg_3 borrow in
  let mask := (wor (wor (wor t_0 t_1) t_2) t_3) in
  let mask := (wneg (wshr (wor mask (wneg mask)) 63)) in
  let out_0 := (wand t_0 mask) in
  let out_1 := (wand t_1 mask) in
  let out_2 := (wand t_2 mask) in
  let out_3 := (wand t_3 mask) in
  L4 out_0 out_1 out_2 out_3.

(** bls12381/fq.go:382-416 [montReduce]. *)
Definition fq_mont_reduce (r_0 r_1 r_2 r_3 r_4 r_5 r_6 r_7 : Z) : limbs4 :=
  let k := (wmul r_0 fq_inv) in
  let '(_, carry) := mac r_0 k fq_modulus_0 0 in
  let '(r1, carry) := mac r_1 k fq_modulus_1 carry in
  let '(r2, carry) := mac r_2 k fq_modulus_2 carry in
  let '(r3, carry) := mac r_3 k fq_modulus_3 carry in
  let '(r4, carry2) := adc r_4 0 carry in
  let k := (wmul r1 fq_inv) in
  let '(_, carry) := mac r1 k fq_modulus_0 0 in
  let '(r2, carry) := mac r2 k fq_modulus_1 carry in
  let '(r3, carry) := mac r3 k fq_modulus_2 carry in
  let '(r4, carry) := mac r4 k fq_modulus_3 carry in
  let '(r5, carry2) := adc r_5 carry2 carry in
  let k := (wmul r2 fq_inv) in
  let '(_, carry) := mac r2 k fq_modulus_0 0 in
  let '(r3, carry) := mac r3 k fq_modulus_1 carry in
  let '(r4, carry) := mac r4 k fq_modulus_2 carry in
  let '(r5, carry) := mac r5 k fq_modulus_3 carry in
  let '(r6, carry2) := adc r_6 carry2 carry in
  let k := (wmul r3 fq_inv) in
  let '(_, carry) := mac r3 k fq_modulus_0 0 in
  let '(rr_0, carry) := mac r4 k fq_modulus_1 carry in
  let '(rr_1, carry) := mac r5 k fq_modulus_2 carry in
  let '(rr_2, carry) := mac r6 k fq_modulus_3 carry in
  let '(rr_3, _) := adc r_7 carry2 carry in
  fq_sub (L4 rr_0 rr_1 rr_2 rr_3) fq_modulus.

(** bls12381/fq.go:94-125 [Square]. *)
Definition fq_square (arg : limbs4) : limbs4 :=
  let '(L4 arg_0 arg_1 arg_2 arg_3) := arg in
  let '(r_1, carry) := mac 0 arg_0 arg_1 0 in
  let '(r_2, carry) := mac 0 arg_0 arg_2 carry in
  let '(r_3, r_4) := mac 0 arg_0 arg_3 carry in
  let '(r_3, carry) := mac r_3 arg_1 arg_2 0 in
  let '(r_4, r_5) := mac r_4 arg_1 arg_3 carry in
  let '(r_5, r_6) := mac r_5 arg_2 arg_3 0 in
  let r_7 := (wshr r_6 63) in
  let r_6 := (wor (wshl r_6 1) (wshr r_5 63)) in
  let r_5 := (wor (wshl r_5 1) (wshr r_4 63)) in
  let r_4 := (wor (wshl r_4 1) (wshr r_3 63)) in
  let r_3 := (wor (wshl r_3 1) (wshr r_2 63)) in
  let r_2 := (wor (wshl r_2 1) (wshr r_1 63)) in
  let r_1 := (wshl r_1 1) in
  let '(r_0, carry) := mac 0 arg_0 arg_0 0 in
  let '(r_1, carry) := adc 0 r_1 carry in
  let '(r_2, carry) := mac r_2 arg_1 arg_1 carry in
  let '(r_3, carry) := adc 0 r_3 carry in
  let '(r_4, carry) := mac r_4 arg_2 arg_2 carry in
  let '(r_5, carry) := adc 0 r_5 carry in
  let '(r_6, carry) := mac r_6 arg_3 arg_3 carry in
  let '(r_7, _) := adc 0 r_7 carry in
  fq_mont_reduce r_0 r_1 r_2 r_3 r_4 r_5 r_6 r_7.

(** bls12381/fq.go:128-154 [Mul]. *)
Definition fq_mul (arg1 arg2 : limbs4) : limbs4 :=
  let '(L4 arg1_0 arg1_1 arg1_2 arg1_3) := arg1 in
  let '(L4 arg2_0 arg2_1 arg2_2 arg2_3) := arg2 in
  let '(r_0, carry) := mac 0 arg1_0 arg2_0 0 in
  let '(r_1, carry) := mac 0 arg1_0 arg2_1 carry in
  let '(r_2, carry) := mac 0 arg1_0 arg2_2 carry in
  let '(r_3, r_4) := mac 0 arg1_0 arg2_3 carry in
  let '(r_1, carry) := mac r_1 arg1_1 arg2_0 0 in
  let '(r_2, carry) := mac r_2 arg1_1 arg2_1 carry in
  let '(r_3, carry) := mac r_3 arg1_1 arg2_2 carry in
  let '(r_4, r_5) := mac r_4 arg1_1 arg2_3 carry in
  let '(r_2, carry) := mac r_2 arg1_2 arg2_0 0 in
  let '(r_3, carry) := mac r_3 arg1_2 arg2_1 carry in
  let '(r_4, carry) := mac r_4 arg1_2 arg2_2 carry in
  let '(r_5, r_6) := mac r_5 arg1_2 arg2_3 carry in
  let '(r_3, carry) := mac r_3 arg1_3 arg2_0 0 in
  let '(r_4, carry) := mac r_4 arg1_3 arg2_1 carry in
  let '(r_5, carry) := mac r_5 arg1_3 arg2_2 carry in
  let '(r_6, r_7) := mac r_6 arg1_3 arg2_3 carry in
  fq_mont_reduce r_0 r_1 r_2 r_3 r_4 r_5 r_6 r_7.

(** bls12381/fq.go:374-380 [Selectznz]. *)
Definition fq_select_mask (arg1 arg2 : limbs4) (b : Z) : limbs4 :=
  let '(L4 arg1_0 arg1_1 arg1_2 arg1_3) := arg1 in
  let '(L4 arg2_0 arg2_1 arg2_2 arg2_3) := arg2 in
  let out_0 := (wxor arg1_0 (wand (wxor arg1_0 arg2_0) b)) in
  let out_1 := (wxor arg1_1 (wand (wxor arg1_1 arg2_1) b)) in
  let out_2 := (wxor arg1_2 (wand (wxor arg1_2 arg2_2) b)) in
  let out_3 := (wxor arg1_3 (wand (wxor arg1_3 arg2_3) b)) in
  L4 out_0 out_1 out_2 out_3.

