(** * crypto/core/curves/native/bls12381/{fp2,fp6,fp12,gt,pairings}.go: the extension tower, the target
    group and the pairing engine.

    The functions are parameterised by the base field [F]; at [BlsFp] (LimbField.v) its carrier is the type of
    reduced six-limb arrays and its operations are the modelled fp.go functions, so that the model reaches the
    machine words.  Between the marks the text is produced from the Go source by tools/gen_tower.py: each
    x.Op(args) is a [let], a write to a component is a new variable.  Go's int flags 0/1 are booleans here.
    Receivers are returned; where the code keeps the old receiver (Invert, CMove) it is an argument.
    fp.Invert stores 0 for 0 and reports whether its argument is non-zero (C79_invert).
    The Frobenius constants of fp6.go:199-216 and fp12.go:180-197 are parameters, given below at [BlsFp].
    Not modelled: Random. *)
From Coq Require Import ZArith NArith List Bool.
From Verif Require Import EcField PointModel LimbBase LimbBls NativeField BlsFp LimbField BlsFpProps.
Import ListNotations.
Set Implicit Arguments.
Unset Strict Implicit.

(** fp2.go:8-10 and fp12.go:6-8: a + b X; fp6.go:7-9: a + b v + c v^2 *)
Record quad (T : Type) := Quad { qu_a : T; qu_b : T }.
Record cubic (T : Type) := Cubic { cu_a : T; cu_b : T; cu_c : T }.
(** g2.go:497-499: x, y, z *)
Record jpt (T : Type) := Jpt { jx : T; jy : T; jz : T }.
(** pairings.go:19-21 *)
Record coefs (T : Type) := Coef { co_a : T; co_b : T; co_c : T }.

(** bls12381.go:13 [paramX] *)
Definition bls_param_x : Z := 0xd201000000010000%Z.

Section Tower.
  Variable F : field.
  Definition fp2 := quad F.
  Definition fp6 := cubic fp2.
  Definition fp12 := quad fp6.
  Definition coefficients := coefs fp2.
  Definition g2pt := jpt fp2.
  (** fp6.go:199-216, fp12.go:180-197 *)
  Variables pm1Div3 p2m2Div3 pm1Div6 : fp2.

  (** fp.go:309-311 [Double], [Square] (C79_square), 84-92 [IsNonZero] *)
  Definition fp_double (a : F) : F := fadd a a.
  Definition fp_square (a : F) : F := fmul a a.
  Definition nonzero (a : F) : bool := negb (feqb a f0).
  (** fp.go:592-601, fp2.go:319-323, fp6.go:335-340, fp12.go:226-231 [CMove]: the second argument if the choice is 1 *)
  Definition cmove {T : Type} (arg1 arg2 : T) (choice : bool) : T := if choice then arg2 else arg1.

  (** fp2.go:20-31 [SetZero], [SetOne], 34-38 [SetFp]; fp6.go:19-50, fp12.go:11-53 *)
  Definition fp2_zero : fp2 := Quad f0 f0.
  Definition fp2_one : fp2 := Quad f1 f0.
  Definition fp2_of_fp (a : F) : fp2 := Quad a f0.
  Definition fp6_zero : fp6 := Cubic fp2_zero fp2_zero fp2_zero.
  Definition fp6_one : fp6 := Cubic fp2_one fp2_zero fp2_zero.
  Definition fp6_of_fp2 (a : fp2) : fp6 := Cubic a fp2_zero fp2_zero.
  Definition fp6_of_fp (a : F) : fp6 := Cubic (fp2_of_fp a) fp2_zero fp2_zero.
  Definition fp12_zero : fp12 := Quad fp6_zero fp6_zero.
  Definition fp12_one : fp12 := Quad fp6_one fp6_zero.
  Definition fp12_of_fp6 (a : fp6) : fp12 := Quad a fp6_zero.
  Definition fp12_of_fp2 (a : fp2) : fp12 := Quad (fp6_of_fp2 a) fp6_zero.
  Definition fp12_of_fp (a : F) : fp12 := Quad (fp6_of_fp a) fp6_zero.
  (** fp2.go:56-68 [IsZero], [IsOne], [Equal]; fp6.go:319-331; fp12.go:212-224.  fp6's IsOne reads B twice. *)
  Definition fp_is_zero (a : F) : bool := feqb a f0.
  Definition fp_is_one (a : F) : bool := feqb a f1.
  Definition fp2_is_zero (f : fp2) : bool := fp_is_zero (qu_a f) && fp_is_zero (qu_b f).
  Definition fp2_is_one (f : fp2) : bool := fp_is_one (qu_a f) && fp_is_zero (qu_b f).
  Definition fp2_equal (f rhs : fp2) : bool := feqb (qu_a f) (qu_a rhs) && feqb (qu_b f) (qu_b rhs).
  Definition fp6_is_zero (f : fp6) : bool := fp2_is_zero (cu_a f) && fp2_is_zero (cu_b f) && fp2_is_zero (cu_c f).
  Definition fp6_is_one (f : fp6) : bool := fp2_is_one (cu_a f) && fp2_is_zero (cu_b f) && fp2_is_zero (cu_b f).
  Definition fp6_equal (f rhs : fp6) : bool :=
    fp2_equal (cu_a f) (cu_a rhs) && fp2_equal (cu_b f) (cu_b rhs) && fp2_equal (cu_c f) (cu_c rhs).
  Definition fp12_is_zero (f : fp12) : bool := fp6_is_zero (qu_a f) && fp6_is_zero (qu_b f).
  Definition fp12_is_one (f : fp12) : bool := fp6_is_one (qu_a f) && fp6_is_zero (qu_b f).
  Definition fp12_equal (f rhs : fp12) : bool := fp6_equal (qu_a f) (qu_a rhs) && fp6_equal (qu_b f) (qu_b rhs).

  (* BEGIN generated by tools/gen_tower.py *)
  (** fp2.go:102-106 [Conjugate] *)
  Definition fp2_conjugate (a : fp2) : fp2 :=
    let f_A := (qu_a a) in
    let f_B := fopp (qu_b a) in
    Quad f_A f_B.
  (** fp2.go:96-100 [FrobeniusMap] *)
  Definition fp2_frobenius (a : fp2) : fp2 := fp2_conjugate a.
  (** fp2.go:113-120 [MulByNonResidue] *)
  Definition fp2_mul_nr (a : fp2) : fp2 :=
    let aa := fsub (qu_a a) (qu_b a) in
    let bb := fadd (qu_a a) (qu_b a) in
    let f_A := aa in
    let f_B := bb in
    Quad f_A f_B.
  (** fp2.go:123-144 [Square] *)
  Definition fp2_square (arg : fp2) : fp2 :=
    let a := fadd (qu_a arg) (qu_b arg) in
    let b := fsub (qu_a arg) (qu_b arg) in
    let c := fadd (qu_a arg) (qu_a arg) in
    let f_A := fmul a b in
    let f_B := fmul c (qu_b arg) in
    Quad f_A f_B.
  (** fp2.go:147-151 [Add] *)
  Definition fp2_add (arg1 arg2 : fp2) : fp2 :=
    let f_A := fadd (qu_a arg1) (qu_a arg2) in
    let f_B := fadd (qu_b arg1) (qu_b arg2) in
    Quad f_A f_B.
  (** fp2.go:154-158 [Double] *)
  Definition fp2_double (a : fp2) : fp2 :=
    let f_A := fp_double (qu_a a) in
    let f_B := fp_double (qu_b a) in
    Quad f_A f_B.
  (** fp2.go:161-165 [Sub] *)
  Definition fp2_sub (arg1 arg2 : fp2) : fp2 :=
    let f_A := fsub (qu_a arg1) (qu_a arg2) in
    let f_B := fsub (qu_b arg1) (qu_b arg2) in
    Quad f_A f_B.
  (** fp2.go:168-198 [Mul] *)
  Definition fp2_mul (arg1 arg2 : fp2) : fp2 :=
    let v0 := fmul (qu_a arg1) (qu_a arg2) in
    let v1 := fmul (fopp (qu_b arg1)) (qu_b arg2) in
    let a := fadd v0 v1 in
    let b := fadd (qu_a arg1) (qu_b arg1) in
    let t := fadd (qu_a arg2) (qu_b arg2) in
    let b := fmul b t in
    let b := fsub b v0 in
    let b := fadd b v1 in
    let f_A := a in
    let f_B := b in
    Quad f_A f_B.
  (** fp2.go:200-204 [Mul0] *)
  Definition fp2_mul0 (arg1 : fp2) (arg2 : F) : fp2 :=
    let f_A := fmul (qu_a arg1) arg2 in
    let f_B := fmul (qu_b arg1) arg2 in
    Quad f_A f_B.
  (** fp2.go:212-216 [Neg] *)
  Definition fp2_neg (a : fp2) : fp2 :=
    let f_A := fopp (qu_a a) in
    let f_B := fopp (qu_b a) in
    Quad f_A f_B.
  (** fp2.go:288-315 [Invert] *)
  Definition fp2_invert (f arg : fp2) : fp2 * bool :=
    let a := fp_square (qu_a arg) in
    let b := fp_square (qu_b arg) in
    let a := fadd a b in
    let t := finv a in let wasInverted := nonzero a in
    let a := fmul (qu_a arg) t in
    let b := fopp t in
    let b := fmul b (qu_b arg) in
    let f_A := cmove (qu_a f) a wasInverted in
    let f_B := cmove (qu_b f) b wasInverted in
    (Quad f_A f_B, wasInverted).
  (** fp6.go:72-77 [Add] *)
  Definition fp6_add (arg1 arg2 : fp6) : fp6 :=
    let f_A := fp2_add (cu_a arg1) (cu_a arg2) in
    let f_B := fp2_add (cu_b arg1) (cu_b arg2) in
    let f_C := fp2_add (cu_c arg1) (cu_c arg2) in
    Cubic f_A f_B f_C.
  (** fp6.go:80-82 [Double] *)
  Definition fp6_double (arg : fp6) : fp6 := fp6_add arg arg.
  (** fp6.go:85-90 [Sub] *)
  Definition fp6_sub (arg1 arg2 : fp6) : fp6 :=
    let f_A := fp2_sub (cu_a arg1) (cu_a arg2) in
    let f_B := fp2_sub (cu_b arg1) (cu_b arg2) in
    let f_C := fp2_sub (cu_c arg1) (cu_c arg2) in
    Cubic f_A f_B f_C.
  (** fp6.go:93-127 [Mul] *)
  Definition fp6_mul (arg1 arg2 : fp6) : fp6 :=
    let aa := fp2_mul (cu_a arg1) (cu_a arg2) in
    let bb := fp2_mul (cu_b arg1) (cu_b arg2) in
    let cc := fp2_mul (cu_c arg1) (cu_c arg2) in
    let t1 := fp2_add (cu_b arg2) (cu_c arg2) in
    let s := fp2_add (cu_b arg1) (cu_c arg1) in
    let t1 := fp2_mul t1 s in
    let t1 := fp2_sub t1 bb in
    let t1 := fp2_sub t1 cc in
    let t1 := fp2_mul_nr t1 in
    let t1 := fp2_add t1 aa in
    let t3 := fp2_add (cu_a arg2) (cu_c arg2) in
    let s := fp2_add (cu_a arg1) (cu_c arg1) in
    let t3 := fp2_mul t3 s in
    let t3 := fp2_sub t3 aa in
    let t3 := fp2_add t3 bb in
    let t3 := fp2_sub t3 cc in
    let t2 := fp2_add (cu_a arg2) (cu_b arg2) in
    let s := fp2_add (cu_a arg1) (cu_b arg1) in
    let t2 := fp2_mul t2 s in
    let t2 := fp2_sub t2 aa in
    let t2 := fp2_sub t2 bb in
    let cc := fp2_mul_nr cc in
    let t2 := fp2_add t2 cc in
    let f_A := t1 in
    let f_B := t2 in
    let f_C := t3 in
    Cubic f_A f_B f_C.
  (** fp6.go:130-147 [MulByB] *)
  Definition fp6_mul_by_b (arg : fp6) (b : fp2) : fp6 :=
    let bB := fp2_mul (cu_b arg) b in
    let t1 := fp2_add (cu_b arg) (cu_c arg) in
    let t1 := fp2_mul t1 b in
    let t1 := fp2_sub t1 bB in
    let t1 := fp2_mul_nr t1 in
    let t2 := fp2_add (cu_a arg) (cu_b arg) in
    let t2 := fp2_mul t2 b in
    let t2 := fp2_sub t2 bB in
    let f_A := t1 in
    let f_B := t2 in
    let f_C := bB in
    Cubic f_A f_B f_C.
  (** fp6.go:150-178 [MulByAB] *)
  Definition fp6_mul_by_ab (arg : fp6) (a b : fp2) : fp6 :=
    let aA := fp2_mul (cu_a arg) a in
    let bB := fp2_mul (cu_b arg) b in
    let t1 := fp2_add (cu_b arg) (cu_c arg) in
    let t1 := fp2_mul t1 b in
    let t1 := fp2_sub t1 bB in
    let t1 := fp2_mul_nr t1 in
    let t1 := fp2_add t1 aA in
    let t2 := fp2_add a b in
    let t3 := fp2_add (cu_a arg) (cu_b arg) in
    let t2 := fp2_mul t2 t3 in
    let t2 := fp2_sub t2 aA in
    let t2 := fp2_sub t2 bB in
    let t3 := fp2_add (cu_a arg) (cu_c arg) in
    let t3 := fp2_mul t3 a in
    let t3 := fp2_sub t3 aA in
    let t3 := fp2_add t3 bB in
    let f_A := t1 in
    let f_B := t2 in
    let f_C := t3 in
    Cubic f_A f_B f_C.
  (** fp6.go:181-194 [MulByNonResidue] *)
  Definition fp6_mul_nr (arg : fp6) : fp6 :=
    let a := fp2_mul_nr (cu_c arg) in
    let b := (cu_a arg) in
    let c := (cu_b arg) in
    let f_A := a in
    let f_B := b in
    let f_C := c in
    Cubic f_A f_B f_C.
  (** fp6.go:197-235 [FrobeniusMap] *)
  Definition fp6_frobenius (arg : fp6) : fp6 :=
    let a := fp2_frobenius (cu_a arg) in
    let b := fp2_frobenius (cu_b arg) in
    let c := fp2_frobenius (cu_c arg) in
    let b := fp2_mul b pm1Div3 in
    let c := fp2_mul c p2m2Div3 in
    let f_A := a in
    let f_B := b in
    let f_C := c in
    Cubic f_A f_B f_C.
  (** fp6.go:238-264 [Square] *)
  Definition fp6_square (arg : fp6) : fp6 :=
    let s0 := fp2_square (cu_a arg) in
    let ab := fp2_mul (cu_a arg) (cu_b arg) in
    let s1 := fp2_double ab in
    let s2 := fp2_sub (cu_a arg) (cu_b arg) in
    let s2 := fp2_add s2 (cu_c arg) in
    let s2 := fp2_square s2 in
    let bc := fp2_mul (cu_b arg) (cu_c arg) in
    let s3 := fp2_double bc in
    let s4 := fp2_square (cu_c arg) in
    let f_A := fp2_mul_nr s3 in
    let f_A := fp2_add f_A s0 in
    let f_B := fp2_mul_nr s4 in
    let f_B := fp2_add f_B s1 in
    let f_C := fp2_add s1 s2 in
    let f_C := fp2_add f_C s3 in
    let f_C := fp2_sub f_C s0 in
    let f_C := fp2_sub f_C s4 in
    Cubic f_A f_B f_C.
  (** fp6.go:311-316 [Neg] *)
  Definition fp6_neg (arg : fp6) : fp6 :=
    let f_A := fp2_neg (cu_a arg) in
    let f_B := fp2_neg (cu_b arg) in
    let f_C := fp2_neg (cu_c arg) in
    Cubic f_A f_B f_C.
  (** fp6.go:267-308 [Invert] *)
  Definition fp6_invert (f arg : fp6) : fp6 * bool :=
    let a := fp2_mul (cu_b arg) (cu_c arg) in
    let a := fp2_mul_nr a in
    let t := fp2_square (cu_a arg) in
    let a := fp2_sub t a in
    let b := fp2_square (cu_c arg) in
    let b := fp2_mul_nr b in
    let t := fp2_mul (cu_a arg) (cu_b arg) in
    let b := fp2_sub b t in
    let c := fp2_square (cu_b arg) in
    let t := fp2_mul (cu_a arg) (cu_c arg) in
    let c := fp2_sub c t in
    let s := fp2_mul (cu_b arg) c in
    let t := fp2_mul (cu_c arg) b in
    let s := fp2_add s t in
    let s := fp2_mul_nr s in
    let t := fp2_mul (cu_a arg) a in
    let s := fp2_add s t in
    let '(t, wasInverted) := fp2_invert t s in
    let s := fp2_mul a t in
    let f_A := cmove (cu_a f) s wasInverted in
    let s := fp2_mul b t in
    let f_B := cmove (cu_b f) s wasInverted in
    let s := fp2_mul c t in
    let f_C := cmove (cu_c f) s wasInverted in
    (Cubic f_A f_B f_C, wasInverted).
  (** fp12.go:68-86 [Square] *)
  Definition fp12_square (arg : fp12) : fp12 :=
    let ab := fp6_mul (qu_a arg) (qu_b arg) in
    let apb := fp6_add (qu_a arg) (qu_b arg) in
    let aTick := fp6_mul_nr (qu_b arg) in
    let aTick := fp6_add aTick (qu_a arg) in
    let aTick := fp6_mul aTick apb in
    let aTick := fp6_sub aTick ab in
    let t := fp6_mul_nr ab in
    let aTick := fp6_sub aTick t in
    let bTick := fp6_double ab in
    let f_A := aTick in
    let f_B := bTick in
    Quad f_A f_B.
  (** fp12.go:89-103 [Invert] *)
  Definition fp12_invert (f arg : fp12) : fp12 * bool :=
    let a := fp6_square (qu_a arg) in
    let b := fp6_square (qu_b arg) in
    let b := fp6_mul_nr b in
    let a := fp6_sub a b in
    let '(t, wasInverted) := fp6_invert fp6_zero a in
    let a := fp6_mul (qu_a arg) t in
    let t := fp6_neg t in
    let b := fp6_mul (qu_b arg) t in
    let f_A := cmove (qu_a f) a wasInverted in
    let f_B := cmove (qu_b f) b wasInverted in
    (Quad f_A f_B, wasInverted).
  (** fp12.go:106-110 [Add] *)
  Definition fp12_add (arg1 arg2 : fp12) : fp12 :=
    let f_A := fp6_add (qu_a arg1) (qu_a arg2) in
    let f_B := fp6_add (qu_b arg1) (qu_b arg2) in
    Quad f_A f_B.
  (** fp12.go:113-117 [Sub] *)
  Definition fp12_sub (arg1 arg2 : fp12) : fp12 :=
    let f_A := fp6_sub (qu_a arg1) (qu_a arg2) in
    let f_B := fp6_sub (qu_b arg1) (qu_b arg2) in
    Quad f_A f_B.
  (** fp12.go:120-136 [Mul] *)
  Definition fp12_mul (arg1 arg2 : fp12) : fp12 :=
    let aa := fp6_mul (qu_a arg1) (qu_a arg2) in
    let bb := fp6_mul (qu_b arg1) (qu_b arg2) in
    let a2b2 := fp6_add (qu_a arg2) (qu_b arg2) in
    let b := fp6_add (qu_a arg1) (qu_b arg1) in
    let b := fp6_mul b a2b2 in
    let b := fp6_sub b aa in
    let b := fp6_sub b bb in
    let a := fp6_mul_nr bb in
    let a := fp6_add a aa in
    let f_A := a in
    let f_B := b in
    Quad f_A f_B.
  (** fp12.go:139-143 [Neg] *)
  Definition fp12_neg (arg : fp12) : fp12 :=
    let f_A := fp6_neg (qu_a arg) in
    let f_B := fp6_neg (qu_b arg) in
    Quad f_A f_B.
  (** fp12.go:146-166 [MulByABD] *)
  Definition fp12_mul_by_abd (arg : fp12) (a b d : fp2) : fp12 :=
    let aa := fp6_mul_by_ab (qu_a arg) a b in
    let bb := fp6_mul_by_b (qu_b arg) d in
    let bd := fp2_add b d in
    let bTick := fp6_add (qu_a arg) (qu_b arg) in
    let bTick := fp6_mul_by_ab bTick a bd in
    let bTick := fp6_sub bTick aa in
    let bTick := fp6_sub bTick bb in
    let aTick := fp6_mul_nr bb in
    let aTick := fp6_add aTick aa in
    let f_A := aTick in
    let f_B := bTick in
    Quad f_A f_B.
  (** fp12.go:169-173 [Conjugate] *)
  Definition fp12_conjugate (arg : fp12) : fp12 :=
    let f_A := (qu_a arg) in
    let f_B := fp6_neg (qu_b arg) in
    Quad f_A f_B.
  (** fp12.go:176-208 [FrobeniusMap] *)
  Definition fp12_frobenius (arg : fp12) : fp12 :=
    let up1epm1div6 := Cubic pm1Div6 fp2_zero fp2_zero in
    let a := fp6_frobenius (qu_a arg) in
    let b := fp6_frobenius (qu_b arg) in
    let b := fp6_mul b up1epm1div6 in
    let f_A := a in
    let f_B := b in
    Quad f_A f_B.
  (** gt.go:352-363 [fp4Square] *)
  Definition fp4_square (arg1 arg2 : fp2) : fp2 * fp2 :=
    let t0 := fp2_square arg1 in
    let t1 := fp2_square arg2 in
    let t2 := fp2_mul_nr t1 in
    let a := fp2_add t2 t0 in
    let t2 := fp2_add arg1 arg2 in
    let t2 := fp2_square t2 in
    let t2 := fp2_sub t2 t0 in
    let b := fp2_sub t2 t1 in
    (a, b).
  (** gt.go:365-414 [cyclotomicSquare] *)
  Definition fp12_cyclotomic_square (a : fp12) : fp12 :=
    let z0 := (cu_a (qu_a a)) in
    let z4 := (cu_b (qu_a a)) in
    let z3 := (cu_c (qu_a a)) in
    let z2 := (cu_a (qu_b a)) in
    let z1 := (cu_b (qu_b a)) in
    let z5 := (cu_c (qu_b a)) in
    let '(t0, t1) := fp4_square z0 z1 in
    let z0 := fp2_sub t0 z0 in
    let z0 := fp2_double z0 in
    let z0 := fp2_add z0 t0 in
    let z1 := fp2_add t1 z1 in
    let z1 := fp2_double z1 in
    let z1 := fp2_add z1 t1 in
    let '(t0, t1) := fp4_square z2 z3 in
    let '(t2, t3) := fp4_square z4 z5 in
    let z4 := fp2_sub t0 z4 in
    let z4 := fp2_double z4 in
    let z4 := fp2_add z4 t0 in
    let z5 := fp2_add z5 t1 in
    let z5 := fp2_double z5 in
    let z5 := fp2_add z5 t1 in
    let t0 := fp2_mul_nr t3 in
    let z2 := fp2_add z2 t0 in
    let z2 := fp2_double z2 in
    let z2 := fp2_add z2 t0 in
    let z3 := fp2_sub t2 z3 in
    let z3 := fp2_double z3 in
    let z3 := fp2_add z3 t2 in
    let f_A_A := z0 in
    let f_A_B := z4 in
    let f_A_C := z3 in
    let f_B_A := z2 in
    let f_B_B := z1 in
    let f_B_C := z5 in
    Quad (Cubic f_A_A f_A_B f_A_C) (Cubic f_B_A f_B_B f_B_C).
  (** gt.go:416-434 [cyclotomicExp]: bits 63 .. 0 of paramX; the squarings start after the first set bit *)
  Definition cyc_bit (a : fp12) (s : fp12 * bool) (i : Z) : fp12 * bool :=
    let '(t, foundOne) := s in
    let b := Z.testbit bls_param_x i in
    let '(t, foundOne) := if foundOne then (fp12_cyclotomic_square t, foundOne) else (t, b) in
    let t := if b then fp12_mul t a else t in
    (t, foundOne).
  Definition fp12_cyclotomic_exp (a : fp12) : fp12 :=
    let '(t, _) := fold_left (cyc_bit a) down64 (fp12_one, false) in
    fp12_conjugate t.
  (** gt.go:26-71 [FinalExponentiation] *)
  Definition gt_final_exponentiation (gt a : fp12) : fp12 :=
    let t0 := fp12_frobenius a in
    let t0 := fp12_frobenius t0 in
    let t0 := fp12_frobenius t0 in
    let t0 := fp12_frobenius t0 in
    let t0 := fp12_frobenius t0 in
    let t0 := fp12_frobenius t0 in
    let '(t1, wasInverted) := fp12_invert fp12_zero a in
    let t2 := fp12_mul t0 t1 in
    let t1 := t2 in
    let t2 := fp12_frobenius t2 in
    let t2 := fp12_frobenius t2 in
    let t2 := fp12_mul t2 t1 in
    let t1 := fp12_cyclotomic_square t2 in
    let t1 := fp12_conjugate t1 in
    let t3 := fp12_cyclotomic_exp t2 in
    let t4 := fp12_cyclotomic_square t3 in
    let t5 := fp12_mul t1 t3 in
    let t1 := fp12_cyclotomic_exp t5 in
    let t0 := fp12_cyclotomic_exp t1 in
    let t6 := fp12_cyclotomic_exp t0 in
    let t6 := fp12_mul t6 t4 in
    let t4 := fp12_cyclotomic_exp t6 in
    let t5 := fp12_conjugate t5 in
    let t4 := fp12_mul t4 t5 in
    let t4 := fp12_mul t4 t2 in
    let t5 := fp12_conjugate t2 in
    let t1 := fp12_mul t1 t2 in
    let t1 := fp12_frobenius t1 in
    let t1 := fp12_frobenius t1 in
    let t1 := fp12_frobenius t1 in
    let t6 := fp12_mul t6 t5 in
    let t6 := fp12_frobenius t6 in
    let t3 := fp12_mul t3 t0 in
    let t3 := fp12_frobenius t3 in
    let t3 := fp12_frobenius t3 in
    let t3 := fp12_mul t3 t1 in
    let t3 := fp12_mul t3 t6 in
    let t := fp12_mul t3 t4 in
    let gt := cmove gt t wasInverted in
    gt.
  (** pairings.go:152-159 [ell] *)
  Definition ell (f : fp12) (coeffs : coefficients) (p : pt F) : fp12 :=
    let x_A := fmul (qu_a (co_a coeffs)) (py p) in
    let x_B := fmul (qu_b (co_a coeffs)) (py p) in
    let y_A := fmul (qu_a (co_b coeffs)) (px p) in
    let y_B := fmul (qu_b (co_b coeffs)) (px p) in
    let f := fp12_mul_by_abd f (co_c coeffs) (Quad y_A y_B) (Quad x_A x_B) in
    f.
  (** pairings.go:161-204 [doublingStep] *)
  Definition doubling_step (p : g2pt) : g2pt * coefficients :=
    let t0 := fp2_square (jx p) in
    let t1 := fp2_square (jy p) in
    let t2 := fp2_square t1 in
    let t3 := fp2_add t1 (jx p) in
    let t3 := fp2_square t3 in
    let t3 := fp2_sub t3 t0 in
    let t3 := fp2_sub t3 t2 in
    let t3 := fp2_double t3 in
    let t4 := fp2_double t0 in
    let t4 := fp2_add t4 t0 in
    let t6 := fp2_add (jx p) t4 in
    let t5 := fp2_square t4 in
    let zsqr := fp2_square (jz p) in
    let p_x := fp2_sub t5 t3 in
    let p_x := fp2_sub p_x t3 in
    let p_z := fp2_add (jz p) (jy p) in
    let p_z := fp2_square p_z in
    let p_z := fp2_sub p_z t1 in
    let p_z := fp2_sub p_z zsqr in
    let p_y := fp2_sub t3 p_x in
    let p_y := fp2_mul p_y t4 in
    let t2 := fp2_double t2 in
    let t2 := fp2_double t2 in
    let t2 := fp2_double t2 in
    let p_y := fp2_sub p_y t2 in
    let t3 := fp2_mul t4 zsqr in
    let t3 := fp2_double t3 in
    let t3 := fp2_neg t3 in
    let t6 := fp2_square t6 in
    let t6 := fp2_sub t6 t0 in
    let t6 := fp2_sub t6 t5 in
    let t1 := fp2_double t1 in
    let t1 := fp2_double t1 in
    let t6 := fp2_sub t6 t1 in
    let t0 := fp2_mul p_z zsqr in
    let t0 := fp2_double t0 in
    (Jpt p_x p_y p_z, Coef t0 t3 t6).
  (** pairings.go:206-254 [additionStep] *)
  Definition addition_step (r q : g2pt) : g2pt * coefficients :=
    let zsqr := fp2_square (jz r) in
    let ysqr := fp2_square (jy q) in
    let t0 := fp2_mul zsqr (jx q) in
    let t1 := fp2_add (jy q) (jz r) in
    let t1 := fp2_square t1 in
    let t1 := fp2_sub t1 ysqr in
    let t1 := fp2_sub t1 zsqr in
    let t1 := fp2_mul t1 zsqr in
    let t2 := fp2_sub t0 (jx r) in
    let t3 := fp2_square t2 in
    let t4 := fp2_double t3 in
    let t4 := fp2_double t4 in
    let t5 := fp2_mul t4 t2 in
    let t6 := fp2_sub t1 (jy r) in
    let t6 := fp2_sub t6 (jy r) in
    let t9 := fp2_mul t6 (jx q) in
    let t7 := fp2_mul t4 (jx r) in
    let r_x := fp2_square t6 in
    let r_x := fp2_sub r_x t5 in
    let r_x := fp2_sub r_x t7 in
    let r_x := fp2_sub r_x t7 in
    let r_z := fp2_add (jz r) t2 in
    let r_z := fp2_square r_z in
    let r_z := fp2_sub r_z zsqr in
    let r_z := fp2_sub r_z t3 in
    let t10 := fp2_add (jy q) r_z in
    let t8 := fp2_sub t7 r_x in
    let t8 := fp2_mul t8 t6 in
    let t0 := fp2_mul (jy r) t5 in
    let t0 := fp2_double t0 in
    let r_y := fp2_sub t8 t0 in
    let t10 := fp2_square t10 in
    let t10 := fp2_sub t10 ysqr in
    let zsqr := fp2_square r_z in
    let t10 := fp2_sub t10 zsqr in
    let t9 := fp2_double t9 in
    let t9 := fp2_sub t9 t10 in
    let t10 := fp2_double r_z in
    let t6 := fp2_neg t6 in
    let t1 := fp2_double t6 in
    (Jpt r_x r_y r_z, Coef t10 t1 t9).
  (* END generated *)

  (** fp2.go:332-344 [pow]: words e5 .. e0, bits 63 .. 0 *)
  Definition fp2_pow_bit (base : fp2) (e : Z) (res : fp2) (j : Z) : fp2 :=
    let res := fp2_square res in
    let tmp := fp2_mul res base in
    cmove res tmp (Z.testbit e j).
  Definition fp2_pow_limb (base : fp2) (res : fp2) (e : Z) : fp2 := fold_left (fp2_pow_bit base e) down64 res.
  Definition fp2_pow (base : fp2) (e : limbs6) : fp2 :=
    let '(L6 e0 e1 e2 e3 e4 e5) := e in
    fold_left (fp2_pow_limb base) [e5; e4; e3; e2; e1; e0] fp2_one.
  (** fp2.go:219-281 [Sqrt]; the constant of 254-264 is -1 (C79), and the old receiver is kept when there is no root *)
  Definition fp2_sqrt_exp1 : limbs6 :=
    L6 0xee7fbfffffffeaaa 0x07aaffffac54ffff 0xd9cc34a83dac3d89 0xd91dd2e13ce144af 0x92c6e9ed90d2eb35 0x0680447a8e5ff9a6.
  Definition fp2_sqrt_exp2 : limbs6 :=
    L6 0xdcff7fffffffd555 0x0f55ffff58a9ffff 0xb39869507b587b12 0xb23ba5c279c2895f 0x258dd3db21a5d66b 0x0d0088f51cbff34d.
  Variable minus_one : F.
  Definition fp2_sqrt (f a : fp2) : fp2 * bool :=
    let e1 := fp2_is_zero a in
    let a1 := fp2_pow a fp2_sqrt_exp1 in
    let alpha := fp2_square a1 in
    let alpha := fp2_mul alpha a in
    let x0 := fp2_mul a1 a in
    let res2 := Quad (fopp (qu_b x0)) (qu_a x0) in
    let e2 := fp2_equal alpha (Quad minus_one f0) in
    let t := fp2_one in
    let t := fp2_add t alpha in
    let t := fp2_pow t fp2_sqrt_exp2 in
    let t := fp2_mul t x0 in
    let res := cmove res2 fp2_zero e1 in
    let res := cmove t res e2 in
    let t := fp2_square res in
    let e3 := fp2_equal t a in
    let f := cmove f res e3 in
    (f, e3).
  (** fp2.go:326-330 [CNeg] (which keeps the old receiver, not [a], when the choice is 0) *)
  Definition fp2_cneg (f a : fp2) (choice : bool) : fp2 := cmove f (fp2_neg a) choice.

  (** gt.go:301-305 [Add], 307-311 [Double], 313-319 [Sub], 321-325 [Neg], 341-345 [Square], 347-351 [Invert],
      73-81 [IsZero], [IsOne], [Equal] *)
  Definition gt_add (arg1 arg2 : fp12) : fp12 := fp12_mul arg1 arg2.
  Definition gt_double (a : fp12) : fp12 := fp12_square a.
  Definition gt_sub (arg1 arg2 : fp12) : fp12 := fp12_mul arg1 (fp12_conjugate arg2).
  Definition gt_neg (a : fp12) : fp12 := fp12_conjugate a.
  Definition gt_square (a : fp12) : fp12 := fp12_cyclotomic_square a.
  Definition gt_is_one (a : fp12) : bool := fp12_is_one a.
  (** gt.go:327-339 [Mul]: [p] and precomputed[0] are Go zero values *)
  Fixpoint gt_table_fill (n : nat) (f : fp12) (t : list fp12) : list fp12 :=
    match n with
    | O => t
    | S n' =>
        let i := length t in
        let even := fp12_square (nth (Nat.div2 i) t fp12_zero) in
        let odd := fp12_mul even f in
        gt_table_fill n' f (t ++ [even; odd])
    end.
  Definition gt_table (f : fp12) : list fp12 := gt_table_fill 7 f [fp12_zero; f].
  Definition gt_mul_step (t : list fp12) (bytes : list N) (p : fp12) (k : nat) : fp12 :=
    let p := fp12_square (fp12_square (fp12_square (fp12_square p))) in
    fp12_mul p (nth (N.to_nat (window bytes (4 * N.of_nat k))) t fp12_zero).
  Definition gt_mul (a : fp12) (bytes : list N) : fp12 :=
    fold_left (gt_mul_step (gt_table a) bytes) (seq 0 64) fp12_zero.

  (** ** pairings.go: the engine.  Points are affine or the identity after AddPair. *)
  Definition g1_is_identity (p : pt F) : bool := fp_is_zero (pz p).
  Definition g2_is_identity (p : g2pt) : bool := fp2_is_zero (jz p).
  (** g1.go:920-931, g2.go:916-927 [ToAffine] (the fresh receivers are zero) *)
  Definition g1_to_affine (a : pt F) : pt F :=
    let z := finv (pz a) in
    let wasInverted := nonzero (pz a) in
    let x := fmul (px a) z in
    let y := fmul (py a) z in
    Pt (cmove f0 x wasInverted) (cmove f0 y wasInverted) (cmove f0 f1 wasInverted).
  Definition g2_to_affine (a : g2pt) : g2pt :=
    let '(z, wasInverted) := fp2_invert fp2_zero (jz a) in
    let x := fp2_mul (jx a) z in
    let y := fp2_mul (jy a) z in
    Jpt (cmove fp2_zero x wasInverted) (cmove fp2_zero y wasInverted) (cmove fp2_zero fp2_one wasInverted).
  (** g1.go:760-764, g2.go:741-745 [Neg] *)
  Definition g1_neg (a : pt F) : pt F := Pt (px a) (cmove (py a) (fopp (py a)) (negb (g1_is_identity a))) (pz a).
  Definition g2_neg (a : g2pt) : g2pt := Jpt (jx a) (fp2_cneg (jy a) (jy a) (negb (g2_is_identity a))) (jz a).

  (** pairings.go:9-11 [Engine], 32-40 [AddPair], 43-54 [AddPairInvG1], [AddPairInvG2] *)
  Definition pair := (pt F * g2pt)%type.
  Definition engine := list pair.
  Definition add_pair (e : engine) (g1 : pt F) (g2 : g2pt) : engine :=
    let p := (g1_to_affine g1, g2_to_affine g2) in
    if g1_is_identity (fst p) || g2_is_identity (snd p) then e else e ++ [p].
  Definition add_pair_inv_g1 (e : engine) (g1 : pt F) (g2 : g2pt) : engine := add_pair e (g1_neg g1) g2.
  Definition add_pair_inv_g2 (e : engine) (g1 : pt F) (g2 : g2pt) : engine := add_pair e g1 (g2_neg g2).

  (** pairings.go:120-149 [computeCoeffs]: for one pair, the coefficients in the order they are appended (the array
      of 68 is filled exactly, see [coeffs_length] in TowerProofs.v); [g2_gen] is the generator *)
  Variable g2_gen : g2pt.
  Definition coeff_bit (q : g2pt) (s : g2pt * list coefficients * bool) (j : Z) : g2pt * list coefficients * bool :=
    let '(c, cfs, found) := s in
    let x := Z.testbit (Z.shiftr bls_param_x 1) j in
    if negb found then (c, cfs, x)
    else
      let '(c, co) := doubling_step c in
      let cfs := cfs ++ [co] in
      if x then
        let '(c, co) := addition_step c q in
        (c, cfs ++ [co], found)
      else (c, cfs, found).
  Definition compute_coeffs (p : pair) : bool * list coefficients :=
    let identity := g2_is_identity (snd p) in
    let q := cmove (snd p) g2_gen identity in
    let '(c, cfs, _) := fold_left (coeff_bit q) down64 (q, [], false) in
    let '(_, co) := doubling_step c in
    (identity, cfs ++ [co]).
  (** pairings.go:78-118 [millerLoop] *)
  Definition coef0 : coefficients := Coef fp2_zero fp2_zero fp2_zero.
  Definition miller_lines (e : engine) (coeffs : list (bool * list coefficients)) (cIdx : nat) (f : fp12) : fp12 :=
    fold_left (fun f (jt : pair * (bool * list coefficients)) =>
      let '(p, terms) := jt in
      let identity := g1_is_identity (fst p) || fst terms in
      let newF := f in
      let newF := ell newF (nth cIdx (snd terms) coef0) (fst p) in
      cmove newF f identity) (combine e coeffs) f.
  Definition miller_bit (e : engine) (coeffs : list (bool * list coefficients)) (s : fp12 * bool * nat) (i : Z) : fp12 * bool * nat :=
    let '(f, found, cIdx) := s in
    let x := Z.testbit (Z.shiftr bls_param_x 1) i in
    if negb found then (f, x, cIdx)
    else
      let f := miller_lines e coeffs cIdx f in
      let cIdx := S cIdx in
      let '(f, cIdx) := if x then (miller_lines e coeffs cIdx f, S cIdx) else (f, cIdx) in
      let f := fp12_square f in
      (f, found, cIdx).
  Definition miller_loop (e : engine) (f : fp12) (coeffs : list (bool * list coefficients)) : fp12 :=
    let '(f, _, cIdx) := fold_left (miller_bit e coeffs) down64 (f, false, 0%nat) in
    let f := miller_lines e coeffs cIdx f in
    fp12_conjugate f.
  (** pairings.go:69-76 [pairing], 61-67 [Check], [Result] *)
  Definition pairing (e : engine) : fp12 :=
    let f := fp12_one in
    match e with
    | [] => f
    | _ =>
        let coeffs := map compute_coeffs e in
        let f := miller_loop e f coeffs in
        gt_final_exponentiation f f
    end.
  Definition engine_result (e : engine) : fp12 := pairing e.
  Definition engine_check (e : engine) : bool := gt_is_one (pairing e).
End Tower.

(** ** The constants, at the limb-level base field *)
Definition bls_const (l : limbs6) : BlsFp :=
  match Bool.bool_dec (reduced6 bls_p l) true with
  | left H => exist _ l H
  | right _ => f0
  end.
Local Open Scope Z_scope.
(** fp6.go:199-209 [pm1Div3], 210-220 [p2m2Div3] *)
Definition bls_pm1Div3 : fp2 BlsFp := Quad f0 (bls_const (L6 0xcd03c9e48671f071 0x5dab22461fcda5d2 0x587042afd3851b95 0x8eb60ebe01bacb9e 0x03f97d6e83d050d2 0x18f0206554638741)).
Definition bls_p2m2Div3 : fp2 BlsFp := Quad (bls_const (L6 0x890dc9e4867545c3 0x2af322533285a5d5 0x50880866309b7e2c 0xa20d1b8c7e881024 0x14e4f04fe2db9068 0x14e56d3f1564853a)) f0.
(** fp12.go:179-197 [up1epm1div6.A] *)
Definition bls_pm1Div6 : fp2 BlsFp := Quad
  (bls_const (L6 0x07089552b319d465 0xc6695f92b50a8313 0x97e83cccd117228f 0xa35baecab2dc29ee 0x1ce393ea5daace4d 0x08f2220fb0fb66eb))
  (bls_const (L6 0xb2f66aad4ce5d646 0x5842a06bfc497cec 0xcf4895d42599d394 0xc11b9cba40a8e8d0 0x2e3813cbe5a0de89 0x110eefda88847faf)).
(** fp2.go:248-257 *)
Definition bls_minus_one : BlsFp := bls_const (L6 0x43f5fffffffcaaae 0x32b7fff2ed47fffd 0x07e83a49a2e99d69 0xeca8f3318332bb7a 0xef148d1ea0f4c069 0x040ab3263eff0206).
(** g2.go:15-50 [g2x], [g2y], 556-561 [Generator] *)
Definition bls_g2_gen : g2pt BlsFp := Jpt
  (Quad (bls_const (L6 0xf5f28fa202940a10 0xb3f5fb2687b4961a 0xa1a893b53e2ae580 0x9894999d1a3caee9 0x6f67b7631863366b 0x058191924350bcd7)) (bls_const (L6 0xa5a9c0759e23f606 0xaaa0c59dbccd60c3 0x3bb17e18e2867806 0x1b1ab6cc8541b367 0xc2b6ed0ef2158547 0x11922a097360edf3)))
  (Quad (bls_const (L6 0x4c730af860494c4a 0x597cfa1f5e369c5a 0xe7e6856caa0a635a 0xbbefb5e96e0d495f 0x07d3a975f0ef25a2 0x0083fd8e7e80dae5)) (bls_const (L6 0xadc0fc92df64b05d 0x18aa270a2b1461dc 0x86adac6a3be4eba0 0x79495c4ec93da33a 0xe7175850a43ccaed 0x0b2bc2a163de1bf2))) (fp2_one BlsFp).
(** g2.go:51-68 [curveG2B], 69-86 [curveG23B] *)
Definition bls_g2_b : fp2 BlsFp := Quad (bls_const (L6 0xaa270000000cfff3 0x53cc0032fc34000a 0x478fe97a6b0a807f 0xb1d37ebee6ba24d7 0x8ec9733bbf78ab2f 0x09d645513d83de7e)) (bls_const (L6 0xaa270000000cfff3 0x53cc0032fc34000a 0x478fe97a6b0a807f 0xb1d37ebee6ba24d7 0x8ec9733bbf78ab2f 0x09d645513d83de7e)).
Definition bls_g2_3b : fp2 BlsFp := Quad (bls_const (L6 0x447600000027552e 0xdcb8009a43480020 0x6f7ee9ce4a6e8b59 0xb10330b7c0a95bc6 0x6140b1fcfb1e54b7 0x0381be097f0bb4e1)) (bls_const (L6 0x447600000027552e 0xdcb8009a43480020 0x6f7ee9ce4a6e8b59 0xb10330b7c0a95bc6 0x6140b1fcfb1e54b7 0x0381be097f0bb4e1)).
