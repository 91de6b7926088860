(** Model of the point encodings of secp256k1 and P-256
    (crypto/core/curves/k256_curve.go:486-576, p256_curve.go:489-577, native/point.go,
    native/k256/point.go, native/p256/point.go), on limb arrays.

    The two curves have the same code, with their own field and RhsEq.  Simplifications: byte
    slices are lists of integers; a Go error is [None]; a method's result is returned instead of
    written through a pointer; new(Field) values start as the zero array. *)
From Coq Require Import ZArith List Bool.
From Verif Require Import LimbBase NativeField NativeInstances.
Import ListNotations.
Open Scope Z_scope.

(** native/point.go:43-49: the coordinates of an EllipticPoint *)
Record npoint := NP { np_x : limbs4; np_y : limbs4; np_z : limbs4 }.
(** the field of the coordinates and RhsEq; native/point.go:52-61 (Gx, Gy) *)
Record ncurve := NC { nc_field : native_field; nc_rhs : limbs4 -> limbs4; nc_gx : limbs4; nc_gy : limbs4 }.

(** native/k256/point.go:30-50: the parameters; 441-446: RhsEq *)
Definition k256_B : limbs4 := nf_set_uint64 k256fp_field 7.
Definition k256_gx : limbs4 := nf_set_limbs k256fp_field (L4 0x59f2815b16f81798 0x029bfcdb2dce28d9 0x55a06295ce870b07 0x79be667ef9dcbbac).
Definition k256_gy : limbs4 := nf_set_limbs k256fp_field (L4 0x9c47d08ffb10d4b8 0xfd17b448a6855419 0x5da4fbfc0e1108a8 0x483ada7726a3c465).
Definition k256_rhs_eq (x : limbs4) : limbs4 :=
  let out := nf_square k256fp_field x in
  let out := nf_mul k256fp_field out x in
  nf_add k256fp_field out k256_B.
Definition k256_curve : ncurve := NC k256fp_field k256_rhs_eq k256_gx k256_gy.

(** native/p256/point.go:29-49: the parameters (SetRaw); 311-317: RhsEq *)
Definition p256_A : limbs4 := nf_set_raw (L4 0xfffffffffffffffc 0x00000003ffffffff 0x0000000000000000 0xfffffffc00000004).
Definition p256_B : limbs4 := nf_set_raw (L4 0xd89cdf6229c4bddf 0xacf005cd78843090 0xe5a220abf7212ed6 0xdc30061d04874834).
Definition p256_gx : limbs4 := nf_set_raw (L4 0x79e730d418a9143c 0x75ba95fc5fedb601 0x79fb732b77622510 0x18905f76a53755c6).
Definition p256_gy : limbs4 := nf_set_raw (L4 0xddf25357ce95560a 0x8b4ab8e4ba19e45c 0xd2e88688dd21f325 0x8571ff1825885d85).
Definition p256_rhs_eq (x : limbs4) : limbs4 :=
  let out := nf_square p256fp_field x in
  let out := nf_mul p256fp_field out x in
  let out := nf_add p256fp_field out p256_B in
  nf_add p256fp_field out (nf_mul p256fp_field p256_A x).
Definition p256_curve : ncurve := NC p256fp_field p256_rhs_eq p256_gx p256_gy.

Section Curve.
  Variable C : ncurve.
  Let F := nc_field C.

  (** native/point.go:245-258: Identity, Generator; 261-263: IsIdentity; 273-277: Neg *)
  Definition np_identity : npoint := NP nf_zero nf_zero nf_zero.
  Definition np_generator : npoint := NP (nc_gx C) (nc_gy C) (nf_one F).
  Definition np_is_identity (p : npoint) : bool := nf_is_zero (np_z p) =? 1.
  Definition np_neg (p : npoint) : npoint := NP (np_x p) (nf_neg F (np_y p)) (np_z p).

  (** native/k256/point.go:419-439, native/p256/point.go:289-309: ToAffine *)
  Definition np_to_affine (arg : npoint) : npoint :=
    let '(wasInverted, z) := nf_invert_m F nf_zero (np_z arg) in
    let x := nf_mul F (np_x arg) z in
    let y := nf_mul F (np_y arg) z in
    let x := nf_cmove F nf_zero x wasInverted in
    let y := nf_cmove F nf_zero y wasInverted in
    let z := nf_cmove F nf_zero (nf_one F) wasInverted in
    NP x y z.

  (** native/point.go:316-335: Equal *)
  Definition np_equal (p rhs : npoint) : Z :=
    let x1 := nf_mul F (np_x p) (np_z rhs) in
    let x2 := nf_mul F (np_x rhs) (np_z p) in
    let y1 := nf_mul F (np_y p) (np_z rhs) in
    let y2 := nf_mul F (np_y rhs) (np_z p) in
    let e1 := nf_is_zero (np_z p) in
    let e2 := nf_is_zero (np_z rhs) in
    Z.lor (Z.land e1 e2) (Z.land (Z.land (Z.land (Z.lnot e1) (Z.lnot e2)) (nf_equal x1 x2)) (nf_equal y1 y2)).

  (** native/k256/point.go:410-417: IsOnCurve *)
  Definition np_is_on_curve (arg : npoint) : bool :=
    let affine := np_to_affine arg in
    let lhs := nf_square F (np_y affine) in
    let rhs := nc_rhs C (np_x affine) in
    nf_equal lhs rhs =? 1.

  (** native/point.go:348-354: BigInt *)
  Definition np_big_int (p : npoint) : Z * Z :=
    let t := np_to_affine p in (nf_big_int F (np_x t), nf_big_int F (np_y t)).
  (** native/point.go:358-381: SetBigInt *)
  Definition np_set_big_int (x y : Z) : option npoint :=
    let xx := nf_set_big_int F nf_zero x in
    let yy := nf_set_big_int F nf_zero y in
    let isIdentity := Z.land (nf_is_zero xx) (nf_is_zero yy) in
    let pp := NP (nf_cmove F xx nf_zero isIdentity) (nf_cmove F yy nf_zero isIdentity)
                 (nf_cmove F (nf_one F) nf_zero isIdentity) in
    if negb (np_is_on_curve pp) && (isIdentity =? 0) then None else Some pp.

  (** k256_curve.go:416-418: IsNegative reads limb 0 of the stored (Montgomery) value of GetY *)
  Definition np_is_negative (p : npoint) : bool :=
    let '(L4 y0 _ _ _) := np_y (np_to_affine p) in Z.land y0 1 =? 1.

  (** k256_curve.go:494-506: ToAffineCompressed *)
  Definition np_to_compressed (p : npoint) : list Z :=
    let t := np_to_affine p in
    let x0 := Z.lor 2 (Z.land (nth 0 (nf_bytes F (np_y t)) 0) 1) in
    let xBytes := nf_bytes F (np_x t) in
    x0 :: reverse_scalar_bytes xBytes.
  (** k256_curve.go:508-517: ToAffineUncompressed *)
  Definition np_to_uncompressed (p : npoint) : list Z :=
    let t := np_to_affine p in
    4 :: reverse_scalar_bytes (nf_bytes F (np_x t)) ++ reverse_scalar_bytes (nf_bytes F (np_y t)).

  (** k256_curve.go:519-554: FromAffineCompressed *)
  Definition np_from_compressed (bytes : list Z) : option npoint :=
    if negb (Z.of_nat (length bytes) =? 33) then None else
    let sign := nth 0 bytes 0 in
    if negb (sign =? 2) && negb (sign =? 3) then None else
    let sign := Z.land sign 1 in
    match nf_set_bytes F (reverse_scalar_bytes (slice 1 33 bytes)) with
    | None => None
    | Some x =>
        let value := np_identity in
        let rhs := nc_rhs C x in
        let '(y, wasQr) := nf_sqrt F nf_zero rhs in
        if wasQr then
          let sigY := Z.land (nth 0 (nf_bytes F y) 0) 1 in
          let y := if negb (sigY =? sign) then nf_neg F y else y in
          Some (NP x y (nf_one F))
        else Some value
    end.
  (** k256_curve.go:556-580: FromAffineUncompressed *)
  Definition np_from_uncompressed (bytes : list Z) : option npoint :=
    if negb (Z.of_nat (length bytes) =? 65) then None else
    if negb (nth 0 bytes 0 =? 4) then None else
    match nf_set_bytes F (reverse_scalar_bytes (slice 1 33 bytes)) with
    | None => None
    | Some x =>
        match nf_set_bytes F (reverse_scalar_bytes (slice 33 65 bytes)) with
        | None => None
        | Some y => Some (NP x y (nf_one F))
        end
    end.
End Curve.
