(** What the point encodings mean (specification): curves over the integers modulo a prime,
    the affine point a triple of limb arrays stands for, and the SEC 1 byte formats. *)
From Coq Require Import ZArith List.
From Verif Require Import LimbBase LimbSpec EncodeModel.
Import ListNotations.
Open Scope Z_scope.

(** y^2 = x^3 + a x + b modulo p *)
Record curve := Curve { c_p : Z; c_a : Z; c_b : Z }.
Definition secp256k1 : curve := Curve (2 ^ 256 - 2 ^ 32 - 977) 0 7.
Definition nist_p256 : curve := Curve (2 ^ 256 - 2 ^ 224 + 2 ^ 192 + 2 ^ 96 - 1) (-3)
  0x5ac635d8aa3a93e7b3ebbd55769886bc651d06b0cc53b0f63bce3c3e27d2604b.

Definition coord (E : curve) (v : Z) : Prop := 0 <= v < c_p E.
Definition on_curve (E : curve) (x y : Z) : Prop :=
  coord E x /\ coord E y /\ (y * y) mod c_p E = (x * x * x + c_a E * x + c_b E) mod c_p E.

(** the affine point of a triple of coordinates X, Y, Z: (X/Z, Y/Z), none (infinity) for Z = 0 *)
Definition denotes (E : curve) (P : npoint) (A : option (Z * Z)) : Prop :=
  exists X Y Z, represents (c_p E) (np_x P) X /\ represents (c_p E) (np_y P) Y /\ represents (c_p E) (np_z P) Z /\
    match A with
    | None => Z = 0
    | Some (x, y) => Z <> 0 /\ coord E x /\ coord E y /\ (x * Z) mod c_p E = X /\ (y * Z) mod c_p E = Y
    end.

(** 32-byte big-endian integers, and the SEC 1 formats *)
Definition be32 (bs : list Z) (v : Z) : Prop := is_bytes bs /\ length bs = 32%nat /\ le_val (rev bs) = v.
Definition sec1_compressed (x y : Z) (bs : list Z) : Prop := exists xs, bs = (2 + y mod 2) :: xs /\ be32 xs x.
Definition sec1_uncompressed (x y : Z) (bs : list Z) : Prop := exists xs ys, bs = 4 :: xs ++ ys /\ be32 xs x /\ be32 ys y.
