(** What a byte string and a triple of coordinates stand for; the rest of the vocabulary is in [EcSpec]. *)
From Coq Require Import List NArith.
From Verif Require Import EcField EcSpec PointModel.
Set Implicit Arguments.
Unset Strict Implicit.
Import ListNotations.
Local Open Scope fld_scope.

(** little-endian value of a byte string *)
Fixpoint le_value (l : list N) : N := match l with [] => 0%N | x :: r => (x + 256 * le_value r)%N end.
Definition is_bytes32 (l : list N) : Prop := length l = 32%nat /\ Forall (fun x => (x < 256)%N) l.

Section Spec.
  Variable F : field.
  (** homogeneous coordinates: (X : Y : Z) is the affine point (X/Z, Y/Z), or infinity when Z = 0 *)
  Definition homogeneous (p : pt F) : point F :=
    if feqb (pz p) 0 then None else Some (px p / pz p, py p / pz p).
  (** Jacobian coordinates: (X/Z^2, Y/Z^3) *)
  Definition jacobian (p : pt F) : point F :=
    if feqb (pz p) 0 then None else Some (px p / (pz p * pz p), py p / (pz p * pz p * pz p)).
  (** a BLS12-381 triple also has to keep a non-zero Y at infinity, which the identity (0 : 1 : 0) has; the curve
      equation in homogeneous form then forces X = 0 *)
  Definition proper (p : pt F) : Prop := pz p = 0 -> px p = 0 /\ py p <> 0.
  (** the secp256k1 / BLS / Pallas curves have a = 0, P-256 has a = -3 *)
  Definition a_p256 : F := - (1 + 1 + 1).
End Spec.
