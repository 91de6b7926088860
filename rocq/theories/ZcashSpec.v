(** The serialisation format of BLS12-381 points ("Zcash encoding"): big-endian coordinates of 48 bytes per component,
    the component of u first; the three top bits of the first byte are flags: compressed, infinity, and - in compressed
    form - whether y is the larger of y and -y. *)
From Coq Require Import ZArith List.
From Verif Require Import EcField EcSpec LimbSpec LimbField BlsFpProps TowerModel TowerBls.
Import ListNotations.
Set Implicit Arguments.
Unset Strict Implicit.
Local Open Scope Z_scope.

(** big-endian value *)
Definition be_val (bs : list Z) : Z := fold_left (fun a d => 256 * a + d) bs 0.
(** the 48 bytes of an element of Fp: the bytes of the integer below p it stands for ([rv] is [represents6 bls_p] of the limbs) *)
Definition coord1 (bs : list Z) (x : BlsFp) : Prop := is_bytes bs /\ length bs = 48%nat /\ rv x (be_val bs).
(** the 96 bytes of an element a + b u of Fp2 *)
Definition coord2 (bs : list Z) (x : Bls2) : Prop :=
  exists bb ba, bs = bb ++ ba /\ coord1 bb (qu_b x) /\ coord1 ba (qu_a x).
(** the integer those 96 bytes write *)
Definition value2 (x : Bls2) (v : Z) : Prop := exists a b, rv (qu_a x) a /\ rv (qu_b x) b /\ v = b * 2 ^ 384 + a.
(** y is larger than -y *)
Definition larger1 (y : BlsFp) : Prop := exists v, rv y v /\ bls_p < 2 * v.
Definition larger2 (y : Bls2) : Prop := larger1 (qu_b y) \/ (qu_b y = f0 /\ larger1 (qu_a y)).

Section Format.
  Variables (K : field) (width : nat) (coord : list Z -> K -> Prop) (larger : K -> Prop).
  Definition compressed_form (P : point K) (bs : list Z) : Prop :=
    match P with
    | None => bs = 192 :: repeat 0 (width - 1)
    | Some (x, y) => exists h r, coord (h :: r) x /\ ((larger y /\ bs = (128 + 32 + h) :: r) \/ (~ larger y /\ bs = (128 + h) :: r))
    end.
  Definition uncompressed_form (P : point K) (bs : list Z) : Prop :=
    match P with
    | None => bs = 64 :: repeat 0 (2 * width - 1)
    | Some (x, y) => exists bx by', coord bx x /\ coord by' y /\ bs = bx ++ by'
    end.
End Format.
