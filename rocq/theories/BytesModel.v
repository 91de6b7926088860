(** Go byte slices and math/big conversions, on lists of Z (each byte in [0,256)).
    math/big: Int.Bytes, Int.SetBytes, Int.FillBytes as documented; used by all codecs. *)
From Coq Require Import List Bool ZArith.
Import ListNotations.
Open Scope Z_scope.

Definition byte_ok (b : Z) : Prop := 0 <= b < 256.
Definition bytes_ok (l : list Z) : Prop := Forall byte_ok l.

(** big.Int.SetBytes: unsigned big-endian *)
Definition of_be (l : list Z) : Z := fold_left (fun acc b => acc * 256 + b) l 0.

(** little-endian digits of a non-negative number, without trailing zeros; fuel bounds the
    number of digits *)
Fixpoint le_digits (fuel : nat) (x : Z) : list Z :=
  match fuel with
  | O => []
  | S f => if x =? 0 then [] else (x mod 256) :: le_digits f (x / 256)
  end.

(** big.Int.Bytes: minimal big-endian bytes of |x| (empty for 0) *)
Definition be_bytes (x : Z) : list Z :=
  rev (le_digits (S (Z.to_nat (Z.log2 (Z.abs x)))) (Z.abs x)).

(** big.Int.FillBytes into a buffer of n bytes: None is the run-time panic when |x| does not fit *)
Definition fill_bytes (n : nat) (x : Z) : option (list Z) :=
  let b := be_bytes x in
  if Nat.leb (length b) n then Some (repeat 0 (n - length b) ++ b) else None.
