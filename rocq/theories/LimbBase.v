(** * 64-bit words and the three word helpers of the BLS12-381 code.

    A Go [uint64] is modelled as an integer of [Z] in [0, 2^64); every
    arithmetic operation reduces explicitly, so wrap-around is part of the
    model.  [bits.Mul64], [bits.Add64] and [bits.Sub64] are modelled by their
    documented contracts (package math/bits is outside the repository). *)
From Coq Require Import ZArith Lia List Bool.
Open Scope Z_scope.

(** The word size. *)
Definition W : Z := 2 ^ 64.
Definition word (x : Z) : Prop := 0 <= x < W.

(** Go's operators on uint64 (the language, not the repository). *)
Definition wadd (x y : Z) : Z := (x + y) mod W.
Definition wsub (x y : Z) : Z := (x - y) mod W.
Definition wmul (x y : Z) : Z := (x * y) mod W.
Definition wneg (x : Z) : Z := (- x) mod W.
Definition wnot (x : Z) : Z := W - 1 - x.
Definition wand (x y : Z) : Z := Z.land x y.
Definition wor (x y : Z) : Z := Z.lor x y.
Definition wxor (x y : Z) : Z := Z.lxor x y.
Definition wandnot (x y : Z) : Z := Z.ldiff x y.
Definition wshl (x n : Z) : Z := (Z.shiftl x n) mod W.
Definition wshr (x n : Z) : Z := Z.shiftr x n.
(** uint8(x). *)
Definition wbyte (x : Z) : Z := x mod 256.
(** int64(x): two's complement reading of a word. *)
Definition to_int64 (x : Z) : Z := if x <? 2 ^ 63 then x else x - W.
(** uint64(n) of a Go int. *)
Definition to_uint64 (n : Z) : Z := n mod W.

(** math/bits, by contract. *)
Definition mul64 (x y : Z) : Z * Z := (x * y / W, (x * y) mod W).          (* hi, lo *)
Definition add64 (x y c : Z) : Z * Z := ((x + y + c) mod W, (x + y + c) / W). (* sum, carryOut *)
Definition sub64 (x y b : Z) : Z * Z :=
  ((x - y - b) mod W, if x - y - b <? 0 then 1 else 0).                    (* diff, borrowOut *)

(** bls12381.go:21-29 [mac]: a + b*c + d as (low, high). *)
Definition mac (a b c d : Z) : Z * Z :=
  let '(hi, lo) := mul64 b c in
  let '(carry2, carry) := add64 a d 0 in
  let '(hi, _) := add64 hi 0 carry in
  let '(lo, carry) := add64 lo carry2 0 in
  let '(hi, _) := add64 hi 0 carry in
  (lo, hi).

(** bls12381.go:32-41 [adc]. *)
Definition adc (x y carry : Z) : Z * Z :=
  let sum := wadd (wadd x y) carry in
  let carryOut := wshr (wor (wand x y) (wandnot (wor x y) sum)) 63 in
  let carryOut := wor carryOut (wshr (wor (wand x carry) (wandnot (wor x carry) sum)) 63) in
  let carryOut := wor carryOut (wshr (wor (wand y carry) (wandnot (wor y carry) sum)) 63) in
  (sum, carryOut).

(** bls12381.go:44-48 [sbb]. *)
Definition sbb (x y borrow : Z) : Z * Z :=
  let diff := wsub x (wadd y borrow) in
  let borrowOut :=
    wshr (wor (wand (wnot x) y) (wand (wnot (wxor x y)) diff)) 63 in
  (diff, borrowOut).

(** Four limbs ([4]uint64) and six limbs ([6]uint64), least significant first. *)
Record limbs4 := L4 { l4_0 : Z; l4_1 : Z; l4_2 : Z; l4_3 : Z }.
Record limbs6 := L6 { l6_0 : Z; l6_1 : Z; l6_2 : Z; l6_3 : Z; l6_4 : Z; l6_5 : Z }.
