(** Multi-scalar multiplication: crypto/core/curves/curve.go:820-863 (bls12377), pallas_curve.go:1030-1076,
    native/point.go:411-463 (k256, p256), native/bls12381/g1.go:977-1030 and g2.go:973-1026.

    Points are an abelian group V, with Add, Double, Identity its operations; in-place updates of fresh points are
    updates of the list. Type assertions on mixed curves (which return nil) are not represented. Scalars are the
    nonnegative integers BigInt returns, or their 32 little-endian bytes. *)
From mathcomp Require Import all_ssreflect all_algebra.
From Coq Require Import BinNat.
From Verif Require Import ByteVec SchnorrModel.
Delimit Scope nat_scope with N.
Delimit Scope N_scope with num.
Set Implicit Arguments.
Unset Strict Implicit.
Unset Printing Implicit Defensive.
Import GRing.Theory.
Local Open Scope ring_scope.

(** what SumOfProducts can do: a point, nil, a non-nil Point whose value is nil, or a panic *)
Inductive sop (A : Type) := SopPoint of A | SopNil | SopNilValue | SopPanic.
Arguments SopNil {A}.
Arguments SopNilValue {A}.
Arguments SopPanic {A}.

Section Pippenger.
  Variable V : zmodType.

  (** acc, sum: sum = sum + bucket[i]; acc = acc + sum, from the last bucket to the first (curve.go:847-852) *)
  Definition running (bs : seq V) : V := (foldl (fun st b => let s := st.1 + b in (s, st.2 + s)) (0, 0) (rev bs)).2.
  (** w doublings, then the next window, from the last window to the first (curve.go:855-861) *)
  Definition horner (w : nat) (ws : seq V) : V := foldl (fun acc p => iter w (fun a => a + a) acc + p) 0 (rev ws).

  (** int(new(big.Int).Rsh(s, w*j).Int64()) & 63: Int64 keeps the low 64 bits (curve.go:840) *)
  Definition index6 (s : N) (j : nat) : nat :=
    N.to_nat (N.land 63 (N.land (N.shiftr s (N.of_nat (6 * j)%N)) (N.ones 64))).
  (** curve.go:839-844 *)
  Definition fill6 (j : nat) (b : seq V) (x : V * N) : seq V :=
    let index := index6 x.2 j in
    if index == 0%N then b else set_nth 0 b index.-1 (nth 0 b index.-1 + x.1).
  (** curve.go:834-853: window j *)
  Definition window6 (xs : seq (V * N)) (j : nat) : V := running (foldl (fill6 j) (nseq 63 0) xs).
  (** 255/6+1 = 43 windows *)
  Definition windows6 (xs : seq (V * N)) : seq V := mkseq (window6 xs) 43.

  (** curve.go:820-863 sumOfProductsPippenger: points[0] of an empty list panics *)
  Definition sum_of_products_pippenger (ps : seq V) (ss : seq N) : sop V :=
    if size ps != size ss then SopNil
    else if ps is [::] then SopPanic
    else SopPoint (horner 6 (windows6 (zip ps ss))).
  (** pallas_curve.go:1030-1076 sumOfProductsPippengerPallas, and 624-635 its caller, which wraps the result whether nil or
      not *)
  Definition sum_of_products_pallas (ps : seq V) (ss : seq N) : sop V :=
    if size ps != size ss then SopNilValue else SopPoint (horner 6 (windows6 (zip ps ss))).

  (** native/point.go:446: bytes[j*4>>3] >> (4*j & 4) & 15 *)
  Definition index4 (b : bytes) (j : nat) : nat :=
    N.to_nat (N.land (N.shiftr (nth 0%num b ((4 * j) %/ 8)) (N.land (N.of_nat (4 * j)%N) 4)) 15).
  Definition fill4 (j : nat) (b : seq V) (x : V * bytes) : seq V :=
    let index := index4 x.2 j in set_nth 0 b index (nth 0 b index + x.1).
  (** native/point.go:435-455: the sum leaves out bucket 0 *)
  Definition window4 (xs : seq (V * bytes)) (j : nat) : V := running (behead (foldl (fill4 j) (nseq 16 0) xs)).
  Definition windows4 (xs : seq (V * bytes)) : seq V := mkseq (window4 xs) 64.
  (** native/point.go:411-463 and the callers (k256_curve.go:584-606: an error gives nil) *)
  Definition sum_of_products_native (ps : seq V) (ss : seq bytes) : sop V :=
    if size ps != size ss then SopNil else SopPoint (horner 4 (windows4 (zip ps ss))).
End Pippenger.
