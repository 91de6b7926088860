(** What a user knows about Shamir, Feldman and Pedersen sharing, in terms of polynomials over a
    field; nothing here refers to the model's helpers. *)
From mathcomp Require Import all_ssreflect all_algebra.
Set Implicit Arguments.
Unset Strict Implicit.
Unset Printing Implicit Defensive.
Import GRing.Theory.
Local Open Scope ring_scope.

(** the integers 1..255 are distinct non-zero scalars (true for every curve of the library, whose
    orders are primes above 2^250) *)
Definition big_field (F : fieldType) : Prop := forall n : nat, (0 < n < 256)%N -> n%:R != 0 :> F.

(** the value at x of the polynomial with coefficient list c, lowest degree first *)
Definition peval (F : fieldType) (c : seq F) (x : F) : F := \sum_(i < size c) c`_i * x ^+ i.

(** the point at x of the committed polynomial: sum_j x^j C_j *)
Definition ceval (F : fieldType) (V : lmodType F) (C : seq V) (x : F) : V :=
  \sum_(j < size C) x ^+ j *: nth 0 C j.

Section Share.
  Variables (F : fieldType) (B : eqType) (dec : B -> option F).
  (** a share a recipient can use: non-zero identifier, value that decodes to a non-zero scalar *)
  Definition usable (s : nat * B) : Prop :=
    (0 < s.1)%N /\ exists v, dec s.2 = Some v /\ v <> 0.
End Share.
