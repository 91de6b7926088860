(** What a FROST DKG should achieve, in terms of the dealers' polynomials. *)
From mathcomp Require Import all_ssreflect all_algebra.
From Verif Require Import ShamirSpec.
Set Implicit Arguments.
Unset Strict Implicit.
Unset Printing Implicit Defensive.
Import GRing.Theory.
Local Open Scope ring_scope.

(** the list of Lagrange coefficients at 0 of the identifiers ids: the unique-by-interpolation weights
    that send the values of every polynomial of at most |ids| coefficients to its value at 0 *)
Definition recovers (F : fieldType) (ids : seq nat) (w : nat -> F) : Prop :=
  forall c : seq F, (size c <= size ids)%N -> \sum_(i <- ids) w i * peval c i%:R = peval c 0.
