(** Specification vocabulary for the v1 secret-sharing API. *)
From mathcomp Require Import all_ssreflect all_algebra.
Set Implicit Arguments.
Unset Strict Implicit.
Unset Printing Implicit Defensive.

(** the value of a big-endian byte string *)
Definition be_value (bs : seq nat) : nat := (\sum_(i < size bs) nth 0 bs i * 256 ^ (size bs - i.+1))%N.
(** bytes *)
Definition is_bytes (bs : seq nat) : Prop := forall b, b \in bs -> (b < 256)%N.
(** the string without its leading zero bytes *)
Fixpoint strip (bs : seq nat) : seq nat :=
  match bs with 0%N :: r => strip r | _ => bs end.
