(** Shared by the algebraic models: the result of a Go call that may return an error or panic. *)
From mathcomp Require Import all_ssreflect all_algebra.
Set Implicit Arguments.
Unset Strict Implicit.
Unset Printing Implicit Defensive.

(** a Go call: a value, a non-nil error, or a panic (nil dereference, index out of range) *)
Inductive res (E A : Type) := Ok of A | Err of E | Panic.
Arguments Ok {E A}.
Arguments Err {E A}.
Arguments Panic {E A}.

Definition rbind {E A B : Type} (r : res E A) (f : A -> res E B) : res E B :=
  match r with Ok a => f a | Err e => Err e | Panic => Panic end.
