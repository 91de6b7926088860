(** Specification vocabulary for the x/did properties (no code is modelled here). *)
From Coq Require Import List String Bool.
From Verif Require Import DidModel.
Import ListNotations.

(** Specification, independent of the store: the params in force after a history. *)
Fixpoint in_force (authority : string) (current : option params) (h : list op) : option params :=
  match h with
  | [] => current
  | OpUpdate a p :: h' => in_force authority (if String.eqb a authority then Some p else current) h'
  | _ :: h' => in_force authority current h'
  end.

