(** Specification vocabulary: a message type occurring in a transaction. *)
From Coq Require Import List String.
From Verif Require Import FilterModel.

(** [occurs m l]: message [m] is one of [l] or sits inside nested MsgExec wrappers of [l]. *)
Inductive occurs (m : msg) : list msg -> Prop :=
| occurs_here l : In m l -> occurs m l
| occurs_in l inner : In (Exec (Some inner)) l -> occurs m inner -> occurs m l.
