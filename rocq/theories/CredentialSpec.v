(** Specification vocabulary: histories of link/unlink calls, the abstract per-origin ordered
    set they should implement, and counter histories. *)
From Coq Require Import List String Bool ZArith.
From Verif Require Import CredentialModel.
Import ListNotations.
Open Scope list_scope.

Inductive cop := CLink (o : string) (c : cred) | CUnlink (o : string) (id : list Z).

Definition cstep (m : creds) (x : cop) : option creds :=
  match x with CLink o c => link m o c | CUnlink o id => unlink m o id end.

Fixpoint crun (m : creds) (h : list cop) : option creds :=
  match h with [] => Some m | x :: h' => match cstep m x with None => None | Some m' => crun m' h' end end.

(** abstract state: the list of credentials of each origin, in linking order *)
Definition astate := string -> option (list cred).
Definition aget (a : astate) (o : string) : list cred := match a o with Some l => l | None => [] end.
Definition astep (a : astate) (x : cop) : astate :=
  match x with
  | CLink o c => fun o' => if String.eqb o' o then Some (aget a o ++ [c]) else a o'
  | CUnlink o id => fun o' => if String.eqb o' o
                              then option_map (filter (fun c => negb (bytes_eqb (cr_id c) id))) (a o)
                              else a o'
  end.
Definition fresh (a : astate) (x : cop) : Prop :=
  match x with
  | CLink o c => o <> ""%string /\ ~ In (cr_id c) (map cr_id (aget a o))
  | CUnlink _ _ => True end.
Fixpoint all_fresh (a : astate) (h : list cop) : Prop :=
  match h with [] => True | x :: h' => fresh a x /\ all_fresh (astep a x) h' end.

Definition run_counter (a : authr) (cs : list Z) : authr := fold_left update_counter cs a.

Definition dup := Cred [1%Z] "x".
Definition othr := Cred [2%Z] "y".


(** Every slice header stays inside its backing array (true of all Go slices). *)
Definition wf (s : slice) : Prop := sl_len s <= List.length (sl_arr s).
Definition wf_map (m : creds) : Prop := forall o s, lookup m o = Some s -> wf s.
