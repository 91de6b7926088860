(** Specification of the two-party exchange: the step functions of the two parties run
    alternately, each on the other's last output. *)
From Coq Require Import List.
From Verif Require Import StepperModel.
Import ListNotations.

(** the number of successful calls among the results of a history *)
Definition succ {M} (r : nres M) : bool := match r with NOut _ => true | _ => false end.
Definition count {M} (rs : list (nres M)) : nat := List.length (filter succ rs).

Section Exchange.
  Variables S1 S2 M : Type.
  Notation step1 := (stepfn S1 M).
  Notation step2 := (stepfn S2 M).

  (** [exchange ps qs s t m]: first party's remaining steps ps, second party's qs *)
  Fixpoint exchange (ps : list step1) (qs : list step2) (s : S1) (t : S2) (m : option M)
    : S1 * S2 * rres :=
    match ps with
    | [] => (s, t, RDone)
    | f :: ps' =>
        match f s m with
        | (s', SErr) => (s', t, RErrFirst)
        | (s', SPanic) => (s', t, RPanic)
        | (s', SOut m1) =>
            match qs with
            | [] => (s', t, RDone)
            | g :: qs' =>
                match g t m1 with
                | (t', SErr) => (s', t', RErrSecond)
                | (t', SPanic) => (s', t', RPanic)
                | (t', SOut m2) => exchange ps' qs' s' t' m2
                end
            end
        end
    end.
End Exchange.
Arguments exchange {S1 S2 M}.
