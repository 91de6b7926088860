(** crypto/zkp/schnorr/schnorr.go. Scalars are a field F, points a vector space V over it with
    generator G; [enc] is ToAffineCompressed, [sbytes] Scalar.Bytes, [setbytes] Scalar.SetBytes and
    [H] SHA3-256. Writing to a hash never fails; nil points are not represented except for the
    basepoint argument. *)
From mathcomp Require Import all_ssreflect all_algebra.
From Verif Require Import AlgBase.
Set Implicit Arguments.
Unset Strict Implicit.
Unset Printing Implicit Defensive.
Import GRing.Theory.
Local Open Scope ring_scope.

Definition bytes := seq BinNums.N.
Inductive sch_err := SchSetBytes | SchVerify | SchDecommit.

Section Schnorr.
  Variables (F : fieldType) (V : lmodType F) (G : V).
  Variables (enc : V -> bytes) (sbytes : F -> bytes) (setbytes : bytes -> option F) (H : bytes -> bytes).

  (** schnorr.go:31-35 Proof *)
  Record sproof := SProof { pr_C : F; pr_S : F; pr_X : V }.

  (** schnorr.go:40-42, 84-86: a nil basepoint is the default generator *)
  Definition base (b : option V) : V := if b is Some x then x else G.

  (** schnorr.go:53-79 Prove; [k] is the random scalar *)
  Definition sch_prove (b : option V) (sid : bytes) (x k : F) : res sch_err sproof :=
    let B := base b in
    let X := x *: B in
    let K := k *: B in
    match setbytes (H (sid ++ enc B ++ enc X ++ enc K)) with
    | None => Err SchSetBytes
    | Some c => Ok (SProof c (c * x + k) X)
    end.

  (** schnorr.go:83-107 Verify *)
  Definition sch_verify (pf : sproof) (b : option V) (sid : bytes) : res sch_err unit :=
    let B := base b in
    let gs := pr_S pf *: B in
    let xc := (- pr_C pf) *: pr_X pf in
    let K := gs + xc in
    if sbytes (pr_C pf) != H (sid ++ enc B ++ enc (pr_X pf) ++ enc K) then Err SchVerify else Ok tt.

  (** schnorr.go:111-124 ProveCommit *)
  Definition prove_commit (b : option V) (sid : bytes) (x k : F) : res sch_err (sproof * bytes) :=
    rbind (sch_prove b sid x k) (fun pf => Ok (pf, H (sbytes (pr_C pf) ++ sbytes (pr_S pf)))).

  (** schnorr.go:128-140 DecommitVerify *)
  Definition decommit_verify (pf : sproof) (commitment : bytes) (b : option V) (sid : bytes)
    : res sch_err unit :=
    if H (sbytes (pr_C pf) ++ sbytes (pr_S pf)) != commitment then Err SchDecommit
    else sch_verify pf b sid.
End Schnorr.
