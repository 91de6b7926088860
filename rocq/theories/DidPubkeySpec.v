(** What the public-key properties are stated with: a cyclic group whose elements have coordinates, and the
    textbook ECDSA equations in it. *)
From Coq Require Import List Bool ZArith.
Import ListNotations.
Open Scope Z_scope.

(** [smul] makes V a group on which N G = 0, and [xy] / [embed] are inverse coordinates, (0,0) being the
    identity's *)
Record curve_group (V : Type) (zero : V) (add : V -> V -> V) (smul : Z -> V -> V) (G : V)
  (embed : Z -> Z -> option V) (xy : V -> Z * Z) (p N : Z) : Prop := {
  cg_order : 1 < N;
  cg_zero : smul 0 G = zero;
  cg_add : forall a b, add (smul a G) (smul b G) = smul (a + b) G;
  cg_mul : forall a b, smul a (smul b G) = smul (a * b) G;
  cg_mod : forall a, smul (a mod N) G = smul a G;
  cg_range : forall P, 0 <= fst (xy P) < p /\ 0 <= snd (xy P) < p;
  cg_coords : forall P, embed (fst (xy P)) (snd (xy P)) = Some P;
  cg_identity : xy zero = (0, 0)
}.

(** (r, s) is an ECDSA signature of the number e, made with the secret key d and the nonce k *)
Definition signed_with (V : Type) (smul : Z -> V -> V) (G : V) (xy : V -> Z * Z) (N d k e r s : Z) : Prop :=
  r = fst (xy (smul k G)) mod N /\ 0 < r /\ 0 < s < N /\ (k * s) mod N = (e + d * r) mod N.

(** the verification equation for the public point Q *)
Definition ecdsa_equation (V : Type) (add : V -> V -> V) (smul : Z -> V -> V) (G : V) (xy : V -> Z * Z)
  (N : Z) (Q : V) (e r s : Z) : Prop :=
  0 < r < N /\ 0 < s < N /\ exists w, 0 <= w < N /\ (s * w) mod N = 1 /\
  exists P, P = add (smul ((e * w) mod N) G) (smul ((r * w) mod N) Q) /\ xy P <> (0, 0) /\ fst (xy P) mod N = r.
