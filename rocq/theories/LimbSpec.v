(** * What limbs, bytes and Montgomery form mean (specification).

    A limb array denotes an integer in base 2^64, a byte array denotes an
    integer in base 256, least significant first in both cases.  A field
    element of modulus [m] that stands for the residue [v] is kept as the
    canonical array of v * 2^256 mod m (v * 2^384 mod p for the six-limb
    field).  Nothing here refers to the code. *)
From Coq Require Import ZArith List.
From Verif Require Import LimbBase.
Open Scope Z_scope.

Definition val4 (a : limbs4) : Z :=
  let '(L4 a0 a1 a2 a3) := a in a0 + W * (a1 + W * (a2 + W * a3)).
Definition val6 (a : limbs6) : Z :=
  let '(L6 a0 a1 a2 a3 a4 a5) := a in a0 + W * (a1 + W * (a2 + W * (a3 + W * (a4 + W * a5)))).
Definition words4 (a : limbs4) : Prop :=
  let '(L4 a0 a1 a2 a3) := a in word a0 /\ word a1 /\ word a2 /\ word a3.
Definition words6 (a : limbs6) : Prop :=
  let '(L6 a0 a1 a2 a3 a4 a5) := a in
  word a0 /\ word a1 /\ word a2 /\ word a3 /\ word a4 /\ word a5.

(** value of a little-endian byte string; being a byte string *)
Fixpoint le_val (bs : list Z) : Z := match bs with nil => 0 | b :: r => b + 256 * le_val r end.
Definition is_bytes (bs : list Z) : Prop := Forall (fun b => 0 <= b < 256) bs.

(** the unique reduced limb array of its residue class *)
Definition canonical (m : Z) (x : limbs4) : Prop := words4 x /\ val4 x < m.

(** [x] is the field element of modulus [m] that stands for the integer [v] *)
Definition represents (m : Z) (x : limbs4) (v : Z) : Prop :=
  canonical m x /\ 0 <= v < m /\ val4 x = (v * 2 ^ 256) mod m.

(** the same for six limbs *)
Definition represents6 (m : Z) (x : limbs6) (v : Z) : Prop :=
  words6 x /\ val6 x < m /\ 0 <= v < m /\ val6 x = (v * 2 ^ 384) mod m.
