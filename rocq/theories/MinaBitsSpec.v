(** What a bit vector holds: the bits of its bytes, least significant first, cut to its length. *)
From Coq Require Import ZArith List Bool.
From Verif Require Import LimbSpec MinaBitsModel.
Import ListNotations.
Local Open Scope Z_scope.

Definition byte_bits (b : Z) : list bool := map (Z.testbit b) [0; 1; 2; 3; 4; 5; 6; 7].
Definition all_bits (data : list Z) : list bool := flat_map byte_bits data.
Definition holds (v : bitvector) (l : list bool) : Prop :=
  is_bytes (bv_data v) /\ bv_length v = Z.of_nat (length l) /\ exists rest, all_bits (bv_data v) = l ++ rest.
Definition bit (b : bool) : Z := if b then 1 else 0.
(** the first n bits of an integer, least significant first *)
Definition int_bits (x : Z) (n : nat) : list bool := map (fun i => Z.testbit x (Z.of_nat i)) (seq 0 n).
(** the integer some bits write *)
Fixpoint bits_value (l : list bool) : Z := match l with [] => 0 | b :: r => bit b + 2 * bits_value r end.
(** a roinput holds the field elements and the bits added so far *)
Definition ro_holds (r : roinput) (fields : list Z) (l : list bool) : Prop := ro_fields r = fields /\ holds (ro_bits r) l.
(** bits in groups of 254, the last one possibly shorter *)
Fixpoint groups (fuel : nat) (l : list bool) : list (list bool) :=
  match fuel, l with
  | S fuel, _ :: _ => firstn 254 l :: groups fuel (skipn 254 l)
  | _, _ => []
  end.
