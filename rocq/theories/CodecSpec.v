(** Independent vocabulary for the codec properties. *)
From Coq Require Import List Bool ZArith.
Import ListNotations.
Open Scope Z_scope.

(** the n-byte big-endian digits of x: digit k (from the left) is x / 256^(n-1-k) mod 256 *)
Definition be_n (n : nat) (x : Z) : list Z :=
  map (fun k => (x / 256 ^ Z.of_nat (n - 1 - k)) mod 256) (seq 0 n).

(** value of an ASCII lower-case hexadecimal digit *)
Definition hex_val (c : Z) : option Z :=
  if (48 <=? c) && (c <=? 57) then Some (c - 48)
  else if (97 <=? c) && (c <=? 102) then Some (c - 87) else None.
(** the usual decoder of hex strings: two digits per byte *)
Fixpoint hex_decode (l : list Z) : option (list Z) :=
  match l with
  | [] => Some []
  | a :: b :: l' =>
      match hex_val a, hex_val b, hex_decode l' with
      | Some x, Some y, Some r => Some (16 * x + y :: r)
      | _, _, _ => None
      end
  | _ => None
  end.
