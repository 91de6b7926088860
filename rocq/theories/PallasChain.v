(** The certificate of [q-1]G passes its checks. *)
From Coq Require Import ZArith NArith List Bool.
From Verif Require Import GenChain PastaProps PallasCert.
Local Open Scope Z_scope.
Definition zp_sq (a : Z) : Z := a * a.
Definition zp_eq (a b k : Z) : bool := Z.eqb (a - b) (pallas_p * k).
Definition zp_neq (a b : Z) : bool := (Z.ltb 0 (Z.abs (a - b)) && Z.ltb (Z.abs (a - b)) pallas_p)%bool.
Lemma pallas_chain_ok : run Z.add Z.sub Z.mul zp_sq zp_eq zp_neq pallas_gx pallas_gy pallas_chain 1 pallas_gx pallas_gy =
  Some (Z.to_N (pallas_q - 1), pallas_gx, pallas_p - pallas_gy).
Proof. vm_compute. reflexivity. Qed.
