(** The certificate of [|x|]G on G2 passes its check. *)
From Coq Require Import ZArith NArith List.
From Verif Require Import GenChain BlsRep BlsG2Cert.
Local Open Scope Z_scope.
Lemma g2_chain_ok : run z2_add z2_sub z2_mul z2_sq z2_eq z2_neq g2_gx g2_gy g2_chain 1 g2_gx g2_gy = Some (15132376222941642752%N, g2_xx, g2_xy).
Proof. vm_compute. reflexivity. Qed.
