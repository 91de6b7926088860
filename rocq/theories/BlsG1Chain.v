(** The certificates of [|x|]G and [x^2]G on G1 pass their checks. *)
From Coq Require Import ZArith NArith List.
From Verif Require Import GenChain BlsFpProps BlsRep BlsG1Cert.
Local Open Scope Z_scope.
Definition z1_sq (a : Z) : Z := a * a.
Lemma g1_chain1_ok : run Z.add Z.sub Z.mul z1_sq z1_eq z1_neq g1_gx g1_gy g1_chain1 1 g1_gx g1_gy = Some (15132376222941642752%N, g1_mx, g1_my).
Proof. vm_compute. reflexivity. Qed.
Lemma g1_chain2_ok : run Z.add Z.sub Z.mul z1_sq z1_eq z1_neq g1_mx g1_my g1_chain2 1 g1_mx g1_my = Some (15132376222941642752%N, g1_ex, g1_ey).
Proof. vm_compute. reflexivity. Qed.
