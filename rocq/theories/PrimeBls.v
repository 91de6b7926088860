(** * GENERATED by tools/gen_primes.py: primality of 0x73eda753299d7d483339d80809a1d80553bda402fffe5bfeffffffff00000001, by Pocklington certificates. *)
From Coq Require Import ZArith List Znumtheory.
From Verif Require Import Pockl.
Import ListNotations.
Open Scope Z_scope.

Local Lemma pr_359 : prime 359.
Proof. apply (trial_ok _ 19). vm_compute. reflexivity. Qed.
Local Lemma pr_110573 : prime 110573.
Proof.
  apply (pock_check_ok _ 2 39775049 11 31
    308 [(359, 1)]).
  - vm_compute. reflexivity.
  - repeat (apply Forall_cons; [cbn [fst]; first [exact pr_359]|]); apply Forall_nil.
Qed.
Local Lemma pr_2653753 : prime 2653753.
Proof.
  apply (pock_check_ok _ 2 1697068124 16 36
    24 [(110573, 1)]).
  - vm_compute. reflexivity.
  - repeat (apply Forall_cons; [cbn [fst]; first [exact pr_110573]|]); apply Forall_nil.
Qed.
Local Lemma pr_63690073 : prime 63690073.
Proof.
  apply (pock_check_ok _ 2 18102059713 20 40
    24 [(2653753, 1)]).
  - vm_compute. reflexivity.
  - repeat (apply Forall_cons; [cbn [fst]; first [exact pr_2653753]|]); apply Forall_nil.
Qed.
Local Lemma pr_254760293 : prime 254760293.
Proof.
  apply (pock_check_ok _ 2 72408238570 22 42
    4 [(63690073, 1)]).
  - vm_compute. reflexivity.
  - repeat (apply Forall_cons; [cbn [fst]; first [exact pr_63690073]|]); apply Forall_nil.
Qed.
Local Lemma pr_1607 : prime 1607.
Proof. apply (trial_ok _ 41). vm_compute. reflexivity. Qed.
Local Lemma pr_906349 : prime 906349.
Proof.
  apply (pock_check_ok _ 2 310559151 14 34
    564 [(1607, 1)]).
  - vm_compute. reflexivity.
  - repeat (apply Forall_cons; [cbn [fst]; first [exact pr_1607]|]); apply Forall_nil.
Qed.
Local Lemma pr_2 : prime 2.
Proof. apply (trial_ok _ 2). vm_compute. reflexivity. Qed.
Local Lemma pr_52435875175126190479447740508185965837690552500527637822603658699938581184513 : prime 52435875175126190479447740508185965837690552500527637822603658699938581184513.
Proof.
  apply (pock_check_ok _ 5 16364744645730252930785627053835748877812200352683725940437419160735895728481476 249 269
    113545865660781439181660799981575955357863775192430029054148608 [(254760293, 2); (906349, 2); (2, 32)]).
  - vm_compute. reflexivity.
  - repeat (apply Forall_cons; [cbn [fst]; first [exact pr_254760293 | exact pr_906349 | exact pr_2]|]); apply Forall_nil.
Qed.
Lemma bls_r_prime : prime 52435875175126190479447740508185965837690552500527637822603658699938581184513.
Proof. exact pr_52435875175126190479447740508185965837690552500527637822603658699938581184513. Qed.
