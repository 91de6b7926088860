(** * GENERATED by tools/gen_primes.py: primality of 0x1a0111ea397fe69a4b1ba7b6434bacd764774b84f38512bf6730d2a0f6b0f6241eabfffeb153ffffb9feffffffffaaab, by Pocklington certificates. *)
From Coq Require Import ZArith List Znumtheory.
From Verif Require Import Pockl.
Import ListNotations.
Open Scope Z_scope.

Local Lemma pr_4349 : prime 4349.
Proof. apply (trial_ok _ 66). vm_compute. reflexivity. Qed.
Local Lemma pr_582767 : prime 582767.
Proof.
  apply (pock_check_ok _ 2 482997453 14 34
    134 [(4349, 1)]).
  - vm_compute. reflexivity.
  - repeat (apply Forall_cons; [cbn [fst]; first [exact pr_4349]|]); apply Forall_nil.
Qed.
Local Lemma pr_7577 : prime 7577.
Proof. apply (trial_ok _ 88). vm_compute. reflexivity. Qed.
Local Lemma pr_9272813673901 : prime 9272813673901.
Proof.
  apply (pock_check_ok _ 2 8544133992173021 38 58
    2100 [(582767, 1); (7577, 1)]).
  - vm_compute. reflexivity.
  - repeat (apply Forall_cons; [cbn [fst]; first [exact pr_582767 | exact pr_7577]|]); apply Forall_nil.
Qed.
Local Lemma pr_1928745244171409 : prime 1928745244171409.
Proof.
  apply (pock_check_ok _ 2 673014862152705379 45 65
    208 [(9272813673901, 1)]).
  - vm_compute. reflexivity.
  - repeat (apply Forall_cons; [cbn [fst]; first [exact pr_9272813673901]|]); apply Forall_nil.
Qed.
Local Lemma pr_7259797099061183477 : prime 7259797099061183477.
Proof.
  apply (pock_check_ok _ 2 2999818202323635264681 57 77
    3764 [(1928745244171409, 1)]).
  - vm_compute. reflexivity.
  - repeat (apply Forall_cons; [cbn [fst]; first [exact pr_1928745244171409]|]); apply Forall_nil.
Qed.
Local Lemma pr_2584487767265781317813 : prime 2584487767265781317813.
Proof.
  apply (pock_check_ok _ 2 2208944783230132142765173 66 86
    356 [(7259797099061183477, 1)]).
  - vm_compute. reflexivity.
  - repeat (apply Forall_cons; [cbn [fst]; first [exact pr_7259797099061183477]|]); apply Forall_nil.
Qed.
Local Lemma pr_449 : prime 449.
Proof. apply (trial_ok _ 22). vm_compute. reflexivity. Qed.
Local Lemma pr_97 : prime 97.
Proof. apply (trial_ok _ 10). vm_compute. reflexivity. Qed.
Local Lemma pr_609743 : prime 609743.
Proof.
  apply (pock_check_ok _ 2 461628877 14 34
    14 [(449, 1); (97, 1)]).
  - vm_compute. reflexivity.
  - repeat (apply Forall_cons; [cbn [fst]; first [exact pr_449 | exact pr_97]|]); apply Forall_nil.
Qed.
Local Lemma pr_52437899 : prime 52437899.
Proof.
  apply (pock_check_ok _ 2 21986416820 20 40
    86 [(609743, 1)]).
  - vm_compute. reflexivity.
  - repeat (apply Forall_cons; [cbn [fst]; first [exact pr_609743]|]); apply Forall_nil.
Qed.
Local Lemma pr_3 : prime 3.
Proof. apply (trial_ok _ 2). vm_compute. reflexivity. Qed.
Local Lemma pr_17 : prime 17.
Proof. apply (trial_ok _ 5). vm_compute. reflexivity. Qed.
Local Lemma pr_47737 : prime 47737.
Proof.
  apply (pock_check_ok _ 3 23032692 10 30
    936 [(3, 3); (17, 1)]).
  - vm_compute. reflexivity.
  - repeat (apply Forall_cons; [cbn [fst]; first [exact pr_3 | exact pr_17]|]); apply Forall_nil.
Qed.
Local Lemma pr_859267 : prime 859267.
Proof.
  apply (pock_check_ok _ 2 327575685 14 34
    18 [(47737, 1)]).
  - vm_compute. reflexivity.
  - repeat (apply Forall_cons; [cbn [fst]; first [exact pr_47737]|]); apply Forall_nil.
Qed.
Local Lemma pr_2 : prime 2.
Proof. apply (trial_ok _ 2). vm_compute. reflexivity. Qed.
Local Lemma pr_53 : prime 53.
Proof. apply (trial_ok _ 8). vm_compute. reflexivity. Qed.
Local Lemma pr_10177 : prime 10177.
Proof.
  apply (pock_check_ok _ 5 6752429 8 28
    96 [(2, 6); (53, 1)]).
  - vm_compute. reflexivity.
  - repeat (apply Forall_cons; [cbn [fst]; first [exact pr_2 | exact pr_53]|]); apply Forall_nil.
Qed.
Local Lemma pr_4002409555221667393417789825735904156556882819939007885332058136124031650490837864442687629129015664037894272559787 : prime 4002409555221667393417789825735904156556882819939007885332058136124031650490837864442687629129015664037894272559787.
Proof.
  apply (pock_check_ok _ 2 1551583435808307799402620540404390479662732225552511079848936920663334197758098748643738782076621446401130531924666554 375 395
    3377177252905055060729329715378333121866931200904087765894858504534390183042 [(2584487767265781317813, 1); (52437899, 1); (859267, 1); (10177, 1)]).
  - vm_compute. reflexivity.
  - repeat (apply Forall_cons; [cbn [fst]; first [exact pr_2584487767265781317813 | exact pr_52437899 | exact pr_859267 | exact pr_10177]|]); apply Forall_nil.
Qed.
Lemma bls_p_prime : prime 4002409555221667393417789825735904156556882819939007885332058136124031650490837864442687629129015664037894272559787.
Proof. exact pr_4002409555221667393417789825735904156556882819939007885332058136124031650490837864442687629129015664037894272559787. Qed.
