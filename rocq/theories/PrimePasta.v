(** * GENERATED by tools/gen_primes.py: primality of 0x40000000000000000000000000000000224698fc094cf91b992d30ed00000001, 0x40000000000000000000000000000000224698fc0994a8dd8c46eb2100000001, by Pocklington certificates. *)
From Coq Require Import ZArith List Znumtheory.
From Verif Require Import Pockl.
Import ListNotations.
Open Scope Z_scope.

Local Lemma pr_13 : prime 13.
Proof. apply (trial_ok _ 4). vm_compute. reflexivity. Qed.
Local Lemma pr_11 : prime 11.
Proof. apply (trial_ok _ 4). vm_compute. reflexivity. Qed.
Local Lemma pr_3 : prime 3.
Proof. apply (trial_ok _ 2). vm_compute. reflexivity. Qed.
Local Lemma pr_25741 : prime 25741.
Proof.
  apply (pock_check_ok _ 3 10678602 9 29
    60 [(13, 1); (11, 1); (3, 2)]).
  - vm_compute. reflexivity.
  - repeat (apply Forall_cons; [cbn [fst]; first [exact pr_13 | exact pr_11 | exact pr_3]|]); apply Forall_nil.
Qed.
Local Lemma pr_772231 : prime 772231.
Proof.
  apply (pock_check_ok _ 2 364495826 14 34
    30 [(25741, 1)]).
  - vm_compute. reflexivity.
  - repeat (apply Forall_cons; [cbn [fst]; first [exact pr_25741]|]); apply Forall_nil.
Qed.
Local Lemma pr_41 : prime 41.
Proof. apply (trial_ok _ 7). vm_compute. reflexivity. Qed.
Local Lemma pr_413527 : prime 413527.
Proof.
  apply (pock_check_ok _ 2 170167230 13 33
    10086 [(41, 3)]).
  - vm_compute. reflexivity.
  - repeat (apply Forall_cons; [cbn [fst]; first [exact pr_41]|]); apply Forall_nil.
Qed.
Local Lemma pr_325086459374267 : prime 325086459374267.
Proof.
  apply (pock_check_ok _ 2 249563265633292301 43 63
    1018 [(772231, 1); (413527, 1)]).
  - vm_compute. reflexivity.
  - repeat (apply Forall_cons; [cbn [fst]; first [exact pr_772231 | exact pr_413527]|]); apply Forall_nil.
Qed.
Local Lemma pr_977 : prime 977.
Proof. apply (trial_ok _ 32). vm_compute. reflexivity. Qed.
Local Lemma pr_19 : prime 19.
Proof. apply (trial_ok _ 5). vm_compute. reflexivity. Qed.
Local Lemma pr_6942563 : prime 6942563.
Proof.
  apply (pock_check_ok _ 2 2594776382 17 37
    374 [(977, 1); (19, 1)]).
  - vm_compute. reflexivity.
  - repeat (apply Forall_cons; [cbn [fst]; first [exact pr_977 | exact pr_19]|]); apply Forall_nil.
Qed.
Local Lemma pr_41655379 : prime 41655379.
Proof.
  apply (pock_check_ok _ 2 27677614086 20 40
    6 [(6942563, 1)]).
  - vm_compute. reflexivity.
  - repeat (apply Forall_cons; [cbn [fst]; first [exact pr_6942563]|]); apply Forall_nil.
Qed.
Local Lemma pr_22160661629 : prime 22160661629.
Proof.
  apply (pock_check_ok _ 2 13638196366310 29 49
    532 [(41655379, 1)]).
  - vm_compute. reflexivity.
  - repeat (apply Forall_cons; [cbn [fst]; first [exact pr_41655379]|]); apply Forall_nil.
Qed.
Local Lemma pr_8999194758858563409123804352480028797519453 : prime 8999194758858563409123804352480028797519453.
Proof.
  apply (pock_check_ok _ 2 3536837237453389722698616506423726642515611603 137 157
    1249171444262593764 [(325086459374267, 1); (22160661629, 1)]).
  - vm_compute. reflexivity.
  - repeat (apply Forall_cons; [cbn [fst]; first [exact pr_325086459374267 | exact pr_22160661629]|]); apply Forall_nil.
Qed.
Local Lemma pr_28948022309329048855892746252171976963363056481941560715954676764349967630337 : prime 28948022309329048855892746252171976963363056481941560715954676764349967630337.
Proof.
  apply (pock_check_ok _ 2 29642774844752946028434172162224104410390462311299810615064694005357155522182217 249 269
    3216734728497058061019394250637312 [(8999194758858563409123804352480028797519453, 1)]).
  - vm_compute. reflexivity.
  - repeat (apply Forall_cons; [cbn [fst]; first [exact pr_8999194758858563409123804352480028797519453]|]); apply Forall_nil.
Qed.
Lemma pallas_p_prime : prime 28948022309329048855892746252171976963363056481941560715954676764349967630337.
Proof. exact pr_28948022309329048855892746252171976963363056481941560715954676764349967630337. Qed.

Local Lemma pr_43 : prime 43.
Proof. apply (trial_ok _ 7). vm_compute. reflexivity. Qed.
Local Lemma pr_2 : prime 2.
Proof. apply (trial_ok _ 2). vm_compute. reflexivity. Qed.
Local Lemma pr_31649 : prime 31649.
Proof.
  apply (pock_check_ok _ 3 8685200 9 29
    368 [(43, 1); (2, 5)]).
  - vm_compute. reflexivity.
  - repeat (apply Forall_cons; [cbn [fst]; first [exact pr_43 | exact pr_2]|]); apply Forall_nil.
Qed.
Local Lemma pr_3037 : prime 3037.
Proof. apply (trial_ok _ 56). vm_compute. reflexivity. Qed.
Local Lemma pr_12149 : prime 12149.
Proof.
  apply (pock_check_ok _ 2 5656389 8 28
    4 [(3037, 1)]).
  - vm_compute. reflexivity.
  - repeat (apply Forall_cons; [cbn [fst]; first [exact pr_3037]|]); apply Forall_nil.
Qed.
Local Lemma pr_5239247429827 : prime 5239247429827.
Proof.
  apply (pock_check_ok _ 2 3780512543806336 37 57
    13626 [(31649, 1); (12149, 1)]).
  - vm_compute. reflexivity.
  - repeat (apply Forall_cons; [cbn [fst]; first [exact pr_31649 | exact pr_12149]|]); apply Forall_nil.
Qed.
Local Lemma pr_6091 : prime 6091.
Proof. apply (trial_ok _ 79). vm_compute. reflexivity. Qed.
Local Lemma pr_5701177 : prime 5701177.
Proof.
  apply (pock_check_ok _ 2 3159768326 17 37
    936 [(6091, 1)]).
  - vm_compute. reflexivity.
  - repeat (apply Forall_cons; [cbn [fst]; first [exact pr_6091]|]); apply Forall_nil.
Qed.
Local Lemma pr_399082391 : prime 399082391.
Proof.
  apply (pock_check_ok _ 2 184891586195 23 43
    70 [(5701177, 1)]).
  - vm_compute. reflexivity.
  - repeat (apply Forall_cons; [cbn [fst]; first [exact pr_5701177]|]); apply Forall_nil.
Qed.
Local Lemma pr_10427374428728808478656897599072717 : prime 10427374428728808478656897599072717.
Proof.
  apply (pock_check_ok _ 2 10590196247715561152857887017737469951 108 128
    4987047376988 [(5239247429827, 1); (399082391, 1)]).
  - vm_compute. reflexivity.
  - repeat (apply Forall_cons; [cbn [fst]; first [exact pr_5239247429827 | exact pr_399082391]|]); apply Forall_nil.
Qed.
Local Lemma pr_241 : prime 241.
Proof. apply (trial_ok _ 16). vm_compute. reflexivity. Qed.
Local Lemma pr_29 : prime 29.
Proof. apply (trial_ok _ 6). vm_compute. reflexivity. Qed.
Local Lemma pr_125803 : prime 125803.
Proof.
  apply (pock_check_ok _ 2 34959790 11 31
    18 [(241, 1); (29, 1)]).
  - vm_compute. reflexivity.
  - repeat (apply Forall_cons; [cbn [fst]; first [exact pr_241 | exact pr_29]|]); apply Forall_nil.
Qed.
Local Lemma pr_2012849 : prime 2012849.
Proof.
  apply (pock_check_ok _ 2 559356368 15 35
    16 [(125803, 1)]).
  - vm_compute. reflexivity.
  - repeat (apply Forall_cons; [cbn [fst]; first [exact pr_125803]|]); apply Forall_nil.
Qed.
Local Lemma pr_4025699 : prime 4025699.
Proof.
  apply (pock_check_ok _ 2 1118712458 16 36
    2 [(2012849, 1)]).
  - vm_compute. reflexivity.
  - repeat (apply Forall_cons; [cbn [fst]; first [exact pr_2012849]|]); apply Forall_nil.
Qed.
Local Lemma pr_80513981 : prime 80513981.
Proof.
  apply (pock_check_ok _ 2 57278077187 21 41
    20 [(4025699, 1)]).
  - vm_compute. reflexivity.
  - repeat (apply Forall_cons; [cbn [fst]; first [exact pr_4025699]|]); apply Forall_nil.
Qed.
Local Lemma pr_5247740253619 : prime 5247740253619.
Proof.
  apply (pock_check_ok _ 2 3774394248058781 37 57
    65178 [(80513981, 1)]).
  - vm_compute. reflexivity.
  - repeat (apply Forall_cons; [cbn [fst]; first [exact pr_80513981]|]); apply Forall_nil.
Qed.
Local Lemma pr_1690502597179744445941507 : prime 1690502597179744445941507.
Proof.
  apply (pock_check_ok _ 2 885285641751498244556662316 75 95
    322139152374 [(5247740253619, 1)]).
  - vm_compute. reflexivity.
  - repeat (apply Forall_cons; [cbn [fst]; first [exact pr_5247740253619]|]); apply Forall_nil.
Qed.
Local Lemma pr_28948022309329048855892746252171976963363056481941647379679742748393362948097 : prime 28948022309329048855892746252171976963363056481941647379679742748393362948097.
Proof.
  apply (pock_check_ok _ 2 29642774844752946028434172162224104410390462311299721871410226437696718716795977 249 269
    1642207713725251584 [(10427374428728808478656897599072717, 1); (1690502597179744445941507, 1)]).
  - vm_compute. reflexivity.
  - repeat (apply Forall_cons; [cbn [fst]; first [exact pr_10427374428728808478656897599072717 | exact pr_1690502597179744445941507]|]); apply Forall_nil.
Qed.
Lemma pallas_q_prime : prime 28948022309329048855892746252171976963363056481941647379679742748393362948097.
Proof. exact pr_28948022309329048855892746252171976963363056481941647379679742748393362948097. Qed.
