(** * GENERATED by tools/gen_primes.py: primality of 0xffffffff00000001000000000000000000000000ffffffffffffffffffffffff, 0xffffffff00000000ffffffffffffffffbce6faada7179e84f3b9cac2fc632551, by Pocklington certificates. *)
From Coq Require Import ZArith List Znumtheory.
From Verif Require Import Pockl.
Import ListNotations.
Open Scope Z_scope.

Local Lemma pr_313 : prime 313.
Proof. apply (trial_ok _ 18). vm_compute. reflexivity. Qed.
Local Lemma pr_5 : prime 5.
Proof. apply (trial_ok _ 3). vm_compute. reflexivity. Qed.
Local Lemma pr_704251 : prime 704251.
Proof.
  apply (pock_check_ok _ 2 399679910 14 34
    450 [(313, 1); (5, 3)]).
  - vm_compute. reflexivity.
  - repeat (apply Forall_cons; [cbn [fst]; first [exact pr_313 | exact pr_5]|]); apply Forall_nil.
Qed.
Local Lemma pr_4349 : prime 4349.
Proof. apply (trial_ok _ 66). vm_compute. reflexivity. Qed.
Local Lemma pr_78283 : prime 78283.
Proof.
  apply (pock_check_ok _ 2 56181374 11 31
    18 [(4349, 1)]).
  - vm_compute. reflexivity.
  - repeat (apply Forall_cons; [cbn [fst]; first [exact pr_4349]|]); apply Forall_nil.
Qed.
Local Lemma pr_46076956964474543 : prime 46076956964474543.
Proof.
  apply (pock_check_ok _ 2 28847998725474735911 50 70
    835774 [(704251, 1); (78283, 1)]).
  - vm_compute. reflexivity.
  - repeat (apply Forall_cons; [cbn [fst]; first [exact pr_704251 | exact pr_78283]|]); apply Forall_nil.
Qed.
Local Lemma pr_3677 : prime 3677.
Proof. apply (trial_ok _ 61). vm_compute. reflexivity. Qed.
Local Lemma pr_197 : prime 197.
Proof. apply (trial_ok _ 15). vm_compute. reflexivity. Qed.
Local Lemma pr_66417393611 : prime 66417393611.
Proof.
  apply (pock_check_ok _ 2 18201946115127 30 50
    91690 [(3677, 1); (197, 1)]).
  - vm_compute. reflexivity.
  - repeat (apply Forall_cons; [cbn [fst]; first [exact pr_3677 | exact pr_197]|]); apply Forall_nil.
Qed.
Local Lemma pr_11290956913871 : prime 11290956913871.
Proof.
  apply (pock_check_ok _ 2 7016957297652258 38 58
    170 [(66417393611, 1)]).
  - vm_compute. reflexivity.
  - repeat (apply Forall_cons; [cbn [fst]; first [exact pr_66417393611]|]); apply Forall_nil.
Qed.
Local Lemma pr_774023187263532362759620327192479577272145303 : prime 774023187263532362759620327192479577272145303.
Proof.
  apply (pock_check_ok _ 2 673728149908872519191817491148012781680944020515 144 164
    1487782449629334 [(46076956964474543, 1); (11290956913871, 1)]).
  - vm_compute. reflexivity.
  - repeat (apply Forall_cons; [cbn [fst]; first [exact pr_46076956964474543 | exact pr_11290956913871]|]); apply Forall_nil.
Qed.
Local Lemma pr_835945042244614951780389953367877943453916927241 : prime 835945042244614951780389953367877943453916927241.
Proof.
  apply (pock_check_ok _ 2 654125156035968435818591868146313565336923664125440 154 174
    1080 [(774023187263532362759620327192479577272145303, 1)]).
  - vm_compute. reflexivity.
  - repeat (apply Forall_cons; [cbn [fst]; first [exact pr_774023187263532362759620327192479577272145303]|]); apply Forall_nil.
Qed.
Local Lemma pr_115792089210356248762697446949407573530086143415290314195533631308867097853951 : prime 115792089210356248762697446949407573530086143415290314195533631308867097853951.
Proof.
  apply (pock_check_ok _ 2 29642774851654692375224735949284715853470318093842907392841161671747017121989376 250 270
    138516389665330497628477975950 [(835945042244614951780389953367877943453916927241, 1)]).
  - vm_compute. reflexivity.
  - repeat (apply Forall_cons; [cbn [fst]; first [exact pr_835945042244614951780389953367877943453916927241]|]); apply Forall_nil.
Qed.
Lemma p256_p_prime : prime 115792089210356248762697446949407573530086143415290314195533631308867097853951.
Proof. exact pr_115792089210356248762697446949407573530086143415290314195533631308867097853951. Qed.

Local Lemma pr_43 : prime 43.
Proof. apply (trial_ok _ 7). vm_compute. reflexivity. Qed.
Local Lemma pr_155317 : prime 155317.
Proof.
  apply (pock_check_ok _ 2 113266326 12 32
    3612 [(43, 2)]).
  - vm_compute. reflexivity.
  - repeat (apply Forall_cons; [cbn [fst]; first [exact pr_43]|]); apply Forall_nil.
Qed.
Local Lemma pr_191039911 : prime 191039911.
Proof.
  apply (pock_check_ok _ 2 96559634984 22 42
    1230 [(155317, 1)]).
  - vm_compute. reflexivity.
  - repeat (apply Forall_cons; [cbn [fst]; first [exact pr_155317]|]); apply Forall_nil.
Qed.
Local Lemma pr_3023 : prime 3023.
Proof. apply (trial_ok _ 55). vm_compute. reflexivity. Qed.
Local Lemma pr_208150935158385979 : prime 208150935158385979.
Proof.
  apply (pock_check_ok _ 2 102174164705893340623 52 72
    360426 [(191039911, 1); (3023, 1)]).
  - vm_compute. reflexivity.
  - repeat (apply Forall_cons; [cbn [fst]; first [exact pr_191039911 | exact pr_3023]|]); apply Forall_nil.
Qed.
Local Lemma pr_2624747550333869278416773953 : prime 2624747550333869278416773953.
Proof.
  apply (pock_check_ok _ 2 2391506845901515404354173205822 86 106
    12609828288 [(208150935158385979, 1)]).
  - vm_compute. reflexivity.
  - repeat (apply Forall_cons; [cbn [fst]; first [exact pr_208150935158385979]|]); apply Forall_nil.
Qed.
Local Lemma pr_337 : prime 337.
Proof. apply (trial_ok _ 19). vm_compute. reflexivity. Qed.
Local Lemma pr_104471 : prime 104471.
Proof.
  apply (pock_check_ok _ 2 42098252 11 31
    310 [(337, 1)]).
  - vm_compute. reflexivity.
  - repeat (apply Forall_cons; [cbn [fst]; first [exact pr_337]|]); apply Forall_nil.
Qed.
Local Lemma pr_3969899 : prime 3969899.
Proof.
  apply (pock_check_ok _ 2 1134436827 16 36
    38 [(104471, 1)]).
  - vm_compute. reflexivity.
  - repeat (apply Forall_cons; [cbn [fst]; first [exact pr_104471]|]); apply Forall_nil.
Qed.
Local Lemma pr_1002328039319 : prime 1002328039319.
Proof.
  apply (pock_check_ok _ 2 308766189990668 34 54
    252482 [(3969899, 1)]).
  - vm_compute. reflexivity.
  - repeat (apply Forall_cons; [cbn [fst]; first [exact pr_3969899]|]); apply Forall_nil.
Qed.
Local Lemma pr_115792089210356248762697446949407573529996955224135760342422259061068512044369 : prime 115792089210356248762697446949407573529996955224135760342422259061068512044369.
Proof.
  apply (pock_check_ok _ 2 29642774851654692375224735949284715853493150270789105240142764339325645654589030 250 270
    44013050614219118277426053354358264624 [(2624747550333869278416773953, 1); (1002328039319, 1)]).
  - vm_compute. reflexivity.
  - repeat (apply Forall_cons; [cbn [fst]; first [exact pr_2624747550333869278416773953 | exact pr_1002328039319]|]); apply Forall_nil.
Qed.
Lemma p256_n_prime : prime 115792089210356248762697446949407573529996955224135760342422259061068512044369.
Proof. exact pr_115792089210356248762697446949407573529996955224135760342422259061068512044369. Qed.
