(** * GENERATED by tools/gen_primes.py: primality of 0xfffffffffffffffffffffffffffffffffffffffffffffffffffffffefffffc2f, 0xfffffffffffffffffffffffffffffffebaaedce6af48a03bbfd25e8cd0364141, by Pocklington certificates. *)
From Coq Require Import ZArith List Znumtheory.
From Verif Require Import Pockl.
Import ListNotations.
Open Scope Z_scope.

Local Lemma pr_5 : prime 5.
Proof. apply (trial_ok _ 3). vm_compute. reflexivity. Qed.
Local Lemma pr_53 : prime 53.
Proof. apply (trial_ok _ 8). vm_compute. reflexivity. Qed.
Local Lemma pr_107590001 : prime 107590001.
Proof.
  apply (pock_check_ok _ 2 42863518687 21 41
    406000 [(5, 4); (53, 1)]).
  - vm_compute. reflexivity.
  - repeat (apply Forall_cons; [cbn [fst]; first [exact pr_5 | exact pr_53]|]); apply Forall_nil.
Qed.
Local Lemma pr_419 : prime 419.
Proof. apply (trial_ok _ 21). vm_compute. reflexivity. Qed.
Local Lemma pr_20113 : prime 20113.
Proof.
  apply (pock_check_ok _ 2 13666678 9 29
    48 [(419, 1)]).
  - vm_compute. reflexivity.
  - repeat (apply Forall_cons; [cbn [fst]; first [exact pr_419]|]); apply Forall_nil.
Qed.
Local Lemma pr_1206781 : prime 1206781.
Proof.
  apply (pock_check_ok _ 2 932977820 15 35
    60 [(20113, 1)]).
  - vm_compute. reflexivity.
  - repeat (apply Forall_cons; [cbn [fst]; first [exact pr_20113]|]); apply Forall_nil.
Qed.
Local Lemma pr_7240687 : prime 7240687.
Proof.
  apply (pock_check_ok _ 2 2487940510 17 37
    6 [(1206781, 1)]).
  - vm_compute. reflexivity.
  - repeat (apply Forall_cons; [cbn [fst]; first [exact pr_1206781]|]); apply Forall_nil.
Qed.
Local Lemma pr_239 : prime 239.
Proof. apply (trial_ok _ 16). vm_compute. reflexivity. Qed.
Local Lemma pr_101 : prime 101.
Proof. apply (trial_ok _ 11). vm_compute. reflexivity. Qed.
Local Lemma pr_96557 : prime 96557.
Proof.
  apply (pock_check_ok _ 2 45548707 11 31
    4 [(239, 1); (101, 1)]).
  - vm_compute. reflexivity.
  - repeat (apply Forall_cons; [cbn [fst]; first [exact pr_239 | exact pr_101]|]); apply Forall_nil.
Qed.
Local Lemma pr_255515944373312847190720520512484175977 : prime 255515944373312847190720520512484175977.
Proof.
  apply (pock_check_ok _ 2 116011448590638171089406205920954080977920 122 142
    3396898387916374264 [(107590001, 1); (7240687, 1); (96557, 1)]).
  - vm_compute. reflexivity.
  - repeat (apply Forall_cons; [cbn [fst]; first [exact pr_107590001 | exact pr_7240687 | exact pr_96557]|]); apply Forall_nil.
Qed.
Local Lemma pr_205115282021455665897114700593932402728804164701536103180137503955397371 : prime 205115282021455665897114700593932402728804164701536103180137503955397371.
Proof.
  apply (pock_check_ok _ 2 60877932049732853912660050763817983788571952174805796232710289060433917096 231 251
    802749442992798076634733441528810 [(255515944373312847190720520512484175977, 1)]).
  - vm_compute. reflexivity.
  - repeat (apply Forall_cons; [cbn [fst]; first [exact pr_255515944373312847190720520512484175977]|]); apply Forall_nil.
Qed.
Local Lemma pr_115792089237316195423570985008687907853269984665640564039457584007908834671663 : prime 115792089237316195423570985008687907853269984665640564039457584007908834671663.
Proof.
  apply (pock_check_ok _ 2 29642774844752946028434172162224104410437116074403984394101141506026860699701504 250 270
    564522 [(205115282021455665897114700593932402728804164701536103180137503955397371, 1)]).
  - vm_compute. reflexivity.
  - repeat (apply Forall_cons; [cbn [fst]; first [exact pr_205115282021455665897114700593932402728804164701536103180137503955397371]|]); apply Forall_nil.
Qed.
Lemma k256_p_prime : prime 115792089237316195423570985008687907853269984665640564039457584007908834671663.
Proof. exact pr_115792089237316195423570985008687907853269984665640564039457584007908834671663. Qed.

Local Lemma pr_1871 : prime 1871.
Proof. apply (trial_ok _ 44). vm_compute. reflexivity. Qed.
Local Lemma pr_1627771 : prime 1627771.
Proof.
  apply (pock_check_ok _ 2 691682003 15 35
    870 [(1871, 1)]).
  - vm_compute. reflexivity.
  - repeat (apply Forall_cons; [cbn [fst]; first [exact pr_1871]|]); apply Forall_nil.
Qed.
Local Lemma pr_297159362677 : prime 297159362677.
Proof.
  apply (pock_check_ok _ 2 260369559815739 33 53
    182556 [(1627771, 1)]).
  - vm_compute. reflexivity.
  - repeat (apply Forall_cons; [cbn [fst]; first [exact pr_1627771]|]); apply Forall_nil.
Qed.
Local Lemma pr_1409 : prime 1409.
Proof. apply (trial_ok _ 38). vm_compute. reflexivity. Qed.
Local Lemma pr_28181 : prime 28181.
Proof.
  apply (pock_check_ok _ 2 9754015 9 29
    20 [(1409, 1)]).
  - vm_compute. reflexivity.
  - repeat (apply Forall_cons; [cbn [fst]; first [exact pr_1409]|]); apply Forall_nil.
Qed.
Local Lemma pr_545358713 : prime 545358713.
Proof.
  apply (pock_check_ok _ 2 541199577716 24 44
    19352 [(28181, 1)]).
  - vm_compute. reflexivity.
  - repeat (apply Forall_cons; [cbn [fst]; first [exact pr_28181]|]); apply Forall_nil.
Qed.
Local Lemma pr_29047611873442575647497758179 : prime 29047611873442575647497758179.
Proof.
  apply (pock_check_ok _ 2 13830207895060807695449386897627 89 109
    179241578 [(297159362677, 1); (545358713, 1)]).
  - vm_compute. reflexivity.
  - repeat (apply Forall_cons; [cbn [fst]; first [exact pr_297159362677 | exact pr_545358713]|]); apply Forall_nil.
Qed.
Local Lemma pr_341948486974166000522343609283189 : prime 341948486974166000522343609283189.
Proof.
  apply (pock_check_ok _ 2 315368515365736328699988557321192252 103 123
    11772 [(29047611873442575647497758179, 1)]).
  - vm_compute. reflexivity.
  - repeat (apply Forall_cons; [cbn [fst]; first [exact pr_29047611873442575647497758179]|]); apply Forall_nil.
Qed.
Local Lemma pr_9349 : prime 9349.
Proof. apply (trial_ok _ 97). vm_compute. reflexivity. Qed.
Local Lemma pr_44706919 : prime 44706919.
Proof.
  apply (pock_check_ok _ 2 25788435669 20 40
    4782 [(9349, 1)]).
  - vm_compute. reflexivity.
  - repeat (apply Forall_cons; [cbn [fst]; first [exact pr_9349]|]); apply Forall_nil.
Qed.
Local Lemma pr_113 : prime 113.
Proof. apply (trial_ok _ 11). vm_compute. reflexivity. Qed.
Local Lemma pr_19 : prime 19.
Proof. apply (trial_ok _ 5). vm_compute. reflexivity. Qed.
Local Lemma pr_120233 : prime 120233.
Proof.
  apply (pock_check_ok _ 2 36579362 11 31
    56 [(113, 1); (19, 1)]).
  - vm_compute. reflexivity.
  - repeat (apply Forall_cons; [cbn [fst]; first [exact pr_113 | exact pr_19]|]); apply Forall_nil.
Qed.
Local Lemma pr_174723607534414371449 : prime 174723607534414371449.
Proof.
  apply (pock_check_ok _ 2 127634413650360126753317 62 82
    32505224 [(44706919, 1); (120233, 1)]).
  - vm_compute. reflexivity.
  - repeat (apply Forall_cons; [cbn [fst]; first [exact pr_44706919 | exact pr_120233]|]); apply Forall_nil.
Qed.
Local Lemma pr_115792089237316195423570985008687907852837564279074904382605163141518161494337 : prime 115792089237316195423570985008687907852837564279074904382605163141518161494337.
Proof.
  apply (pock_check_ok _ 2 29642774844752946028434172162224104410547815693364793266255361247822873033097373 250 270
    1938057310625759192294976 [(341948486974166000522343609283189, 1); (174723607534414371449, 1)]).
  - vm_compute. reflexivity.
  - repeat (apply Forall_cons; [cbn [fst]; first [exact pr_341948486974166000522343609283189 | exact pr_174723607534414371449]|]); apply Forall_nil.
Qed.
Lemma k256_n_prime : prime 115792089237316195423570985008687907852837564279074904382605163141518161494337.
Proof. exact pr_115792089237316195423570985008687907852837564279074904382605163141518161494337. Qed.
