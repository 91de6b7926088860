(** * Fermat's little theorem over Z, transferred from mathcomp. *)
From mathcomp Require Import all_ssreflect.
From Coq Require Import ZArith Znumtheory Lia.
From Verif Require Import ZCong.
Set Implicit Arguments.
Unset Strict Implicit.
Unset Printing Implicit Defensive.

Lemma divn_Z (d n : nat) : d %| n <-> (Z.of_nat d | Z.of_nat n)%Z.
Proof.
  split.
  - move=> /dvdnP [k ->]. exists (Z.of_nat k). by rewrite -multE; lia.
  - case=> z E. case: d E => [|d] E.
    + have -> : n = O by lia. by [].
    + apply/dvdnP. exists (Z.to_nat z). rewrite -multE. nia.
Qed.

Lemma prime_Z (p : nat) : Znumtheory.prime (Z.of_nat p) -> prime.prime p.
Proof.
  move=> P. have [p1 H] := P.
  apply/primeP. split; first by apply/ltP; lia.
  move=> d /divn_Z D.
  case: (prime_divisors _ P _ D) => [|[|[|]]] E.
  - lia.
  - by apply/orP; left; apply/eqP; lia.
  - by apply/orP; right; apply/eqP; lia.
  - lia.
Qed.

Lemma expn_Z (a n : nat) : Z.of_nat (expn a n) = (Z.of_nat a ^ Z.of_nat n)%Z.
Proof.
  elim: n => [|n IH] //. rewrite expnS -multE Nat2Z.inj_mul IH.
  by rewrite Nat2Z.inj_succ Z.pow_succ_r //; lia.
Qed.

Theorem fermat_Z (p a : Z) : Znumtheory.prime p -> (0 <= a)%Z -> cong p (a ^ p) a.
Proof.
  move=> P A. have p1 : (1 < p)%Z by case: P.
  have Ep : Z.of_nat (Z.to_nat p) = p by lia.
  have Ea : Z.of_nat (Z.to_nat a) = a by lia.
  rewrite -Ep in P. have P' := prime_Z P.
  have F := fermat_little (Z.to_nat a) P'.
  have /eqP F' := F.
  have L : leq (Z.to_nat a) (expn (Z.to_nat a) (Z.to_nat p)).
  { have [->|a0] := posnP (Z.to_nat a); first by [].
    rewrite -{1}(expn1 (Z.to_nat a)). apply: leq_pexp2l => //. exact: prime_gt0. }
  rewrite eqn_mod_dvd // in F'.
  move/divn_Z: F'. rewrite -minusE Nat2Z.inj_sub; last by apply/leP.
  rewrite expn_Z Ep Ea. by [].
Qed.

Theorem fermat_inv (p a : Z) : Znumtheory.prime p -> ~ (p | a)%Z -> cong p (a ^ (p - 1)) 1.
Proof.
  move=> P A. have p1 : (1 < p)%Z by case: P.
  have R : rel_prime p a by exact: prime_rel_prime.
  (* reduce to a nonnegative representative *)
  apply: (@cong_trans _ _ ((a mod p) ^ (p - 1))%Z).
  { apply: cong_pow; first lia. apply: cong_sym. apply: cong_mod. lia. }
  apply: (@cong_cancel _ (a mod p)%Z).
  { apply: prime_rel_prime => // D. apply: A.
    have := cong_mod p a ltac:(lia). case=> k E. case: D => l E'. exists (l - k)%Z. lia. }
  rewrite Z.mul_1_l.
  have -> : ((a mod p) ^ (p - 1) * (a mod p) = (a mod p) ^ p)%Z.
  { rewrite Z.mul_comm -Z.pow_succ_r; last lia. by congr Z.pow; lia. }
  apply: fermat_Z => //. by have := Z.mod_pos_bound a p ltac:(lia); lia.
Qed.
