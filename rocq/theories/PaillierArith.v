(** Number theory over Z used by the Paillier proofs: Euler's theorem for squares of primes and
    Fermat's little theorem, transported from mathcomp's nat to Coq's Z. *)
From mathcomp Require Import all_ssreflect all_algebra cyclic.
From Coq Require Import ZArith Znumtheory Zpow_facts Lia.
Set Implicit Arguments.
Unset Strict Implicit.
Local Close Scope Z_scope.

Lemma Zof_modn a b : Z.of_nat (modn a b.+1) = Z.modulo (Z.of_nat a) (Z.of_nat b.+1).
Proof.
  have E := divn_eq a b.+1. have L := ltn_pmod a (ltn0Sn b).
  apply: (Z.mod_unique_pos _ _ (Z.of_nat (divn a b.+1))).
  - move/ltP: L. lia.
  - rewrite {1}E -plusE -multE. rewrite Nat2Z.inj_add Nat2Z.inj_mul. lia.
Qed.
Lemma Zof_expn a b : Z.of_nat (expn a b) = Z.pow (Z.of_nat a) (Z.of_nat b).
Proof.
  elim: b => [|b IH]; first by rewrite expn0.
  rewrite expnS -multE Nat2Z.inj_mul IH Nat2Z.inj_succ Z.pow_succ_r; lia.
Qed.
Lemma Zof_dvdn a b : dvdn a b -> Z.divide (Z.of_nat a) (Z.of_nat b).
Proof. move=> /dvdnP [k ->]. exists (Z.of_nat k). by rewrite -multE Nat2Z.inj_mul. Qed.
Lemma dvdn_of_Z a b : Z.divide (Z.of_nat a) (Z.of_nat b) -> dvdn a b.
Proof.
  case: a => [|a] [k H].
  - have -> : b = 0 by lia. by [].
  - apply/dvdnP. exists (Z.to_nat k). rewrite -multE. nia.
Qed.
Lemma primeZ_nat p : Znumtheory.prime p -> exists n, p = Z.of_nat n /\ prime.prime n.
Proof.
  move=> Hp. have Hp' := Hp. case: Hp' => [H1 _]. exists (Z.to_nat p). split; first lia.
  apply/primeP. split; first by apply/ltP; lia.
  move=> d D. have D' : Z.divide (Z.of_nat d) p.
  { have -> : p = Z.of_nat (Z.to_nat p) by lia. exact: Zof_dvdn. }
  have := prime_divisors _ Hp _ D'. move=> [E|[E|[E|E]]]; apply/orP.
  - lia.
  - left. apply/eqP. lia.
  - right. apply/eqP. lia.
  - lia.
Qed.

(** Fermat: p does not divide a *)
Lemma fermat_unit p a : Znumtheory.prime p -> ~ Z.divide p a ->
  Z.modulo (Z.pow a (p - 1)) p = 1%Z.
Proof.
  move=> Hp Ha. have [n [E Pn]] := primeZ_nat Hp. have G := prime_gt1 Pn.
  have P1 : (1 < p)%Z by case: Hp.
  set a' := Z.to_nat (Z.modulo a p).
  have Ea : Z.modulo a p = Z.of_nat a' by rewrite /a'; have := Z.mod_pos_bound a p; lia.
  have C : coprime a' n.
  { rewrite coprime_sym prime_coprime //. apply/negP => D. apply: Ha.
    apply: (proj1 (Z.mod_divide a p _)); first lia.
    have := Zof_dvdn D. rewrite -Ea -E => /Z.divide_pos_le HH.
    have [] := Z.mod_pos_bound a p; first lia. move=> B1 B2.
    have [//|N0] := Z.eq_dec (Z.modulo a p) 0. lia. }
  have Eu := Euler_exp_totient C. rewrite (totient_prime Pn) in Eu.
  have P0 : (0 <= p - 1)%Z by lia.
  have -> : Z.modulo (Z.pow a (p - 1)) p = Z.modulo (Z.pow (Z.modulo a p) (p - 1)) p.
  { by rewrite -(Zpower_mod a (p-1) p); [|lia]. }
  rewrite Ea. have -> : (p - 1)%Z = Z.of_nat n.-1 by move/ltP: G; lia.
  rewrite -Zof_expn E. move: Eu. case: (n) G => // n' G. move=> Eu.
  rewrite -Zof_modn Eu modn_small //.
Qed.
(** Euler modulo p^2 *)
Lemma euler_square p a : Znumtheory.prime p -> ~ Z.divide p a ->
  Z.modulo (Z.pow a (p * (p - 1))) (p * p) = 1%Z.
Proof.
  move=> Hp Ha. have [n [E Pn]] := primeZ_nat Hp. have G := prime_gt1 Pn.
  have P1 : (1 < p)%Z by case: Hp.
  set a' := Z.to_nat (Z.modulo a (p * p)).
  have Ea : Z.modulo a (p * p) = Z.of_nat a' by rewrite /a'; have := Z.mod_pos_bound a (p * p); nia.
  have C : coprime a' (expn n 2).
  { rewrite coprime_pexpr // coprime_sym prime_coprime //. apply/negP => D. apply: Ha.
    have := Zof_dvdn D. rewrite -Ea -E => D'.
    rewrite (Z.div_mod a (p * p)); last nia. apply: Z.divide_add_r => //.
    apply: Z.divide_mul_l. exists p. lia. }
  have Eu := Euler_exp_totient C. rewrite (totient_pfactor Pn) // in Eu.
  have -> : Z.modulo (Z.pow a (p * (p - 1))) (p * p)
          = Z.modulo (Z.pow (Z.modulo a (p * p)) (p * (p - 1))) (p * p).
  { rewrite -(Zpower_mod a _ (p * p)) //. nia. }
  rewrite Ea. have -> : (p * (p - 1))%Z = Z.of_nat (muln n.-1 (expn n 1)).
  { rewrite expn1 -multE Nat2Z.inj_mul. move/ltP: G; nia. }
  rewrite -Zof_expn.
  have -> : (p * p)%Z = Z.of_nat (expn n 2) by rewrite -mulnn -multE Nat2Z.inj_mul E.
  have G2 : leq 2 (expn n 2) by exact: (leq_trans G (leq_pmulr n (ltnW G))).
  move: Eu. change (n ^ 2.-1) with (expn n 1).
  case: (expn n 2) G2 => [|n1] G2 Eu; first by [].   rewrite -Zof_modn Eu modn_small //.
Qed.
(** Fermat for every base *)
Lemma fermat_all p a k : Znumtheory.prime p -> (0 <= k)%Z ->
  Z.modulo (Z.pow a (k * (p - 1) + 1)) p = Z.modulo a p.
Proof.
  move=> Hp Hk. have P1 : (1 < p)%Z by case: Hp.
  have N : (0 <= k * (p - 1))%Z by nia.
  rewrite Z.pow_add_r ?Z.pow_1_r; [|lia|lia].
  have [D|D] := Zdivide_dec p a.
  - have A := proj2 (Z.mod_divide a p ltac:(lia)) D.
    rewrite A. apply: (proj2 (Z.mod_divide _ _ _)); first lia. exact: Z.divide_mul_r.
  - have -> : (k * (p - 1) = (p - 1) * k)%Z by lia.
    rewrite Z.pow_mul_r; [|lia|lia].
    rewrite Z.mul_mod; last lia. rewrite Zpower_mod; last lia. rewrite fermat_unit //.
    rewrite Z.pow_1_l; last lia. rewrite (Z.mod_small 1); last lia.
    rewrite Z.mul_1_l Z.mod_mod //. lia.
Qed.
