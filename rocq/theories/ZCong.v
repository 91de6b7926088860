(** * Congruence modulo m, as divisibility of the difference (helper lemmas). *)
From Coq Require Import ZArith Lia Znumtheory.
Open Scope Z_scope.

Definition cong (m a b : Z) : Prop := (m | a - b).

Section Cong.
  Variable m : Z.

  Lemma cong_refl a : cong m a a.
  Proof. unfold cong. rewrite Z.sub_diag. apply Z.divide_0_r. Qed.
  Lemma cong_eq a b : a = b -> cong m a b.
  Proof. intros ->. apply cong_refl. Qed.
  Lemma cong_sym a b : cong m a b -> cong m b a.
  Proof. intros [k E]. exists (- k). lia. Qed.
  Lemma cong_trans a b c : cong m a b -> cong m b c -> cong m a c.
  Proof. intros [k E] [l E']. exists (k + l). lia. Qed.
  Lemma cong_add a b c d : cong m a b -> cong m c d -> cong m (a + c) (b + d).
  Proof. intros [k E] [l E']. exists (k + l). lia. Qed.
  Lemma cong_sub a b c d : cong m a b -> cong m c d -> cong m (a - c) (b - d).
  Proof. intros [k E] [l E']. exists (k - l). lia. Qed.
  Lemma cong_opp a b : cong m a b -> cong m (- a) (- b).
  Proof. intros [k E]. exists (- k). lia. Qed.
  Lemma cong_mul a b c d : cong m a b -> cong m c d -> cong m (a * c) (b * d).
  Proof. intros [k E] [l E']. exists (k * c + b * l). nia. Qed.
  Lemma cong_add_m a k : cong m (a + k * m) a.
  Proof. exists k. lia. Qed.
  Lemma cong_mod a : 0 < m -> cong m (a mod m) a.
  Proof. intros H. exists (- (a / m)). pose proof (Z.div_mod a m ltac:(lia)). lia. Qed.
  Lemma cong_mod_eq a b : 0 < m -> cong m a b -> a mod m = b mod m.
  Proof. intros H [k E]. replace a with (b + k * m) by lia. apply Z.mod_add. lia. Qed.
  Lemma mod_eq_cong a b : 0 < m -> a mod m = b mod m -> cong m a b.
  Proof.
    intros H E. apply cong_trans with (a mod m); [apply cong_sym, cong_mod, H|].
    rewrite E. apply cong_mod, H.
  Qed.
  Lemma cong_small a b : 0 <= a < m -> 0 <= b < m -> cong m a b -> a = b.
  Proof.
    intros Ha Hb C. apply cong_mod_eq in C; [|lia].
    rewrite !Z.mod_small in C by assumption. exact C.
  Qed.
  Lemma cong_cancel c a b : rel_prime m c -> cong m (a * c) (b * c) -> cong m a b.
  Proof.
    intros R D. unfold cong in *. apply (Gauss m c); [|exact R].
    replace (c * (a - b)) with (a * c - b * c) by lia. exact D.
  Qed.
  Lemma cong_pow a b n : 0 <= n -> cong m a b -> cong m (a ^ n) (b ^ n).
  Proof.
    intros Hn C. pattern n. apply natlike_ind; [apply cong_refl| |exact Hn].
    intros x Hx IH. rewrite !Z.pow_succ_r by exact Hx. apply cong_mul; assumption.
  Qed.
End Cong.

Lemma rel_prime_pow2 m n : Z.odd m = true -> 0 <= n -> rel_prime m (2 ^ n).
Proof.
  intros O Hn. apply rel_prime_sym.
  assert (R : rel_prime 2 m).
  { apply prime_rel_prime; [exact prime_2|]. intros [k E].
    rewrite E, Z.odd_mul in O. cbn in O. rewrite Bool.andb_false_r in O. discriminate. }
  revert n Hn. apply natlike_ind.
  - apply rel_prime_1.
  - intros x Hx IH. rewrite Z.pow_succ_r by exact Hx.
    apply rel_prime_sym, rel_prime_mult; apply rel_prime_sym; assumption.
Qed.
