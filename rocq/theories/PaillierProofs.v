(** Proofs about the Paillier model. *)
From Coq Require Import List Bool ZArith Znumtheory Zpow_facts Lia.
From Verif Require Import BytesModel BytesProofs CodecModel CodecProofs HashModel PaillierArith PaillierModel.
Import ListNotations.
Open Scope Z_scope.

Lemma divide_mod_eq m a b : 0 < m -> (m | a - b) <-> a mod m = b mod m.
Proof.
  intros Hm. split.
  - intros [k E]. replace a with (b + k * m) by lia. now rewrite Z_mod_plus_full.
  - intros E. apply Z.mod_divide; [lia|]. rewrite Zminus_mod, E, Z.sub_diag. reflexivity.
Qed.

Lemma pow_np1 N k : 0 < N -> 0 <= k -> (N + 1) ^ k mod (N * N) = (1 + k * N) mod (N * N).
Proof.
  intros HN. revert k. apply natlike_ind.
  - now rewrite Z.pow_0_r.
  - intros k Hk IH. rewrite Z.pow_succ_r by lia.
    apply divide_mod_eq; [nia|]. apply divide_mod_eq in IH; [|nia]. destruct IH as [s E].
    exists ((N + 1) * s + k). nia.
Qed.
Lemma pow_np1_base N l k : 0 < N -> 0 <= k -> (1 + l * N) ^ k mod (N * N) = (1 + k * l * N) mod (N * N).
Proof.
  intros HN. revert k. apply natlike_ind.
  - now rewrite Z.pow_0_r.
  - intros k Hk IH. rewrite Z.pow_succ_r by lia.
    apply divide_mod_eq; [nia|]. apply divide_mod_eq in IH; [|nia]. destruct IH as [s E].
    exists ((1 + l * N) * s + k * l * l).
    replace ((1 + l * N) ^ k) with (1 + k * l * N + s * (N * N)) by lia. ring_simplify. lia.
Qed.

Lemma lcm_Zlcm x y : 0 < x -> 0 < y -> lcm x y = Z.lcm x y.
Proof.
  intros Hx Hy. unfold lcm. assert (G : Z.gcd x y <> 0).
  { intros E. apply Z.gcd_eq_0 in E. lia. }
  destruct (ct_eq (Z.gcd x y) 0) eqn:E; [apply ct_eq_spec in E; lia|].
  unfold Z.lcm. f_equal.
  destruct (Z.gcd_divide_l x y) as [a Ha]. destruct (Z.gcd_divide_r x y) as [b Hb].
  remember (Z.gcd x y) as g. clear Heqg E Hx Hy. subst x y. rewrite !Z.div_mul by lia. ring.
Qed.

  Lemma pow_multiple m a d k : 1 < m -> 0 <= d -> 0 <= k -> (d | k) -> a ^ d mod m = 1 -> a ^ k mod m = 1.
  Proof.
    intros Hm Hd Hk [e E] A. subst k.
    destruct (Z.eq_dec d 0) as [->|D0].
    - rewrite Z.mul_0_r, Z.pow_0_r. apply Z.mod_small; lia.
    - assert (He : 0 <= e) by nia.
      rewrite (Z.mul_comm e d), Z.pow_mul_r by lia. rewrite Zpower_mod by lia. rewrite A.
      rewrite Z.pow_1_l by lia. apply Z.mod_small; lia.
  Qed.
  Lemma crt m1 m2 a : 1 < m1 -> 1 < m2 -> rel_prime m1 m2 -> a mod m1 = 1 -> a mod m2 = 1 -> a mod (m1 * m2) = 1.
  Proof.
    intros H1 H2 R E1 E2. rewrite <- (Z.mod_small 1 (m1 * m2)) by nia. apply divide_mod_eq; [nia|].
    assert (D1 : (m1 | a - 1)) by (apply divide_mod_eq; [lia|]; rewrite E1; symmetry; apply Z.mod_small; lia).
    assert (D2 : (m2 | a - 1)) by (apply divide_mod_eq; [lia|]; rewrite E2; symmetry; apply Z.mod_small; lia).
    destruct D1 as [k Ek]. rewrite Ek in *.
    assert (D : (m2 | k)).
    { apply (Gauss m2 m1 k); [rewrite Z.mul_comm; exact D2|now apply rel_prime_sym]. }
    destruct D as [e ->]. exists e. ring.
  Qed.

  Lemma mul_cong a b c d m : 0 < m -> a mod m = b mod m -> c mod m = d mod m -> (a * c) mod m = (b * d) mod m.
  Proof. intros Hm A B. rewrite (Z.mul_mod a), (Z.mul_mod b) by lia. now rewrite A, B. Qed.

Lemma ring_id n l m a Q : a * m = n * Q + l ->
  (1 + l * n) * (1 + (n - m) * a * n) - 1 = (a - Q + l * (n - m) * a) * (n * n).
Proof. intros E. assert (L : l = a * m - n * Q) by lia. subst l. ring. Qed.

Section Key.
  Variables p q : Z.
  Hypothesis Hp : prime p.
  Hypothesis Hq : prime q.
  Hypothesis Hpq : p <> q.
  Hypothesis Hg : Z.gcd (p * q) ((p - 1) * (q - 1)) = 1.
  Let N := p * q.
  Let lam := lcm (p - 1) (q - 1).

  Lemma p_gt1 : 1 < p. Proof. now destruct Hp. Qed.
  Lemma q_gt1 : 1 < q. Proof. now destruct Hq. Qed.
  Lemma N_gt1 : 1 < N. Proof. unfold N. pose proof p_gt1. pose proof q_gt1. nia. Qed.
  Lemma lam_eq : lam = Z.lcm (p - 1) (q - 1).
  Proof. pose proof p_gt1. pose proof q_gt1. apply lcm_Zlcm; lia. Qed.
  Lemma lam_l : (p - 1 | lam). Proof. rewrite lam_eq. apply Z.divide_lcm_l. Qed.
  Lemma lam_r : (q - 1 | lam). Proof. rewrite lam_eq. apply Z.divide_lcm_r. Qed.
  Lemma lam_tot : (lam | (p - 1) * (q - 1)).
  Proof. rewrite lam_eq. apply Z.lcm_least; [apply Z.divide_factor_l|apply Z.divide_factor_r]. Qed.
  Lemma lam_pos : 0 < lam.
  Proof.
    pose proof p_gt1. pose proof q_gt1. rewrite lam_eq.
    pose proof (Z.lcm_nonneg (p - 1) (q - 1)). enough (Z.lcm (p - 1) (q - 1) <> 0) by lia.
    intros E. apply Z.lcm_eq_0 in E. lia.
  Qed.
  Lemma lam_coprime : Z.gcd lam N = 1.
  Proof.
    pose proof (Z.gcd_nonneg lam N).
    assert (D : (Z.gcd lam N | 1)).
    { rewrite <- Hg. apply Z.gcd_greatest; [apply Z.gcd_divide_r|].
      eapply Z.divide_trans; [apply Z.gcd_divide_l|apply lam_tot]. }
    apply Z.divide_1_r_nonneg; assumption.
  Qed.
  Lemma pq_rel : rel_prime p q.
  Proof.
    apply prime_rel_prime; [assumption|]. intros D.
    destruct (prime_divisors q Hq p D) as [E|[E|[E|E]]]; pose proof p_gt1; pose proof q_gt1; lia.
  Qed.
  Lemma pq2_rel : rel_prime (p * p) (q * q).
  Proof.
    assert (A : rel_prime p (q * q)) by (apply rel_prime_mult; apply pq_rel).
    apply rel_prime_sym. apply rel_prime_mult; now apply rel_prime_sym.
  Qed.

  (** a unit modulo N *)
  Definition unitN (c : Z) := Z.gcd c N = 1.
  Lemma unit_iff c : unitN c <-> ~ (p | c) /\ ~ (q | c).
  Proof.
    unfold unitN. split.
    - intros G. split; intros D.
      + assert (B : (p | Z.gcd c N)) by (apply Z.gcd_greatest; [assumption|apply Z.divide_factor_l]).
        rewrite G in B. apply Z.divide_1_r in B. pose proof p_gt1. lia.
      + assert (B : (q | Z.gcd c N)) by (apply Z.gcd_greatest; [assumption|apply Z.divide_factor_r]).
        rewrite G in B. apply Z.divide_1_r in B. pose proof q_gt1. lia.
    - intros [A B]. apply Zgcd_1_rel_prime. apply rel_prime_mult.
      + apply rel_prime_sym. now apply prime_rel_prime.
      + apply rel_prime_sym. now apply prime_rel_prime.
  Qed.
  Lemma unit_mul c d : unitN c -> unitN d -> unitN (c * d).
  Proof.
    rewrite !unit_iff. intros [A B] [C D]. split; intros E.
    - destruct (prime_mult p Hp c d E); auto.
    - destruct (prime_mult q Hq c d E); auto.
  Qed.
  Lemma unit_mul_l c d : unitN (c * d) -> unitN c.
  Proof.
    rewrite !unit_iff. intros [A B]. split; intros E; [apply A|apply B]; now apply Z.divide_mul_l.
  Qed.
  Lemma unit_pow c k : 0 <= k -> unitN c -> unitN (c ^ k).
  Proof.
    intros Hk U. revert k Hk. apply natlike_ind.
    - rewrite Z.pow_0_r. unfold unitN. apply Z.gcd_1_l.
    - intros k Hk IH. rewrite Z.pow_succ_r by lia. now apply unit_mul.
  Qed.
  Lemma unit_mod c : unitN (c mod (N * N)) <-> unitN c.
  Proof.
    pose proof N_gt1. unfold unitN.
    assert (E : Z.gcd (c mod (N * N)) N = Z.gcd c N).
    { rewrite (Z.div_mod c (N * N)) at 2 by nia.
      replace (N * N * (c / (N * N)) + c mod (N * N)) with (c mod (N * N) + (N * (c / (N * N))) * N) by ring.
      rewrite Z.gcd_comm, (Z.gcd_comm _ N). symmetry. apply Z.gcd_add_mult_diag_r. }
    now rewrite E.
  Qed.
  Lemma unit_modN c : unitN (c mod N) <-> unitN c.
  Proof.
    pose proof N_gt1. unfold unitN. rewrite Z.gcd_mod by lia. now rewrite Z.gcd_comm.
  Qed.
  Lemma unit_np1 : unitN (N + 1).
  Proof.
    unfold unitN. rewrite Z.gcd_comm. replace (N + 1) with (1 + 1 * N) by ring.
    rewrite Z.gcd_add_mult_diag_r. apply Z.gcd_1_r.
  Qed.

  Lemma carmichael c : unitN c -> c ^ lam mod N = 1.
  Proof.
    intros U. apply unit_iff in U. destruct U as [A B].
    pose proof p_gt1. pose proof q_gt1. pose proof lam_pos.
    apply crt; try lia; [apply pq_rel| |].
    - apply pow_multiple with (d := p - 1); try lia; [apply lam_l|now apply fermat_unit].
    - apply pow_multiple with (d := q - 1); try lia; [apply lam_r|now apply fermat_unit].
  Qed.
  Lemma carmichael2 c : unitN c -> c ^ (N * lam) mod (N * N) = 1.
  Proof.
    intros U. apply unit_iff in U. destruct U as [A B].
    pose proof p_gt1. pose proof q_gt1. pose proof lam_pos. pose proof N_gt1.
    replace (N * N) with ((p * p) * (q * q)) by (unfold N; ring).
    destruct lam_l as [u Eu]. destruct lam_r as [v Ev].
    apply crt; try nia; [apply pq2_rel| |].
    - apply pow_multiple with (d := p * (p - 1)); try nia; [|now apply euler_square].
      rewrite Eu. unfold N. exists (q * u). ring.
    - apply pow_multiple with (d := q * (q - 1)); try nia; [|now apply euler_square].
      rewrite Ev. unfold N. exists (p * v). ring.
  Qed.

  Let pk := {| pkN := N; pkN2 := N * N |}.

  Lemma mod_form l : (1 + l * N) mod (N * N) = 1 + (l mod N) * N.
  Proof.
    pose proof N_gt1. pose proof (Z.mod_pos_bound l N ltac:(lia)).
    symmetry. apply Z.mod_unique_pos with (q := l / N); [nia|].
    pose proof (Z.div_mod l N ltac:(lia)). nia.
  Qed.
  Lemma ell_ok a l : a mod (N * N) = (1 + l * N) mod (N * N) -> ell pk (a mod (N * N)) = Some (l mod N).
  Proof.
    intros E. pose proof N_gt1. pose proof (Z.mod_pos_bound l N ltac:(lia)).
    rewrite E, mod_form. unfold ell. cbn [pkN pkN2 pk].
    destruct (ct_eq N 0) eqn:C; [apply ct_eq_spec in C; lia|].
    replace ((1 + l mod N * N) mod N) with 1
      by (rewrite Z_mod_plus_full; symmetry; apply Z.mod_small; lia).
    replace (ct_eq 1 1) with true by (symmetry; now apply ct_eq_spec). cbn [negb].
    replace (in_zm (1 + l mod N * N) (N * N)) with true.
    2:{ symmetry. unfold in_zm. rewrite andb_true_iff, negb_true_iff, Z.ltb_ge, Z.ltb_lt. nia. }
    cbn [negb]. f_equal. replace (1 + l mod N * N - 1) with (l mod N * N) by ring. apply Z.div_mul. lia.
  Qed.
  Lemma ell_some a l : 0 <= a < N * N -> ell pk a = Some l -> a = 1 + l * N /\ 0 <= l < N.
  Proof.
    pose proof N_gt1. intros Ha. unfold ell. cbn [pkN pkN2 pk].
    destruct (ct_eq N 0) eqn:C; [discriminate|].
    destruct (ct_eq (a mod N) 1) eqn:C1; [|discriminate]. apply ct_eq_spec in C1. cbn [negb].
    destruct (in_zm a (N * N)) eqn:C2; [|discriminate]. cbn [negb]. intros E. injection E as <-.
    pose proof (Z.div_mod a N ltac:(lia)). rewrite C1 in *.
    assert (D : (a - 1) / N = a / N) by (replace (a - 1) with (a / N * N) by lia; apply Z.div_mul; lia).
    rewrite D. split; [lia|]. nia.
  Qed.

  (** the inverse of lambda modulo N computed by NewSecretKey *)
  Lemma key_ok : exists U, new_secret_key p q =
      Some {| skPub := pk; skLambda := lam; skTotient := (p - 1) * (q - 1); skU := U |}
      /\ 0 <= U < N /\ (lam * U) mod N = 1.
  Proof.
    pose proof N_gt1. pose proof lam_pos. unfold new_secret_key. cbv zeta. fold N.
    change (lcm (p - 1) (q - 1)) with lam. change {| pkN := N; pkN2 := N * N |} with pk.
    unfold mod_exp at 1. rewrite (ell_ok _ lam).
    2:{ apply pow_np1; lia. }
    pose proof (mod_inv_spec (lam mod N) N ltac:(lia)) as I.
    destruct (mod_inv (lam mod N) N) as [U|].
    - exists U. split; [reflexivity|]. destruct I as [B I]. split; [exact B|].
      now rewrite Zmult_mod_idemp_l in I.
    - exfalso. destruct (Zis_gcd_bezout lam N 1) as [u v E].
      { rewrite <- lam_coprime. apply Zgcd_is_gcd. }
      apply (I u). rewrite Zmult_mod_idemp_l.
      replace (lam * u) with (1 + (- v) * N) by lia. rewrite Z_mod_plus_full. apply Z.mod_small; lia.
  Qed.

  Variable sk : secret_key.
  Hypothesis Hsk : new_secret_key p q = Some sk.

  Lemma sk_inv : skPub sk = pk /\ skLambda sk = lam /\ skTotient sk = (p - 1) * (q - 1)
                 /\ 0 <= skU sk < N /\ (lam * skU sk) mod N = 1.
  Proof.
    destruct key_ok as [U [E B]]. rewrite Hsk in E. injection E as ->. cbn. tauto.
  Qed.

  (** the discrete logarithm of c^lambda to the base N+1 *)
  Lemma unit_log c : unitN c -> exists l, 0 <= l < N /\ c ^ lam mod (N * N) = 1 + l * N.
  Proof.
    intros U. pose proof N_gt1. pose proof (carmichael c U) as C.
    set (a := c ^ lam mod (N * N)). pose proof (Z.mod_pos_bound (c ^ lam) (N * N) ltac:(nia)). fold a in H0.
    assert (A : a mod N = 1).
    { unfold a. rewrite <- Znumtheory.Zmod_div_mod; [exact C|lia|nia|]. apply Z.divide_factor_l. }
    exists (a / N). pose proof (Z.div_mod a N ltac:(lia)). rewrite A in *. split; [nia|lia].
  Qed.

  Lemma decrypt_log c l : 0 <= c < N * N -> c ^ lam mod (N * N) = (1 + l * N) mod (N * N) ->
    decrypt sk c = Some ((l * skU sk) mod N).
  Proof.
    intros Hc E. destruct sk_inv as (E1 & E2 & _ & _ & _).
    unfold decrypt. rewrite E1, E2. cbn [pkN pkN2 pk].
    replace (in_zm c (N * N)) with true.
    2:{ symmetry. unfold in_zm. rewrite andb_true_iff, negb_true_iff, Z.ltb_ge, Z.ltb_lt. nia. }
    cbn [negb]. unfold mod_exp. change {| pkN := N; pkN2 := N * N |} with pk. rewrite (ell_ok _ _ E). unfold mod_mul.
    now rewrite Zmult_mod_idemp_l.
  Qed.

  Lemma decrypt_some c m : decrypt sk c = Some m ->
    0 <= c < N * N /\ unitN c /\ exists l, c ^ lam mod (N * N) = (1 + l * N) mod (N * N) /\ m = (l * skU sk) mod N.
  Proof.
    intros D. destruct sk_inv as (E1 & E2 & _ & _ & _). pose proof N_gt1. pose proof lam_pos.
    unfold decrypt in D. rewrite E1, E2 in D. cbn [pkN pkN2 pk] in D.
    destruct (in_zm c (N * N)) eqn:I; [|discriminate]. cbn [negb] in D.
    unfold in_zm in I. rewrite andb_true_iff, negb_true_iff, Z.ltb_ge, Z.ltb_lt in I.
    change {| pkN := N; pkN2 := N * N |} with pk in D.
    destruct (ell pk (mod_exp c lam (N * N))) as [l|] eqn:L; [|discriminate]. injection D as <-.
    unfold mod_exp in L. apply ell_some in L; [|apply Z.mod_pos_bound; nia].
    destruct L as [L B]. split; [exact I|]. split.
    - assert (U : unitN (c ^ lam)).
      { apply unit_mod. rewrite L. unfold unitN. rewrite Z.gcd_comm, Z.gcd_add_mult_diag_r. apply Z.gcd_1_r. }
      replace lam with (Z.succ (lam - 1)) in U by lia. rewrite Z.pow_succ_r in U by lia.
      now apply unit_mul_l in U.
    - exists l. split; [|reflexivity]. rewrite L, mod_form. now rewrite (Z.mod_small l) by lia.
  Qed.

  Lemma decrypt_iff c : (exists m, decrypt sk c = Some m) <-> 0 <= c < N * N /\ unitN c.
  Proof.
    split.
    - intros [m D]. apply decrypt_some in D. tauto.
    - intros [R U]. destruct (unit_log c U) as [l [B E]]. eexists. apply (decrypt_log c l R).
      rewrite E, mod_form. now rewrite (Z.mod_small l) by lia.
  Qed.

  Lemma encrypt_log m r : 0 <= m -> unitN r ->
    ((N + 1) ^ m * r ^ N) ^ lam mod (N * N) = (1 + lam * m * N) mod (N * N).
  Proof.
    intros Hm U. pose proof N_gt1. pose proof lam_pos.
    rewrite Z.pow_mul_l. rewrite <- !Z.pow_mul_r by lia.
    rewrite <- (Z.mul_1_r (1 + lam * m * N)). apply mul_cong; [nia| |].
    - rewrite pow_np1 by nia. f_equal. ring.
    - rewrite carmichael2 by assumption. symmetry. apply Z.mod_small. nia.
  Qed.

  Lemma encrypt_eq m r c : encrypt pk m r = Some c ->
    0 <= m < N /\ 0 < r < N /\ c = ((N + 1) ^ m * r ^ N) mod (N * N).
  Proof.
    unfold encrypt. cbn [pkN pkN2 pk].
    destruct (in_zm m N) eqn:I1; [|discriminate]. destruct (in_zm r N) eqn:I2; [|discriminate]. cbn [negb].
    destruct (ct_eq r 0) eqn:C; [discriminate|]. intros E. injection E as <-.
    unfold in_zm in *. rewrite andb_true_iff, negb_true_iff, Z.ltb_ge, Z.ltb_lt in *.
    assert (r <> 0) by (intros ->; rewrite (proj2 (ct_eq_spec 0 0)) in C; [discriminate|reflexivity]).
    split; [lia|]. split; [lia|]. unfold mod_mul, mod_exp. now rewrite <- Zmult_mod.
  Qed.
  Lemma encrypt_ok m r : 0 <= m < N -> 0 < r < N ->
    encrypt pk m r = Some (((N + 1) ^ m * r ^ N) mod (N * N)).
  Proof.
    intros Hm Hr. unfold encrypt. cbn [pkN pkN2 pk].
    assert (A : forall x, 0 <= x < N -> in_zm x N = true).
    { intros x Hx. unfold in_zm. rewrite andb_true_iff, negb_true_iff, Z.ltb_ge, Z.ltb_lt. lia. }
    rewrite !A by lia. cbn [negb].
    destruct (ct_eq r 0) eqn:C; [apply ct_eq_spec in C; lia|].
    unfold mod_mul, mod_exp. now rewrite <- Zmult_mod.
  Qed.

  Lemma cancel_lam m : 0 <= m < N -> (lam * m * skU sk) mod N = m.
  Proof.
    intros Hm. destruct sk_inv as (_ & _ & _ & _ & I). pose proof N_gt1.
    replace (lam * m * skU sk) with ((lam * skU sk) * m) by ring.
    rewrite <- Zmult_mod_idemp_l, I, Z.mul_1_l. apply Z.mod_small; lia.
  Qed.

  Lemma decrypt_encrypt m r c : unitN r -> encrypt pk m r = Some c -> decrypt sk c = Some m.
  Proof.
    intros U E. apply encrypt_eq in E. destruct E as (Hm & Hr & ->). pose proof N_gt1. pose proof lam_pos.
    rewrite (decrypt_log _ (lam * m)).
    - now rewrite cancel_lam.
    - apply Z.mod_pos_bound. nia.
    - rewrite <- Zpower_mod by nia. now apply encrypt_log.
  Qed.

  Lemma decrypt_add c d m n e : decrypt sk c = Some m -> decrypt sk d = Some n -> padd pk c d = Some e ->
    decrypt sk e = Some ((m + n) mod N).
  Proof.
    intros C D E. apply decrypt_some in C. apply decrypt_some in D.
    destruct C as (Rc & _ & l1 & L1 & ->). destruct D as (Rd & _ & l2 & L2 & ->).
    unfold padd in E. cbn [pkN pkN2 pk] in E. destruct (in_zm c (N * N) && in_zm d (N * N)); [|discriminate].
    injection E as <-. pose proof N_gt1. unfold mod_mul.
    rewrite (decrypt_log _ (l1 + l2)).
    - f_equal. rewrite <- Zplus_mod. f_equal. ring.
    - apply Z.mod_pos_bound. nia.
    - rewrite <- Zpower_mod by nia. rewrite Z.pow_mul_l. assert (NN : 0 < N * N) by nia. rewrite (mul_cong _ _ _ _ _ NN L1 L2).
      apply divide_mod_eq; [nia|]. exists (l1 * l2). ring.
  Qed.
  Lemma decrypt_mul a c m e : decrypt sk c = Some m -> pmul pk a c = Some e ->
    decrypt sk e = Some ((a * m) mod N).
  Proof.
    intros C E. apply decrypt_some in C. destruct C as (Rc & _ & l & L & ->).
    unfold pmul in E. cbn [pkN pkN2 pk] in E. destruct (in_zm a N) eqn:Ia; [|discriminate].
    destruct (in_zm c (N * N)); [|discriminate]. cbn [andb] in E. injection E as <-. pose proof N_gt1.
    unfold in_zm in Ia. rewrite andb_true_iff, negb_true_iff, Z.ltb_ge, Z.ltb_lt in Ia. pose proof lam_pos.
    unfold mod_exp. rewrite (decrypt_log _ (a * l)).
    - f_equal. rewrite Zmult_mod_idemp_r. f_equal. ring.
    - apply Z.mod_pos_bound. nia.
    - rewrite <- Zpower_mod by nia. rewrite <- Z.pow_mul_r, Z.mul_comm, Z.pow_mul_r by lia.
      rewrite (Zpower_mod (c ^ lam)) by nia. rewrite L. rewrite <- Zpower_mod by nia.
      apply pow_np1_base; lia.
  Qed.

  (** raising to the N-th power only depends on the base modulo N *)
  Lemma pow_step b k (j : nat) : exists s,
    (b + k * N) ^ (Z.of_nat j + 1) = b ^ (Z.of_nat j + 1) + (Z.of_nat j + 1) * b ^ (Z.of_nat j) * k * N + s * (N * N).
  Proof.
    induction j as [|j [s IH]].
    - exists 0. cbn [Z.of_nat]. rewrite !Z.pow_1_r, Z.pow_0_r. ring.
    - replace (Z.of_nat (S j)) with (Z.of_nat j + 1) by lia. set (t := Z.of_nat j) in *.
      rewrite (Z.pow_add_r (b + k * N) (t + 1) 1), IH, Z.pow_1_r by lia.
      rewrite (Z.pow_add_r b (t + 1) 1), Z.pow_1_r by lia.
      rewrite (Z.pow_add_r b t 1), Z.pow_1_r by lia.
      exists (b * s + (t + 1) * b ^ t * k * k + s * k * N). ring.
  Qed.
  Lemma pow_lift x : (x mod N) ^ N mod (N * N) = x ^ N mod (N * N).
  Proof.
    pose proof N_gt1. symmetry. pose proof (Z.div_mod x N ltac:(lia)) as E.
    destruct (pow_step (x mod N) (x / N) (Z.to_nat (N - 1))) as [s P].
    replace (Z.of_nat (Z.to_nat (N - 1))) with (N - 1) in P by lia.
    replace (N - 1 + 1) with N in P by lia.
    replace (x mod N + x / N * N) with x in P by lia. rewrite P.
    apply divide_mod_eq; [nia|]. eexists ((x mod N) ^ (N - 1) * (x / N) + s). ring.
  Qed.

  Lemma unit_surj c : 0 <= c < N * N -> unitN c ->
    exists m r, decrypt sk c = Some m /\ unitN r /\ encrypt pk m r = Some c.
  Proof.
    intros Hc U. pose proof N_gt1. pose proof lam_pos. destruct sk_inv as (_ & _ & _ & _ & HU).
    destruct (unit_log c U) as [l [Bl El]].
    set (m := (l * skU sk) mod N). exists m.
    assert (Dm : decrypt sk c = Some m).
    { apply decrypt_log; [exact Hc|]. rewrite El, mod_form. now rewrite (Z.mod_small l) by lia. }
    assert (Bm : 0 <= m < N) by (apply Z.mod_pos_bound; lia).
    (* N^-1 mod lambda, written as N * M = 1 + k * lam with M, k >= 0 *)
    assert (B : exists M k, 0 <= M /\ 0 <= k /\ N * M = 1 + k * lam).
    { destruct (Zis_gcd_bezout lam N 1) as [u v E].
      { rewrite <- lam_coprime. apply Zgcd_is_gcd. }
      set (w := Z.abs u + Z.abs v + 1).
      exists (v + w * lam), (- u + w * N). repeat split; nia. }
    destruct B as (M & k & HM & Hk & EM).
    (* d = c * (N+1)^(N - m), whose lambda-th power is 1 *)
    set (d := c * (N + 1) ^ (N - m)).
    assert (Ud : unitN d) by (apply unit_mul; [exact U|apply unit_pow; [lia|apply unit_np1]]).
    assert (Lm : (lam * m) mod N = l).
    { unfold m. rewrite Zmult_mod_idemp_r. replace (lam * (l * skU sk)) with ((lam * skU sk) * l) by ring.
      rewrite <- Zmult_mod_idemp_l, HU, Z.mul_1_l. apply Z.mod_small; lia. }
    assert (Pd : d ^ lam mod (N * N) = 1).
    { unfold d. rewrite Z.pow_mul_l, <- Z.pow_mul_r by lia.
      rewrite (mul_cong (c ^ lam) (1 + l * N) ((N + 1) ^ ((N - m) * lam)) (1 + ((N - m) * lam) * N)).
      - transitivity (1 mod (N * N)); [|apply Z.mod_small; nia]. apply divide_mod_eq; [nia|].
        pose proof (Z.div_mod (lam * m) N ltac:(lia)) as E. rewrite Lm in E.
        exists (lam - lam * m / N + l * (N - m) * lam).
        now apply ring_id.
      - nia.
      - rewrite El, mod_form. now rewrite (Z.mod_small l) by lia.
      - apply pow_np1; nia. }
    exists (d ^ M mod N). split; [exact Dm|]. split.
    { apply unit_modN. now apply unit_pow. }
    rewrite encrypt_ok; [|exact Bm|].
    2:{ assert (Ur : unitN (d ^ M mod N)) by (apply unit_modN; now apply unit_pow).
        pose proof (Z.mod_pos_bound (d ^ M) N ltac:(lia)).
        enough (d ^ M mod N <> 0) by lia. intros E. rewrite E in Ur. unfold unitN in Ur.
        rewrite Z.gcd_0_l in Ur. lia. }
    f_equal. rewrite <- Zmult_mod_idemp_r, pow_lift, Zmult_mod_idemp_r.
    rewrite <- Z.pow_mul_r by lia. rewrite (Z.mul_comm M N), EM.
    assert (K0 : 0 <= k * lam) by (apply Z.mul_nonneg_nonneg; lia).
    rewrite Z.pow_add_r, Z.pow_1_r by lia.
    assert (Pk : d ^ (k * lam) mod (N * N) = 1).
    { apply pow_multiple with (d := lam); [nia|lia|exact K0|exists k; ring|exact Pd]. }
    rewrite Z.mul_assoc, <- Zmult_mod_idemp_r, Pk, Z.mul_1_r.
    unfold d. replace ((N + 1) ^ m * (c * (N + 1) ^ (N - m))) with (c * ((N + 1) ^ m * (N + 1) ^ (N - m))) by ring.
    rewrite <- Z.pow_add_r by lia. replace (m + (N - m)) with N by ring.
    rewrite <- Zmult_mod_idemp_r, pow_np1 by lia.
    replace (1 + N * N) with (1 + 1 * (N * N)) by ring. rewrite Z_mod_plus_full, (Z.mod_small 1) by nia.
    rewrite Z.mul_1_r. apply Z.mod_small. lia.
  Qed.
End Key.
