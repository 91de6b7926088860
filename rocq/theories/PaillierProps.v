(** C45-C47: the Paillier cryptosystem and its square-free proof. *)
From Coq Require Import List Bool ZArith Znumtheory Zpow_facts Lia.
From Verif Require Import BytesModel CodecModel CodecProofs HashModel PaillierArith PaillierModel PaillierProofs.
Import ListNotations.
Open Scope Z_scope.

(** what C45 and C46 quantify over: a key built from two distinct primes whose product is coprime to
    (p-1)(q-1) (true for distinct safe primes of equal size) *)
Definition good_primes (p q : Z) : Prop :=
  prime p /\ prime q /\ p <> q /\ Z.gcd (p * q) ((p - 1) * (q - 1)) = 1.

Theorem C45_key_generation p q : good_primes p q ->
  exists sk, new_secret_key p q = Some sk
    /\ skPub sk = {| pkN := p * q; pkN2 := (p * q) * (p * q) |}
    /\ skTotient sk = (p - 1) * (q - 1)
    /\ (p - 1 | skLambda sk) /\ (q - 1 | skLambda sk)
    /\ (forall k, (p - 1 | k) -> (q - 1 | k) -> (skLambda sk | k))
    /\ 0 <= skU sk < p * q /\ (skLambda sk * skU sk) mod (p * q) = 1.
Proof.
  intros (Hp & Hq & Hpq & Hg). destruct (key_ok p q Hp Hq Hpq Hg) as [U [E [B I]]].
  eexists. split; [exact E|]. cbn. repeat split; try tauto; try lia.
  - apply lam_l; assumption.
  - apply lam_r; assumption.
  - intros k A C. rewrite lam_eq by assumption. now apply Z.lcm_least.
Qed.

(** encryption accepts exactly the messages and nonces in range *)
Theorem C45_encrypt_iff N m r : 0 < N ->
  (exists c, encrypt (new_pubkey N) m r = Some c) <-> 0 <= m < N /\ 0 < r < N.
Proof.
  intros HN. unfold encrypt, new_pubkey, in_zm. cbn [pkN pkN2]. split.
  - intros [c E]. destruct (negb (m <? 0) && (m <? N)) eqn:A; [|discriminate].
    destruct (negb (r <? 0) && (r <? N)) eqn:B; [|discriminate]. cbn [negb] in E.
    destruct (ct_eq r 0) eqn:C; [discriminate|].
    rewrite andb_true_iff, negb_true_iff, Z.ltb_ge, Z.ltb_lt in *.
    assert (r <> 0) by (intros ->; rewrite (proj2 (ct_eq_spec 0 0)) in C; [discriminate|reflexivity]). lia.
  - intros [A B].
    replace (negb (m <? 0) && (m <? N)) with true
      by (symmetry; rewrite andb_true_iff, negb_true_iff, Z.ltb_ge, Z.ltb_lt; lia).
    replace (negb (r <? 0) && (r <? N)) with true
      by (symmetry; rewrite andb_true_iff, negb_true_iff, Z.ltb_ge, Z.ltb_lt; lia).
    cbn [negb]. destruct (ct_eq r 0) eqn:C; [apply ct_eq_spec in C; lia|]. eexists. reflexivity.
Qed.

(** the main claim *)
Theorem C45_decrypt_encrypt p q sk m r c : good_primes p q ->
  new_secret_key p q = Some sk -> Z.gcd r (p * q) = 1 ->
  encrypt (skPub sk) m r = Some c -> decrypt sk c = Some m.
Proof.
  intros (Hp & Hq & Hpq & Hg) Hsk Hr E.
  destruct (sk_inv p q Hp Hq Hpq Hg sk Hsk) as (E1 & _). rewrite E1 in E.
  now apply (decrypt_encrypt p q Hp Hq Hpq Hg sk Hsk m r c).
Qed.
(** decryption accepts exactly the units below N^2 ... *)
Theorem C45_decrypt_iff p q sk c : good_primes p q -> new_secret_key p q = Some sk ->
  (exists m, decrypt sk c = Some m) <-> 0 <= c < (p * q) * (p * q) /\ Z.gcd c (p * q) = 1.
Proof.
  intros (Hp & Hq & Hpq & Hg) Hsk. exact (decrypt_iff p q Hp Hq Hpq Hg sk Hsk c).
Qed.
(** ... each of which is an encryption of what it decrypts to, for some nonce coprime to N *)
Theorem C45_every_ciphertext p q sk c : good_primes p q -> new_secret_key p q = Some sk ->
  0 <= c < (p * q) * (p * q) -> Z.gcd c (p * q) = 1 ->
  exists m r, decrypt sk c = Some m /\ Z.gcd r (p * q) = 1 /\ encrypt (skPub sk) m r = Some c.
Proof.
  intros (Hp & Hq & Hpq & Hg) Hsk Hc U. destruct (sk_inv p q Hp Hq Hpq Hg sk Hsk) as (E1 & _). rewrite E1.
  exact (unit_surj p q Hp Hq Hpq Hg sk Hsk c Hc U).
Qed.
(** a nonce sharing a factor with N (which encrypt accepts) yields a ciphertext decryption refuses *)
Theorem C45_bad_nonce p q sk m r c : good_primes p q -> new_secret_key p q = Some sk ->
  Z.gcd r (p * q) <> 1 -> encrypt (skPub sk) m r = Some c -> decrypt sk c = None.
Proof.
  intros G Hsk Hr E. destruct (decrypt sk c) as [x|] eqn:D; [|reflexivity]. exfalso. apply Hr.
  assert (A : exists m, decrypt sk c = Some m) by (exists x; exact D).
  apply (C45_decrypt_iff p q sk c G Hsk) in A. destruct A as [_ U].
  destruct G as (Hp & Hq & Hpq & Hg). destruct (sk_inv p q Hp Hq Hpq Hg sk Hsk) as (E1 & _).
  rewrite E1 in E. apply encrypt_eq in E. destruct E as (Hm & Hr' & ->).
  apply (proj1 (unit_mod p q Hp Hq Hpq _)) in U.
  rewrite Z.mul_comm in U. apply unit_mul_l in U; try assumption.
  pose proof (N_gt1 p q Hp Hq).
  assert (EP : r ^ (p * q) = r * r ^ (p * q - 1))
    by (rewrite <- Z.pow_succ_r by lia; f_equal; lia).
  rewrite EP in U.
  now apply unit_mul_l in U.
Qed.
(** the key generator never compares the primes: the same prime twice is accepted, and decryption is wrong *)
Theorem C45_equal_primes_accepted : exists sk c,
  prime 3 /\ key_generator (Some 3) (Some 3) = Some sk /\ encrypt (skPub sk) 0 2 = Some c
  /\ Z.gcd 2 (pkN (skPub sk)) = 1 /\ decrypt sk c = Some 6.
Proof.
  eexists. eexists. split; [exact prime_3|]. repeat (apply conj; [vm_compute; reflexivity|]); vm_compute; reflexivity.
Qed.

(** C46 *)
Theorem C46_add p q sk c d m n e : good_primes p q -> new_secret_key p q = Some sk ->
  decrypt sk c = Some m -> decrypt sk d = Some n -> padd (skPub sk) c d = Some e ->
  decrypt sk e = Some ((m + n) mod (p * q)).
Proof.
  intros (Hp & Hq & Hpq & Hg) Hsk. destruct (sk_inv p q Hp Hq Hpq Hg sk Hsk) as (E1 & _). rewrite E1.
  exact (decrypt_add p q Hp Hq Hpq Hg sk Hsk c d m n e).
Qed.
Theorem C46_mul p q sk a c m e : good_primes p q -> new_secret_key p q = Some sk ->
  decrypt sk c = Some m -> pmul (skPub sk) a c = Some e -> decrypt sk e = Some ((a * m) mod (p * q)).
Proof.
  intros (Hp & Hq & Hpq & Hg) Hsk. destruct (sk_inv p q Hp Hq Hpq Hg sk Hsk) as (E1 & _). rewrite E1.
  exact (decrypt_mul p q Hp Hq Hpq Hg sk Hsk a c m e).
Qed.
(** out-of-range arguments are refused, everything else is accepted *)
Theorem C46_ranges N a c d : 
  ((exists e, padd (new_pubkey N) c d = Some e) <-> 0 <= c < N * N /\ 0 <= d < N * N)
  /\ ((exists e, pmul (new_pubkey N) a c = Some e) <-> 0 <= a < N /\ 0 <= c < N * N).
Proof.
  assert (I : forall x m, in_zm x m = true <-> 0 <= x < m).
  { intros x m. unfold in_zm. rewrite andb_true_iff, negb_true_iff, Z.ltb_ge, Z.ltb_lt. lia. }
  unfold padd, pmul, new_pubkey. cbn [pkN pkN2].
  split; rewrite <- !I; split.
  - intros [e E]. destruct (in_zm c (N * N)), (in_zm d (N * N)); try discriminate. tauto.
  - intros [-> ->]. cbn. eauto.
  - intros [e E]. destruct (in_zm a N), (in_zm c (N * N)); try discriminate. tauto.
  - intros [-> ->]. cbn. eauto.
Qed.
Ltac prime_small := apply prime_intro; [lia|]; intros n Hn; apply Zgcd_1_rel_prime;
  repeat (match type of Hn with ?a <= n < ?b =>
    destruct (Z.eq_dec n a) as [->|]; [reflexivity|];
    let c := eval compute in (a + 1) in assert (c <= n < b) by lia; clear Hn; rename H into Hn end;
    try lia).
(** a concrete key: p = 5, q = 7, message 13 + 2*8 *)
Example C46_case : exists sk c d e f, good_primes 5 7 /\ new_secret_key 5 7 = Some sk
  /\ encrypt (skPub sk) 13 2 = Some c /\ encrypt (skPub sk) 8 3 = Some d
  /\ pmul (skPub sk) 2 d = Some e /\ padd (skPub sk) c e = Some f /\ decrypt sk f = Some 29.
Proof.
  do 5 eexists. split.
  { split; [prime_small|]. split; [prime_small|]. split; [lia|reflexivity]. }
  repeat (apply conj; [vm_compute; reflexivity|]); vm_compute; reflexivity.
Qed.

(** C47 *)
Section Psf.
  Variable kdf : list Z -> list Z.

  Lemma challenge_loop_ok fuel : forall par N pi y m acc x,
    challenge_loop kdf fuel par N pi y m acc = Some x ->
    (length acc <= 13)%nat -> Forall (fun v => 0 < v < N) acc ->
    length x = 13%nat /\ Forall (fun v => 0 < v < N) x.
  Proof.
    induction fuel as [|f IH]; intros par N pi y m acc x E L A; cbn [challenge_loop] in E.
    - destruct (Nat.leb psf_length (length acc)) eqn:B; [|discriminate]. injection E as <-.
      apply Nat.leb_le in B. unfold psf_length in B. split; [lia|exact A].
    - destruct (Nat.leb psf_length (length acc)) eqn:B.
      + injection E as <-. apply Nat.leb_le in B. unfold psf_length in B. split; [lia|exact A].
      + apply Nat.leb_gt in B. unfold psf_length in B. revert E.
        set (xj := candidate _ _ _ _ _ _ _). destruct ((0 <? xj) && (xj <? N)) eqn:C; intros E.
        * apply IH in E; [exact E|rewrite app_length; cbn; lia|].
          apply Forall_app. split; [exact A|]. constructor; [|constructor].
          rewrite andb_true_iff, !Z.ltb_lt in C. exact C.
        * apply IH in E; auto.
  Qed.
  Lemma challenge_loop_mono fuel : forall fuel' par N pi y m acc x, (fuel <= fuel')%nat ->
    challenge_loop kdf fuel par N pi y m acc = Some x -> challenge_loop kdf fuel' par N pi y m acc = Some x.
  Proof.
    induction fuel as [|f IH]; intros fuel' par N pi y m acc x L E; cbn [challenge_loop] in E.
    - destruct (Nat.leb psf_length (length acc)) eqn:B; [|discriminate].
      destruct fuel'; cbn [challenge_loop]; now rewrite B.
    - destruct fuel' as [|f']; [lia|]. cbn [challenge_loop].
      destruct (Nat.leb psf_length (length acc)); [exact E|]. revert E.
      set (xj := candidate _ _ _ _ _ _ _). destruct ((0 <? xj) && (xj <? N)); apply IH; lia.
  Qed.
  (** the challenges: thirteen values in 1..N-1 *)
  Theorem C47_challenges fuel par N pi y x :
    generate_challenges kdf fuel par N pi y = Some x ->
    length x = 13%nat /\ forall v, In v x -> 0 < v < N.
  Proof.
    intros E. unfold generate_challenges in E. destruct (pi =? 0); [discriminate|].
    destruct (bit_len N <? 8); [discriminate|].
    apply challenge_loop_ok in E; [|cbn; lia|constructor].
    rewrite Forall_forall in E. exact E.
  Qed.
  Lemma generate_mono fuel fuel' par N pi y x : (fuel <= fuel')%nat ->
    generate_challenges kdf fuel par N pi y = Some x -> generate_challenges kdf fuel' par N pi y = Some x.
  Proof.
    intros L. unfold generate_challenges. destruct (pi =? 0); [auto|]. destruct (bit_len N <? 8); [auto|].
    now apply challenge_loop_mono.
  Qed.
  Lemma generate_ok fuel par N pi y x : generate_challenges kdf fuel par N pi y = Some x ->
    length x = 13%nat /\ Forall (fun v => 0 < v < N) x.
  Proof.
    unfold generate_challenges. destruct (pi =? 0); [discriminate|].
    destruct (bit_len N <? 8); [discriminate|]. intros E. apply challenge_loop_ok in E; [exact E|cbn; lia|constructor].
  Qed.

  Lemma root_ok p q x M : prime p -> prime q -> p <> q -> 0 <= M -> 0 <= x < p * q ->
    (p * q * M) mod ((p - 1) * (q - 1)) = 1 ->
    mod_exp (mod_exp x M (p * q)) (p * q) (p * q) = x.
  Proof.
    intros Hp Hq Hpq HM Hx E. pose proof (p_gt1 p Hp). pose proof (q_gt1 q Hq).
    unfold mod_exp. rewrite <- Zpower_mod by nia. rewrite <- Z.pow_mul_r by nia.
    assert (T : 1 < (p - 1) * (q - 1)) by nia.
    set (k := (p * q * M) / ((p - 1) * (q - 1))).
    assert (EM : M * (p * q) = k * ((p - 1) * (q - 1)) + 1).
    { pose proof (Z.div_mod (p * q * M) ((p - 1) * (q - 1)) ltac:(lia)). rewrite E in *. fold k in H1. lia. }
    assert (Hk : 0 <= k) by (apply Z.div_pos; nia).
    rewrite EM. rewrite <- (Z.mod_small x (p * q)) at 2 by lia.
    apply divide_mod_eq; [nia|].
    assert (D1 : (p | x ^ (k * ((p - 1) * (q - 1)) + 1) - x)).
    { apply divide_mod_eq; [lia|]. replace (k * ((p - 1) * (q - 1))) with ((k * (q - 1)) * (p - 1)) by ring.
      apply fermat_all; [assumption|nia]. }
    assert (D2 : (q | x ^ (k * ((p - 1) * (q - 1)) + 1) - x)).
    { apply divide_mod_eq; [lia|]. replace (k * ((p - 1) * (q - 1))) with ((k * (p - 1)) * (q - 1)) by ring.
      apply fermat_all; [assumption|nia]. }
    destruct D1 as [u Eu]. rewrite Eu in *.
    assert (D : (q | u)).
    { apply (Gauss q p u); [rewrite Z.mul_comm; exact D2|apply rel_prime_sym; now apply pq_rel]. }
    destruct D as [e ->]. exists e. ring.
  Qed.

  Lemma verify_loop_map N x : forall f extra, (forall v, In v x -> mod_exp (f v) N N = v) ->
    verify_loop N x (map f x ++ extra) = Accepted.
  Proof.
    induction x as [|v x IH]; intros f extra A; [reflexivity|]. cbn.
    rewrite A by (left; reflexivity). rewrite Z.eqb_refl. apply IH. intros w Hw. apply A. now right.
  Qed.

  (** completeness: every proof produced with the real factors verifies (for any loop bound at least
      as large as the prover's), provided the curve order does not divide N *)
  Theorem C47_complete fuel fuel' par p q sk pi y proof : good_primes p q ->
    new_secret_key p q = Some sk -> (p * q) mod cN par <> 0 ->
    psf_prove kdf fuel par sk pi y = Some proof -> (fuel <= fuel')%nat ->
    psf_verify kdf fuel' par (skPub sk) pi y proof = Accepted.
  Proof.
    intros (Hp & Hq & Hpq & Hg) Hsk Hn E L.
    destruct (sk_inv p q Hp Hq Hpq Hg sk Hsk) as (E1 & _ & E3 & _).
    unfold psf_prove in E. unfold psf_verify. rewrite E1, E3 in *. cbn [pkN] in *.
    destruct (pi =? 0); [discriminate|].
    destruct (mod_inv (p * q) ((p - 1) * (q - 1))) as [M|] eqn:I; [|discriminate].
    destruct (generate_challenges kdf fuel par (p * q) pi y) as [x|] eqn:G; [|discriminate].
    destruct (Nat.eqb (length x) psf_length) eqn:Lx; [|discriminate]. injection E as <-.
    replace ((p * q) mod cN par =? 0) with false by (symmetry; now apply Z.eqb_neq).
    rewrite (generate_mono _ _ _ _ _ _ _ L G), Lx.
    rewrite <- (app_nil_r (map _ x)). apply verify_loop_map. intros v Hv.
    apply generate_ok in G. destruct G as [_ F]. rewrite Forall_forall in F. specialize (F v Hv). cbn in F.
    pose proof (p_gt1 p Hp). pose proof (q_gt1 q Hq).
    pose proof (mod_inv_spec (p * q) ((p - 1) * (q - 1)) ltac:(nia)) as S. rewrite I in S.
    apply root_ok; try assumption; tauto || lia.
  Qed.
  (** Prove succeeds for such keys as soon as the challenge loop terminates *)
  Theorem C47_prove_succeeds fuel par p q sk pi y x : good_primes p q ->
    new_secret_key p q = Some sk -> generate_challenges kdf fuel par (p * q) pi y = Some x ->
    exists proof, psf_prove kdf fuel par sk pi y = Some proof /\ length proof = 13%nat.
  Proof.
    intros (Hp & Hq & Hpq & Hg) Hsk G.
    destruct (sk_inv p q Hp Hq Hpq Hg sk Hsk) as (E1 & _ & E3 & _).
    unfold psf_prove. rewrite E1, E3. cbn [pkN]. rewrite G.
    destruct (pi =? 0) eqn:P; [unfold generate_challenges in G; rewrite P in G; discriminate|].
    pose proof (p_gt1 p Hp). pose proof (q_gt1 q Hq).
    pose proof (mod_inv_spec (p * q) ((p - 1) * (q - 1)) ltac:(nia)) as S.
    apply generate_ok in G. destruct G as [L _]. rewrite L. cbn [Nat.eqb psf_length].
    destruct (mod_inv (p * q) ((p - 1) * (q - 1))) as [M|].
    - eexists. split; [reflexivity|]. now rewrite map_length.
    - exfalso. destruct (Zis_gcd_bezout (p * q) ((p - 1) * (q - 1)) 1) as [u v E].
      { pose proof (Zgcd_is_gcd (p * q) ((p - 1) * (q - 1))) as GG. rewrite Hg in GG. exact GG. }
      apply (S u). replace (p * q * u) with (1 + (- v) * ((p - 1) * (q - 1))) by lia.
      rewrite Z_mod_plus_full. apply Z.mod_small. nia.
  Qed.

  Lemma verify_loop_iff N x : forall proof, verify_loop N x proof = Accepted <->
    (length x <= length proof)%nat /\
    forall j, (j < length x)%nat -> mod_exp (nth j proof 0) N N = nth j x 0.
  Proof.
    induction x as [|v x IH]; intros proof; cbn.
    - split; [intros _; split; [lia|intros j Hj; lia]|reflexivity].
    - destruct proof as [|w proof]; cbn.
      + split; [discriminate|intros [A _]; lia].
      + destruct (mod_exp w N N =? v) eqn:E.
        * apply Z.eqb_eq in E. rewrite IH. split.
          -- intros [A B]. split; [lia|]. intros [|j] Hj; [exact E|apply B; lia].
          -- intros [A B]. split; [lia|]. intros j Hj. apply (B (S j)). lia.
        * apply Z.eqb_neq in E. split; [discriminate|]. intros [_ B]. exfalso. apply E. apply (B 0%nat). lia.
  Qed.
  (** Verify accepts exactly N-th roots of all the challenges; entries beyond the thirteenth are ignored *)
  Theorem C47_verify_iff fuel par N pi y proof :
    psf_verify kdf fuel par (new_pubkey N) pi y proof = Accepted <->
    N mod cN par <> 0 /\ exists x, generate_challenges kdf fuel par N pi y = Some x
      /\ (13 <= length proof)%nat
      /\ forall j, (j < 13)%nat -> nth j proof 0 ^ N mod N = nth j x 0.
  Proof.
    unfold psf_verify, new_pubkey. cbn [pkN]. split.
    - destruct (pi =? 0); [discriminate|]. destruct (N mod cN par =? 0) eqn:D; [discriminate|].
      apply Z.eqb_neq in D. intros E. split; [exact D|].
      destruct (generate_challenges kdf fuel par N pi y) as [x|] eqn:G; [|discriminate].
      apply generate_ok in G. destruct G as [L _]. rewrite L in E. cbn [Nat.eqb psf_length] in E.
      apply verify_loop_iff in E. rewrite L in E. exists x. tauto.
    - intros [D [x [G E]]]. pose proof (generate_ok _ _ _ _ _ _ G) as [L _]. rewrite G, L.
      destruct (pi =? 0) eqn:P; [unfold generate_challenges in G; rewrite P in G; discriminate|].
      replace (N mod cN par =? 0) with false by (symmetry; now apply Z.eqb_neq).
      cbn [Nat.eqb psf_length]. apply verify_loop_iff. rewrite L. exact E.
  Qed.
  (** soundness: if the square of a prime divides N, an accepted proof forces every challenge to be
      divisible by that prime or to be a (p-1)-th root of unity modulo p^2 (a fraction below 2/p of them) *)
  Theorem C47_square_factor fuel par N pi y proof p : prime p -> 0 < N -> (p * p | N) ->
    psf_verify kdf fuel par (new_pubkey N) pi y proof = Accepted ->
    exists x, generate_challenges kdf fuel par N pi y = Some x /\
      forall v, In v x -> (p | v) \/ v ^ (p - 1) mod (p * p) = 1.
  Proof.
    intros Hp HN [e EN] V. apply C47_verify_iff in V. destruct V as [_ [x [G [_ R]]]].
    exists x. split; [exact G|]. intros v Hv. pose proof (generate_ok _ _ _ _ _ _ G) as [L _].
    apply In_nth with (d := 0) in Hv. destruct Hv as [j [Hj <-]]. rewrite <- (R j) by lia.
    set (w := nth j proof 0). pose proof (p_gt1 p Hp).
    destruct (Zdivide_dec p (w ^ N mod N)) as [D|D]; [left; exact D|right].
    assert (M : (w ^ N mod N) mod (p * p) = w ^ N mod (p * p)).
    { symmetry. apply Znumtheory.Zmod_div_mod; [nia|lia|]. exists e. exact EN. }
    assert (Dw : ~ (p | w)).
    { intros Dw. apply D. rewrite Z.mod_eq by lia. apply Z.divide_sub_r.
      - replace N with (Z.succ (N - 1)) by lia. rewrite Z.pow_succ_r by lia. now apply Z.divide_mul_l.
      - apply Z.divide_mul_l. exists (e * p). lia. }
    rewrite Zpower_mod by nia. rewrite M, <- Zpower_mod by nia. rewrite <- Z.pow_mul_r by lia.
    apply pow_multiple with (d := p * (p - 1)); try nia.
    - exists (e * p). rewrite EN. ring.
    - now apply euler_square.
  Qed.
  (** a proof that is too short is not refused but panics (index out of range) *)
  Theorem C47_short_proof_panics fuel par N pi y x proof n :
    N mod cN par <> 0 -> generate_challenges kdf fuel par N pi y = Some x ->
    psf_verify kdf fuel par (new_pubkey N) pi y proof = Accepted -> (n < 13)%nat ->
    psf_verify kdf fuel par (new_pubkey N) pi y (firstn n proof) = Panicked.
  Proof.
    intros D G V Hn. unfold psf_verify, new_pubkey in *. cbn [pkN] in *. destruct (pi =? 0); [discriminate|].
    destruct (N mod cN par =? 0); [discriminate|]. rewrite G in *.
    destruct (Nat.eqb (length x) psf_length) eqn:L; [|discriminate].
    apply Nat.eqb_eq in L. unfold psf_length in L. rewrite <- L in Hn. clear L G D.
    revert proof n Hn V. induction x as [|v x IH]; intros proof n Hn V; cbn in *; [lia|].
    destruct proof as [|w proof]; [discriminate|]. destruct n as [|n]; [reflexivity|]. cbn.
    destruct (mod_exp w N N =? v); [|discriminate]. apply IH; [lia|exact V].
  Qed.
End Psf.
(** non-vacuity: N = 11 * 17 = 187 with a toy expansion function; the prover's proof is accepted *)
Definition toy_kdf (l : list Z) : list Z := repeat (1 + (fold_left (fun a b => 3 * a + b) l 1) mod 200) 32.
Definition toy_par : curve_params := {| cGx := 1; cGy := 2; cN := 7 |}.
Example C47_case : exists sk proof, new_secret_key 11 17 = Some sk /\ good_primes 11 17
  /\ (11 * 17) mod cN toy_par <> 0
  /\ psf_prove toy_kdf 40 toy_par sk 1 (3, 4) = Some proof
  /\ psf_verify toy_kdf 40 toy_par (skPub sk) 1 (3, 4) proof = Accepted
  /\ psf_verify toy_kdf 40 toy_par (skPub sk) 1 (3, 4) (map (Z.add 1) proof) = Refused.
Proof.
  eexists. eexists. split; [vm_compute; reflexivity|]. split.
  { split; [prime_small|]. split; [prime_small|]. split; [lia|reflexivity]. }
  split; [vm_compute; discriminate|]. repeat (apply conj; [vm_compute; reflexivity|]); vm_compute; reflexivity.
Qed.
Print Assumptions C45_decrypt_encrypt.
Print Assumptions C45_every_ciphertext.
Print Assumptions C46_add.
Print Assumptions C46_mul.
Print Assumptions C47_complete.
Print Assumptions C47_square_factor.
