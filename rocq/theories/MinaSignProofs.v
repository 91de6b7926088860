(** Proofs about Mina signatures. *)
From Coq Require Import ZArith NArith Lia List Bool Ring Field Znumtheory.
From Verif Require Import EcField EcSpec EcProofs PointModel PointSpec PointProofs PointMulProofs PointProps LimbSpec LimbFiat NativeField NativeArithProofs PastaProps
  MinaBitsModel MinaBitsSpec MinaBitsProofs MinaBitsProps MinaModel MinaSpec MinaProofs MinaTxnProofs MinaSponge.
Import ListNotations.
Set Implicit Arguments.
Unset Strict Implicit.
Local Open Scope Z_scope.

Lemma le_value_N bs : is_bytes bs -> le_value (map Z.to_N bs) = Z.to_N (le_val bs) /\ Forall (fun x => (x < 256)%N) (map Z.to_N bs).
Proof.
  induction 1 as [|b bs B H [I1 I2]]; [split; [reflexivity|constructor]|]. pose proof (le_val_range _ H). cbn [map le_value le_val]. rewrite I1. split.
  - rewrite Z2N.inj_add, Z2N.inj_mul by lia. reflexivity.
  - constructor; [lia|exact I2].
Qed.
Lemma put_le_bytes n x : is_bytes (put_le n x).
Proof. revert x. induction n as [|n IH]; intros x; [constructor|]. cbn [put_le]. constructor; [unfold byte; apply Z.mod_pos_bound; lia|apply IH]. Qed.

Section Sign.
  Variable F : field.
  Variable C : fp_codec F.
  Variable p : Z.
  Hypothesis CK : codec_ok C p.
  Hypothesis curve : odd_order_curve (f0 : F) (five F).
  Variable gen : pt F.
  Variable consts : permutation -> sponge_consts F.
  Variable blake : list Z -> list Z.
  Variable q : Z.
  Hypothesis q_prime : prime q.
  Hypothesis q_range : q < 2 ^ 255.
  Hypothesis gen_on : on_curve (f0 : F) (five F) (jacobian gen).
  Hypothesis gen_order : times q (jacobian gen) = None.
  Hypothesis gen_key : jacobian gen <> None.
  Hypothesis SH : shape ThreeW (consts ThreeW).
  Local Notation raw := (fc_raw C).
  Local Notation G := (jacobian gen).
  Local Notation on := (on_curve (f0 : F) (five F)).
  Add Field fSg : (fth F).

  Lemma q_gt1 : 1 < q. Proof. apply q_prime. Qed.
  Lemma ep_mul_is (P : pt F) k : on (jacobian P) -> 0 <= k < 2 ^ 256 -> jacobian (ep_mul P k) = times k (jacobian P).
  Proof.
    intros O K. unfold ep_mul, times. destruct (le_value_N (put_le_bytes 32 k)) as [E B].
    rewrite (C73_pallas_mul curve O); [|split; [now rewrite map_length, put_le_len|exact B]]. rewrite E, put_le_val by exact K. f_equal. lia.
  Qed.
  Lemma times_on k (P : point F) : on P -> on (times k P). Proof. intros O. now apply (ec_mul_on curve). Qed.
  Lemma times_none k : times k (None : point F) = None.
  Proof. unfold times. induction (Z.to_nat k) as [|n IH]; [reflexivity|]. cbn [ec_mul]. now rewrite IH. Qed.
  Lemma times_add j k (P : point F) : 0 <= j -> 0 <= k -> on P -> times (j + k) P = ec_add f0 (times j P) (times k P).
  Proof. intros J K O. unfold times. rewrite Z2Nat.inj_add by assumption. now apply (ec_mul_add curve). Qed.
  Lemma times_mul j k (P : point F) : 0 <= j -> 0 <= k -> on P -> times (j * k) P = times j (times k P).
  Proof. intros J K O. unfold times. rewrite Z2Nat.inj_mul by assumption. now apply (ec_mul_mul curve). Qed.
  Lemma times_mod k : 0 <= k -> times (k mod q) G = times k G.
  Proof.
    intros K. pose proof q_gt1. pose proof (Z.mod_pos_bound k q ltac:(lia)). pose proof (Z.div_pos k q K ltac:(lia)).
    rewrite (Z.div_mod k q) at 2 by lia. rewrite Z.mul_comm, times_add by (nia || assumption). rewrite times_mul, gen_order, times_none by (lia || assumption). reflexivity.
  Qed.
  Lemma times_1 (P : point F) : times 1 P = P. Proof. unfold times. apply ec_mul_1. Qed.
  Lemma times_nonzero k : 0 < k < q -> times k G <> None.
  Proof.
    intros K E. pose proof q_gt1. assert (R : rel_prime k q) by (apply rel_prime_sym, prime_rel_prime; [exact q_prime|]; intros D; apply Z.divide_pos_le in D; lia).
    destruct (rel_prime_bezout _ _ R) as [u v UV]. apply gen_key.
    assert (M : (u mod q * k) mod q = 1). { rewrite Z.mul_mod_idemp_l by lia. replace (u * k) with (1 + (- v) * q) by lia. rewrite Z.mod_add by lia. apply Z.mod_small. lia. }
    pose proof (Z.mod_pos_bound u q ltac:(lia)). rewrite <- (times_1 G), <- M, times_mod by nia. rewrite times_mul, E by (lia || assumption). apply times_none.
  Qed.
  Lemma times_neg k : 0 <= k < q -> times ((- k) mod q) G = ec_neg (times k G).
  Proof.
    intros K. pose proof (times_on k gen_on) as O. pose proof q_gt1. pose proof (Z.mod_pos_bound (- k) q ltac:(lia)) as B. pose proof (times_on ((- k) mod q) gen_on) as O'.
    assert (S : ec_add f0 (times ((- k) mod q) G) (times k G) = None).
    { rewrite <- times_add by (lia || assumption). rewrite <- times_mod by lia. rewrite Z.add_mod_idemp_l by lia. replace (- k + k) with 0 by lia. reflexivity. }
    transitivity (ec_add f0 (times ((- k) mod q) G) (ec_add f0 (times k G) (ec_neg (times k G)))); [now rewrite ec_neg_r, ec_zero_r|].
    rewrite <- (ec_assoc curve O' O); [|now apply ec_neg_on]. now rewrite S.
  Qed.
  Lemma neg_neg (P : point F) : ec_neg (ec_neg P) = P.
  Proof. destruct P as [[x y]|]; [|reflexivity]. cbn. do 2 f_equal. ring. Qed.
  (** cancelling a summand *)
  Lemma add_sub (P Q : point F) : on P -> on Q -> ec_add f0 (ec_add f0 P Q) (ec_neg Q) = P.
  Proof. intros OP OQ. rewrite (ec_assoc curve OP OQ); [|now apply ec_neg_on]. now rewrite ec_neg_r, ec_zero_r. Qed.
  Lemma neg_inj (P Q : point F) : ec_neg P = ec_neg Q -> P = Q.
  Proof. intros E. rewrite <- (neg_neg P), E. apply neg_neg. Qed.

  (** ** The hash *)
  Local Notation challenge := (MinaSpec.challenge C q (consts ThreeW)).
  Lemma p_le : 2 ^ 254 <= p. Proof. pose proof (ck_p CK). lia. Qed.
  Lemma iv_len network : known network -> length (start (consts ThreeW) network) = sc_width (consts ThreeW).
  Proof.
    intros K. unfold start. destruct (network =? NullNet) eqn:E; [apply repeat_length|]. destruct (sh_iv SH) as [L H]. rewrite Forall_forall in H. apply H, nth_In.
    destruct K as [->|[->| ->]]; [cbn; lia..|discriminate].
  Qed.
  Lemma init_is network : known network -> ctx_init consts ThreeW network = Some (Context ThreeW (start (consts ThreeW) network) 0).
  Proof.
    intros K. unfold ctx_init, start. destruct K as [->|[->| ->]]; reflexivity.
  Qed.
  Lemma init_none network : ~ known network -> ctx_init consts ThreeW network = None.
  Proof.
    intros K. unfold ctx_init. replace (network =? TestNet) with false by (symmetry; apply Z.eqb_neq; intros ->; apply K; now left).
    replace (network =? MainNet) with false by (symmetry; apply Z.eqb_neq; intros ->; apply K; right; now left).
    replace (network =? NullNet) with false by (symmetry; apply Z.eqb_neq; intros ->; apply K; right; now right). reflexivity.
  Qed.
  Lemma digest_is network l : known network ->
    digest C consts q (update consts (Context ThreeW (start (consts ThreeW) network) 0) (map (fc_set_raw C) l)) = hash C q ThreeW (consts ThreeW) network l.
  Proof.
    intros K. unfold digest, hash, permute, update. cbn [cx_state]. pose proof (sponge_is (T := ThreeW) eq_refl SH (fuel := length l) (iv_len K) (fields := map (fc_set_raw C) l)) as S.
    cbv zeta in S. rewrite S; [reflexivity|]. rewrite map_length. pose proof (sh_rate SH). nia.
  Qed.
  Lemma msg_hash_is (pk : pt F) rx input fields bits network : ro_holds input fields bits ->
    msg_hash C consts p q pk rx input ThreeW network =
    match ctx_init consts ThreeW network with None => Panic | Some _ =>
      Ok (challenge network (fields ++ [raw (x_of (jacobian pk)); raw (y_of (jacobian pk)); raw rx]) bits) end.
  Proof.
    intros H. unfold msg_hash. rewrite ep_x_is, ep_y_is.
    apply C106_add_fp with (x := raw (x_of (jacobian pk))) in H. apply C106_add_fp with (x := raw (y_of (jacobian pk))) in H. apply C106_add_fp with (x := raw rx) in H.
    rewrite <- !app_assoc in H. cbn [app] in H. set (r := ro_add_fp _ (raw rx)) in *. clearbody r.
    destruct (Z.eq_dec network TestNet) as [E|N0]; [|destruct (Z.eq_dec network MainNet) as [E|N1]; [|destruct (Z.eq_dec network NullNet) as [E|N2]]].
    4:{ rewrite init_none; [reflexivity|]. intros [K|[K|K]]; auto. }
    all: assert (K : known network) by (unfold known; auto); rewrite (init_is K), (C106_fields p r _ _ p_le H); cbn [unpanic bind]; rewrite (digest_is _ K); reflexivity.
  Qed.
  Lemma challenge_range network fields bits : 0 <= challenge network fields bits < q.
  Proof. apply Z.mod_pos_bound. pose proof q_gt1. lia. Qed.

  (** ** Verification *)
  Local Notation accepted pk := (MinaSpec.accepted C q (consts ThreeW) G (jacobian pk)).
  Lemma is_identity_iff (P : pt F) : is_identity P = true <-> jacobian P = None.
  Proof. unfold is_identity, is_zero, jacobian. destruct (feqb (pz P) f0); split; (reflexivity || discriminate). Qed.
  Lemma verify_is pk sig input fields bits network : ro_holds input fields bits -> on (jacobian pk) -> 0 <= sig_s sig < q -> known network ->
    (finish_verify C gen consts p q pk sig input network = Ok tt \/ finish_verify C gen consts p q pk sig input network = Err) /\
    (finish_verify C gen consts p q pk sig input network = Ok tt <->
     jacobian pk <> None /\ sig_r sig <> f0 /\ sig_s sig <> 0 /\ accepted pk sig network fields bits).
  Proof.
    intros H O R K. unfold finish_verify. destruct (is_identity pk) eqn:I.
    { apply is_identity_iff in I. split; [now right|]. split; [discriminate|]. intros [N _]. contradiction. }
    assert (N : jacobian pk <> None) by (intros E; apply is_identity_iff in E; congruence).
    destruct (feqb (sig_r sig) f0) eqn:R0.
    { cbn [orb]. split; [now right|]. split; [discriminate|]. intros (_ & Q & _). apply feqb_spec in R0. contradiction. }
    assert (NR : sig_r sig <> f0) by (intros E; apply feqb_spec in E; congruence).
    cbn [orb]. destruct (sig_s sig =? 0) eqn:S0.
    { split; [now right|]. split; [discriminate|]. intros (_ & _ & Q & _). apply Z.eqb_eq in S0. contradiction. }
    apply Z.eqb_neq in S0. rewrite (msg_hash_is pk (sig_r sig) network H), (init_is K). cbn [bind].
    set (e := challenge network _ bits). pose proof (challenge_range network (fields ++ [raw (x_of (jacobian pk)); raw (y_of (jacobian pk)); raw (sig_r sig)]) bits) as ER. fold e in ER.
    cbv zeta. rewrite (ck_odd CK), ep_x_is, ep_y_is.
    assert (OS : on (times (sig_s sig) G)) by now apply times_on. assert (OE : on (times e (jacobian pk))) by now apply times_on.
    assert (J1 : jacobian (ep_mul gen (sig_s sig)) = times (sig_s sig) G) by (apply ep_mul_is; [exact gen_on|lia]).
    assert (J2 : jacobian (ep_mul pk e) = times e (jacobian pk)) by (apply ep_mul_is; [exact O|lia]).
    assert (J3 : jacobian (pallas_neg (ep_mul pk e)) = ec_neg (times e (jacobian pk))) by (rewrite <- J2; apply (C72_neg (b := five F)); now rewrite J2).
    assert (ON : on (ec_neg (times e (jacobian pk)))) by now apply ec_neg_on.
    assert (J : jacobian (pallas_add (ep_mul gen (sig_s sig)) (pallas_neg (ep_mul pk e))) = ec_add f0 (times (sig_s sig) G) (ec_neg (times e (jacobian pk)))).
    { rewrite (C72_add curve); [|now rewrite J1|now rewrite J3]. now rewrite J1, J3. }
    rewrite J. set (V := ec_add f0 (times (sig_s sig) G) (ec_neg (times e (jacobian pk)))). assert (OV : on V) by now apply (ec_closed curve).
    assert (EQ : forall R, on R -> V = R <-> times (sig_s sig) G = ec_add f0 R (times e (jacobian pk))).
    { intros T OT. split.
      - intros E. rewrite <- E. unfold V. rewrite <- (neg_neg (times e (jacobian pk))) at 2. symmetry. apply add_sub; [exact OS|exact ON].
      - intros E. unfold V. rewrite E. now apply add_sub. }
    assert (BR : (if negb (Z.odd (raw (y_of V))) && feqb (x_of V) (sig_r sig) then Ok tt else Err) = Ok tt <->
      exists y, on (Some (sig_r sig, y)) /\ parity C y = false /\ times (sig_s sig) G = ec_add f0 (Some (sig_r sig, y)) (times e (jacobian pk))).
    { split.
      - intros A. destruct (negb (Z.odd (raw (y_of V))) && feqb (x_of V) (sig_r sig)) eqn:B; [|discriminate]. apply andb_prop in B. destruct B as [B1 B2].
        apply feqb_spec in B2. apply negb_true_iff in B1. destruct V as [[x y]|] eqn:EV; [|cbn in B2; congruence]. cbn [x_of y_of] in *. subst x. exists y. split; [exact OV|]. split; [exact B1|]. apply EQ; [exact OV|reflexivity].
      - intros (y & OY & PY & E).
        apply EQ in E; [|exact OY]. rewrite E. cbn [x_of y_of]. unfold parity in PY. rewrite PY. cbn [negb andb]. rewrite feqb_true. reflexivity. }
    split; [|].
    - destruct (negb (Z.odd (raw (y_of V))) && feqb (x_of V) (sig_r sig)); auto.
    - rewrite BR. unfold accepted. fold e. intuition.
  Qed.

  (** ** Signing *)
  Lemma len_flat (fs : list Z) : length (flat_map (fun f => int_bits f 255) fs) = (255 * length fs)%nat.
  Proof. induction fs as [|f fs IH]; [reflexivity|]. cbn [flat_map length]. rewrite app_length, IH, int_bits_len. lia. Qed.
  Lemma derive_bytes_is sk input fields bits (pk : pt F) network : ro_holds input fields bits -> Z.of_nat (255 * length fields + length bits + 773) <= 2 ^ 32 ->
    exists r, msg_derive_bytes C sk input pk network = unpanic (ro_bytes r) /\
      ro_holds r (fields ++ [raw (x_of (jacobian pk)); raw (y_of (jacobian pk))]) (bits ++ int_bits sk 255 ++ all_bits [byte network]) /\
      exists out, ro_bytes r = Some out.
  Proof.
    intros H M. unfold msg_derive_bytes. rewrite ep_x_is, ep_y_is. cbv zeta.
    apply C106_add_fp with (x := raw (x_of (jacobian pk))) in H. apply C106_add_fp with (x := raw (y_of (jacobian pk))) in H.
    rewrite <- !app_assoc in H. cbn [app] in H. set (r0 := ro_add_fp (ro_add_fp _ _) _) in *. clearbody r0.
    destruct (C106_add_fq _ _ _ H sk) as (r1 & E1 & H1); [lia|]. rewrite E1. cbn [unpanic bind].
    destruct (C106_add_bytes _ _ _ H1 [byte network]) as (r2 & E2 & H2); [rewrite app_length, int_bits_len; cbn [length]; lia|]. rewrite E2. cbn [unpanic bind].
    exists r2. split; [reflexivity|]. rewrite <- !app_assoc in H2. split; [exact H2|].
    destruct (C106_bytes _ _ _ H2) as (out & E & _); [rewrite !app_length, int_bits_len; cbn [length app]; change (length (all_bits [byte network])) with 8%nat; lia|]. exists out. exact E.
  Qed.
  Lemma derive_is sk input fields bits (pk : pt F) network : ro_holds input fields bits -> Z.of_nat (255 * length fields + length bits + 773) <= 2 ^ 32 ->
    exists k, msg_derive C blake q sk input pk network = Ok k /\ 0 <= k < q.
  Proof.
    intros H M. destruct (derive_bytes_is sk pk network H M) as (r & E & _ & out & O). unfold msg_derive. rewrite E, O. cbn [unpanic bind]. cbv zeta.
    eexists. split; [reflexivity|]. apply Z.mod_pos_bound. pose proof q_gt1. lia.
  Qed.
  Lemma sign_is sk input fields bits network : ro_holds input fields bits -> Z.of_nat (255 * length fields + length bits + 773) <= 2 ^ 32 ->
    0 <= sk < q -> known network ->
    finish_sign C gen consts blake p q sk input network = Err \/
    exists sig, finish_sign C gen consts blake p q sk input network = Ok sig /\ sk <> 0 /\ 0 <= sig_s sig < q /\ sig_s sig <> 0 /\ sig_r sig <> f0 /\
      forall pk, jacobian pk = times sk G -> accepted pk sig network fields bits.
  Proof.
    intros H M S K. unfold finish_sign. destruct (Z.eqb_spec sk 0) as [E|NS]; [now left|]. cbv zeta.
    destruct (derive_is sk (get_public_key gen sk) network H M) as (k & E & KR). rewrite E. cbn [bind]. destruct (Z.eqb_spec k 0) as [E0|NK]; [now left|].
    assert (JP : jacobian (get_public_key gen sk) = times sk G) by (apply ep_mul_is; [exact gen_on|lia]).
    assert (JR : jacobian (ep_mul gen k) = times k G) by (apply ep_mul_is; [exact gen_on|lia]).
    rewrite (ck_odd CK), ep_x_is, ep_y_is, JR. rewrite (msg_hash_is (get_public_key gen sk) (x_of (times k G)) network H), (init_is K). cbn [bind]. rewrite JP.
    pose proof (times_on k gen_on) as OR. pose proof (times_nonzero (k := k)) as NR. destruct (times k G) as [[x y]|] eqn:TK; [|exfalso; apply NR; [lia|reflexivity]]. cbn [x_of y_of].
    set (e := challenge network _ bits). pose proof (challenge_range network (fields ++ [raw (x_of (times sk G)); raw (y_of (times sk G)); raw x]) bits) as ER. fold e in ER.
    set (k' := if Z.odd (raw y) then (- k) mod q else k).
    pose proof q_gt1 as Q1.
    assert (KR' : 0 <= k' < q) by (unfold k'; destruct (Z.odd (raw y)); [apply Z.mod_pos_bound; lia|exact KR]).
    assert (R' : exists y', on (Some (x, y')) /\ parity C y' = false /\ times k' G = Some (x, y')).
    { unfold k', parity. destruct (Z.odd (raw y)) eqn:P.
      - exists (fopp y). split; [exact (ec_neg_on OR)|]. split.
        + rewrite (odd_neg CK), P by (apply (y_nonzero curve OR)). reflexivity.
        + rewrite times_neg by exact KR. rewrite TK. reflexivity.
      - exists y. auto. }
    destruct R' as (y' & OY & PY & TK').
    destruct (feqb x f0 || ((k' + (e * sk) mod q) mod q =? 0)) eqn:B; [now left|]. right. apply orb_false_iff in B. destruct B as [B1 B2]. apply Z.eqb_neq in B2.
    eexists. split; [reflexivity|]. cbn [sig_s sig_r]. split; [exact NS|]. split; [apply Z.mod_pos_bound; lia|]. split; [exact B2|].
    split; [intros EX; rewrite EX, feqb_true in B1; discriminate|]. intros pk JPK. unfold accepted. cbn [sig_s sig_r]. cbv zeta. rewrite JPK. fold e.
    exists y'. split; [exact OY|]. split; [exact PY|].
    assert (EB := Z.mod_pos_bound (e * sk) q ltac:(lia)). rewrite times_mod by lia. rewrite times_add by (lia || assumption). rewrite TK', times_mod by nia.
    rewrite times_mul by (lia || assumption). reflexivity.
  Qed.
  Lemma sign_verifies sk pk input fields bits network sig : ro_holds input fields bits -> Z.of_nat (255 * length fields + length bits + 773) <= 2 ^ 32 ->
    0 <= sk < q -> known network -> jacobian pk = times sk G ->
    finish_sign C gen consts blake p q sk input network = Ok sig -> finish_verify C gen consts p q pk sig input network = Ok tt.
  Proof.
    intros H M S K J E. destruct (sign_is H M S K) as [E'|(sig' & E' & NS & R & NZ & NR & A)]; [congruence|]. rewrite E' in E. injection E as <-.
    assert (O : on (jacobian pk)) by (rewrite J; now apply times_on). apply (verify_is H O R K). split; [rewrite J; apply times_nonzero; lia|]. split; [exact NR|]. split; [exact NZ|]. now apply A.
  Qed.
  (** the nonce is a hash of the key and of everything signed *)
  Lemma nonce_injective sk sk' input input' fields fields' bits bits' (pk pk' : pt F) network network' :
    ro_holds input fields bits -> ro_holds input' fields' bits' -> Z.of_nat (255 * length fields + length bits + 773) <= 2 ^ 32 ->
    length fields = length fields' -> length bits = length bits' -> Forall (fun f => 0 <= f < p) fields -> Forall (fun f => 0 <= f < p) fields' ->
    0 <= sk < q -> 0 <= sk' < q -> 0 <= network < 256 -> 0 <= network' < 256 ->
    msg_derive_bytes C sk input pk network = msg_derive_bytes C sk' input' pk' network' ->
    sk = sk' /\ fields = fields' /\ bits = bits' /\ network = network' /\
    x_of (jacobian pk) = x_of (jacobian pk') /\ y_of (jacobian pk) = y_of (jacobian pk').
  Proof.
    intros H H' M LF LB FF FF' S S' N N' E. destruct (derive_bytes_is sk pk network H M) as (r & E1 & R1 & out & O1).
    destruct (derive_bytes_is sk' pk' network' H') as (r' & E2 & R2 & out' & O2); [rewrite <- LF, <- LB; exact M|]. rewrite E1, E2, O1, O2 in E. cbn [unpanic] in E. injection E as <-.
    assert (AL : forall b, length (all_bits [b]) = 8%nat) by reflexivity. pose proof (ck_p CK) as PP.
    assert (FA : forall fs (P : pt F), Forall (fun f => 0 <= f < p) fs -> Forall (fun f => 0 <= f < 2 ^ 255) (fs ++ [raw (x_of (jacobian P)); raw (y_of (jacobian P))])).
    { intros fs P A. apply Forall_app. split; [eapply Forall_impl; [|exact A]; intros a B; cbv beta in *; lia|].
      pose proof (ck_range CK (x_of (jacobian P))). pose proof (ck_range CK (y_of (jacobian P))). constructor; [lia|]. constructor; [lia|constructor]. }
    assert (W := C106_bytes_injective r r' _ _ _ _ R1 R2). destruct W as [W1 W2].
    - rewrite !app_length, int_bits_len, AL. cbn [length]. lia.
    - rewrite !app_length. cbn [length]. lia.
    - rewrite !app_length, !int_bits_len, !AL. lia.
    - apply FA, FF.
    - apply FA, FF'.
    - congruence.
    - apply app_inj_len in W1; [|exact LF]. destruct W1 as [-> W1]. apply cons_both in W1. destruct W1 as [X1 W1]. apply cons_both in W1. destruct W1 as [X2 _].
      apply app_inj_len in W2; [|exact LB]. destruct W2 as [-> W2]. apply app_inj_len in W2; [|now rewrite !int_bits_len]. destruct W2 as [W2 W3].
      apply int_bits_inj in W2; [|change (2 ^ Z.of_nat 255) with (2 ^ 255); lia..]. subst sk'. split; [reflexivity|]. split; [reflexivity|]. split; [reflexivity|].
      split; [|split; apply (ck_inj CK); assumption].
      unfold byte in W3. rewrite !Z.mod_small in W3 by assumption. cbn [all_bits flat_map] in W3. rewrite !app_nil_r in W3. now apply byte_bits_inj.
  Qed.
End Sign.
