(** * Properties of the Mina package: transactions (C107), signatures (C108), encodings (C109) and the Poseidon hash (C110).

    The specification is MinaSpec.v and MinaBitsSpec.v.  The field is the limb-level one of PastaField.v, the curve is
    Pallas and the generator is the package's.  Quantified over: the constants of the Poseidon permutations (of the sizes
    they declare, [shape]), the function BLAKE2b-256 and SHA-256. *)
From Coq Require Import ZArith NArith Lia List Bool Znumtheory.
From Verif Require Import EcField EcSpec EcProofs PointModel PointSpec PointProofs PointMulProofs PointProps LimbBase LimbSpec LimbProofs LimbFiat NativeField NativeArithProofs PastaField PastaProps ZCong LimbField CurveOrder PrimePasta
  MinaBitsModel MinaBitsSpec MinaModel MinaSpec MinaProofs MinaTxnProofs MinaSponge MinaSignProofs MinaMoreProofs MinaInstance.
Import ListNotations.
Set Implicit Arguments.
Unset Strict Implicit.
Local Open Scope Z_scope.

Notation F := PallasFp.
Notation C := pallas_codec.
Notation G := (jacobian pallas_gen).
(** the value the package gives to a base-field element *)
Notation raw := (fc_raw pallas_codec).
Notation shaped consts := (shape ThreeW (consts ThreeW)).
Implicit Types (t u : transaction F) (pk : pt F) (sig : signature F) (sk : Z) (consts : permutation -> sponge_consts F) (blake sha : list Z -> list Z).

Lemma odd_bit b : Z.odd (bit b) = b. Proof. destruct b; reflexivity. Qed.
Lemma q_prime' : prime pallas_q. Proof. exact pallas_q_prime. Qed.
Lemma q_small : pallas_q < 2 ^ 255. Proof. reflexivity. Qed.
Lemma gen_on' : on_curve (f0 : F) (five F) G. Proof. rewrite gen_aff. exact pallas_gen_on. Qed.

(** ** C107: transactions *)
(** a transaction is read back, unless the abscissa of one of its keys is at least 2^254 (there are about 2^126 of those) *)
Theorem C107_roundtrip_partial t : well_formed t -> 0 <= t_network t < 256 ->
  raw (x_of (jacobian (t_fee_payer t))) < 2 ^ 254 -> raw (x_of (jacobian (t_source t))) < 2 ^ 254 -> raw (x_of (jacobian (t_receiver t))) < 2 ^ 254 ->
  exists u, unmarshal_txn C (marshal_txn C t) = Ok u /\ same_body t u /\ t_network u = t_network t.
Proof. exact (txn_roundtrip pallas_codec_ok pallas_odd (t := t)). Qed.
(** what is hashed of a transaction *)
Theorem C107_content t : exists r, txn_input C t = Ok r /\ ro_holds r (txn_fields C t) (txn_bits C t).
Proof. exact (txn_input_ok pallas_codec_ok t). Qed.
(** different transactions have different contents, whatever coordinates represent their keys *)
Theorem C107_content_injective t u r r' : well_formed t -> well_formed u -> txn_input C t = Ok r -> txn_input C u = Ok r' ->
  ro_to_fields pallas_p r = ro_to_fields pallas_p r' -> same_body t u.
Proof. exact (content_inj pallas_codec_ok pallas_odd (t := t) (u := u) (r := r) (r' := r')). Qed.
(** but memos over 32 bytes are cut, and only the low byte of their length is hashed *)
Theorem C107_memo_refuted t m m' consts blake sk :
  (32 <= length m)%nat -> (32 <= length m')%nat -> firstn 32 m = firstn 32 m' -> Z.of_nat (length m) mod 256 = Z.of_nat (length m') mod 256 ->
  txn_input C (with_memo t m) = txn_input C (with_memo t m') /\
  sign_transaction C pallas_gen consts blake pallas_p pallas_q sk (with_memo t m) = sign_transaction C pallas_gen consts blake pallas_p pallas_q sk (with_memo t m').
Proof.
  intros L L' E E'. assert (I : txn_input C (with_memo t m) = txn_input C (with_memo t m')) by (apply input_with_memo; now apply memo_same).
  split; [exact I|]. unfold sign_transaction. rewrite I. reflexivity.
Qed.
(** UnmarshalBinary panics on bytes whose memo length is over 117 *)
Theorem C107_unmarshal_refuted input t b : unmarshal_txn C input = Ok t -> length input = 175%nat -> 118 <= b < 256 ->
  unmarshal_txn C (put 57 58 [b] input) = Panic.
Proof. exact (unmarshal_panics (C := C) (input := input) (t := t) (b := b)). Qed.

(** ** C108: signatures *)
(** the signature of a transaction verifies under the public key *)
Theorem C108_transaction consts blake sk pk t sig : shaped consts -> 0 <= sk < pallas_q -> known (t_network t) ->
  jacobian pk = times sk G -> sign_transaction C pallas_gen consts blake pallas_p pallas_q sk t = Ok sig ->
  verify_transaction C pallas_gen consts pallas_p pallas_q pk sig t = Ok tt.
Proof.
  intros SH. exact (sign_txn_verifies pallas_codec_ok pallas_odd q_prime' q_small gen_on' pallas_gen_order pallas_gen_key SH (blake := blake) (sk := sk) (pk := pk) (t := t) (sig := sig)).
Qed.
Theorem C108_message consts blake sk pk m sig : shaped consts -> 0 <= sk < pallas_q -> Z.of_nat (8 * length m + 773) <= 2 ^ 32 ->
  jacobian pk = times sk G -> sign_message C pallas_gen consts blake pallas_p pallas_q sk m = Ok sig ->
  verify_message C pallas_gen consts pallas_p pallas_q pk sig m = Ok tt.
Proof.
  intros SH. exact (sign_msg_verifies pallas_codec_ok pallas_odd q_prime' q_small gen_on' pallas_gen_order pallas_gen_key SH (blake := blake) (sk := sk) (pk := pk) (m := m) (sig := sig)).
Qed.
(** the public key of the package is the multiple of the generator, of order q *)
Theorem C108_public_key sk : 0 <= sk < pallas_q -> jacobian (get_public_key pallas_gen sk) = times sk G.
Proof. intros S. apply (ep_mul_is pallas_odd gen_on'). unfold pallas_q in S. lia. Qed.
Theorem C108_generator : on_curve (f0 : F) (five F) G /\ times pallas_q G = None /\ prime pallas_q /\ forall k, 0 < k < pallas_q -> times k G <> None.
Proof.
  split; [exact gen_on'|]. split; [exact pallas_gen_order|]. split; [exact q_prime'|].
  intros k K. exact (times_nonzero pallas_odd q_prime' q_small gen_on' pallas_gen_order pallas_gen_key K).
Qed.
(** verification accepts exactly the solutions of the verification equation *)
Theorem C108_verify_transaction consts pk sig t : shaped consts -> on_curve (f0 : F) (five F) (jacobian pk) -> 0 <= sig_s sig < pallas_q -> known (t_network t) ->
  let v := verify_transaction C pallas_gen consts pallas_p pallas_q pk sig t in
  (v = Ok tt \/ v = Err) /\ (v = Ok tt <-> jacobian pk <> None /\ sig_r sig <> f0 /\ sig_s sig <> 0 /\
    accepted C pallas_q (consts ThreeW) G (jacobian pk) sig (t_network t) (txn_fields C t) (txn_bits C t)).
Proof. intros SH. exact (verify_txn_iff pallas_codec_ok pallas_odd (fun l => l) q_prime' q_small gen_on' SH (pk := pk) (sig := sig) (t := t)). Qed.
Theorem C108_verify_message consts pk sig m : shaped consts -> on_curve (f0 : F) (five F) (jacobian pk) -> 0 <= sig_s sig < pallas_q -> Z.of_nat (8 * length m) <= 2 ^ 32 ->
  let v := verify_message C pallas_gen consts pallas_p pallas_q pk sig m in
  (v = Ok tt \/ v = Err) /\ (v = Ok tt <-> jacobian pk <> None /\ sig_r sig <> f0 /\ sig_s sig <> 0 /\
    accepted C pallas_q (consts ThreeW) G (jacobian pk) sig MainNet [] (all_bits m)).
Proof. intros SH. exact (verify_msg_iff pallas_codec_ok pallas_odd (fun l => l) q_prime' q_small gen_on' SH (pk := pk) (sig := sig) (m := m)). Qed.
(** signing does not panic on the known networks *)
Theorem C108_sign_total consts blake sk t : shaped consts -> 0 <= sk < pallas_q -> known (t_network t) ->
  sign_transaction C pallas_gen consts blake pallas_p pallas_q sk t = Err \/ exists sig, sign_transaction C pallas_gen consts blake pallas_p pallas_q sk t = Ok sig.
Proof. intros SH. exact (sign_txn_total pallas_codec_ok pallas_odd blake q_prime' q_small gen_on' pallas_gen_order pallas_gen_key SH (sk := sk) (t := t)). Qed.
(** the bytes hashed into the nonce determine the key, the transaction and the network *)
Theorem C108_nonce_injective sk sk' t u pk pk' r r' : well_formed t -> well_formed u -> txn_input C t = Ok r -> txn_input C u = Ok r' ->
  0 <= sk < pallas_q -> 0 <= sk' < pallas_q -> 0 <= t_network t < 256 -> 0 <= t_network u < 256 ->
  msg_derive_bytes C sk r pk (t_network t) = msg_derive_bytes C sk' r' pk' (t_network u) ->
  sk = sk' /\ same_body t u /\ t_network t = t_network u /\ x_of (jacobian pk) = x_of (jacobian pk') /\ y_of (jacobian pk) = y_of (jacobian pk').
Proof. exact (nonce_txn pallas_codec_ok pallas_odd q_small (sk := sk) (sk' := sk') (t := t) (u := u) (pk := pk) (pk' := pk') (r := r) (r' := r')). Qed.
(** but verification panics on a transaction of another network, which UnmarshalBinary accepts *)
Theorem C108_network_refuted consts pk sig t : jacobian pk <> None -> sig_r sig <> f0 -> sig_s sig <> 0 -> ~ known (t_network t) ->
  verify_transaction C pallas_gen consts pallas_p pallas_q pk sig t = Panic.
Proof. exact (unknown_network pallas_codec_ok pallas_gen consts pallas_q (pk := pk) (sig := sig) (t := t)). Qed.
(** and the signatures of a message of at most 30 bytes are those of the message followed by a zero byte *)
Theorem C108_message_refuted consts pk sig m : shaped consts -> (1 <= length m <= 30)%nat ->
  verify_message C pallas_gen consts pallas_p pallas_q pk sig (m ++ [0]) = verify_message C pallas_gen consts pallas_p pallas_q pk sig m.
Proof. intros SH. exact (zero_byte pallas_codec_ok pallas_gen pallas_q SH pk sig (m := m)). Qed.

(** ** C109: encodings *)
(** native/pasta/fq/fq.go [SetBytes], [ToRaw]: the scalar read from 32 bytes, used through its value (PastaField.v) *)
Definition fq_set_bytes (bs : list Z) : option Z := option_map (fun x => val4 (pasta_to_raw pastafq_field x)) (pasta_set_bytes pastafq_field bs).
Theorem C109_key_partial pk : is_key pk -> raw (x_of (jacobian pk)) < 2 ^ 254 ->
  length (to_compressed C pk) = 32%nat /\ exists Q, from_compressed C (to_compressed C pk) = Some Q /\ jacobian Q = jacobian pk.
Proof. intros K R. split; [exact (compressed_len pallas_codec_ok pk)|exact (key_roundtrip pallas_codec_ok pallas_odd K R)]. Qed.
(** GenerateAddress and ParseAddress, before and after base58 *)
Theorem C109_address_partial sha pk : (forall x, (4 <= length (sha x))%nat) -> is_key pk -> raw (x_of (jacobian pk)) < 2 ^ 254 ->
  length (address_bytes C sha pk) = 40%nat /\ exists Q, parse_address_bytes C sha (address_bytes C sha pk) = Some Q /\ jacobian Q = jacobian pk.
Proof.
  intros S K R. rewrite (address_is pallas_codec_ok S). split.
  - unfold with_checksum, address_head. rewrite !app_length, firstn_length. destruct (ck_bytes pallas_codec_ok (x_of (jacobian pk))) as (_ & L & _). rewrite L. pose proof (S (sha ([203; 1; 1] ++ fc_bytes C (x_of (jacobian pk)) ++ [bit (Z.odd (raw (y_of (jacobian pk))))]))). cbn [length]. lia.
  - apply (address_parse pallas_codec_ok pallas_odd S K R); [destruct (Z.odd (raw (y_of (jacobian pk)))); cbn; lia|apply odd_bit].
Qed.
(** but every key has 128 such addresses *)
Theorem C109_address_refuted sha pk b : (forall x, (4 <= length (sha x))%nat) -> is_key pk -> raw (x_of (jacobian pk)) < 2 ^ 254 ->
  0 <= b < 256 -> Z.odd b = Z.odd (raw (y_of (jacobian pk))) ->
  let head := [0xcb; 1; 1] ++ fc_bytes C (x_of (jacobian pk)) ++ [b] in
  exists Q, parse_address_bytes C sha (head ++ firstn 4 (sha (sha head))) = Some Q /\ jacobian Q = jacobian pk.
Proof. intros S K R B P. exact (address_parse pallas_codec_ok pallas_odd S K R B P). Qed.
(** signatures: 32 bytes of the abscissa and 32 of the scalar *)
Theorem C109_signature_partial sig : raw (sig_r sig) < 2 ^ 254 -> 0 <= sig_s sig < 2 ^ 254 ->
  marshal_signature C sig = fc_bytes C (sig_r sig) ++ put_le 32 (sig_s sig) /\ unmarshal_signature C fq_set_bytes (marshal_signature C sig) = Some sig.
Proof.
  intros R S. apply (signature_bytes pallas_codec_ok R); [lia|].
  assert (IN : In (pastafq_field, pallas_q) pasta_fields) by (right; now left).
  assert (R0 : represents pallas_q pasta_zero 0).
  { exact (proj1 (C85_pasta_constants _ _ IN 0 true ltac:(unfold word; rewrite W_eq; lia))). }
  destruct (@words_ok (sig_s sig)) as [W E]; [lia|]. pose proof (proj2 (proj2 (proj2 (C86_pasta_big_int_and_raw _ _ IN _ _ R0))) _ W) as X.
  rewrite E, Z.mod_small in X by (unfold pallas_q; lia).
  destruct (C86_pasta_bytes_is_the_value _ _ IN _ _ X) as (B & L & V). unfold fq_set_bytes.
  replace (put_le 32 (sig_s sig)) with (pasta_bytes pastafq_field (pasta_set_raw pastafq_field (words_of (sig_s sig)))).
  - rewrite (C86_pasta_roundtrip_partial _ _ IN _ _ X) by lia. cbn [option_map]. f_equal. exact (proj1 (proj2 (proj2 (C86_pasta_big_int_and_raw _ _ IN _ _ X)))).
  - apply le_val_inj; [exact B|apply put_le_bytes|now rewrite L, put_le_len|]. rewrite V, put_le_val; [reflexivity|]. change (256 ^ Z.of_nat 32) with (2 ^ 256). lia.
Qed.

(** ** C110: the Poseidon hash *)
(** Permute is the Poseidon permutation on the constants, for the three parameter sets *)
Theorem C110_permute consts (c : context F) : shape (cx_type c) (consts (cx_type c)) -> length (cx_state c) = sc_width (consts (cx_type c)) ->
  cx_state (permute consts c) = poseidon (cx_type c) (consts (cx_type c)) (cx_state c).
Proof. intros SH L. exact (proj1 (permute_is (T := cx_type c) eq_refl SH (c := c) eq_refl L)). Qed.
(** Init, Update and Digest compute the sponge *)
Theorem C110_hash consts T network (fields : list F) : shape T (consts T) -> known network ->
  exists c, ctx_init consts T network = Some c /\ digest C consts pallas_q (update consts c fields) =
    raw (nth 0 (sponge (poseidon T (consts T)) (sc_rate (consts T)) (length fields) (start (consts T) network) fields) f0) mod pallas_q.
Proof. intros SH K. exact (hash_is C pallas_q fields SH K). Qed.
(** absorbing in several calls is absorbing once *)
Theorem C110_update consts (c : context F) l l' : update consts (update consts c l) l' = update consts c (l ++ l').
Proof. symmetry. apply fold_left_app. Qed.
(** DeriveChallenge is the challenge of verification on the main network *)
Theorem C110_derive_challenge_partial consts bytes t pk (R : pt F) : shaped consts -> unmarshal_txn C bytes = Ok t ->
  derive_challenge C consts pallas_p pallas_q bytes pk R =
  Ok (challenge C pallas_q (consts ThreeW) MainNet (txn_fields C t ++ [raw (x_of (jacobian pk)); raw (y_of (jacobian pk)); raw (x_of (jacobian R))]) (txn_bits C t)).
Proof. intros SH. exact (derive_challenge_is pallas_codec_ok pallas_q SH (bytes := bytes) (t := t) pk R). Qed.
(** whatever network the transaction is for *)
Theorem C110_derive_challenge_refuted consts t pk (R : pt F) : shaped consts -> well_formed t ->
  raw (x_of (jacobian (t_fee_payer t))) < 2 ^ 254 -> raw (x_of (jacobian (t_source t))) < 2 ^ 254 -> raw (x_of (jacobian (t_receiver t))) < 2 ^ 254 ->
  exists e, derive_challenge C consts pallas_p pallas_q (marshal_txn C (with_network t TestNet)) pk R = Ok e /\
    derive_challenge C consts pallas_p pallas_q (marshal_txn C (with_network t MainNet)) pk R = Ok e.
Proof.
  intros SH W R1 R2 R3. assert (A : forall n, 0 <= n < 256 -> exists u, unmarshal_txn C (marshal_txn C (with_network t n)) = Ok u /\ same_body t u).
  { intros n N. destruct (@C107_roundtrip_partial (with_network t n)) as (u & E & B & _); [destruct W; constructor; assumption|exact N|exact R1|exact R2|exact R3|]. exists u. split; [exact E|exact B]. }
  destruct (A TestNet) as (u & E & B); [unfold TestNet; lia|]. destruct (A MainNet) as (u' & E' & B'); [unfold MainNet; lia|].
  rewrite (C110_derive_challenge_partial pk R SH E), (C110_derive_challenge_partial pk R SH E').
  destruct (bits_of_same C B) as [<- <-]. destruct (bits_of_same C B') as [<- <-]. eexists. split; reflexivity.
Qed.

(** ** The hypotheses are met *)
Lemma gen_is_key : is_key pallas_gen.
Proof. split; [exact gen_on'|exact pallas_gen_key]. Qed.
Lemma gen_x : x_of G = f1. Proof. rewrite gen_aff. reflexivity. Qed.
Lemma gen_raw : raw (x_of G) < 2 ^ 254.
Proof. rewrite gen_x, (raw_val rep_one_fp). reflexivity. Qed.
Definition a_transaction : transaction F := Txn 3 1 pallas_gen 200 10000 [104; 105] false false false pallas_gen pallas_gen 1 42 false MainNet.
Theorem C107_applies : well_formed a_transaction /\ raw (x_of (jacobian (t_fee_payer a_transaction))) < 2 ^ 254 /\
  exists u, unmarshal_txn C (marshal_txn C a_transaction) = Ok u /\ length (marshal_txn C a_transaction) = 175%nat.
Proof.
  assert (W : well_formed a_transaction).
  { constructor; try exact gen_is_key; cbn [a_transaction t_fee t_fee_token t_nonce t_valid_until t_memo t_token_id t_amount]; try lia. split; [repeat constructor; lia|cbn; lia]. }
  split; [exact W|]. split; [exact gen_raw|]. destruct (C107_roundtrip_partial W) as (u & E & _); [change (0 <= 1 < 256); lia|exact gen_raw..|]. exists u. split; [exact E|]. apply marshal_len.
Qed.
Theorem C107_memo_applies : exists m m' : list Z, m <> m' /\ (32 <= length m)%nat /\ (32 <= length m')%nat /\ firstn 32 m = firstn 32 m' /\
  Z.of_nat (length m) mod 256 = Z.of_nat (length m') mod 256.
Proof. exists (repeat 7 33), (repeat 7 32 ++ [8]). repeat split; try (cbn; lia). discriminate. Qed.
Theorem C108_applies : exists consts blake pk sig, shaped consts /\ jacobian pk = times 5 G /\
  sign_message C pallas_gen consts blake pallas_p pallas_q 5 [104; 105] = Ok sig /\
  verify_message C pallas_gen consts pallas_p pallas_q pk sig [104; 105] = Ok tt.
Proof.
  set (consts := fun _ : permutation => zero_consts F). assert (SH : shaped consts) by apply zero_shape. assert (S : 0 <= 5 < pallas_q) by (unfold pallas_q; lia).
  pose proof (C108_public_key S) as J.
  destruct (@sign_one F C pallas_p pallas_codec_ok pallas_odd pallas_gen consts (fun _ => put_le 32 1) pallas_q q_prime' gen_on' SH 5 [104; 105]) as [s E].
  - intros fields bits. apply (zero_challenge pallas_q pallas_codec_ok). right. left. reflexivity.
  - reflexivity.
  - unfold pallas_q. lia.
  - rewrite gen_x. intros Z0. now apply f_one_zero in Z0.
  - cbn. lia.
  - exists consts, (fun _ => put_le 32 1), (get_public_key pallas_gen 5), (Signature (x_of G) s). split; [exact SH|]. split; [exact J|]. split; [exact E|].
    apply (C108_message SH S) with (2 := J) in E; [exact E|cbn; lia].
Qed.
Theorem C109_applies : is_key pallas_gen /\ raw (x_of G) < 2 ^ 254 /\ 0 <= sig_s (Signature (f1 : F) 9) < 2 ^ 254.
Proof. split; [exact gen_is_key|]. split; [exact gen_raw|]. cbn. lia. Qed.
