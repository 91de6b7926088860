From Coq Require Import List Bool ZArith Lia.
From Verif Require Import BytesModel BytesProofs CodecModel CodecSpec CodecProofs.
Import ListNotations.
Open Scope Z_scope.

(** C13: the n-byte encoding of every x < 256^n is its n big-endian digits and decodes to x *)
Theorem C13_roundtrip x n : 0 <= x < 256 ^ Z.of_nat n ->
  i2osp x n = be_n n x /\ os2ip (i2osp x n) = x.
Proof. intros H. split; [now apply i2osp_be_n|]. unfold os2ip. rewrite i2osp_val; lia. Qed.
Print Assumptions C13_roundtrip.
Theorem C13_length x n : length (i2osp x n) = n.
Proof. exact (i2osp_length x n). Qed.
Print Assumptions C13_length.
(** out of range values do not come back, and no error is raised: the result is a strict prefix of
    the digits of x (its most significant n bytes), i.e. x divided by a positive power of 256 *)
Theorem C13_too_large_keeps_high_bytes x n : 256 ^ Z.of_nat n <= x ->
  exists k, 0 < k /\ os2ip (i2osp x n) = x / 256 ^ k /\ x / 256 ^ k < 256 ^ Z.of_nat n
            /\ 256 ^ Z.of_nat n <= 256 * (x / 256 ^ (k - 1)).
Proof. intros H. destruct (i2osp_large x n H) as (k & A & B & C & D). exists k. auto. Qed.
Print Assumptions C13_too_large_keeps_high_bytes.
(** neither an error nor reduction modulo 256^n, and the sign is lost *)
Theorem C13_out_of_range_refuted :
  os2ip (i2osp 256 1) = 1 /\ os2ip (i2osp 256 1) <> 256 mod 256 ^ 1 /\ i2osp (-5) 2 = i2osp 5 2.
Proof. repeat split; try reflexivity. discriminate. Qed.
Print Assumptions C13_out_of_range_refuted.
Example C13_case : i2osp 48 2 = [0; 48] /\ os2ip [1; 2] = 258 /\ i2osp 0 1 = [0].
Proof. repeat split. Qed.

(** C14 *)
Theorem C14_roundtrip v r s : 0 <= v < 256 -> 0 <= r < 2 ^ 256 -> 0 <= s < 2 ^ 264 ->
  exists b, serialize_sig {| sig_v := v; sig_r := r; sig_s := s |} = Some b
            /\ length b = 66%nat /\ bytes_ok b
            /\ deserialize_sig b = Some {| sig_v := v; sig_r := r; sig_s := s |}.
Proof. exact (sig_roundtrip v r s). Qed.
Print Assumptions C14_roundtrip.
(** every 66-byte string is the encoding of what it decodes to; every other length is refused *)
Theorem C14_decode_encode b : bytes_ok b ->
  (length b = 66%nat -> exists s, deserialize_sig b = Some s /\ serialize_sig s = Some b)
  /\ (length b <> 66%nat -> deserialize_sig b = None).
Proof.
  intros H. split; [apply sig_reencode; exact H|]. intros L. unfold deserialize_sig.
  destruct (Nat.eqb_spec (length b) 66); congruence.
Qed.
Print Assumptions C14_decode_encode.
(** the bound on R is needed: a 33-byte R overwrites the recovery id *)
Theorem C14_large_r_overwrites_v_refuted :
  exists b s, serialize_sig {| sig_v := 0; sig_r := 2 ^ 256; sig_s := 1 |} = Some b
    /\ deserialize_sig b = Some s /\ sig_v s = 1 /\ sig_r s = 0.
Proof. eexists. eexists. split; [vm_compute; reflexivity|]. split; [vm_compute; reflexivity|]. split; reflexivity. Qed.
Print Assumptions C14_large_r_overwrites_v_refuted.
Example C14_case : exists b, serialize_sig {| sig_v := 1; sig_r := 77; sig_s := 2 ^ 255 |} = Some b /\ nth 32 b 0 = 77.
Proof. eexists. split; [vm_compute; reflexivity|reflexivity]. Qed.

(** C15 *)
Theorem C15_marshal_roundtrip p i : curve_id (pt_curve p) = Some i ->
  0 <= pt_x p < 2 ^ 256 -> 0 <= pt_y p < 2 ^ 256 ->
  exists b, ecpoint_marshal p = Ok b /\ length b = 65%nat /\ bytes_ok b /\ ecpoint_unmarshal b = Ok p.
Proof. exact (ecpoint_roundtrip p i). Qed.
Print Assumptions C15_marshal_roundtrip.
Theorem C15_uncompressed_roundtrip on c x y :
  0 <= x < 256 ^ Z.of_nat (field_size c) -> 0 <= y < 256 ^ Z.of_nat (field_size c) ->
  (on c x y = true \/ (x = 0 /\ y = 0)) ->
  exists b, ecpoint_bytes {| pt_curve := c; pt_x := x; pt_y := y |} = Ok b
    /\ point_from_bytes on c b = Ok {| pt_curve := c; pt_x := x; pt_y := y |}.
Proof.
  intros Hx Hy Hv. destruct (ecpoint_uncompressed on c x y Hx Hy) as (b & E & _ & D).
  exists b. split; [exact E|]. rewrite D. unfold pt_valid. cbn.
  destruct Hv as [->|[-> ->]]; [reflexivity|]. now rewrite orb_true_r.
Qed.
Print Assumptions C15_uncompressed_roundtrip.
(** what the uncompressed decoder returns has the right length and is a curve point or (0,0) *)
Theorem C15_uncompressed_sound on c b p : point_from_bytes on c b = Ok p ->
  length b = (2 * field_size c)%nat /\ pt_curve p = c
  /\ (on c (pt_x p) (pt_y p) = true \/ (pt_x p = 0 /\ pt_y p = 0)).
Proof.
  intros H. destruct (point_from_bytes_valid _ _ _ _ H) as (L & C & V). repeat split; auto.
  unfold pt_valid in V. rewrite C in V. apply orb_true_iff in V. destruct V as [V|V]; [auto|].
  apply andb_true_iff in V. rewrite !Z.eqb_eq in V. auto.
Qed.
Print Assumptions C15_uncompressed_sound.
(** UnmarshalBinary has no such guard: trailing bytes are ignored, short buffers panic, and any
    coordinates are accepted; MarshalBinary panics on large coordinates of the larger curves *)
Theorem C15_binary_length_checked_refuted :
  (forall b p extra, length b = 65%nat -> ecpoint_unmarshal b = Ok p -> ecpoint_unmarshal (b ++ extra) = Ok p)
  /\ (forall b, (length b < 65)%nat -> bytes_ok b -> ecpoint_unmarshal b <> Panic -> ecpoint_unmarshal b = Err)
  /\ ecpoint_unmarshal [0] = Panic
  /\ ecpoint_marshal {| pt_curve := P384; pt_x := 2 ^ 256; pt_y := 1 |} = Panic.
Proof.
  repeat split.
  - intros [|c t] p extra L; [discriminate|]. injection L as L. cbn [app ecpoint_unmarshal].
    destruct (curve_of_id c); [|discriminate]. rewrite app_length, L. cbn [Nat.leb Nat.add].
    intros X. injection X as <-. do 2 f_equal.
    + rewrite firstn_app, L. change (32 - 64)%nat with 0%nat. now rewrite firstn_O, app_nil_r.
    + rewrite skipn_app, L. change (32 - 64)%nat with 0%nat. rewrite skipn_O, firstn_app, skipn_length, L.
      change (32 - (64 - 32))%nat with 0%nat. now rewrite firstn_O, app_nil_r.
  - intros [|c t] L _; cbn [ecpoint_unmarshal]; [congruence|]. destruct (curve_of_id c); [|reflexivity].
    cbn [length] in L. destruct (Nat.leb_spec 64 (length t)); [lia|congruence].
Qed.
Print Assumptions C15_binary_length_checked_refuted.
(** Neg twice is the identity whenever it succeeds, but the point at infinity (0,0) cannot be negated
    with a curve whose membership test rejects coordinates outside [0,p) *)
Theorem C15_neg on cp p q : pt_neg on cp p = Ok q -> pt_valid on p = true -> pt_neg on cp q = Ok p.
Proof.
  unfold pt_neg. destruct (pt_valid on _) eqn:E; [|discriminate]. intros X H. injection X as <-. cbn [pt_curve pt_x pt_y].
  replace (cp (pt_curve p) - (cp (pt_curve p) - pt_y p)) with (pt_y p) by lia.
  destruct p as [c x y]. cbn [pt_curve pt_x pt_y] in *. now rewrite H.
Qed.
Print Assumptions C15_neg.
Theorem C15_neg_identity_refuted on cp c :
  0 < cp c -> (forall x y, on c x y = true -> 0 <= y < cp c) ->
  pt_neg on cp {| pt_curve := c; pt_x := 0; pt_y := 0 |} = Err.
Proof.
  intros Hp Hon. unfold pt_neg, pt_valid. cbn [pt_curve pt_x pt_y]. rewrite Z.sub_0_r.
  destruct (on c 0 (cp c)) eqn:E; [apply Hon in E; lia|]. destruct (Z.eqb_spec (cp c) 0); [lia|reflexivity].
Qed.
Print Assumptions C15_neg_identity_refuted.
Example C15_case : exists b, ecpoint_marshal {| pt_curve := P256; pt_x := 5; pt_y := 2 ^ 255 + 9 |} = Ok b /\ nth 0 b 0 = 2.
Proof. eexists. split; [vm_compute; reflexivity|reflexivity]. Qed.
Example C15_case2 : field_size P521 = 66%nat /\ field_size Secp256k1 = 32%nat. Proof. split; reflexivity. Qed.

(** C16 *)
Theorem C16_reverse b : reverse_scalar_bytes (reverse_scalar_bytes b) = b
  /\ forall i, (i < length b)%nat -> nth i (reverse_scalar_bytes b) 0 = nth (length b - S i) b 0.
Proof.
  rewrite !reverse_scalar_bytes_rev. split; [apply rev_involutive|]. intros i Hi. now apply rev_nth.
Qed.
Print Assumptions C16_reverse.
Theorem C16_hex_string_decodes b : bytes_ok b ->
  hex_decode (bytes_to_hex_string b) = Some b /\ length (bytes_to_hex_string b) = (2 * length b)%nat.
Proof. exact (hex_string_decodes b). Qed.
Print Assumptions C16_hex_string_decodes.
(** int2octets: exactly rolen digits, value v mod 256^rolen; bits2octets: the hash integer reduced mod N *)
Theorem C16_int2octets v n : 0 <= v -> int2octets v n = be_n n v.
Proof. exact (int2octets_be_n v n). Qed.
Print Assumptions C16_int2octets.
Theorem C16_be_n_meaning n v : length (be_n n v) = n /\ of_be (be_n n v) = v mod 256 ^ Z.of_nat n.
Proof. split; [apply be_n_length|apply be_n_val]. Qed.
Print Assumptions C16_be_n_meaning.
Theorem C16_bits2octets inp N n : 0 < N -> bytes_ok inp ->
  0 <= hash_to_int inp N < 2 ^ bit_len N
  /\ bits2octets inp N n = be_n n (hash_to_int inp N mod N).
Proof. intros A B. split; [now apply hash_to_int_range|now apply bits2octets_spec]. Qed.
Print Assumptions C16_bits2octets.
(** the integer of a hash: leftmost bit_len(N) bits *)
Theorem C16_hash_to_int inp N : 0 < N -> bytes_ok inp ->
  hash_to_int inp N = of_be inp / 2 ^ Z.max 0 (8 * Z.of_nat (length inp) - bit_len N).
Proof.
  intros HN Hi. unfold hash_to_int. set (ob := bit_len N).
  assert (Hob : 1 <= ob). { unfold ob, bit_len. destruct (Z.eqb_spec N 0); [lia|]. pose proof (Z.log2_nonneg (Z.abs N)). lia. }
  set (oB := Z.to_nat ((ob + 7) / 8)).
  pose proof (Z.div_mod (ob + 7) 8 ltac:(lia)) as DM. pose proof (Z.mod_pos_bound (ob + 7) 8 ltac:(lia)) as MB.
  assert (HoB : Z.of_nat oB = (ob + 7) / 8) by (unfold oB; rewrite Z2Nat.id; lia).
  destruct (Nat.ltb_spec oB (length inp)) as [L|L].
  - rewrite firstn_length_le by lia. rewrite of_be_firstn by (auto; lia).
    rewrite <- pow2_256. set (a := 8 * Z.of_nat (length inp - oB)).
    assert (E : 8 * Z.of_nat (length inp) - ob = a + (Z.of_nat oB * 8 - ob)) by (unfold a; lia).
    rewrite E. rewrite Z.max_r by lia.
    destruct (Z.ltb_spec 0 (Z.of_nat oB * 8 - ob)).
    + rewrite Z.shiftr_div_pow2 by lia. rewrite Z.div_div by (try apply Z.pow_nonzero; try (apply Z.pow_pos_nonneg); lia).
      rewrite <- Z.pow_add_r by lia. reflexivity.
    + replace (Z.of_nat oB * 8 - ob) with 0 by lia. now rewrite Z.add_0_r.
  - destruct (Z.ltb_spec 0 (Z.of_nat (length inp) * 8 - ob)).
    + rewrite Z.shiftr_div_pow2 by lia. do 2 f_equal. lia.
    + rewrite Z.max_l by lia. now rewrite Z.div_1_r.
Qed.
Print Assumptions C16_hash_to_int.
Example C16_case : bytes_to_hex_string [0; 171; 16] = [48; 48; 97; 98; 49; 48] /\ int2octets 66051 2 = [2; 3]
  /\ bits2octets [255; 255] 300 2 = be_n 2 211.
Proof. repeat split; vm_compute; reflexivity. Qed.

(** C62: SignCompact returns the 65-byte compact signature of (r,s) with the smallest recovery id that
    recovers the given key, and fails exactly when none of the four does *)
Theorem C62_sign_compact (rec : list Z -> list Z -> option (Z * Z)) r s pk h (c : bool) : 0 <= r < 2 ^ 256 -> 0 <= s < 2 ^ 256 ->
  let cand j := (27 + j + (if c then 4 else 0)) :: be_n 32 r ++ be_n 32 s in
  (forall out, sign_compact rec r s pk h c = Some out ->
     exists j, 0 <= j < 4 /\ out = cand j /\ rec out h = Some pk /\ forall j', 0 <= j' < j -> rec (cand j') h <> Some pk)
  /\ (sign_compact rec r s pk h c = None -> forall j, 0 <= j < 4 -> rec (cand j) h <> Some pk).
Proof.
  intros Hr Hs cand.
  assert (E : forall j, compact_candidate j r s c = cand j).
  { intros j. unfold compact_candidate, cand. now rewrite !pad32_be_n. }
  split.
  - intros out X. destruct (sign_compact_from_sound _ _ _ _ _ _ _ _ _ X) as (j & Hj & -> & R & N).
    exists j. rewrite E in *. repeat split; auto; try lia. intros j' Hj'. rewrite <- E. apply N. lia.
  - intros X j Hj. rewrite <- E. apply (sign_compact_from_none _ _ _ _ _ _ _ _ X). lia.
Qed.
Print Assumptions C62_sign_compact.
Example C62_case : exists out, sign_compact (fun (b _ : list Z) => if nth 0 b 0 =? 28 then Some (1, 2) else None) 3 4 (1, 2) [] false = Some out
  /\ length out = 65%nat /\ nth 0 out 0 = 28.
Proof. eexists. split; [vm_compute; reflexivity|split; reflexivity]. Qed.

(** C63: the modular helpers *)
Theorem C63_ct_eq a b : ct_eq a b = true <-> a = b.
Proof. exact (ct_eq_spec a b). Qed.
Print Assumptions C63_ct_eq.
Theorem C63_in_zm x m : in_zm x m = true <-> 0 <= x < m.
Proof. unfold in_zm. rewrite andb_true_iff, negb_true_iff, Z.ltb_ge, Z.ltb_lt. lia. Qed.
Print Assumptions C63_in_zm.
Theorem C63_ring x y m : 0 < m ->
  let ok (r v : Z) := 0 <= r < m /\ exists k, v = r + k * m in
  ok (mod_add x y m) (x + y) /\ ok (mod_mul x y m) (x * y) /\ ok (mod_neg x m) (- x)
  /\ (0 <= y -> ok (mod_exp x y m) (x ^ y)).
Proof.
  intros Hm ok. assert (A : forall v, ok (v mod m) v).
  { intros v. split; [apply Z.mod_pos_bound; lia|]. exists (v / m). pose proof (Z.div_mod v m). lia. }
  repeat split; try apply A.
Qed.
Print Assumptions C63_ring.
Theorem C63_inv x m : 1 < m ->
  match mod_inv x m with
  | Some y => 0 <= y < m /\ (x * y) mod m = 1
  | None => forall y, (x * y) mod m <> 1
  end.
Proof. exact (mod_inv_spec x m). Qed.
Print Assumptions C63_inv.
Example C63_case : mod_inv 3 7 = Some 5 /\ mod_inv 6 9 = None /\ mod_inv (-1) 7 = Some 6.
Proof. repeat split; vm_compute; reflexivity. Qed.
