(** Signature verification with x/did public keys. *)
From Coq Require Import List Bool ZArith Znumtheory Lia.
From Verif Require Import BytesModel BytesProofs CodecModel CodecSpec CodecProofs DidPubkeyModel DidPubkeySpec.
Import ListNotations.
Open Scope Z_scope.

Lemma skip1 (h : Z) l : skipn 1 (h :: l) = l. Proof. reflexivity. Qed.
Lemma skip33 (h : Z) l : skipn 33 (h :: l) = skipn 32 l. Proof. reflexivity. Qed.
Lemma first32 (X : Z) l : firstn 32 (be_n 32 X ++ l) = be_n 32 X.
Proof. rewrite firstn_app, be_n_length, Nat.sub_diag, firstn_O, app_nil_r. apply firstn_all2. rewrite be_n_length. apply le_n. Qed.
Lemma skip32 (X : Z) l : skipn 32 (be_n 32 X ++ l) = l.
Proof. rewrite skipn_app, be_n_length, Nat.sub_diag, skipn_all2 by (rewrite be_n_length; apply le_n). reflexivity. Qed.
Lemma val32 X : 0 <= X < 2 ^ 256 -> of_be (be_n 32 X) = X.
Proof. intros H. rewrite be_n_val. change (256 ^ Z.of_nat 32) with (2 ^ 256). now apply Z.mod_small. Qed.
Lemma build_uncompressed h X Y : 0 <= X < 2 ^ 256 -> 0 <= Y < 2 ^ 256 ->
  build_ec_point (h :: be_n 32 X ++ be_n 32 Y) = Ok (X, Y).
Proof.
  intros HX HY. unfold build_ec_point. cbn [length]. rewrite app_length, !be_n_length.
  change (Nat.ltb (S (32 + 32)) 33) with false. cbv iota.
  now rewrite skip1, skip33, first32, skip32, !val32 by assumption.
Qed.

Section Props.
  Variable V : Type.
  Variable zero : V.
  Variable add : V -> V -> V.
  Variable smul : Z -> V -> V.
  Variable G : V.
  Variable embed : Z -> Z -> option V.
  Variable xy : V -> Z * Z.
  Variables p N : Z.
  Variable sha3 : list Z -> list Z.
  Hypothesis CG : curve_group V zero add smul G embed xy p N.
  Let vs := verify_signature V add smul G embed xy p N sha3.

  Lemma sbi_xy P : set_big_int V embed p (fst (xy P)) (snd (xy P)) = Some P.
  Proof.
    unfold set_big_int. destruct (cg_range _ _ _ _ _ _ _ _ _ CG P). rewrite !Z.mod_small by assumption.
    apply (cg_coords _ _ _ _ _ _ _ _ _ CG).
  Qed.

  (** verification decides the textbook equation, whenever the coordinates are those of a point *)
  Lemma verify_ecdsa_spec x y h r s Q : set_big_int V embed p x y = Some Q ->
    (forall z, 0 < z < N -> mod_inv z N <> None) ->
    exists b, verify_ecdsa V add smul G embed xy p N x y h r s = Ok b /\
      (b = true <-> ecdsa_equation V add smul G xy N Q (hash_to_int h N) r s).
  Proof.
    intros HQ HI. assert (HN := cg_order _ _ _ _ _ _ _ _ _ CG). unfold verify_ecdsa.
    destruct (Z.leb_spec r 0) as [R0|R0]; [exists false; split; [reflexivity|split; [discriminate|intros (A & _); lia]]|].
    destruct (Z.leb_spec s 0) as [S0|S0]; [exists false; split; [reflexivity|split; [discriminate|intros (_ & A & _); lia]]|].
    destruct (Z.leb_spec N r) as [R1|R1]; [exists false; split; [reflexivity|split; [discriminate|intros (A & _); lia]]|].
    destruct (Z.leb_spec N s) as [S1|S1]; [exists false; split; [reflexivity|split; [discriminate|intros (_ & A & _); lia]]|].
    cbn [orb]. pose proof (mod_inv_spec s N HN) as M. specialize (HI s (conj S0 S1)).
    destruct (mod_inv s N) as [w|]; [|congruence]. destruct M as [W1 W2].
    rewrite HQ, !sbi_xy. cbv zeta.
    set (P := add _ _).
    assert (U : forall w', 0 <= w' < N -> (s * w') mod N = 1 -> w' = w).
    { intros w' B E. rewrite <- (Z.mod_small w' N B), <- (Z.mod_small w N W1).
      replace w' with (w' * 1) by lia. rewrite <- W2, Z.mul_mod_idemp_r by lia.
      replace (w' * (s * w)) with ((s * w') * w) by lia.
      rewrite <- Z.mul_mod_idemp_l, E by lia. f_equal; lia. }
    destruct ((fst (xy P) =? 0) && (snd (xy P) =? 0)) eqn:E.
    - exists false. split; [reflexivity|]. split; [discriminate|].
      intros (_ & _ & w' & B & E1 & P' & -> & NZ & _). rewrite (U w' B E1) in NZ. exfalso. apply NZ.
      fold P. destruct (xy P) as [a b]. cbn in E. apply andb_true_iff in E. destruct E as [E2 E3].
      apply Z.eqb_eq in E2, E3. now subst.
    - exists (fst (xy P) mod N =? r). split; [reflexivity|]. rewrite Z.eqb_eq. split.
      + intros F. split; [lia|]. split; [lia|]. exists w. split; [exact W1|]. split; [exact W2|].
        exists P. split; [reflexivity|]. split; [|exact F]. intros C. rewrite C in E. discriminate.
      + intros (_ & _ & w' & B & E1 & P' & -> & _ & F). now rewrite (U w' B E1) in F.
  Qed.

  (** C111: on a 65-byte key holding the coordinates of a point Q and a 66-byte signature, VerifySignature
      answers exactly whether (R, S) satisfies the ECDSA equation for Q and the SHA3-256 of the message *)
  Theorem C111_verifies k h X Y Q msg v r s b :
    pk_key k = h :: be_n 32 X ++ be_n 32 Y -> 0 <= X < 2 ^ 256 -> 0 <= Y < 2 ^ 256 ->
    (X, Y) = xy Q -> (forall z, 0 < z < N -> Z.gcd z N = 1) ->
    0 <= v < 256 -> 0 <= r < 2 ^ 256 -> 0 <= s < 2 ^ 264 ->
    serialize_sig {| sig_v := v; sig_r := r; sig_s := s |} = Some b ->
    exists a, vs k msg b = Ok a /\
      (a = true <-> ecdsa_equation V add smul G xy N Q (hash_to_int (sha3 msg) N) r s).
  Proof.
    intros Hk HX HY HQ HP Hv Hr Hs Hb. assert (HN := cg_order _ _ _ _ _ _ _ _ _ CG).
    destruct (sig_roundtrip v r s Hv Hr Hs) as (b' & E1 & _ & _ & E2).
    rewrite Hb in E1. injection E1 as <-.
    unfold vs, verify_signature. rewrite Hk, build_uncompressed, E2 by assumption. cbn [sig_r sig_s].
    apply verify_ecdsa_spec.
    - pose proof (sbi_xy Q) as E. rewrite <- HQ in E. exact E.
    - intros z Hz E. pose proof (mod_inv_spec z N HN) as M. rewrite E in M.
      destruct (Zis_gcd_bezout z N 1) as [u w BZ].
      { rewrite <- (HP z Hz). apply Zgcd_is_gcd. }
      apply (M u). replace (z * u) with (1 + (- w) * N) by lia. rewrite Z.mod_add by lia. apply Z.mod_small. lia.
  Qed.

  (** a signature made with the key's discrete logarithm verifies, whatever the nonce *)
  Theorem C111_honest_signature_verifies k h X Y d nonce msg v r s b :
    pk_key k = h :: be_n 32 X ++ be_n 32 Y -> 0 <= X < 2 ^ 256 -> 0 <= Y < 2 ^ 256 ->
    (X, Y) = xy (smul d G) -> (forall z, 0 < z < N -> Z.gcd z N = 1) -> N <= 2 ^ 256 ->
    0 <= v < 256 -> signed_with V smul G xy N d nonce (hash_to_int (sha3 msg) N) r s ->
    serialize_sig {| sig_v := v; sig_r := r; sig_s := s |} = Some b ->
    vs k msg b = Ok true.
  Proof.
    intros Hk HX HY HQ HP H256 Hv (Er & R0 & HS & HE) Hb. assert (HN := cg_order _ _ _ _ _ _ _ _ _ CG).
    assert (RN : 0 < r < N). { split; [exact R0|]. rewrite Er. apply Z.mod_pos_bound. lia. }
    assert (2 ^ 256 < 2 ^ 264) by reflexivity.
    destruct (C111_verifies k h X Y (smul d G) msg v r s b Hk HX HY HQ HP Hv ltac:(lia) ltac:(lia) Hb) as (a & -> & Ha).
    f_equal. apply Ha. clear a Ha. set (e := hash_to_int (sha3 msg) N) in *.
    split; [exact RN|]. split; [exact HS|].
    destruct (Zis_gcd_bezout s N 1) as [u w BZ]. { rewrite <- (HP s HS). apply Zgcd_is_gcd. }
    assert (W : (s * (u mod N)) mod N = 1).
    { rewrite Z.mul_mod_idemp_r by lia. replace (s * u) with (1 + (- w) * N) by lia.
      rewrite Z.mod_add by lia. apply Z.mod_small. lia. }
    exists (u mod N). split; [apply Z.mod_pos_bound; lia|]. split; [exact W|].
    set (i := u mod N) in *. eexists. split; [reflexivity|].
    rewrite (cg_mul _ _ _ _ _ _ _ _ _ CG), (cg_add _ _ _ _ _ _ _ _ _ CG).
    rewrite <- (cg_mod _ _ _ _ _ _ _ _ _ CG).
    replace (((e * i) mod N + (r * i) mod N * d) mod N) with (nonce mod N).
    2:{ rewrite <- Z.add_mod_idemp_r, Z.mul_mod_idemp_l, <- Z.add_mod by lia.
        replace (e * i + r * i * d) with ((e + d * r) * i) by lia.
        rewrite <- Z.mul_mod_idemp_l, <- HE, Z.mul_mod_idemp_l by lia.
        replace (nonce * s * i) with (nonce * (s * i)) by lia.
        rewrite <- Z.mul_mod_idemp_r, W by lia. f_equal; lia. }
    rewrite (cg_mod _ _ _ _ _ _ _ _ _ CG). split; [|symmetry; exact Er].
    intros C. rewrite C in Er. change (fst (0, 0)) with 0 in Er. rewrite Z.mod_0_l in Er by lia. lia.
  Qed.

  (** signatures of another length are refused *)
  Theorem C111_signature_length k msg b : (33 <= length (pk_key k))%nat -> length b <> 66%nat -> vs k msg b = Ok false.
  Proof.
    intros Hk Hb. unfold vs, verify_signature, build_ec_point, deserialize_sig.
    destruct (Nat.ltb_spec (length (pk_key k)) 33); [lia|]. destruct (Nat.eqb_spec (length b) 66); congruence.
  Qed.

  (** refuted: malformed keys do not give false.  A key of fewer than 33 bytes panics ... *)
  Theorem C111_short_key_refuted k msg b : vs k msg b = Panic \/ (33 <= length (pk_key k))%nat.
  Proof.
    unfold vs, verify_signature, build_ec_point. destruct (Nat.ltb_spec (length (pk_key k)) 33); [now left|right; lia].
  Qed.
  (** ... and so does a compressed key (prefix and abscissa), on a curve with no point of ordinate 0, with
      every signature whose numbers are in range *)
  Theorem C111_compressed_key_refuted k h X msg v r s b :
    pk_key k = h :: be_n 32 X -> 0 < X < p -> p <= 2 ^ 256 -> (forall x, 0 < x < p -> embed x 0 = None) ->
    0 <= v < 256 -> 0 < r < N -> 0 < s < N -> N <= 2 ^ 256 ->
    serialize_sig {| sig_v := v; sig_r := r; sig_s := s |} = Some b ->
    vs k msg b = Panic.
  Proof.
    intros Hk HX Hp HE Hv Hr Hs HN Hb. assert (2 ^ 256 < 2 ^ 264) by reflexivity.
    destruct (sig_roundtrip v r s Hv ltac:(lia) ltac:(lia)) as (b' & E1 & _ & _ & E2).
    rewrite Hb in E1. injection E1 as <-.
    unfold vs, verify_signature, build_ec_point. rewrite Hk. cbn [length]. rewrite be_n_length.
    change (Nat.ltb 33 33) with false. cbv iota. rewrite skip1, skip33.
    rewrite firstn_all2, skipn_all2 by (rewrite be_n_length; apply le_n). rewrite val32 by lia.
    rewrite E2. cbn [sig_r sig_s]. unfold verify_ecdsa.
    destruct (Z.leb_spec r 0); [lia|]. destruct (Z.leb_spec s 0); [lia|].
    destruct (Z.leb_spec N r); [lia|]. destruct (Z.leb_spec N s); [lia|]. cbn [orb].
    destruct (mod_inv s N); [|reflexivity].
    unfold set_big_int at 1. change (of_be []) with 0. rewrite (Z.mod_small X) by lia. rewrite Z.mod_0_l by lia.
    now rewrite HE.
  Qed.

  (** Equals compares the key bytes and nothing else *)
  Theorem C111_equals k o : pk_equals k o = true <-> pk_key k = pk_key o.
  Proof. unfold pk_equals. destruct (list_eq_dec Z.eq_dec (pk_key k) (pk_key o)); split; congruence. Qed.

  (** refuted: keys that are not Equal can verify the same signatures: the first byte is ignored, and the
      ordinate may be padded *)
  Theorem C111_first_byte_ignored_refuted h h' l t d t' d' msg b : h <> h' ->
    let k := {| pk_key := h :: l; pk_type := t; pk_did := d |} in
    let o := {| pk_key := h' :: l; pk_type := t'; pk_did := d' |} in
    pk_equals k o = false /\ vs k msg b = vs o msg b.
  Proof.
    intros H k o. split; [|reflexivity]. apply not_true_iff_false. rewrite C111_equals. cbn. congruence.
  Qed.
  Theorem C111_padded_ordinate_refuted h X Y n t d msg b : (0 < n)%nat ->
    let k := {| pk_key := h :: be_n 32 X ++ be_n 32 Y; pk_type := t; pk_did := d |} in
    let o := {| pk_key := h :: be_n 32 X ++ repeat 0 n ++ be_n 32 Y; pk_type := t; pk_did := d |} in
    pk_equals k o = false /\ vs k msg b = vs o msg b.
  Proof.
    intros Hn k o. split.
    - apply not_true_iff_false. rewrite C111_equals. cbn [pk_key k o]. intros E. apply (f_equal (@length Z)) in E.
      cbn [length] in E. rewrite !app_length, repeat_length in E. lia.
    - unfold vs, verify_signature. cbn [pk_key k o]. f_equal.
      assert (E : build_ec_point (h :: be_n 32 X ++ be_n 32 Y) = build_ec_point (h :: be_n 32 X ++ repeat 0 n ++ be_n 32 Y)).
      2:{ now rewrite E. }
      unfold build_ec_point. cbn [length]. rewrite !app_length, repeat_length, !be_n_length.
      destruct (Nat.ltb_spec (S (32 + 32)) 33); [lia|]. destruct (Nat.ltb_spec (S (32 + (n + 32))) 33); [lia|].
      rewrite !skip1, !skip33, !first32, !skip32, of_be_app, of_be_repeat0, Z.mul_0_l, Z.add_0_l. reflexivity.
  Qed.

  (** refuted: no key is safe from forgery just because it is accepted: for the key of all-zero coordinates
      (the identity) anyone signs anything, with no secret *)
  Theorem C111_zero_key_forgery_refuted k h nonce msg v r s b :
    pk_key k = h :: repeat 0 64 -> (forall z, 0 < z < N -> Z.gcd z N = 1) -> N <= 2 ^ 256 -> 0 <= v < 256 ->
    r = fst (xy (smul nonce G)) mod N -> 0 < r -> 0 < s < N -> (nonce * s) mod N = hash_to_int (sha3 msg) N mod N ->
    serialize_sig {| sig_v := v; sig_r := r; sig_s := s |} = Some b ->
    vs k msg b = Ok true.
  Proof.
    intros Hk HP H256 Hv Er R0 HS HE Hb.
    apply (C111_honest_signature_verifies k h 0 0 0 nonce msg v r s b); try assumption; try (split; [apply Z.le_refl|reflexivity]).
    - now rewrite (cg_zero _ _ _ _ _ _ _ _ _ CG), (cg_identity _ _ _ _ _ _ _ _ _ CG).
    - split; [exact Er|]. split; [exact R0|]. split; [exact HS|]. now rewrite Z.mul_0_l, Z.add_0_r.
  Qed.
End Props.

(** *** a group these theorems apply to: Z/3 with the coordinates (0, 0), (1, 2), (2, 2) modulo 5 *)
Definition v3 := option bool.
Definition n3 (a : v3) : Z := match a with None => 0 | Some false => 1 | Some true => 2 end.
Definition o3 (z : Z) : v3 := if z mod 3 =? 0 then None else Some (z mod 3 =? 2).
Definition add3 (a b : v3) : v3 := o3 (n3 a + n3 b).
Definition smul3 (k : Z) (a : v3) : v3 := o3 (k * n3 a).
Definition xy3 (a : v3) : Z * Z := match a with None => (0, 0) | Some false => (1, 2) | Some true => (2, 2) end.
Definition embed3 (x y : Z) : option v3 :=
  if (x =? 0) && (y =? 0) then Some None else if negb (y =? 2) then None
  else if x =? 1 then Some (Some false) else if x =? 2 then Some (Some true) else None.
Lemma n3_o3 z : n3 (o3 z) = z mod 3.
Proof.
  unfold o3. pose proof (Z.mod_pos_bound z 3 eq_refl). destruct (Z.eqb_spec (z mod 3) 0); [cbn; lia|].
  destruct (Z.eqb_spec (z mod 3) 2); cbn; lia.
Qed.
Lemma o3_mod a b : a mod 3 = b mod 3 -> o3 a = o3 b.
Proof. unfold o3. now intros ->. Qed.
Theorem C111_applies : curve_group v3 None add3 smul3 (Some false) embed3 xy3 5 3 /\
  (forall z, 0 < z < 3 -> Z.gcd z 3 = 1) /\ (forall x, 0 < x < 5 -> embed3 x 0 = None) /\
  (exists msg r s, signed_with v3 smul3 (Some false) xy3 3 2 1 (hash_to_int msg 3) r s).
Proof.
  split; [split|split; [|split]].
  - reflexivity.
  - reflexivity.
  - intros a b. unfold add3, smul3. rewrite !n3_o3. apply o3_mod. cbn [n3]. now rewrite <- Z.add_mod, <- Z.mul_add_distr_r by lia.
  - intros a b. unfold smul3. rewrite n3_o3. apply o3_mod. cbn [n3]. rewrite Z.mul_mod_idemp_r by lia. f_equal; lia.
  - intros a. unfold smul3. apply o3_mod. cbn [n3]. now rewrite Z.mul_mod_idemp_l by lia.
  - intros [[|]|]; cbn; lia.
  - intros [[|]|]; reflexivity.
  - reflexivity.
  - intros z Hz. assert (z = 1 \/ z = 2) as [->| ->] by lia; reflexivity.
  - intros x Hx. unfold embed3. destruct (Z.eqb_spec x 0); [lia|]. reflexivity.
  - exists [0], 1, 2. split; [reflexivity|]. split; [lia|]. split; [lia|]. reflexivity.
Qed.
