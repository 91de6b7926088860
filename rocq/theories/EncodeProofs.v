(** The affine point of a limb-level point, and the helper facts of the point encodings. *)
From Coq Require Import ZArith Lia List Bool Znumtheory.
From Verif Require Import LimbBase LimbSpec LimbProofs ZCong NativeField NativeInstances NativeArithProofs NativeProps PastaProps LimbField CurveOrder
  EncodeModel EncodeSpec PrimeK256 PrimeP256.
Import ListNotations.
Open Scope Z_scope.

(** the facts about a curve the proofs use *)
Record curve_ok (C : ncurve) (E : curve) : Prop := CurveOk {
  ck_in : In (nc_field C, c_p E) native_fields;
  ck_nb : c_p E <> bls_r;
  ck_prime : prime (c_p E);
  ck_odd : Z.odd (c_p E) = true;
  ck_big : 2 < c_p E;
  ck_rhs : forall x v, represents (c_p E) x v ->
    represents (c_p E) (nc_rhs C x) ((v * v * v + c_a E * v + c_b E) mod c_p E);
  ck_noroot : forall v, ~ cong (c_p E) (v * v * v + c_a E * v + c_b E) 0;
  ck_gen : exists gx gy, represents (c_p E) (nc_gx C) gx /\ represents (c_p E) (nc_gy C) gy /\ on_curve E gx gy }.

Lemma represents_const m x v : reduced4 m x = true -> ((0 <=? v) && (v <? m))%bool = true -> (val4 x =? (v * 2 ^ 256) mod m) = true -> represents m x v.
Proof.
  rewrite reduced4_ok, andb_true_iff, Z.leb_le, Z.ltb_lt, Z.eqb_eq. intros A B D. split; [exact A|]. split; [exact B|exact D].
Qed.
Definition k256_Gx : Z := 0x79be667ef9dcbbac55a06295ce870b07029bfcdb2dce28d959f2815b16f81798.
Definition k256_Gy : Z := 0x483ada7726a3c4655da4fbfc0e1108a8fd17b448a68554199c47d08ffb10d4b8.
Definition p256_Gx : Z := 0x6b17d1f2e12c4247f8bce6e563a440f277037d812deb33a0f4a13945d898c296.
Definition p256_Gy : Z := 0x4fe342e2fe1a7f9b8ee7eb4a7c0f9e162bce33576b315ececbb6406837bf51f5.
Local Lemma on_const E x y : ((0 <=? x) && (x <? c_p E) && (0 <=? y) && (y <? c_p E))%bool = true ->
  ((y * y) mod c_p E =? (x * x * x + c_a E * x + c_b E) mod c_p E) = true -> on_curve E x y.
Proof.
  rewrite !andb_true_iff, !Z.leb_le, !Z.ltb_lt, Z.eqb_eq. intros [[[A B] C] D] H. unfold on_curve, coord. tauto.
Qed.

Lemma k256_curve_ok : curve_ok k256_curve secp256k1.
Proof.
  constructor.
  - left. reflexivity.
  - vm_compute. discriminate.
  - exact k256_p_prime.
  - reflexivity.
  - reflexivity.
  - intros x v X. change (c_p secp256k1) with secp256k1_p in *.
    assert (IN : In (k256fp_field, secp256k1_p) native_fields) by (left; reflexivity).
    assert (B : represents secp256k1_p k256_B 7) by (apply represents_const; vm_compute; reflexivity).
    pose proof (C80_add _ _ IN _ _ _ _ (C80_mul _ _ IN _ _ _ _ (C80_square _ _ IN _ _ X) X) B) as H.
    cbn [nc_rhs k256_curve c_a c_b secp256k1]. replace (v * v * v + 0 * v + 7) with (v * v * v + 7) by ring.
    rewrite <- Zplus_mod_idemp_l, <- (Zmult_mod_idemp_l (v * v) v). exact H.
  - intros v. change (c_p secp256k1) with secp256k1_p. cbn [c_a c_b secp256k1].
    replace (v * v * v + 0 * v + 7) with (v * v * v + 7) by ring. apply k256_no_root.
  - exists k256_Gx, k256_Gy. change (c_p secp256k1) with secp256k1_p.
    split; [apply represents_const; vm_compute; reflexivity|]. split; [apply represents_const; vm_compute; reflexivity|].
    apply on_const; vm_compute; reflexivity.
Qed.
Lemma p256_curve_ok : curve_ok p256_curve nist_p256.
Proof.
  assert (EP : c_p nist_p256 = p256_p) by (vm_compute; reflexivity).
  constructor.
  - right. right. left. rewrite EP; reflexivity.
  - vm_compute. discriminate.
  - exact p256_p_prime.
  - reflexivity.
  - reflexivity.
  - intros x v X. rewrite EP in *.
    assert (IN : In (p256fp_field, p256_p) native_fields) by (right; right; left; reflexivity).
    assert (A : represents p256_p p256_A (p256_p - 3)) by (apply represents_const; vm_compute; reflexivity).
    assert (B : represents p256_p EncodeModel.p256_B (c_b nist_p256)) by (apply represents_const; vm_compute; reflexivity).
    pose proof (C80_add _ _ IN _ _ _ _ (C80_add _ _ IN _ _ _ _ (C80_mul _ _ IN _ _ _ _ (C80_square _ _ IN _ _ X) X) B) (C80_mul _ _ IN _ _ _ _ A X)) as H.
    match goal with |- represents _ ?l ?r => match type of H with represents _ _ ?r' => replace r with r'; [exact H|] end end.
    clear. change (c_a nist_p256) with (-3). set (b := c_b nist_p256). clearbody b. generalize p256_p as m. intros m.
    rewrite (Zmult_mod_idemp_l (v * v)), (Zplus_mod_idemp_l (v * v * v)), <- Zplus_mod.
    replace (v * v * v + b + (m - 3) * v) with (v * v * v + -3 * v + b + v * m) by ring. apply Z_mod_plus_full.
  - intros v. rewrite EP. change (c_a nist_p256) with (-3). assert (EB : c_b nist_p256 = CurveOrder.p256_b) by reflexivity. rewrite EB.
    replace (v * v * v + -3 * v + CurveOrder.p256_b) with (v * v * v - 3 * v + CurveOrder.p256_b) by ring. apply p256_no_root.
  - exists p256_Gx, p256_Gy. rewrite EP.
    split; [apply represents_const; vm_compute; reflexivity|]. split; [apply represents_const; vm_compute; reflexivity|].
    apply on_const; vm_compute; reflexivity.
Qed.

Section Curve.
  Variables (C : ncurve) (E : curve).
  Hypothesis OK : curve_ok C E.
  Local Notation F := (nc_field C).
  Local Notation m := (c_p E).
  Let IN : In (F, m) native_fields := ck_in _ _ OK.
  Let PM : prime m := ck_prime _ _ OK.
  Let OD : Z.odd m = true := ck_odd _ _ OK.
  Let M2 : 2 < m := ck_big _ _ OK.

  Lemma rep_range x v : represents m x v -> 0 <= v < m. Proof. intros (_ & H & _). exact H. Qed.
  Lemma rep_words x v : represents m x v -> words4 x. Proof. intros ((H & _) & _). exact H. Qed.
  Lemma zero_words : words4 nf_zero. Proof. exact (rep_words _ _ (C80_zero F m IN)). Qed.
  Lemma rep_fun x v w : represents m x v -> represents m x w -> v = w.
  Proof. apply represents_fun; [lia|exact OD]. Qed.

  Lemma unscale z w x : (z * w) mod m = 1 -> 0 <= x < m -> ((x * z) mod m * w) mod m = x.
  Proof.
    intros I H. rewrite Zmult_mod_idemp_l, <- Z.mul_assoc, <- Zmult_mod_idemp_r, I, Z.mul_1_r. apply Z.mod_small, H.
  Qed.
  Lemma rescale z w X : (z * w) mod m = 1 -> 0 <= X < m -> ((X * w) mod m * z) mod m = X.
  Proof. intros I. rewrite Z.mul_comm in I. apply unscale, I. Qed.

  (** ToAffine *)
  Lemma affine_some P x y : denotes E P (Some (x, y)) ->
    represents m (np_x (np_to_affine C P)) x /\ represents m (np_y (np_to_affine C P)) y /\ np_z (np_to_affine C P) = nf_one F.
  Proof.
    intros (X & Y & Z & HX & HY & HZ & NZ & Cx & Cy & Ex & Ey).
    destruct (invert_m_ok F m IN nf_zero _ Z zero_words HZ) as [_ I1]. destruct (I1 NZ) as (zi & w & Q & Hz & W1).
    unfold np_to_affine. rewrite Q. cbn [np_x np_y np_z].
    pose proof (C80_mul F m IN _ _ _ _ HX Hz) as HX'. pose proof (C80_mul F m IN _ _ _ _ HY Hz) as HY'.
    rewrite <- Ex, unscale in HX' by assumption. rewrite <- Ey, unscale in HY' by assumption.
    pose proof (C80_one F m IN) as H1.
    rewrite (proj2 (C80_cmove F m IN _ _ zero_words (rep_words _ _ HX'))), (proj2 (C80_cmove F m IN _ _ zero_words (rep_words _ _ HY'))),
      (proj2 (C80_cmove F m IN _ _ zero_words (rep_words _ _ H1))).
    split; [exact HX'|]. split; [exact HY'|reflexivity].
  Qed.
  Lemma affine_none P : denotes E P None -> np_to_affine C P = np_identity.
  Proof.
    intros (X & Y & Z & HX & HY & HZ & ->).
    destruct (invert_m_ok F m IN nf_zero _ 0 zero_words HZ) as [I0 _].
    unfold np_to_affine. rewrite (I0 eq_refl).
    pose proof (C80_zero F m IN) as H0. pose proof (C80_one F m IN) as H1.
    pose proof (C80_mul F m IN _ _ _ _ HX H0) as HX'. pose proof (C80_mul F m IN _ _ _ _ HY H0) as HY'.
    rewrite (proj1 (C80_cmove F m IN _ _ zero_words (rep_words _ _ HX'))), (proj1 (C80_cmove F m IN _ _ zero_words (rep_words _ _ HY'))),
      (proj1 (C80_cmove F m IN _ _ zero_words (rep_words _ _ H1))). reflexivity.
  Qed.

  (** every triple of reduced coordinates stands for exactly one affine point *)
  Lemma denotes_total P : canonical m (np_x P) -> canonical m (np_y P) -> canonical m (np_z P) -> exists A, denotes E P A.
  Proof.
    intros Cx Cy Cz.
    destruct (C80_every_canonical_array_is_one_residue F m IN _ Cx) as (X & HX & _).
    destruct (C80_every_canonical_array_is_one_residue F m IN _ Cy) as (Y & HY & _).
    destruct (C80_every_canonical_array_is_one_residue F m IN _ Cz) as (Z & HZ & _).
    destruct (Z.eq_dec Z 0) as [E0|N].
    - exists None, X, Y, Z. tauto.
    - destruct (invert_m_ok F m IN nf_zero _ Z zero_words HZ) as [_ I1]. destruct (I1 N) as (zi & w & _ & Hz & W1).
      exists (Some ((X * w) mod m, (Y * w) mod m)), X, Y, Z. unfold coord.
      assert (H : 0 < m) by lia. rewrite !(rescale Z w) by (eauto using rep_range).
      pose proof (Z.mod_pos_bound (X * w) m H). pose proof (Z.mod_pos_bound (Y * w) m H).
      split; [exact HX|]. split; [exact HY|]. split; [exact HZ|]. split; [exact N|].
      split; [assumption|]. split; [assumption|]. split; reflexivity.
  Qed.
  Lemma denotes_fun P A B : denotes E P A -> denotes E P B -> A = B.
  Proof.
    intros HA HB. destruct A as [[x y]|], B as [[x' y']|].
    - destruct (affine_some _ _ _ HA) as (X & Y & _), (affine_some _ _ _ HB) as (X' & Y' & _).
      rewrite (rep_fun _ _ _ X X'), (rep_fun _ _ _ Y Y'). reflexivity.
    - destruct HA as (X & Y & Z & _ & _ & HZ & NZ & _), HB as (X' & Y' & Z' & _ & _ & HZ' & EZ).
      rewrite (rep_fun _ _ _ HZ HZ') in NZ. contradiction.
    - destruct HB as (X & Y & Z & _ & _ & HZ & NZ & _), HA as (X' & Y' & Z' & _ & _ & HZ' & EZ).
      rewrite (rep_fun _ _ _ HZ HZ') in NZ. contradiction.
    - reflexivity.
  Qed.
  Lemma denotes_one X Y x y : represents m X x -> represents m Y y -> denotes E (NP X Y (nf_one F)) (Some (x, y)).
  Proof.
    intros HX HY. exists x, y, 1. cbn [np_x np_y np_z]. unfold coord.
    rewrite !Z.mul_1_r, !Z.mod_small by (eapply rep_range; eassumption).
    pose proof (C80_one F m IN). pose proof (rep_range _ _ HX). pose proof (rep_range _ _ HY).
    repeat (split; [assumption || discriminate || reflexivity|]). reflexivity.
  Qed.
  Lemma denotes_id : denotes E np_identity None.
  Proof. exists 0, 0, 0. pose proof (C80_zero F m IN). cbn [np_x np_y np_z np_identity]. tauto. Qed.

  (** bytes *)
  Lemma bytes_rev x v : represents m x v -> be32 (reverse_scalar_bytes (nf_bytes F x)) v.
  Proof.
    intros H. destruct (C82_bytes_is_the_value F m IN x v H) as (B & L & V). unfold reverse_scalar_bytes, be32.
    rewrite rev_length, rev_involutive. split; [apply Forall_rev, B|]. split; [exact L|exact V].
  Qed.
  Lemma low_bit x v : represents m x v -> Z.land (nth 0 (nf_bytes F x) 0) 1 = v mod 2.
  Proof.
    intros H. destruct (C82_bytes_is_the_value F m IN x v H) as (B & L & V).
    destruct (nf_bytes F x) as [|b bs]; [discriminate L|]. cbn [nth]. rewrite <- V. cbn [le_val].
    change 1 with (Z.ones 1) at 1. rewrite Z.land_ones by lia. change (2 ^ 1) with 2.
    replace (b + 256 * le_val bs) with (b + (128 * le_val bs) * 2) by ring. rewrite Z_mod_plus_full. reflexivity.
  Qed.
  Lemma be32_inj xs ys v : be32 xs v -> be32 ys v -> xs = ys.
  Proof.
    intros (B & L & V) (B' & L' & V'). rewrite <- (rev_involutive xs), <- (rev_involutive ys). f_equal.
    apply le_val_inj; [apply Forall_rev, B|apply Forall_rev, B'|rewrite !rev_length; congruence|congruence].
  Qed.
  Lemma set_bytes_be xs v : be32 xs v ->
    (v < m -> exists x, nf_set_bytes F (reverse_scalar_bytes xs) = Some x /\ represents m x v) /\
    (m <= v -> nf_set_bytes F (reverse_scalar_bytes xs) = None).
  Proof.
    intros (B & L & V). unfold reverse_scalar_bytes.
    destruct (C82_set_bytes_accepts_exactly_the_canonical_encodings F m IN (rev xs)) as [A1 A2];
      [apply Forall_rev, B|rewrite rev_length; exact L|]. rewrite V in A1, A2. split; assumption.
  Qed.

  (** roots of the curve equation *)
  Lemma neg_parity y : 0 < y < m -> ((- y) mod m) mod 2 = 1 - y mod 2.
  Proof.
    intros H. assert (Q : (- y) mod m = m - y).
    { replace (- y) with (m - y + -1 * m) by ring. rewrite Z_mod_plus_full. apply Z.mod_small. lia. }
    rewrite Q. rewrite Zminus_mod. pose proof OD as O. rewrite Zodd_mod in O. apply Zeq_bool_eq in O. rewrite O.
    destruct (Z.mod_pos_bound y 2 ltac:(lia)) as [L U]. assert (D : y mod 2 = 0 \/ y mod 2 = 1) by lia.
    destruct D as [-> | ->]; reflexivity.
  Qed.
  Lemma neg_square y : ((- y) mod m * ((- y) mod m)) mod m = (y * y) mod m.
  Proof. rewrite <- Zmult_mod. f_equal. ring. Qed.
  Lemma on_nonzero x y : on_curve E x y -> 0 < y < m.
  Proof.
    intros (_ & Cy & H). unfold coord in Cy. destruct (Z.eq_dec y 0) as [->|]; [|lia]. exfalso.
    apply (ck_noroot _ _ OK x). unfold cong. rewrite Z.sub_0_r. apply Z.mod_divide; [lia|]. rewrite <- H. reflexivity.
  Qed.
  Lemma two_roots x y y' : on_curve E x y -> on_curve E x y' -> y' = y \/ y' = m - y.
  Proof.
    intros H H'. pose proof (on_nonzero _ _ H) as R. pose proof (on_nonzero _ _ H') as R'.
    destruct H as (_ & _ & H), H' as (_ & _ & H').
    assert (D : (m | (y' - y) * (y' + y))).
    { apply Z.mod_divide; [lia|]. replace ((y' - y) * (y' + y)) with (y' * y' - y * y) by ring.
      rewrite Zminus_mod, H, H', Z.sub_diag. reflexivity. }
    apply prime_mult in D; [|exact PM]. destruct D as [[k D]|[k D]].
    - left. assert (k = 0) by nia. nia.
    - right. assert (k = 1) by nia. nia.
  Qed.
  Lemma same_parity_root x y y' : on_curve E x y -> on_curve E x y' -> y mod 2 = y' mod 2 -> y' = y.
  Proof.
    intros H H' P. destruct (two_roots x y y' H H') as [|E']; [assumption|]. exfalso.
    pose proof (on_nonzero _ _ H) as R. pose proof (neg_parity y R) as Q.
    replace ((- y) mod m) with y' in Q.
    - destruct (Z.mod_pos_bound y 2 ltac:(lia)). lia.
    - rewrite E'. replace (- y) with (m - y + -1 * m) by ring. rewrite Z_mod_plus_full. symmetry. apply Z.mod_small. lia.
  Qed.
  Lemma on_neg x y : on_curve E x y -> on_curve E x ((- y) mod m).
  Proof.
    intros (Cx & Cy & H). split; [exact Cx|]. unfold coord in *.
    split; [apply Z.mod_pos_bound; lia|]. rewrite neg_square. exact H.
  Qed.
End Curve.
