(** * Properties of the prime fields of K-256, P-256 and BLS12-381 scalars, down to the 64-bit limbs.

    [represents m x v] (LimbSpec.v): the limbs [x] are the reduced Montgomery
    array that stands for the integer [v].  The theorems range over the five
    fields that instantiate native.Field and over all their elements. *)
From Coq Require Import ZArith Lia List Bool Znumtheory.
From Verif Require Import LimbBase LimbSpec LimbProofs LimbBls LimbBlsProofs LimbBlsProofs2 LimbFiat
  LimbK256FpProofs LimbK256FqProofs LimbP256FpProofs LimbP256FqProofs
  NativeField NativeChains NativeInstances NativeFieldProofs NativeArithProofs NativePowProofs NativeRoots ZCong
  PrimeK256 PrimeP256 PrimeBls.
Import ListNotations.
Open Scope Z_scope.

(** The moduli, from the standards: SEC 2 (secp256k1 p and n), FIPS 186 (P-256 p and n),
    and the BLS12-381 group order. *)
Definition secp256k1_p : Z := 2 ^ 256 - 2 ^ 32 - 977.
Definition secp256k1_n : Z := 0xFFFFFFFFFFFFFFFFFFFFFFFFFFFFFFFEBAAEDCE6AF48A03BBFD25E8CD0364141.
Definition p256_p : Z := 2 ^ 256 - 2 ^ 224 + 2 ^ 192 + 2 ^ 96 - 1.
Definition p256_n : Z := 0xFFFFFFFF00000000FFFFFFFFFFFFFFFFBCE6FAADA7179E84F3B9CAC2FC632551.
Definition bls_r : Z := 0x73EDA753299D7D483339D80809A1D80553BDA402FFFE5BFEFFFFFFFF00000001.

Definition native_fields : list (native_field * Z) :=
  [(k256fp_field, secp256k1_p); (k256fq_field, secp256k1_n);
   (p256fp_field, p256_p); (p256fq_field, p256_n); (blsfq_field, bls_r)].

Local Lemma fields_ok F m : In (F, m) native_fields -> arith_ok m (nf_arith F) /\ params_ok m (nf_params F) /\ prime m.
Proof.
  intros [E|[E|[E|[E|[E|[]]]]]]; injection E as <- <-.
  - exact (conj k256fp_arith_ok (conj k256fp_params_ok k256_p_prime)).
  - exact (conj k256fq_arith_ok (conj k256fq_params_ok k256_n_prime)).
  - exact (conj p256fp_arith_ok (conj p256fp_params_ok p256_p_prime)).
  - exact (conj p256fq_arith_ok (conj p256fq_params_ok p256_n_prime)).
  - exact (conj blsfq_arith_ok (conj blsfq_params_ok bls_r_prime)).
Qed.

Section Spec.
  Variables (F : native_field) (m : Z).
  Hypothesis IN : In (F, m) native_fields.
  Let HA := proj1 (fields_ok F m IN).
  Let HP := proj1 (proj2 (fields_ok F m IN)).
  Let HM := proj2 (proj2 (fields_ok F m IN)).

  Lemma native_m_pos : 1 < m < 2 ^ 256.
  Proof. exact (po_big _ _ HP). Qed.

  Local Lemma rr x v : represents m x v -> rep m x v.
  Proof. apply (represents_rep m _ HP). Qed.
  Local Lemma rs x v : rep m x v -> represents m x (v mod m).
  Proof. apply (rep_represents m _ HP). Qed.
  Local Lemma rs' x v : 0 <= v < m -> rep m x v -> represents m x v.
  Proof. intros H R. apply rs in R. rewrite Z.mod_small in R by exact H. exact R. Qed.

  (** ** C80: the arithmetic is the arithmetic of the integers modulo the field's prime *)

  (** the representation is a bijection between canonical arrays and residues *)
  Theorem C80_every_canonical_array_is_one_residue x : canonical m x -> exists! v, represents m x v.
  Proof.
    intros C. pose proof native_m_pos as M.
    assert (Rx : rel_prime m (2 ^ 256)) by (apply rel_prime_pow2; [exact (po_odd _ _ HP)|lia]).
    destruct (rel_prime_bezout _ _ Rx) as [u w E].
    exists ((val4 x * w) mod m). split.
    - apply rs. split; [exact C|]. exists (val4 x * u).
      replace (val4 x * u * m) with (val4 x * (u * m + w * 2 ^ 256) - val4 x * w * 2 ^ 256) by ring.
      rewrite E. ring.
    - intros v' H. pose proof (rr _ _ H) as [_ D]. destruct H as (_ & Hv & _).
      apply (cong_small m); [apply Z.mod_pos_bound; lia|exact Hv|].
      apply (cong_trans _ _ _ _ (cong_mod m _ ltac:(lia))).
      apply (cong_trans _ _ (v' * 2 ^ 256 * w)); [apply cong_mul; [exact D|apply cong_refl]|].
      exists (- v' * u). replace (v' * 2 ^ 256 * w - v') with (v' * (w * 2 ^ 256 - 1)) by ring.
      replace (w * 2 ^ 256 - 1) with (- (u * m)) by lia. ring.
  Qed.
  Theorem C80_every_residue_has_one_array v : 0 <= v < m -> exists! x, represents m x v.
  Proof.
    intros Hv. pose proof native_m_pos as M.
    set (bs := fill_be 32 v). set (x := fa_from_bytes (nf_arith F) (rev bs)).
    destruct (put_le_ok 32 v) as (E & B & L); [change (256 ^ Z.of_nat 32) with (2 ^ 256); lia|].
    destruct (ao_from_bytes _ _ HA (put_le 32 v) B L) as [Wx Ex].
    pose proof (rep_to _ _ _ HA HP _ Wx) as R. rewrite Ex, E in R.
    exists (fa_to_mont (nf_arith F) (fa_from_bytes (nf_arith F) (put_le 32 v))). split; [apply rs'; assumption|].
    intros y Hy. apply (rep_inj m _ HP _ _ _ _ R (rr _ _ Hy)). apply cong_refl.
  Qed.

  Theorem C80_add x y v w : represents m x v -> represents m y w -> represents m (nf_add F x y) ((v + w) mod m).
  Proof. intros Hx Hy. apply rs. apply (rep_add m _ HA); apply rr; assumption. Qed.
  Theorem C80_double x v : represents m x v -> represents m (nf_double F x) ((2 * v) mod m).
  Proof.
    intros Hx. apply rs. replace (2 * v) with (v + v) by ring. apply (rep_add m _ HA); apply rr; assumption.
  Qed.
  Theorem C80_sub x y v w : represents m x v -> represents m y w -> represents m (nf_sub F x y) ((v - w) mod m).
  Proof. intros Hx Hy. apply rs. apply (rep_sub m _ HA); apply rr; assumption. Qed.
  Theorem C80_mul x y v w : represents m x v -> represents m y w -> represents m (nf_mul F x y) ((v * w) mod m).
  Proof. intros Hx Hy. apply rs. apply (rep_mul m _ _ HA HP); apply rr; assumption. Qed.
  Theorem C80_square x v : represents m x v -> represents m (nf_square F x) ((v * v) mod m).
  Proof. intros Hx. apply rs. apply (rep_square m _ _ HA HP); apply rr; assumption. Qed.
  Theorem C80_zero : represents m (nf_zero) 0.
  Proof. pose proof native_m_pos. apply rs'; [lia|]. apply (rep_zero m _ HP). Qed.
  Theorem C80_one : represents m (nf_one F) 1.
  Proof. pose proof native_m_pos. apply rs'; [lia|]. apply (rep_one m _ HP). Qed.
  Theorem C80_set_uint64 u : word u -> represents m (nf_set_uint64 F u) (u mod m).
  Proof.
    intros Hu. apply rs. unfold nf_set_uint64.
    assert (Wx : words4 (L4 u 0 0 0)) by (cbn; pose proof word0; tauto).
    pose proof (rep_to _ _ _ HA HP _ Wx) as R. replace (val4 (L4 u 0 0 0)) with u in R by (unfold val4; ring). exact R.
  Qed.
  Theorem C80_cmove x y : words4 x -> words4 y -> nf_cmove F x y 0 = x /\ nf_cmove F x y 1 = y.
  Proof.
    intros Hx Hy. unfold nf_cmove.
    assert (S0 : fa_selectznz (nf_arith F) x y 0 = x) by (rewrite (ao_select _ _ HA) by (assumption || lia); reflexivity).
    assert (S1 : fa_selectznz (nf_arith F) x y 1 = y) by (rewrite (ao_select _ _ HA) by (assumption || lia); reflexivity).
    split; [exact S0|exact S1].
  Qed.

  (** ** C82: conversions *)
  Theorem C82_set_bytes_accepts_exactly_the_canonical_encodings bs : is_bytes bs -> length bs = 32%nat ->
    (le_val bs < m -> exists x, nf_set_bytes F bs = Some x /\ represents m x (le_val bs)) /\
    (m <= le_val bs -> nf_set_bytes F bs = None).
  Proof.
    intros B L. destruct (ao_from_bytes _ _ HA bs B L) as [Wx Ex]. destruct (po_M _ _ HP) as [WM EM].
    unfold nf_set_bytes. rewrite cmp_helper_ok by assumption. rewrite Ex, EM.
    pose proof (le_val_range bs B) as [R0 _].
    destruct (Z.compare_spec (le_val bs) m) as [E|E|E]; split; intros H; try lia; try reflexivity.
    eexists. split; [reflexivity|]. apply rs'; [lia|]. rewrite <- Ex. apply (rep_to _ _ _ HA HP). exact Wx.
  Qed.
  Theorem C82_bytes_is_the_value x v : represents m x v ->
    is_bytes (nf_bytes F x) /\ length (nf_bytes F x) = 32%nat /\ le_val (nf_bytes F x) = v.
  Proof.
    intros H. destruct (rep_from _ _ _ HA HP x v (rr _ _ H)) as [[Wo _] E]. destruct H as (_ & Hv & _).
    destruct (ao_to_bytes _ _ HA _ Wo) as (E' & B & L). unfold nf_bytes.
    rewrite E', E. split; [exact B|]. split; [exact L|]. apply Z.mod_small. exact Hv.
  Qed.
  Theorem C82_bytes_then_set_bytes_is_the_element x : canonical m x -> nf_set_bytes F (nf_bytes F x) = Some x.
  Proof.
    intros C. destruct (C80_every_canonical_array_is_one_residue x C) as (v & H & _).
    destruct (C82_bytes_is_the_value x v H) as (B & L & E).
    destruct (C82_set_bytes_accepts_exactly_the_canonical_encodings _ B L) as [A _].
    rewrite E in A. pose proof H as (_ & Hv & _). destruct (A ltac:(lia)) as (y & Ey & Hy).
    rewrite Ey. f_equal. apply (rep_inj m _ HP _ _ _ _ (rr _ _ Hy) (rr _ _ H)). apply cong_refl.
  Qed.
  Theorem C82_set_bytes_then_bytes_is_the_encoding bs x : is_bytes bs -> length bs = 32%nat ->
    nf_set_bytes F bs = Some x -> nf_bytes F x = bs.
  Proof.
    intros B L E. destruct (C82_set_bytes_accepts_exactly_the_canonical_encodings bs B L) as [A N].
    destruct (Z_lt_le_dec (le_val bs) m) as [l|l]; [|rewrite (N l) in E; discriminate].
    destruct (A l) as (y & Ey & Hy). rewrite Ey in E. injection E as ->.
    destruct (C82_bytes_is_the_value x _ Hy) as (B' & L' & E').
    clear - B L B' L' E'. revert B L E'. generalize dependent (nf_bytes F x). intros bs' B' L' B L E.
    assert (LL : length bs' = length bs) by congruence. clear L L'. revert bs B LL E.
    induction B' as [|b' bs' Hb' B' IH]; intros [|b bs] B LL E; try discriminate LL; [reflexivity|].
    inversion B; subst. cbn [le_val] in E. cbn [length] in LL. cbv beta in *. injection LL as LL. assert (b' = b) by lia. subst b'. f_equal. apply IH; [assumption|exact LL|lia].
  Qed.
  Theorem C82_set_bytes_wide_reduces bs : is_bytes bs -> length bs = 64%nat ->
    represents m (nf_set_bytes_wide F bs) (le_val bs mod m).
  Proof.
    intros B L.
    set (lo := firstn 32 bs). set (hi := skipn 32 bs).
    assert (E : bs = lo ++ hi) by (symmetry; apply firstn_skipn).
    assert (Ll : length lo = 32%nat) by (unfold lo; rewrite firstn_length; lia).
    assert (Lh : length hi = 32%nat) by (unfold hi; rewrite skipn_length; lia).
    rewrite E in B. unfold is_bytes in B. rewrite Forall_app in B. destruct B as [Bl Bh].
    destruct (blsfq_from_bytes_ok lo Bl Ll) as [W0 E0]. destruct (blsfq_from_bytes_ok hi Bh Lh) as [W1 E1].
    assert (D0 : L4 (get_uint64 (slice 0 8 bs)) (get_uint64 (slice 8 16 bs)) (get_uint64 (slice 16 24 bs)) (get_uint64 (slice 24 32 bs)) = blsfq_from_bytes lo).
    { clear - L. unfold lo. do 64 (destruct bs as [|? bs]; [discriminate L|]). reflexivity. }
    assert (D1 : L4 (get_uint64 (slice 32 40 bs)) (get_uint64 (slice 40 48 bs)) (get_uint64 (slice 48 56 bs)) (get_uint64 (slice 56 64 bs)) = blsfq_from_bytes hi).
    { clear - L. unfold hi. do 64 (destruct bs as [|? bs]; [discriminate L|]). destruct bs; [|discriminate L]. reflexivity. }
    unfold nf_set_bytes_wide. rewrite D0, D1. cbv zeta. apply rs.
    rewrite E, le_val_app, Ll, <- E0, <- E1. change (256 ^ Z.of_nat 32) with (2 ^ 256).
    pose proof native_m_pos as M.
    destruct (po_R2 _ _ HP) as [V2 X2]. destruct (po_R3 _ _ HP) as [V3 X3].
    assert (C2 : canonical m (fp_R2 (nf_params F))) by (split; [exact V2|rewrite X2; apply Z.mod_pos_bound; lia]).
    assert (C3 : canonical m (fp_R3 (nf_params F))) by (split; [exact V3|rewrite X3; apply Z.mod_pos_bound; lia]).
    assert (Rx : forall n, 0 <= n -> rel_prime m (2 ^ n)) by (intros n Hn; apply rel_prime_pow2; [exact (po_odd _ _ HP)|exact Hn]).
    apply (rep_add m _ HA).
    - destruct (ao_mul _ _ HA _ _ W0 C2) as [C [k K]]. split; [exact C|].
      apply (cong_cancel m (2 ^ 256)); [apply Rx; lia|]. apply cong_of_mont in K.
      apply (cong_trans _ _ _ _ K). rewrite X2.
      replace (val4 (blsfq_from_bytes lo) * 2 ^ 256 * 2 ^ 256) with (val4 (blsfq_from_bytes lo) * 2 ^ 512) by (change (2 ^ 512) with (2 ^ 256 * 2 ^ 256); ring).
      apply cong_mul; [apply cong_refl|apply cong_mod; lia].
    - destruct (ao_mul _ _ HA _ _ W1 C3) as [C [k K]]. split; [exact C|].
      apply (cong_cancel m (2 ^ 256)); [apply Rx; lia|]. apply cong_of_mont in K.
      apply (cong_trans _ _ _ _ K). rewrite X3.
      replace (2 ^ 256 * val4 (blsfq_from_bytes hi) * 2 ^ 256 * 2 ^ 256) with (val4 (blsfq_from_bytes hi) * 2 ^ 768)
        by (change (2 ^ 768) with (2 ^ 256 * 2 ^ 256 * 2 ^ 256); ring).
      apply cong_mul; [apply cong_refl|apply cong_mod; lia].
  Qed.
  Theorem C82_set_big_int_reduces f bi : represents m (nf_set_big_int F f bi) (bi mod m).
  Proof.
    pose proof native_m_pos as M. unfold nf_set_big_int. rewrite (po_B _ _ HP). cbv zeta.
    pose proof (Z.mod_pos_bound bi m ltac:(lia)) as R.
    unfold fill_be, reverse_scalar_bytes. rewrite rev_involutive.
    destruct (put_le_ok 32 (bi mod m)) as (E & B & L); [change (256 ^ Z.of_nat 32) with (2 ^ 256); lia|].
    destruct (C82_set_bytes_accepts_exactly_the_canonical_encodings _ B L) as [A _].
    rewrite E in A. destruct (A ltac:(lia)) as (x & Ex & Hx). rewrite Ex. exact Hx.
  Qed.
  Theorem C82_big_int_is_the_value x v : represents m x v -> nf_big_int F x = v.
  Proof.
    intros H. destruct (C82_bytes_is_the_value x v H) as (_ & _ & E). unfold nf_big_int, big_of_bytes, reverse_scalar_bytes.
    rewrite <- fold_left_rev_right, rev_involutive, <- E. clear E.
    induction (nf_bytes F x) as [|b bs IH]; [reflexivity|]. cbn [fold_right le_val]. rewrite IH. ring.
  Qed.
  Theorem C82_raw_and_set_limbs x v : represents m x v ->
    (words4 (nf_raw F x) /\ val4 (nf_raw F x) = v) /\
    (forall l, words4 l -> represents m (nf_set_limbs F l) (val4 l mod m)).
  Proof.
    intros H. destruct (rep_from _ _ _ HA HP x v (rr _ _ H)) as [[Wo _] E]. destruct H as (_ & Hv & _).
    split; [split; [exact Wo|]|].
    - unfold nf_raw. rewrite E. apply Z.mod_small. exact Hv.
    - intros l Wl. apply rs. apply (rep_to _ _ _ HA HP). exact Wl.
  Qed.

  (** ** C83: comparisons *)
  Theorem C83_equal x y v w : represents m x v -> represents m y w ->
    nf_equal x y = (if v =? w then 1 else 0).
  Proof.
    intros Hx Hy. unfold nf_equal.
    destruct (rep_equal m _ HP _ _ _ _ (rr _ _ Hx) (rr _ _ Hy)) as [[-> C]|[-> C]];
      destruct Hx as (_ & Hv & _), Hy as (_ & Hw & _); destruct (Z.eqb_spec v w) as [E|E]; try reflexivity; exfalso.
    - apply E. apply (cong_small m); assumption.
    - apply C. rewrite E. apply cong_refl.
  Qed.
  Theorem C83_is_zero_is_one x v : represents m x v ->
    nf_is_zero x = (if v =? 0 then 1 else 0) /\
    nf_is_non_zero x = (if v =? 0 then 0 else 1) /\
    nf_is_one F x = (if v =? 1 then 1 else 0).
  Proof.
    intros Hx. pose proof (rep_val_zero m _ HP _ _ (rr _ _ Hx)) as Z0. pose proof Hx as ((Wx & _) & Hv & _).
    assert (V : (val4 x =? 0) = (v =? 0)).
    { apply eq_true_iff_eq. rewrite !Z.eqb_eq, Z0. split; [intros D|intros ->; apply Z.divide_0_r].
      destruct D as [k E]. pose proof native_m_pos; assert (k = 0) by nia; subst k; lia. }
    rewrite nf_is_zero_ok, nf_is_non_zero_ok by exact Wx. rewrite V.
    split; [reflexivity|]. split; [reflexivity|]. apply (C83_equal x _ v 1 Hx C80_one).
  Qed.
  (** [Cmp] orders the stored Montgomery residues, and is 0 exactly on equal values *)
  Theorem C83_cmp_orders_the_montgomery_residues x y v w : represents m x v -> represents m y w ->
    nf_cmp x y = (match ((v * 2 ^ 256) mod m) ?= ((w * 2 ^ 256) mod m) with Lt => -1 | Eq => 0 | Gt => 1 end) /\
    (nf_cmp x y = 0 <-> v = w).
  Proof.
    intros Hx Hy. unfold nf_cmp. pose proof Hx as ((Wx & _) & Hv & Ex). pose proof Hy as ((Wy & _) & Hw & Ey).
    rewrite cmp_helper_ok by assumption. rewrite <- Ex, <- Ey. split; [reflexivity|].
    pose proof (rep_inj m _ HP _ _ _ _ (rr _ _ Hx) (rr _ _ Hy)) as I.
    destruct (Z.compare_spec (val4 x) (val4 y)) as [E|E|E]; split; intros H; try discriminate H; try reflexivity.
    - apply (cong_small m); [assumption..|]. apply I. apply val4_inj; assumption.
    - subst w. assert (x = y) by (apply I, cong_refl). subst y. lia.
    - subst w. assert (x = y) by (apply I, cong_refl). subst y. lia.
  Qed.

  (** ** C84: exponentiation, inversion, square roots *)
  Theorem C84_exp x e v k : represents m x v -> represents m e k -> represents m (nf_exp F x e) ((v ^ k) mod m).
  Proof.
    intros Hx He. destruct (rep_from _ _ _ HA HP e k (rr _ _ He)) as [[We _] E].
    pose proof He as (_ & Hk & _). rewrite Z.mod_small in E by exact Hk.
    apply rs. unfold nf_exp. rewrite <- E. apply (rep_pow _ _ _ HA HP); [exact We|apply rr, Hx].
  Qed.
  (** the underlying interface method, with its 0/1 flag *)
  Lemma invert_m_ok f x v : words4 f -> represents m x v ->
    (v = 0 -> nf_invert_m F f x = (0, f)) /\
    (v <> 0 -> exists y w, nf_invert_m F f x = (1, y) /\ represents m y w /\ (v * w) mod m = 1).
  Proof.
    intros Hf Hx.
    assert (K : exists chain, nf_invert_m F = invert_with (nf_arith F) chain /\
       forall x v, rep m x v -> rep m (chain (nf_arith F) x) (pw v (m - 2))).
    { destruct IN as [E|[E|[E|[E|[E|[]]]]]]; injection E as <- <-; eexists; (split; [reflexivity|]).
      - exact k256fp_chain_ok. - exact k256fq_chain_ok. - exact p256fp_chain_ok. - exact p256fq_chain_ok. - exact blsfq_chain_ok. }
    destruct K as (chain & EI & HC).
    destruct (invert_ok m _ _ HA HP chain HC HM f x v Hf (rr _ _ Hx)) as [I0 I1].
    pose proof Hx as (_ & Hv & _). pose proof native_m_pos as M. rewrite EI. split.
    - intros ->. rewrite I0 by apply Z.divide_0_r. reflexivity.
    - intros N. destruct I1 as (y & w & E & Ry & C).
      { intros [k Hk]. assert (k = 0) by nia; subst k; lia. }
      exists y, (w mod m). rewrite E. split; [reflexivity|]. split; [apply rs, Ry|].
      rewrite Z.mul_mod_idemp_r by lia. rewrite <- (Z.mod_small 1 m) by lia. apply cong_mod_eq; [lia|exact C].
  Qed.
  Theorem C84_invert f x v : words4 f -> represents m x v ->
    (v = 0 -> nf_invert F f x = (f, false)) /\
    (v <> 0 -> exists y w, nf_invert F f x = (y, true) /\ represents m y w /\ (v * w) mod m = 1).
  Proof.
    intros Hf Hx. destruct (invert_m_ok f x v Hf Hx) as [I0 I1]. unfold nf_invert. split.
    - intros E. rewrite (I0 E). reflexivity.
    - intros N. destruct (I1 N) as (y & w & E & R). exists y, w. rewrite E. split; [reflexivity|exact R].
  Qed.
  (** square roots: found exactly when there is one *)
  Definition is_square (v : Z) : Prop := exists y, (y * y) mod m = v.

  Local Lemma square_cong v : 0 <= v < m -> (is_square v <-> exists y, cong m (y * y) v).
  Proof.
    intros Hv. split; intros [y E]; exists y.
    - rewrite <- E. apply cong_sym, cong_mod. lia.
    - rewrite <- (Z.mod_small v m) by exact Hv. apply cong_mod_eq; [lia|exact E].
  Qed.
  Theorem C84_sqrt f x v : words4 f -> represents m x v ->
    (is_square v -> exists y w, nf_sqrt F f x = (y, true) /\ represents m y w /\ (w * w) mod m = v) /\
    (~ is_square v -> nf_sqrt F f x = (f, false)).
  Proof.
    intros Hf Hx. pose proof Hx as (_ & Hv & _). pose proof native_m_pos as M.
    assert (K : ((exists y, cong m (y * y) v) ->
         exists r u, nf_sqrt_m F f x = (1, r) /\ rep m r u /\ cong m (u * u) v) /\
      (~ (exists y, cong m (y * y) v) -> nf_sqrt_m F f x = (0, f))).
    { assert (S : sqrt_spec m F).
      { destruct IN as [E|[E|[E|[E|[E|[]]]]]]; injection E as <- <-.
        - exact k256fp_sqrt_ok. - exact k256fq_sqrt_ok. - exact p256fp_sqrt_ok. - exact p256fq_sqrt_ok. - exact blsfq_sqrt_ok. }
      exact (S f x v Hf (rr _ _ Hx)). }
    destruct K as [K1 K2]. unfold nf_sqrt. rewrite (square_cong v Hv). split.
    - intros Q. destruct (K1 Q) as (y & u & E & Ry & C). rewrite E.
      exists y, (u mod m). split; [reflexivity|]. split; [apply rs, Ry|].
      rewrite <- Zmult_mod, <- (Z.mod_small v m) by exact Hv. apply cong_mod_eq; [lia|exact C].
    - intros Q. rewrite (K2 Q). reflexivity.
  Qed.
End Spec.

(** ** C81: negation *)
Theorem C81_neg F m x v : In (F, m) native_fields -> m <> bls_r -> represents m x v ->
  represents m (nf_neg F x) ((- v) mod m).
Proof.
  intros IN N H. pose proof (fields_ok F m IN) as (_ & HP & _).
  apply (represents_rep m _ HP) in H. apply (rep_represents m _ HP).
  destruct IN as [E|[E|[E|[E|[E|[]]]]]]; injection E as <- <-; [..|destruct N; reflexivity].
  - apply k256fp_neg_ok, H. - apply k256fq_neg_ok, H. - apply p256fp_neg_ok, H. - apply p256fq_neg_ok, H.
Qed.
Theorem C81_neg_bls_scalar_nonzero x v : represents bls_r x v -> v <> 0 ->
  represents bls_r (nf_neg blsfq_field x) ((- v) mod bls_r).
Proof.
  intros H N. pose proof H as (_ & Hv & _).
  apply (represents_rep bls_r _ blsfq_params_ok) in H. apply (rep_represents bls_r _ blsfq_params_ok).
  apply blsfq_neg_ok; [exact H|]. rewrite (rep_val_zero _ _ blsfq_params_ok _ _ H). intros [k E].
  assert (k = 0) by (change fqM with bls_r in E; clear - Hv E; unfold bls_r in *; lia). subst k. apply N. rewrite E. reflexivity.
Qed.
(** The BLS12-381 scalar field: negating zero gives the array of the modulus.  It is a zero to
    Bytes and BigInt, but not to Equal, IsZero or Invert. *)
Theorem C81_neg_bls_scalar_zero_refuted :
  let z := @nf_zero in let n := nf_neg blsfq_field z in
  represents bls_r z 0 /\ ~ represents bls_r n 0 /\
  val4 n = bls_r /\ nf_is_zero n = 0 /\ nf_is_non_zero n = 1 /\ nf_equal n z = 0 /\
  nf_big_int blsfq_field n = 0 /\
  (forall f, words4 f -> snd (nf_invert blsfq_field f n) = true).
Proof.
  cbv zeta.
  assert (E : nf_neg blsfq_field nf_zero = fq_params_modulus) by (vm_compute; reflexivity).
  rewrite E. split; [apply (C80_zero blsfq_field); unfold native_fields; cbn; tauto|].
  split. { intros ((_ & L) & _). vm_compute in L. discriminate L. }
  split; [vm_compute; reflexivity|]. split; [vm_compute; reflexivity|]. split; [vm_compute; reflexivity|].
  split; [vm_compute; reflexivity|]. split; [vm_compute; reflexivity|].
  intros f _. unfold nf_invert. cbn [nf_invert_m blsfq_field]. unfold invert_with.
  assert (E1 : nf_is_non_zero fq_params_modulus = 1) by (vm_compute; reflexivity). rewrite E1. reflexivity.
Qed.

(** C83: [Cmp] is not the numeric order: it says that 1 is greater than 2^-256 (a residue above 1). *)
Theorem C83_cmp_is_not_the_numeric_order_refuted : forall F m, In (F, m) native_fields ->
  exists x y v w, represents m x v /\ represents m y w /\ w < v /\ nf_cmp x y = -1.
Proof.
  intros F m IN. pose proof (native_m_pos F m IN) as M.
  exists (L4 1 0 0 0), (nf_one F).
  assert (C : canonical m (L4 1 0 0 0)).
  { split; [apply words4_consts; vm_compute; reflexivity|]. change (val4 (L4 1 0 0 0)) with 1. lia. }
  destruct (C80_every_canonical_array_is_one_residue F m IN _ C) as (v & H & _).
  exists v, 1. split; [exact H|]. pose proof (C80_one F m IN) as H1. split; [exact H1|].
  assert (K : nf_cmp (L4 1 0 0 0) (nf_one F) = -1).
  { destruct IN as [E|[E|[E|[E|[E|[]]]]]]; injection E as <- <-; vm_compute; reflexivity. }
  split; [|exact K].
  destruct (C83_cmp_orders_the_montgomery_residues F m IN _ _ _ _ H H1) as [_ [_ Q]].
  pose proof H as (_ & Hv & Ev). change (val4 (L4 1 0 0 0)) with 1 in Ev.
  destruct (Z.eq_dec v 0) as [->|N0]; [rewrite Z.mul_0_l, Z.mod_0_l in Ev by lia; discriminate Ev|].
  destruct (Z.eq_dec v 1) as [->|N1]; [|lia]. rewrite (Q eq_refl) in K. discriminate K.
Qed.

(** ** Concrete cases: the elements 3 and 5 of each field, their product, inverse and roots *)
Example C80_example : forall F m, In (F, m) native_fields ->
  represents m (nf_set_uint64 F 3) 3 /\ represents m (nf_mul F (nf_set_uint64 F 3) (nf_set_uint64 F 5)) 15 /\
  represents m (nf_sub F (nf_set_uint64 F 3) (nf_set_uint64 F 5)) (m - 2) /\
  nf_big_int F (nf_mul F (nf_set_uint64 F 3) (nf_set_uint64 F 5)) = 15.
Proof.
  intros F m IN.
  assert (M : 15 < m) by (destruct IN as [E|[E|[E|[E|[E|[]]]]]]; injection E as <- <-; vm_compute; reflexivity).
  assert (W3 : word 3) by (unfold word; rewrite W_eq; lia). assert (W5 : word 5) by (unfold word; rewrite W_eq; lia).
  pose proof (C80_set_uint64 F m IN 3 W3) as H3. pose proof (C80_set_uint64 F m IN 5 W5) as H5.
  rewrite Z.mod_small in H3, H5 by lia.
  pose proof (C80_mul F m IN _ _ _ _ H3 H5) as HM. rewrite Z.mod_small in HM by lia.
  pose proof (C80_sub F m IN _ _ _ _ H3 H5) as HS.
  split; [exact H3|]. split; [exact HM|]. split; [|exact (C82_big_int_is_the_value F m IN _ _ HM)].
  replace ((3 - 5) mod m) with (m - 2) in HS; [exact HS|]. apply Z.mod_unique with (-1); lia.
Qed.
Example C84_example : forall F m, In (F, m) native_fields -> exists y w,
  nf_sqrt F nf_zero (nf_set_uint64 F 9) = (y, true) /\ represents m y w /\ (w = 3 \/ w = m - 3).
Proof.
  intros F m IN.
  assert (M : 15 < m) by (destruct IN as [E|[E|[E|[E|[E|[]]]]]]; injection E as <- <-; vm_compute; reflexivity).
  pose proof (proj2 (proj2 (fields_ok F m IN))) as PM.
  assert (W9 : word 9) by (unfold word; rewrite W_eq; lia).
  pose proof (C80_set_uint64 F m IN 9 W9) as H9. rewrite Z.mod_small in H9 by lia.
  assert (W0 : words4 nf_zero) by (apply words4_consts; vm_compute; reflexivity).
  destruct (C84_sqrt F m IN nf_zero _ 9 W0 H9) as [A _].
  destruct A as (y & w & E & R & S); [exists 3; apply Z.mod_small; lia|].
  exists y, w. split; [exact E|]. split; [exact R|]. destruct R as (_ & Hw & _).
  assert (D : (m | (w - 3) * (w + 3))).
  { apply Z.mod_divide; [lia|]. replace ((w - 3) * (w + 3)) with (w * w - 9) by ring.
    rewrite Zminus_mod, S, (Z.mod_small 9 m) by lia. reflexivity. }
  apply prime_mult in D; [|exact PM]. destruct D as [[k D]|[k D]]; [left|right].
  - assert (k = 0) by nia. nia.
  - assert (k = 1) by nia. nia.
Qed.
