(** * Properties of the Pasta fields (Pallas base field and scalar field), down to the limbs.

    [represents m x v] is in LimbSpec.v: [x] is the reduced Montgomery array standing for [v]. *)
From Coq Require Import ZArith Lia List Bool Znumtheory.
From Verif Require Import LimbBase LimbSpec LimbProofs LimbBls LimbBlsProofs LimbBlsProofs2 LimbFiat
  LimbPastaFpProofs LimbPastaFqProofs
  NativeField NativeFieldProofs NativeArithProofs NativePowProofs NativeRoots ZCong PastaField PastaFieldProofs PrimePasta.
Import ListNotations.
Open Scope Z_scope.

(** the moduli of the Pasta curves *)
Definition pallas_p : Z := 0x40000000000000000000000000000000224698fc094cf91b992d30ed00000001.
Definition pallas_q : Z := 0x40000000000000000000000000000000224698fc0994a8dd8c46eb2100000001.
Definition pasta_fields : list (pasta_field * Z) := [(pastafp_field, pallas_p); (pastafq_field, pallas_q)].

Local Lemma fields_ok F m : In (F, m) pasta_fields -> arith_ok m (pf_arith F) /\ params_ok m (pf_params F) /\ prime m.
Proof.
  intros [E|[E|[]]]; injection E as <- <-.
  - exact (conj pastafp_arith_ok (conj pastafp_params_ok pallas_p_prime)).
  - exact (conj pastafq_arith_ok (conj pastafq_params_ok pallas_q_prime)).
Qed.

Lemma le_val_inj : forall bs bs', is_bytes bs -> is_bytes bs' -> length bs = length bs' -> le_val bs = le_val bs' -> bs = bs'.
Proof.
  intros bs bs' B. revert bs'. induction B as [|b bs Hb B IH]; intros [|b' bs'] B' LL E; try discriminate LL; [reflexivity|].
  inversion B'; subst. cbn [le_val] in E. cbn [length] in LL. cbv beta in *. injection LL as LL.
  assert (b' = b) by lia. subst b'. f_equal. apply IH; [assumption|exact LL|lia].
Qed.

Section Spec.
  Variables (F : pasta_field) (m : Z).
  Hypothesis IN : In (F, m) pasta_fields.
  Let HA := proj1 (fields_ok F m IN).
  Let HP := proj1 (proj2 (fields_ok F m IN)).
  Let HM := proj2 (proj2 (fields_ok F m IN)).

  Lemma pasta_m_pos : 1 < m < 2 ^ 256.
  Proof. exact (po_big _ _ HP). Qed.
  Local Lemma rr x v : represents m x v -> rep m x v.
  Proof. apply (represents_rep m _ HP). Qed.
  Local Lemma rs x v : rep m x v -> represents m x (v mod m).
  Proof. apply (rep_represents m _ HP). Qed.
  Local Lemma rs' x v : 0 <= v < m -> rep m x v -> represents m x v.
  Proof. intros H R. apply rs in R. rewrite Z.mod_small in R by exact H. exact R. Qed.

  (** ** C85: arithmetic *)
  Theorem C85_pasta_add x y v w : represents m x v -> represents m y w -> represents m (pasta_add F x y) ((v + w) mod m).
  Proof. intros Hx Hy. apply rs. apply (rep_add m _ HA); apply rr; assumption. Qed.
  Theorem C85_pasta_double x v : represents m x v -> represents m (pasta_double F x) ((2 * v) mod m).
  Proof. intros Hx. apply rs. replace (2 * v) with (v + v) by ring. apply (rep_add m _ HA); apply rr; assumption. Qed.
  Theorem C85_pasta_sub x y v w : represents m x v -> represents m y w -> represents m (pasta_sub F x y) ((v - w) mod m).
  Proof. intros Hx Hy. apply rs. apply (rep_sub m _ HA); apply rr; assumption. Qed.
  Theorem C85_pasta_neg x v : represents m x v -> represents m (pasta_neg F x) ((- v) mod m).
  Proof.
    intros H. apply rs. apply rr in H. destruct IN as [E|[E|[]]]; injection E as <- <-.
    - apply pastafp_neg_ok, H. - apply pastafq_neg_ok, H.
  Qed.
  Theorem C85_pasta_mul x y v w : represents m x v -> represents m y w -> represents m (pasta_mul F x y) ((v * w) mod m).
  Proof. intros Hx Hy. apply rs. apply (rep_mul m _ _ HA HP); apply rr; assumption. Qed.
  Theorem C85_pasta_square x v : represents m x v -> represents m (pasta_square F x) ((v * v) mod m).
  Proof. intros Hx. apply rs. apply (rep_square m _ _ HA HP); apply rr; assumption. Qed.
  Theorem C85_pasta_constants u b : word u ->
    represents m pasta_zero 0 /\ represents m (pasta_one F) 1 /\ represents m (pasta_set_uint64 F u) u /\
    represents m (pasta_set_bool F b) (if b then 1 else 0).
  Proof.
    intros Hu. pose proof pasta_m_pos as M.
    assert (Z0 : represents m pasta_zero 0) by (apply rs'; [lia|apply (rep_zero m _ HP)]).
    assert (O1 : represents m (pasta_one F) 1) by (apply rs'; [lia|apply (rep_one m _ HP)]).
    split; [exact Z0|]. split; [exact O1|]. split; [|destruct b; assumption].
    apply rs'.
    - assert (W < m) by (destruct IN as [E|[E|[]]]; injection E as <- <-; vm_compute; reflexivity). unfold word in Hu. lia.
    - assert (Wx : words4 (L4 u 0 0 0)) by (cbn; pose proof word0; tauto).
      pose proof (rep_to _ _ _ HA HP _ Wx) as R. replace (val4 (L4 u 0 0 0)) with u in R by (unfold val4; ring). exact R.
  Qed.
  Theorem C85_pasta_cmove x y : words4 x -> words4 y -> pasta_cmove F x y 0 = x /\ pasta_cmove F x y 1 = y.
  Proof. intros Hx Hy. unfold pasta_cmove. split; rewrite (ao_select _ _ HA) by (assumption || lia); reflexivity. Qed.
  Theorem C85_pasta_exp x e v k : represents m x v -> represents m e k -> represents m (pasta_exp F x e) ((v ^ k) mod m).
  Proof.
    intros Hx He. destruct (rep_from _ _ _ HA HP e k (rr _ _ He)) as [[We _] E].
    pose proof He as (_ & Hk & _). rewrite Z.mod_small in E by exact Hk.
    apply rs. unfold pasta_exp, pasta_pow. rewrite <- E. apply (rep_pow _ _ _ HA HP); [exact We|apply rr, Hx].
  Qed.
  (** the inverse of every non-zero element, (0, false) for zero *)
  Theorem C85_pasta_invert x v : represents m x v ->
    (v = 0 -> represents m (fst (pasta_invert F x)) 0 /\ snd (pasta_invert F x) = false) /\
    (v <> 0 -> exists w, represents m (fst (pasta_invert F x)) w /\ snd (pasta_invert F x) = true /\ (v * w) mod m = 1).
  Proof.
    intros Hx. pose proof pasta_m_pos as M. pose proof (rr _ _ Hx) as Rx.
    assert (WE : words4 (pf_inv_exp F) /\ val4 (pf_inv_exp F) = m - 2).
    { destruct IN as [E|[E|[]]]; injection E as <- <-; (split; [apply words4_consts; vm_compute; reflexivity|vm_compute; reflexivity]). }
    destruct WE as [WE EE]. pose proof (rep_pow _ _ _ HA HP x v _ WE Rx) as Rp. rewrite EE in Rp.
    assert (M2 : 2 < m) by (destruct IN as [E|[E|[]]]; injection E as <- <-; vm_compute; reflexivity).
    unfold pasta_invert, pasta_pow. cbn [fst snd]. pose proof Hx as ((Wx & _) & Hv & _).
    rewrite pasta_is_zero_ok by exact Wx. pose proof (rep_val_zero m _ HP _ _ Rx) as Z0.
    split.
    - intros ->. split; [|apply negb_false_iff, Z.eqb_eq, Z0, Z.divide_0_r].
      apply rs'; [lia|]. rewrite pw_zero in Rp by lia. exact Rp.
    - intros N. assert (ND : ~ (m | v)) by (intros [k Hk]; assert (k = 0) by nia; subst k; lia).
      exists (pw v (m - 2) mod m). split; [apply rs, Rp|].
      split; [apply negb_true_iff, Z.eqb_neq; intros Q; apply ND, Z0, Q|].
      rewrite Z.mul_mod_idemp_r by lia.
      rewrite <- (Z.mod_small 1 m) by lia. apply cong_mod_eq; [lia|].
      pose proof (pw_fermat m v HM ND) as FE. replace (m - 1) with (1 + (m - 2)) in FE by lia.
      rewrite pw_add, pw_1 in FE by lia. exact FE.
  Qed.
  (** a root of every square, and false for every non-square *)
  Theorem C85_pasta_sqrt x v : represents m x v ->
    ((exists y, (y * y) mod m = v) -> exists r w, pasta_sqrt F x = (r, true) /\ represents m r w /\ (w * w) mod m = v) /\
    (~ (exists y, (y * y) mod m = v) -> snd (pasta_sqrt F x) = false).
  Proof.
    intros Hx. pose proof Hx as (_ & Hv & _). pose proof pasta_m_pos as M.
    assert (S : pasta_sqrt_spec m F).
    { destruct IN as [E|[E|[]]]; injection E as <- <-; [exact pastafp_sqrt_ok|exact pastafq_sqrt_ok]. }
    destruct (S x v (rr _ _ Hx)) as [K1 K2].
    assert (Q : (exists y, (y * y) mod m = v) <-> (exists y, cong m (y * y) v)).
    { split; intros [y E]; exists y.
      - rewrite <- E. apply cong_sym, cong_mod. lia.
      - rewrite <- (Z.mod_small v m) by exact Hv. apply cong_mod_eq; [lia|exact E]. }
    rewrite Q. split; [|exact K2].
    intros H. destruct (K1 H) as (y & u & E & Ry & C). exists y, (u mod m).
    split; [exact E|]. split; [apply rs, Ry|].
    rewrite <- Zmult_mod, <- (Z.mod_small v m) by exact Hv. apply cong_mod_eq; [lia|exact C].
  Qed.

  (** ** C86: encodings *)
  Theorem C86_pasta_bytes_is_the_value x v : represents m x v ->
    is_bytes (pasta_bytes F x) /\ length (pasta_bytes F x) = 32%nat /\ le_val (pasta_bytes F x) = v.
  Proof.
    intros H. destruct (rep_from _ _ _ HA HP x v (rr _ _ H)) as [[Wo _] E]. destruct H as (_ & Hv & _).
    destruct (ao_to_bytes _ _ HA _ Wo) as (E' & B & L). unfold pasta_bytes.
    rewrite E', E. split; [exact B|]. split; [exact L|]. apply Z.mod_small. exact Hv.
  Qed.
  Theorem C86_pasta_big_int_and_raw x v : represents m x v ->
    pasta_big_int F x = v /\ words4 (pasta_to_raw F x) /\ val4 (pasta_to_raw F x) = v /\
    (forall l, words4 l -> represents m (pasta_set_raw F l) (val4 l mod m)).
  Proof.
    intros H. split.
    - destruct (C86_pasta_bytes_is_the_value x v H) as (_ & _ & E). unfold pasta_big_int, big_of_bytes, reverse_scalar_bytes.
      rewrite <- fold_left_rev_right, rev_involutive, <- E. clear E.
      induction (pasta_bytes F x) as [|b bs IH]; [reflexivity|]. cbn [fold_right le_val]. rewrite IH. ring.
    - destruct (rep_from _ _ _ HA HP x v (rr _ _ H)) as [[Wo _] E]. destruct H as (_ & Hv & _).
      split; [exact Wo|]. split; [unfold pasta_to_raw; rewrite E; apply Z.mod_small; exact Hv|].
      intros l Wl. apply rs. apply (rep_to _ _ _ HA HP). exact Wl.
  Qed.
  Local Lemma limbs_of_bytes bs : is_bytes bs -> length bs = 32%nat ->
    words4 (L4 (get_uint64 (slice 0 8 bs)) (get_uint64 (slice 8 16 bs)) (get_uint64 (slice 16 24 bs)) (get_uint64 (slice 24 32 bs))) /\
    val4 (L4 (get_uint64 (slice 0 8 bs)) (get_uint64 (slice 8 16 bs)) (get_uint64 (slice 16 24 bs)) (get_uint64 (slice 24 32 bs))) = le_val bs.
  Proof. apply blsfq_from_bytes_ok. Qed.

  (** whatever is accepted stands for the encoded integer, reduced *)
  Theorem C86_pasta_set_bytes_value bs x : is_bytes bs -> length bs = 32%nat -> pasta_set_bytes F bs = Some x ->
    represents m x (le_val bs mod m).
  Proof.
    intros B L. unfold pasta_set_bytes. destruct (negb _); [discriminate|]. intros E. injection E as <-.
    destruct (ao_from_bytes _ _ HA bs B L) as [Wx Ex]. apply rs. rewrite <- Ex. apply (rep_to _ _ _ HA HP). exact Wx.
  Qed.
  (** exactly which strings are accepted, by their four limbs: those below the modulus except the
      bottom of its last block of 2^64, and those whose first limb that differs from the modulus's
      exceeds it by more than 2^63 *)
  Theorem C86_pasta_set_bytes_accepts f0 f1 f2 f3 bs : is_bytes bs -> length bs = 32%nat ->
    words4 (L4 f0 f1 f2 f3) -> le_val bs = val4 (L4 f0 f1 f2 f3) ->
    (pasta_set_bytes F bs <> None <->
     (le_val bs < m /\ ~ (le_val bs / 2 ^ 64 = m / 2 ^ 64 /\ m - le_val bs >= 2 ^ 63)) \/
     f3 > 2 ^ 62 + 2 ^ 63 \/
     (f3 = 2 ^ 62 /\ f2 > 2 ^ 63) \/
     (f3 = 2 ^ 62 /\ f2 = 0 /\ f1 > (m / 2 ^ 64) mod 2 ^ 64 + 2 ^ 63)).
  Proof.
    intros B L Wf EV. destruct (limbs_of_bytes bs B L) as [WD ED].
    assert (D : L4 (get_uint64 (slice 0 8 bs)) (get_uint64 (slice 8 16 bs)) (get_uint64 (slice 16 24 bs)) (get_uint64 (slice 24 32 bs)) = L4 f0 f1 f2 f3)
      by (apply val4_inj; [exact WD|exact Wf|congruence]).
    destruct (po_M _ _ HP) as [WM _].
    unfold pasta_set_bytes. rewrite D. cbv zeta.
    rewrite pasta_cmp_ok by assumption.
    assert (Q : forall (b : bool) (y : limbs4), (if negb b then None else Some y) <> None <-> b = true).
    { intros [] y; cbn; split; intros H; try reflexivity; try discriminate; congruence. }
    rewrite Q, Z.eqb_eq, EV. clear Q D WD ED EV B L HM HA.
    assert (LV : forall f r, word f -> word r -> limb_verdict f r =
       if f =? r then 0 else if f <? r then (if r - f <? 2 ^ 63 then -1 else 1) else if r - f + W <? 2 ^ 63 then -1 else 1).
    { intros f r Hf Hr. unfold limb_verdict. destruct (Z.eqb_spec f r) as [E|E]; [reflexivity|].
      unfold word in *. destruct (Z.ltb_spec f r) as [l|l].
      - rewrite Z.mod_small by lia. reflexivity.
      - replace ((r - f) mod W) with (r - f + W); [reflexivity|]. apply Z.mod_unique with (-1); lia. }
    destruct Wf as (w0 & w1 & w2 & w3).
    assert (X : exists m0 m1, fp_Modulus (pf_params F) = L4 m0 m1 0 (2 ^ 62) /\ 2 ^ 63 < m0 < W /\ 0 < m1 < 2 ^ 62 /\
      m / 2 ^ 64 = m1 + W * (W * 2 ^ 62) /\ (m / 2 ^ 64) mod 2 ^ 64 = m1 /\ m = m0 + W * (m1 + W * (W * 2 ^ 62))).
    { destruct IN as [E|[E|[]]]; injection E as <- <-; do 2 eexists;
        (split; [reflexivity|]); (split; [split; vm_compute; reflexivity|]);
        (split; [split; vm_compute; reflexivity|]); (split; [vm_compute; reflexivity|]);
        (split; [vm_compute; reflexivity|vm_compute; reflexivity]). }
    destruct X as (m0 & m1 & -> & M0 & M1 & ED & EM & Em).
    rewrite EM, ED. clear ED EM.
    assert (EQ : val4 (L4 f0 f1 f2 f3) / 2 ^ 64 = f1 + W * (f2 + W * f3)).
    { symmetry. apply Z.div_unique with f0; [left; exact w0|]. unfold val4. change (2 ^ 64) with W. ring. }
    rewrite EQ. clear EQ. rewrite Em. unfold val4, signed_first_limb_verdict. cbv zeta.
    unfold word in *. rewrite !LV by (unfold word; rewrite ?W_eq in *; change (2 ^ 62) with 4611686018427387904 in *; change (2 ^ 63) with 9223372036854775808 in *; lia).
    rewrite W_eq in *. change (2 ^ 62) with 4611686018427387904 in *. change (2 ^ 63) with 9223372036854775808 in *.
    clear LV WM Em HP IN.
    Ltac fin := repeat (change (-1 =? 0) with false; cbv iota); repeat (change (1 =? 0) with false; cbv iota); lia.
    destruct (Z.eqb_spec f3 4611686018427387904) as [E3|E3].
    2:{ destruct (Z.ltb_spec f3 4611686018427387904).
        - destruct (Z.ltb_spec (4611686018427387904 - f3) 9223372036854775808); fin.
        - destruct (Z.ltb_spec (4611686018427387904 - f3 + 18446744073709551616) 9223372036854775808); fin. }
    change (0 =? 0) with true. cbv iota. destruct (Z.eqb_spec f2 0) as [E2|E2].
    2:{ destruct (Z.ltb_spec f2 0); [lia|]. destruct (Z.ltb_spec (0 - f2 + 18446744073709551616) 9223372036854775808); fin. }
    change (0 =? 0) with true. cbv iota. destruct (Z.eqb_spec f1 m1) as [E1|E1].
    2:{ destruct (Z.ltb_spec f1 m1).
        - destruct (Z.ltb_spec (m1 - f1) 9223372036854775808); fin.
        - destruct (Z.ltb_spec (m1 - f1 + 18446744073709551616) 9223372036854775808); fin. }
    change (0 =? 0) with true. cbv iota. destruct (Z.eqb_spec f0 m0) as [E0|E0]; [lia|].
    destruct (Z.ltb_spec f0 m0).
    - destruct (Z.ltb_spec (m0 - f0) 9223372036854775808); lia.
    - destruct (Z.ltb_spec (m0 - f0 + 18446744073709551616) 9223372036854775808); lia.
  Qed.
  (** encodings of integers below 2^254 - and so of all but about one element in 2^127 - are read back *)
  Theorem C86_pasta_roundtrip_partial x v : represents m x v -> v < 2 ^ 254 -> pasta_set_bytes F (pasta_bytes F x) = Some x.
  Proof.
    intros H Hv. destruct (C86_pasta_bytes_is_the_value x v H) as (B & L & E).
    destruct (limbs_of_bytes _ B L) as [WD ED].
    pose proof (C86_pasta_set_bytes_accepts _ _ _ _ _ B L WD (eq_sym ED)) as [_ A].
    pose proof H as (_ & Hm & _).
    destruct (pasta_set_bytes F (pasta_bytes F x)) as [y|] eqn:S.
    - f_equal. apply (C86_pasta_set_bytes_value _ _ B L) in S. rewrite E, Z.mod_small in S by exact Hm.
      apply (rep_inj m _ HP _ _ _ _ (rr _ _ S) (rr _ _ H)). apply cong_refl.
    - exfalso. apply A; [|reflexivity]. left. rewrite E. split; [lia|]. intros [Q _].
      assert (MM : m / 2 ^ 64 >= 2 ^ 190) by (destruct IN as [E'|[E'|[]]]; injection E' as <- <-; vm_compute; discriminate).
      assert (v / 2 ^ 64 < 2 ^ 190) by (apply Z.div_lt_upper_bound; [lia|]; change (2 ^ 64 * 2 ^ 190) with (2 ^ 254); exact Hv). lia.
  Qed.
  Theorem C86_pasta_set_bytes_wide_reduces bs : is_bytes bs -> length bs = 64%nat ->
    represents m (pasta_set_bytes_wide F bs) (le_val bs mod m).
  Proof.
    intros B L.
    set (lo := firstn 32 bs). set (hi := skipn 32 bs).
    assert (E : bs = lo ++ hi) by (symmetry; apply firstn_skipn).
    assert (Ll : length lo = 32%nat) by (unfold lo; rewrite firstn_length; lia).
    assert (Lh : length hi = 32%nat) by (unfold hi; rewrite skipn_length; lia).
    rewrite E in B. unfold is_bytes in B. rewrite Forall_app in B. destruct B as [Bl Bh].
    destruct (limbs_of_bytes lo Bl Ll) as [W0 E0]. destruct (limbs_of_bytes hi Bh Lh) as [W1 E1].
    match type of W0 with words4 ?x => set (dlo := x) in * end. match type of W1 with words4 ?x => set (dhi := x) in * end.
    assert (D0 : L4 (get_uint64 (slice 0 8 bs)) (get_uint64 (slice 8 16 bs)) (get_uint64 (slice 16 24 bs)) (get_uint64 (slice 24 32 bs)) = dlo).
    { clear - L. unfold dlo, lo. do 64 (destruct bs as [|? bs]; [discriminate L|]). reflexivity. }
    assert (D1 : L4 (get_uint64 (slice 32 40 bs)) (get_uint64 (slice 40 48 bs)) (get_uint64 (slice 48 56 bs)) (get_uint64 (slice 56 64 bs)) = dhi).
    { clear - L. unfold dhi, hi. do 64 (destruct bs as [|? bs]; [discriminate L|]). destruct bs; [|discriminate L]. reflexivity. }
    unfold pasta_set_bytes_wide. rewrite D0, D1. cbv zeta. apply rs.
    rewrite E, le_val_app, Ll, <- E0, <- E1. change (256 ^ Z.of_nat 32) with (2 ^ 256).
    pose proof pasta_m_pos as M.
    destruct (po_R2 _ _ HP) as [V2 X2]. destruct (po_R3 _ _ HP) as [V3 X3].
    assert (C2 : canonical m (fp_R2 (pf_params F))) by (split; [exact V2|rewrite X2; apply Z.mod_pos_bound; lia]).
    assert (C3 : canonical m (fp_R3 (pf_params F))) by (split; [exact V3|rewrite X3; apply Z.mod_pos_bound; lia]).
    assert (Rx : forall n, 0 <= n -> rel_prime m (2 ^ n)) by (intros n Hn; apply rel_prime_pow2; [exact (po_odd _ _ HP)|exact Hn]).
    apply (rep_add m _ HA).
    - destruct (ao_mul _ _ HA _ _ W0 C2) as [C [k K]]. split; [exact C|].
      apply (cong_cancel m (2 ^ 256)); [apply Rx; lia|]. apply cong_of_mont in K.
      apply (cong_trans _ _ _ _ K). rewrite X2.
      replace (val4 dlo * 2 ^ 256 * 2 ^ 256) with (val4 dlo * 2 ^ 512) by (change (2 ^ 512) with (2 ^ 256 * 2 ^ 256); ring).
      apply cong_mul; [apply cong_refl|apply cong_mod; lia].
    - destruct (ao_mul _ _ HA _ _ W1 C3) as [C [k K]]. split; [exact C|].
      apply (cong_cancel m (2 ^ 256)); [apply Rx; lia|]. apply cong_of_mont in K.
      apply (cong_trans _ _ _ _ K). rewrite X3.
      replace (2 ^ 256 * val4 dhi * 2 ^ 256 * 2 ^ 256) with (val4 dhi * 2 ^ 768)
        by (change (2 ^ 768) with (2 ^ 256 * 2 ^ 256 * 2 ^ 256); ring).
      apply cong_mul; [apply cong_refl|apply cong_mod; lia].
  Qed.
  (** SetBigInt reduces every integer, except those whose residue lies in the rejected block: there it
      leaves the receiver as it was *)
  Theorem C86_pasta_set_big_int f bi : let v := bi mod m in
    (~ (v / 2 ^ 64 = m / 2 ^ 64 /\ m - v >= 2 ^ 63) -> represents m (pasta_set_big_int F f bi) v) /\
    (v / 2 ^ 64 = m / 2 ^ 64 /\ m - v >= 2 ^ 63 -> pasta_set_big_int F f bi = f).
  Proof.
    cbv zeta. pose proof pasta_m_pos as M. unfold pasta_set_big_int. rewrite (po_B _ _ HP). cbv zeta.
    pose proof (Z.mod_pos_bound bi m ltac:(lia)) as R.
    unfold fill_be, reverse_scalar_bytes. rewrite rev_involutive.
    destruct (put_le_ok 32 (bi mod m)) as (E & B & L); [change (256 ^ Z.of_nat 32) with (2 ^ 256); lia|].
    destruct (limbs_of_bytes _ B L) as [WD ED]. rewrite E in ED.
    pose proof (C86_pasta_set_bytes_accepts _ _ _ _ _ B L WD (eq_trans E (eq_sym ED))) as A.
    pose proof (C86_pasta_set_bytes_value (put_le 32 (bi mod m))) as V.
    destruct (pasta_set_bytes F _) as [x|].
    - specialize (V x B L eq_refl). rewrite E, Z.mod_mod in V by lia. split; [intros _; exact V|].
      intros Q. exfalso. destruct A as [A _]. specialize (A ltac:(discriminate)). rewrite E in A.
      revert Q A ED R WD. generalize (bi mod m). clear - IN. intros v Q A ED R WD.
      destruct WD as (w0 & w1 & w2 & w3).
      set (f0 := get_uint64 (slice 0 8 _)) in *. set (f1 := get_uint64 (slice 8 16 _)) in *. set (f2 := get_uint64 (slice 16 24 _)) in *. set (f3 := get_uint64 (slice 24 32 _)) in *.
      assert (B62 : m < (2 ^ 62 * W + 1) * W * W) by (destruct IN as [E'|[E'|[]]]; injection E' as <- <-; vm_compute; reflexivity).
      assert (M1 : m / 2 ^ 64 = (m / 2 ^ 64) mod 2 ^ 64 + W * (W * 2 ^ 62)) by (destruct IN as [E'|[E'|[]]]; injection E' as <- <-; vm_compute; reflexivity).
      pose proof (Z.mod_pos_bound (m / 2 ^ 64) (2 ^ 64) ltac:(lia)) as MB.
      assert (EQ : v / 2 ^ 64 = f1 + W * (f2 + W * f3)).
      { rewrite <- ED. symmetry. apply Z.div_unique with f0; [left; exact w0|]. unfold val4. change (2 ^ 64) with W. ring. }
      clear IN. rewrite EQ in *. destruct Q as [Q1 Q2]. unfold val4, word in *. rewrite W_eq in *.
      change (2 ^ 62) with 4611686018427387904 in *. change (2 ^ 63) with 9223372036854775808 in *. change (2 ^ 64) with 18446744073709551616 in *.
      set (m1 := (m / 18446744073709551616) mod 18446744073709551616) in *. lia.
    - split; [|reflexivity]. intros N. exfalso. destruct A as [_ A]. apply A; [|reflexivity]. left. rewrite E. split; [lia|exact N].
  Qed.

  (** ** C87: comparisons *)
  Theorem C87_pasta_equal x y v w : represents m x v -> represents m y w -> pasta_equal x y = (v =? w).
  Proof.
    intros Hx Hy. pose proof Hx as ((Wx & _) & Hv & _). pose proof Hy as ((Wy & _) & Hw & _).
    rewrite pasta_equal_ok by assumption. pose proof (rep_inj m _ HP _ _ _ _ (rr _ _ Hx) (rr _ _ Hy)) as I.
    apply eq_true_iff_eq. rewrite !Z.eqb_eq. split; intros E.
    - apply (cong_small m); [assumption..|]. apply I, val4_inj; assumption.
    - f_equal. apply I. rewrite E. apply cong_refl.
  Qed.
  Theorem C87_pasta_is_zero_is_one x v : represents m x v -> pasta_is_zero x = (v =? 0) /\ pasta_is_one F x = (v =? 1).
  Proof.
    intros Hx. pose proof (C85_pasta_constants 0 true word0) as (H0 & H1 & _). split; [|apply C87_pasta_equal; assumption].
    rewrite <- (C87_pasta_equal x pasta_zero v 0 Hx H0). pose proof Hx as ((Wx & _) & _). pose proof H0 as ((W0 & _) & _).
    rewrite pasta_equal_ok, pasta_is_zero_ok by assumption. reflexivity.
  Qed.
  Theorem C87_pasta_is_odd x v : represents m x v -> pasta_is_odd F x = Z.odd v.
  Proof.
    intros H. destruct (rep_from _ _ _ HA HP x v (rr _ _ H)) as [[Wo _] E]. destruct H as (_ & Hv & _).
    rewrite Z.mod_small in E by exact Hv. unfold pasta_is_odd. destruct (fa_from_mont _ _) as [t0 t1 t2 t3]. subst v.
    destruct Wo as (w0 & _). unfold wand. change 1 with (Z.ones 1) at 1. rewrite Z.land_ones by lia. change (2 ^ 1) with 2.
    unfold val4. rewrite Zmod_odd. rewrite Z.odd_add, Z.odd_mul. rewrite W_eq. cbn [Z.odd andb]. rewrite xorb_false_r.
    destruct (Z.odd t0); reflexivity.
  Qed.
End Spec.

(** C86: the wrong cases, on both fields: an integer above the modulus is accepted as an element that
    encodes differently; the encoding of the element -2^63 is refused; and SetBigInt(-2^63) does nothing. *)
Theorem C86_pasta_encodings_refuted : forall F m, In (F, m) pasta_fields ->
  (exists bs x, is_bytes bs /\ length bs = 32%nat /\ m <= le_val bs /\ pasta_set_bytes F bs = Some x /\ pasta_bytes F x <> bs) /\
  (exists x, represents m x (m - 2 ^ 63) /\ pasta_set_bytes F (pasta_bytes F x) = None) /\
  (forall f, pasta_set_big_int F f (- 2 ^ 63) = f).
Proof.
  intros F m IN.
  assert (K : 2 ^ 63 + 1 < m /\ (m - 2 ^ 63) / 2 ^ 64 = m / 2 ^ 64 /\ m < 2 ^ 255)
    by (destruct IN as [E|[E|[]]]; injection E as <- <-; vm_compute; repeat split; reflexivity).
  destruct K as (K1 & K2 & K3).
  assert (P63 : 0 < 2 ^ 63) by reflexivity.
  assert (EM : (- 2 ^ 63) mod m = m - 2 ^ 63).
  { symmetry. apply Z.mod_unique with (-1); [left; lia|]. ring. }
  split; [|split].
  - set (bs := put_le 32 (2 ^ 256 - 1)).
    destruct (put_le_ok 32 (2 ^ 256 - 1)) as (E & B & L); [split; vm_compute; [discriminate|reflexivity]|].
    fold bs in E, B, L. destruct (limbs_of_bytes bs B L) as [WD ED].
    pose proof (C86_pasta_set_bytes_accepts F m IN _ _ _ _ bs B L WD (eq_sym ED)) as [_ A].
    destruct (pasta_set_bytes F bs) as [x|] eqn:S.
    + exists bs, x. split; [exact B|]. split; [exact L|]. assert (G : m <= le_val bs) by (rewrite E; change (2 ^ 256 - 1) with (2 * 2 ^ 255 - 1); lia).
      split; [exact G|]. split; [exact S|]. intros Q.
      pose proof (C86_pasta_set_bytes_value F m IN bs x B L S) as V.
      destruct (C86_pasta_bytes_is_the_value F m IN x _ V) as (_ & _ & E'). rewrite Q in E'.
      pose proof (Z.mod_pos_bound (le_val bs) m ltac:(lia)). lia.
    + exfalso. apply A; [|reflexivity]. right; left. vm_compute. reflexivity.
  - destruct (put_le_ok 32 (m - 2 ^ 63)) as (E & B & L); [change (256 ^ Z.of_nat 32) with (2 * 2 ^ 255); lia|].
    destruct (fields_ok F m IN) as (HA & HP & _).
    destruct (ao_from_bytes _ _ HA _ B L) as [Wx Ex].
    pose proof (rep_to _ _ _ HA HP _ Wx) as R. rewrite Ex, E in R. apply (rep_represents m _ HP) in R.
    rewrite Z.mod_small in R by lia. eexists. split; [exact R|].
    destruct (C86_pasta_bytes_is_the_value F m IN _ _ R) as (B' & L' & E').
    pose proof (le_val_inj _ _ B' B (eq_trans L' (eq_sym L)) (eq_trans E' (eq_sym E))) as E2. rewrite E2.
    destruct (limbs_of_bytes _ B L) as [WD ED]. rewrite E in ED.
    pose proof (C86_pasta_set_big_int F m IN pasta_zero (- 2 ^ 63)) as [_ _].
    pose proof (C86_pasta_set_bytes_accepts F m IN _ _ _ _ _ B L WD (eq_trans E (eq_sym ED))) as [A _].
    destruct (pasta_set_bytes F _) as [y|]; [exfalso|reflexivity]. specialize (A ltac:(discriminate)). rewrite E in A.
    clear - IN A. destruct IN as [Q|[Q|[]]]; injection Q as <- <-; vm_compute in A;
      destruct A as [[_ A]|[A|[[_ A]|[_ [_ A]]]]]; try discriminate A; apply A; (split; [reflexivity|intros HH; discriminate HH]).
  - intros f. apply (C86_pasta_set_big_int F m IN f (- 2 ^ 63)). rewrite EM. split; [exact K2|lia].
Qed.
(** C87: [Cmp] says 2^63+1 (as a stored array) is below 0 *)
Theorem C87_pasta_cmp_refuted : forall F m, In (F, m) pasta_fields ->
  (exists x y, canonical m x /\ canonical m y /\ val4 y < val4 x /\ pasta_cmp x y = -1) /\
  (forall x v, represents m x v -> pasta_cmp x x = 0).
Proof.
  intros F m IN. split.
  - exists (L4 0 0 (2 ^ 63 + 1) 0), (L4 0 0 0 0).
    destruct IN as [E|[E|[]]]; injection E as <- <-; (split; [|split; [|split]]);
      try (split; [apply words4_consts; vm_compute; reflexivity|vm_compute; reflexivity]); vm_compute; reflexivity.
  - intros x v ((Wx & _) & _). rewrite pasta_cmp_ok by assumption. destruct x as [x0 x1 x2 x3].
    unfold signed_first_limb_verdict, limb_verdict. rewrite !Z.eqb_refl. reflexivity.
Qed.

(** ** Concrete cases *)
Example C85_example : forall F m, In (F, m) pasta_fields ->
  represents m (pasta_mul F (pasta_set_uint64 F 3) (pasta_set_uint64 F 5)) 15 /\
  represents m (pasta_neg F (pasta_set_uint64 F 3)) (m - 3) /\
  pasta_set_bytes F (pasta_bytes F (pasta_set_uint64 F 3)) = Some (pasta_set_uint64 F 3).
Proof.
  intros F m IN.
  assert (M : 2 ^ 64 < m) by (destruct IN as [E|[E|[]]]; injection E as <- <-; vm_compute; reflexivity).
  change (2 ^ 64) with 18446744073709551616 in M.
  assert (W3 : word 3) by (unfold word; rewrite W_eq; lia). assert (W5 : word 5) by (unfold word; rewrite W_eq; lia).
  pose proof (C85_pasta_constants F m IN 3 true W3) as (_ & _ & H3 & _).
  pose proof (C85_pasta_constants F m IN 5 true W5) as (_ & _ & H5 & _).
  split; [|split].
  - pose proof (C85_pasta_mul F m IN _ _ _ _ H3 H5) as H. rewrite Z.mod_small in H by lia. exact H.
  - pose proof (C85_pasta_neg F m IN _ _ H3) as H. change (Z.opp 3) with (-3) in H. replace ((-3) mod m) with (m - 3) in H; [exact H|].
    apply Z.mod_unique with (-1); lia.
  - apply (C86_pasta_roundtrip_partial F m IN _ 3 H3). reflexivity.
Qed.
