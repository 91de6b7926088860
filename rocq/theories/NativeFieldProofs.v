(** * Helper lemmas: the generic field over any correct arithmetic. *)
From Coq Require Import ZArith Lia List Bool Znumtheory.
From Verif Require Import LimbBase LimbSpec LimbProofs LimbBlsProofs LimbBlsProofs2 LimbFiat NativeField ZCong.
Import ListNotations.
Open Scope Z_scope.

(** ** Comparison helpers *)
Lemma half_lt x y : 0 <= x < 2 ^ 32 -> 0 <= y < 2 ^ 32 ->
  wand (wshr (wsub x y) 32) 1 = if x <? y then 1 else 0.
Proof.
  intros Hx Hy. unfold wand, wshr, wsub. rewrite Z.shiftr_div_pow2 by lia.
  change (2 ^ 32) with 4294967296 in *.
  change 1 with (Z.ones 1) at 1. rewrite Z.land_ones by lia.
  destruct (Z.ltb_spec x y).
  - replace ((x - y) mod W) with (x - y + W).
    2: { apply Z.mod_unique with (-1); [left|]; rewrite W_eq; lia. }
    replace ((x - y + W) / 4294967296) with 4294967295.
    2: { apply Z.div_unique with (x - y + 4294967296); [left|]; rewrite ?W_eq; lia. }
    reflexivity.
  - rewrite (Z.mod_small (x - y)) by (rewrite W_eq; lia).
    rewrite Z.div_small by lia. reflexivity.
Qed.

Lemma halves x : word x -> 0 <= wshr x 32 < 2 ^ 32 /\ 0 <= wand x 4294967295 < 2 ^ 32 /\
  x = 2 ^ 32 * wshr x 32 + wand x 4294967295.
Proof.
  unfold word. intros H. unfold wshr, wand. change 4294967295 with (Z.ones 32).
  rewrite Z.land_ones, Z.shiftr_div_pow2 by lia.
  pose proof (Z.div_mod x (2 ^ 32) ltac:(lia)). pose proof (Z.mod_pos_bound x (2 ^ 32) ltac:(lia)).
  rewrite W_eq in H. change (2 ^ 32) with 4294967296 in *. lia.
Qed.

Definition cmp_state (c : comparison) : Z * Z := match c with Eq => (0, 0) | Gt => (1, 0) | Lt => (0, 1) end.

Lemma cmp_limb_ok c x y : word x -> word y ->
  cmp_limb (cmp_state c) x y = cmp_state (match c with Eq => x ?= y | _ => c end).
Proof.
  intros Hx Hy. destruct (halves x Hx) as (? & ? & Ex), (halves y Hy) as (? & ? & Ey).
  set (xh := wshr x 32) in *. set (xl := wand x 4294967295) in *.
  set (yh := wshr y 32) in *. set (yl := wand y 4294967295) in *.
  assert (L : forall b : bool, Z.lor 0 (Z.ldiff (if b then 1 else 0) 0) = (if b then 1 else 0)) by (intros []; reflexivity).
  unfold cmp_limb. fold xh xl yh yl.
  destruct c; cbn [cmp_state]; cbv zeta; rewrite !half_lt by assumption.
  - assert (E : (x ?= y) = match xh ?= yh with Eq => xl ?= yl | r => r end).
    { change (2 ^ 32) with 4294967296 in *.
      destruct (Z.compare_spec xh yh); [destruct (Z.compare_spec xl yl)|..];
        destruct (Z.compare_spec x y); try reflexivity; lia. }
    rewrite E. clearbody xh xl yh yl.
    destruct (Z.compare_spec xh yh) as [->|h|h].
    + rewrite Z.ltb_irrefl.
      destruct (Z.compare_spec xl yl) as [->|h|h].
      * rewrite Z.ltb_irrefl. reflexivity.
      * apply Z.ltb_lt in h as h'. rewrite h'. replace (yl <? xl) with false by (symmetry; apply Z.ltb_ge; lia). reflexivity.
      * apply Z.ltb_lt in h as h'. rewrite h'. replace (xl <? yl) with false by (symmetry; apply Z.ltb_ge; lia). reflexivity.
    + apply Z.ltb_lt in h as h'. rewrite h'. replace (yh <? xh) with false by (symmetry; apply Z.ltb_ge; lia).
      destruct (yl <? xl), (xl <? yl); reflexivity.
    + apply Z.ltb_lt in h as h'. rewrite h'. replace (xh <? yh) with false by (symmetry; apply Z.ltb_ge; lia).
      destruct (yl <? xl), (xl <? yl); reflexivity.
  - destruct (yh <? xh), (xh <? yh), (yl <? xl), (xl <? yl); reflexivity.
  - destruct (yh <? xh), (xh <? yh), (yl <? xl), (xl <? yl); reflexivity.
Qed.

Lemma cmp_helper_ok a b : words4 a -> words4 b ->
  cmp_helper a b = match val4 a ?= val4 b with Lt => -1 | Eq => 0 | Gt => 1 end.
Proof.
  destruct a as [a0 a1 a2 a3], b as [b0 b1 b2 b3].
  intros (h0&h1&h2&h3) (g0&g1&g2&g3). unfold cmp_helper. cbv zeta.
  change (0, 0) with (cmp_state Eq).
  rewrite !cmp_limb_ok by assumption.
  replace (val4 (L4 a0 a1 a2 a3) ?= val4 (L4 b0 b1 b2 b3)) with
    (match match match a3 ?= b3 with Eq => a2 ?= b2 | c => c end with Eq => a1 ?= b1 | c => c end with Eq => a0 ?= b0 | c => c end).
  - match goal with |- context [cmp_state ?c] => set (cc := c) end.
    replace (match match match a3 ?= b3 with Eq => a2 ?= b2 | Lt => Lt | Gt => Gt end with Eq => a1 ?= b1 | Lt => Lt | Gt => Gt end
      with Eq => a0 ?= b0 | Lt => Lt | Gt => Gt end) with cc.
    + destruct cc; reflexivity.
    + unfold cc. destruct (a3 ?= b3); [destruct (a2 ?= b2); [destruct (a1 ?= b1)|..]|..]; reflexivity.
  - unfold val4, word in *. rewrite W_eq in *.
    destruct (Z.compare_spec a3 b3); [destruct (Z.compare_spec a2 b2);
      [destruct (Z.compare_spec a1 b1); [destruct (Z.compare_spec a0 b0)|..]|..]|..];
    symmetry; rewrite ?Z.compare_eq_iff, ?Z.compare_lt_iff, ?Z.compare_gt_iff; lia.
Qed.

Lemma shr63_small x : 0 <= x < 2 ^ 63 -> Z.shiftr x 63 = 0.
Proof. intros H. rewrite Z.shiftr_div_pow2 by lia. apply Z.div_small. exact H. Qed.

Lemma neg_or_neg1 t : word t -> Z.shiftr (Z.lor (to_int64 t) (to_int64 (wneg t))) 63 = if t =? 0 then 0 else -1.
Proof.
  intros Ht. destruct (Z.eqb_spec t 0) as [->|N]; [reflexivity|].
  rewrite Z.shiftr_lor, !Z.shiftr_div_pow2 by lia.
  assert (E : wneg t = W - t).
  { unfold wneg. symmetry. apply Z.mod_unique with (-1); [left|]; unfold word in Ht; rewrite ?W_eq in *; lia. }
  rewrite E. unfold to_int64, word in *. rewrite W_eq in *. change (2 ^ 63) with 9223372036854775808.
  destruct (Z.ltb_spec t 9223372036854775808).
  - assert (t / 9223372036854775808 = 0) as -> by (apply Z.div_small; lia).
    destruct (Z.ltb_spec (18446744073709551616 - t) 9223372036854775808); [lia|].
    replace ((18446744073709551616 - t - 18446744073709551616) / 9223372036854775808) with (-1); [reflexivity|].
    apply Z.div_unique with (9223372036854775808 - t); [left|]; lia.
  - replace ((t - 18446744073709551616) / 9223372036854775808) with (-1).
    + rewrite Z.lor_m1_l. reflexivity.
    + apply Z.div_unique with (t - 9223372036854775808); [left|]; lia.
Qed.

Lemma all_zero_ok t : word t -> all_zero t = if t =? 0 then 1 else 0.
Proof. intros H. unfold all_zero. rewrite neg_or_neg1 by exact H. destruct (t =? 0); reflexivity. Qed.

Lemma nf_is_zero_ok a : words4 a -> nf_is_zero a = if val4 a =? 0 then 1 else 0.
Proof.
  destruct a as [a0 a1 a2 a3]. intros (?&?&?&?). unfold nf_is_zero. cbv zeta.
  destruct (or4 a0 a1 a2 a3) as [Wt Zt]; try assumption.
  rewrite all_zero_ok by exact Wt.
  destruct (Z.eqb_spec (wor (wor (wor a0 a1) a2) a3) 0) as [E|E];
    destruct (Z.eqb_spec (val4 (L4 a0 a1 a2 a3)) 0) as [E'|E']; try reflexivity; exfalso.
  - apply E'. apply Zt. exact E.
  - apply E. apply Zt. exact E'.
Qed.

Lemma nf_is_non_zero_ok a : words4 a -> nf_is_non_zero a = if val4 a =? 0 then 0 else 1.
Proof.
  destruct a as [a0 a1 a2 a3]. intros (?&?&?&?). unfold nf_is_non_zero. cbv zeta.
  destruct (or4 a0 a1 a2 a3) as [Wt Zt]; try assumption.
  rewrite neg_or_neg1 by exact Wt.
  destruct (Z.eqb_spec (wor (wor (wor a0 a1) a2) a3) 0) as [E|E];
    destruct (Z.eqb_spec (val4 (L4 a0 a1 a2 a3)) 0) as [E'|E']; try reflexivity; exfalso.
  - apply E'. apply Zt. exact E.
  - apply E. apply Zt. exact E'.
Qed.

Lemma equal_helper_ok a b : words4 a -> words4 b -> equal_helper a b = if val4 a =? val4 b then 1 else 0.
Proof.
  intros Ha Hb. pose proof (val4_inj a b Ha Hb) as INJ.
  destruct a as [a0 a1 a2 a3], b as [b0 b1 b2 b3].
  destruct Ha as (?&?&?&?), Hb as (?&?&?&?). unfold equal_helper. cbv zeta.
  assert (X : forall x y, word x -> word y -> word (wxor x y)) by (intros; apply wxor_word; assumption).
  destruct (or4 (wxor a0 b0) (wxor a1 b1) (wxor a2 b2) (wxor a3 b3)) as [Wt Zt]; try (apply X; assumption).
  rewrite all_zero_ok by exact Wt.
  match goal with |- context [?t =? 0] => destruct (Z.eqb_spec t 0) as [E|E] end;
    match goal with |- context [?t =? ?u] => destruct (Z.eqb_spec t u) as [E'|E'] end; try reflexivity; exfalso.
  - apply E'. apply Zt in E. unfold val4 in E.
    assert (F : wxor a0 b0 = 0 /\ wxor a1 b1 = 0 /\ wxor a2 b2 = 0 /\ wxor a3 b3 = 0).
    { pose proof (X a0 b0). pose proof (X a1 b1). pose proof (X a2 b2). pose proof (X a3 b3).
      unfold word in *. rewrite W_eq in *. lia. }
    destruct F as (F0 & F1 & F2 & F3). unfold wxor in *.
    apply Z.lxor_eq in F0, F1, F2, F3. subst. reflexivity.
  - apply E. apply Zt. apply INJ in E'. injection E' as -> -> -> ->.
    unfold val4, wxor. rewrite !Z.lxor_nilpotent. reflexivity.
Qed.

(** ** Correct arithmetic, correct parameters *)
Record arith_ok (m : Z) (A : field_arith) : Prop := {
  ao_mul : forall a b, words4 a -> canonical m b ->
    canonical m (fa_mul A a b) /\ exists k, val4 (fa_mul A a b) * W ^ 4 = val4 a * val4 b + k * m;
  ao_square : forall a, canonical m a ->
    canonical m (fa_square A a) /\ exists k, val4 (fa_square A a) * W ^ 4 = val4 a * val4 a + k * m;
  ao_from : forall a, words4 a ->
    canonical m (fa_from_mont A a) /\ exists k, val4 (fa_from_mont A a) * W ^ 4 = val4 a + k * m;
  ao_to : forall a, words4 a ->
    canonical m (fa_to_mont A a) /\ exists k, val4 (fa_to_mont A a) * W ^ 4 = val4 a * (2 ^ 512 mod m) + k * m;
  ao_add : forall a b, canonical m a -> canonical m b ->
    canonical m (fa_add A a b) /\ exists k, val4 (fa_add A a b) = val4 a + val4 b + k * m;
  ao_sub : forall a b, canonical m a -> canonical m b ->
    canonical m (fa_sub A a b) /\ exists k, val4 (fa_sub A a b) = val4 a - val4 b + k * m;
  ao_from_bytes : forall bs, is_bytes bs -> length bs = 32%nat ->
    words4 (fa_from_bytes A bs) /\ val4 (fa_from_bytes A bs) = le_val bs;
  ao_to_bytes : forall a, words4 a ->
    le_val (fa_to_bytes A a) = val4 a /\ is_bytes (fa_to_bytes A a) /\ length (fa_to_bytes A a) = 32%nat;
  ao_select : forall a b c, words4 a -> words4 b -> 0 <= c <= 1 ->
    fa_selectznz A a b c = if c =? 0 then a else b }.

Record params_ok (m : Z) (P : field_params) : Prop := {
  po_R : words4 (fp_R P) /\ val4 (fp_R P) = 2 ^ 256 mod m;
  po_R2 : words4 (fp_R2 P) /\ val4 (fp_R2 P) = 2 ^ 512 mod m;
  po_R3 : words4 (fp_R3 P) /\ val4 (fp_R3 P) = 2 ^ 768 mod m;
  po_M : words4 (fp_Modulus P) /\ val4 (fp_Modulus P) = m;
  po_B : fp_BiModulus P = m;
  po_odd : Z.odd m = true;
  po_big : 1 < m < 2 ^ 256 }.

(** [x] is a canonical array in the class of v * 2^256, for any integer v. *)
Definition rep (m : Z) (x : limbs4) (v : Z) : Prop := canonical m x /\ cong m (val4 x) (v * 2 ^ 256).

Lemma W4 : W ^ 4 = 2 ^ 256.
Proof. reflexivity. Qed.

(** powers that no tactic may compute *)
Definition pw (v e : Z) : Z := v ^ e.
Lemma pw_add v a b : 0 <= a -> 0 <= b -> pw v (a + b) = pw v a * pw v b.
Proof. intros. apply Z.pow_add_r; assumption. Qed.
Lemma pw_1 v : pw v 1 = v.
Proof. apply Z.pow_1_r. Qed.
Lemma pw_0 v : pw v 0 = 1.
Proof. reflexivity. Qed.
Lemma pw_mul v a b : 0 <= a -> 0 <= b -> pw (pw v a) b = pw v (a * b).
Proof. intros. symmetry. apply Z.pow_mul_r; assumption. Qed.
Global Opaque pw.

Section Generic.
  Variables (m : Z) (A : field_arith) (P : field_params).
  Hypothesis HA : arith_ok m A.
  Hypothesis HP : params_ok m P.

  Let R := 2 ^ 256.
  Local Lemma m_pos : 0 < m.
  Proof. destruct (po_big _ _ HP). lia. Qed.
  Local Lemma m_R n : 0 <= n -> rel_prime m (2 ^ n).
  Proof. apply rel_prime_pow2, (po_odd _ _ HP). Qed.

  Lemma rep_canonical x v : rep m x v -> canonical m x.
  Proof. intros [C _]. exact C. Qed.
  Lemma rep_words x v : rep m x v -> words4 x.
  Proof. intros [[C _] _]. exact C. Qed.

  Lemma rep_cong x v w : cong m v w -> rep m x v -> rep m x w.
  Proof.
    intros E [C D]. split; [exact C|]. apply cong_trans with (v * 2 ^ 256); [exact D|].
    apply cong_mul; [exact E|apply cong_refl].
  Qed.

  Lemma rep_represents x v : rep m x v -> represents m x (v mod m).
  Proof.
    intros [C D]. pose proof m_pos as HM. split; [exact C|]. split; [apply Z.mod_pos_bound, HM|].
    destruct C as [Wx Lx]. pose proof (val4_range x Wx).
    rewrite <- (Z.mod_small (val4 x) m) by lia. apply cong_mod_eq; [exact HM|].
    apply cong_trans with (v * 2 ^ 256); [exact D|]. apply cong_mul; [|apply cong_refl].
    apply cong_sym, cong_mod, HM.
  Qed.
  Lemma represents_rep x v : represents m x v -> rep m x v.
  Proof.
    intros (C & Hv & E). split; [exact C|]. rewrite E. apply cong_mod, m_pos.
  Qed.
  (** two elements of the same class are the same limbs *)
  Lemma rep_inj x y v w : rep m x v -> rep m y w -> (x = y <-> cong m v w).
  Proof.
    intros [[Wx Lx] Dx] [[Wy Ly] Dy]. split.
    - intros ->. apply (cong_cancel m (2 ^ 256)); [apply m_R; lia|].
      apply cong_trans with (val4 y); [apply cong_sym; exact Dx|exact Dy].
    - intros E. apply val4_inj; try assumption.
      pose proof (val4_range x Wx). pose proof (val4_range y Wy).
      apply (cong_small m); [lia|lia|].
      apply cong_trans with (v * 2 ^ 256); [exact Dx|].
      apply cong_trans with (w * 2 ^ 256); [apply cong_mul; [exact E|apply cong_refl]|].
      apply cong_sym. exact Dy.
  Qed.

  Lemma cong_of_mont x y k : x * W ^ 4 = y + k * m -> cong m (x * 2 ^ 256) y.
  Proof. intros E. rewrite W4 in E. rewrite E. apply cong_add_m. Qed.

  Lemma rep_mul x y v w : rep m x v -> rep m y w -> rep m (fa_mul A x y) (v * w).
  Proof.
    intros [[Wx Lx] Dx] [Cy Dy]. destruct (ao_mul _ _ HA x y Wx Cy) as [C [k E]].
    split; [exact C|]. apply (cong_cancel m (2 ^ 256)); [apply m_R; lia|].
    apply cong_of_mont in E. apply (cong_trans _ _ _ _ E).
    replace (v * w * 2 ^ 256 * 2 ^ 256) with ((v * 2 ^ 256) * (w * 2 ^ 256)) by ring.
    apply cong_mul; assumption.
  Qed.
  Lemma rep_square x v : rep m x v -> rep m (fa_square A x) (v * v).
  Proof.
    intros [Cx Dx]. destruct (ao_square _ _ HA x Cx) as [C [k E]].
    split; [exact C|]. apply (cong_cancel m (2 ^ 256)); [apply m_R; lia|].
    apply cong_of_mont in E. apply (cong_trans _ _ _ _ E).
    replace (v * v * 2 ^ 256 * 2 ^ 256) with ((v * 2 ^ 256) * (v * 2 ^ 256)) by ring.
    apply cong_mul; assumption.
  Qed.
  Lemma rep_add x y v w : rep m x v -> rep m y w -> rep m (fa_add A x y) (v + w).
  Proof.
    intros [Cx Dx] [Cy Dy]. destruct (ao_add _ _ HA x y Cx Cy) as [C [k E]].
    split; [exact C|]. rewrite E. apply (cong_trans _ _ (val4 x + val4 y)); [apply cong_add_m|].
    rewrite Z.mul_add_distr_r. apply cong_add; assumption.
  Qed.
  Lemma rep_sub x y v w : rep m x v -> rep m y w -> rep m (fa_sub A x y) (v - w).
  Proof.
    intros [Cx Dx] [Cy Dy]. destruct (ao_sub _ _ HA x y Cx Cy) as [C [k E]].
    split; [exact C|]. rewrite E. apply (cong_trans _ _ (val4 x - val4 y)); [apply cong_add_m|].
    rewrite Z.mul_sub_distr_r. apply cong_sub; assumption.
  Qed.
  Lemma rep_to x : words4 x -> rep m (fa_to_mont A x) (val4 x).
  Proof.
    intros Wx. destruct (ao_to _ _ HA x Wx) as [C [k E]].
    split; [exact C|]. apply (cong_cancel m (2 ^ 256)); [apply m_R; lia|].
    apply cong_of_mont in E. apply (cong_trans _ _ _ _ E).
    replace (val4 x * 2 ^ 256 * 2 ^ 256) with (val4 x * 2 ^ 512).
    - apply cong_mul; [apply cong_refl|apply cong_mod, m_pos].
    - change (2 ^ 512) with (2 ^ 256 * 2 ^ 256). ring.
  Qed.
  (** FromMontgomery of an element gives its value *)
  Lemma rep_from x v : rep m x v -> canonical m (fa_from_mont A x) /\ val4 (fa_from_mont A x) = v mod m.
  Proof.
    intros [[Wx Lx] Dx]. destruct (ao_from _ _ HA x Wx) as [[Wo Lo] [k E]].
    split; [split; assumption|]. apply cong_of_mont in E.
    pose proof (val4_range _ Wo). pose proof m_pos.
    apply (cong_small m); [lia|apply Z.mod_pos_bound; lia|].
    apply (cong_cancel m (2 ^ 256)); [apply m_R; lia|].
    apply (cong_trans _ _ _ _ E). apply (cong_trans _ _ _ _ Dx).
    apply cong_mul; [apply cong_sym, cong_mod; lia|apply cong_refl].
  Qed.
  Lemma rep_one : rep m (fp_R P) 1.
  Proof.
    destruct (po_R _ _ HP) as [W' E]. pose proof m_pos. split; [split; [exact W'|]|].
    - rewrite E. apply Z.mod_pos_bound. lia.
    - rewrite E, Z.mul_1_l. apply cong_mod. lia.
  Qed.
  Lemma rep_zero : rep m (L4 0 0 0 0) 0.
  Proof.
    pose proof m_pos. split; [split|].
    - cbn. unfold word. rewrite W_eq. lia.
    - cbn. lia.
    - apply cong_refl.
  Qed.

  Lemma rep_square_times n : forall x v, rep m x v -> rep m (square_times A n x) (pw v (2 ^ Z.of_nat n)).
  Proof.
    induction n as [|n IH]; intros x v H.
    - rewrite Z.pow_0_r, pw_1. exact H.
    - cbn [square_times]. apply rep_square in H. apply IH in H.
      rewrite Nat2Z.inj_succ, Z.pow_succ_r by lia.
      replace (v * v) with (pw v 2) in H; [rewrite pw_mul in H by lia; exact H|].
      change 2 with (1 + 1) at 1. rewrite pw_add, pw_1 by lia. reflexivity.
  Qed.
  Lemma rep_pow2k n x v : rep m x v -> rep m (pow2k A x n) (pw v (2 ^ Z.of_nat n)).
  Proof. apply rep_square_times. Qed.

  (** one step of square and multiply *)
  Lemma to_int64_bit e j : word e -> 0 <= j < 64 -> Z.land (to_int64 (wshr e j)) 1 = if Z.testbit e j then 1 else 0.
  Proof.
    intros He Hj. change 1 with (Z.ones 1) at 1. rewrite Z.land_ones by lia.
    assert (Q : (to_int64 (wshr e j)) mod 2 ^ 1 = (wshr e j) mod 2 ^ 1).
    { unfold to_int64. destruct (_ <? _); [reflexivity|].
      change (2 ^ 1) with 2. replace (wshr e j - W) with (wshr e j + (- 2 ^ 63) * 2) by (rewrite W_eq; change (2^63) with 9223372036854775808; lia).
      apply Z.mod_add. lia. }
    rewrite Q. unfold wshr. rewrite Z.shiftr_div_pow2 by lia. change (2 ^ 1) with 2.
    rewrite <- (Z.testbit_spec' e j) by lia. destruct (Z.testbit e j); reflexivity.
  Qed.

  Lemma rep_pow_bit base v e j res E : word e -> 0 <= j < 64 -> 0 <= E ->
    rep m base v -> rep m res (pw v E) ->
    rep m (pow_bit A base e res j) (pw v (2 * E + (if Z.testbit e j then 1 else 0))).
  Proof.
    intros He Hj HE Hb Hr. unfold pow_bit.
    rewrite to_int64_bit by assumption.
    apply rep_square in Hr. rewrite <- pw_add in Hr by assumption.
    pose proof (rep_mul _ _ _ _ Hr Hb) as Hm.
    rewrite (ao_select _ _ HA) by (try (eapply rep_words; eassumption); destruct (Z.testbit e j); lia).
    destruct (Z.testbit e j); cbn [Z.eqb Pos.eqb].
    - rewrite <- (pw_1 v) in Hm at 2. rewrite <- pw_add in Hm by lia.
      replace (2 * E + 1) with (E + E + 1) by lia. exact Hm.
    - replace (2 * E + 0) with (E + E) by lia. exact Hr.
  Qed.

  Lemma rep_pow_limb_from base v e : word e -> rep m base v -> forall n res E, (n <= 64)%nat -> 0 <= E ->
    rep m res (pw v E) ->
    rep m (fold_left (pow_bit A base e) (map Z.of_nat (rev (seq 0 n))) res)
      (pw v (2 ^ Z.of_nat n * E + e mod 2 ^ Z.of_nat n)).
  Proof.
    intros He Hb. induction n as [|n IH]; intros res E Hn HE Hr.
    - cbn [seq rev map fold_left]. rewrite Z.pow_0_r, Z.mod_1_r.
      replace (1 * E + 0) with E by lia. exact Hr.
    - rewrite seq_S, rev_app_distr. cbn [rev app map fold_left plus].
      pose proof (rep_pow_bit base v e (Z.of_nat n) res E He ltac:(lia) HE Hb Hr) as Hs.
      apply IH in Hs; [|lia|destruct (Z.testbit e _); lia].
      match type of Hs with rep _ _ (pw _ ?x) => match goal with |- rep _ _ (pw _ ?y) =>
        replace y with x; [exact Hs|] end end.
      rewrite Nat2Z.inj_succ, Z.pow_succ_r by lia.
      pose proof (Z.testbit_spec' e (Z.of_nat n) ltac:(lia)) as TB.
      assert (MM : e mod (2 * 2 ^ Z.of_nat n) = 2 ^ Z.of_nat n * ((e / 2 ^ Z.of_nat n) mod 2) + e mod 2 ^ Z.of_nat n).
      { rewrite Z.mul_comm, Z.rem_mul_r; lia. }
      rewrite MM, <- TB. destruct (Z.testbit e (Z.of_nat n)); cbn [Z.b2z]; ring.
  Qed.
  Lemma rep_pow_limb base v e res E : word e -> 0 <= E -> rep m base v -> rep m res (pw v E) ->
    rep m (pow_limb A base res e) (pw v (W * E + e)).
  Proof.
    intros He HE Hb Hr. unfold pow_limb, down64.
    pose proof (rep_pow_limb_from base v e He Hb 64 res E (le_n 64) HE Hr) as H.
    change (2 ^ Z.of_nat 64) with W in H. rewrite (Z.mod_small e W) in H by exact He. exact H.
  Qed.
  Lemma rep_pow base v e : words4 e -> rep m base v -> rep m (nf_pow P A base e) (pw v (val4 e)).
  Proof.
    destruct e as [e0 e1 e2 e3]. intros (h0&h1&h2&h3) Hb. unfold nf_pow. cbn [fold_left].
    pose proof rep_one as H. rewrite <- (pw_0 v) in H.
    assert (Wp : 0 < W) by (rewrite W_eq; lia).
    apply (rep_pow_limb base v e3) in H; [|assumption|lia|assumption].
    apply (rep_pow_limb base v e2) in H; [|assumption|unfold word in *; nia|assumption].
    apply (rep_pow_limb base v e1) in H; [|assumption|unfold word in *; nia|assumption].
    apply (rep_pow_limb base v e0) in H; [|assumption|unfold word in *; rewrite W_eq in *; lia|assumption].
    match type of H with rep _ _ (pw _ ?x) => replace x with (val4 (L4 e0 e1 e2 e3)) in H; [exact H|] end.
    unfold val4. ring.
  Qed.
End Generic.
