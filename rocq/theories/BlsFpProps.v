(** * Properties of the BLS12-381 base field (bls12381/fp.go), down to the limbs.

    [represents6 m x v] is in LimbSpec.v: [x] is the reduced array of six 64-bit words
    standing for the integer [v], as v*2^384 mod m. *)
From Coq Require Import ZArith Lia List Bool Znumtheory.
From Verif Require Import LimbBase LimbSpec LimbProofs LimbBls LimbBlsProofs LimbBlsProofs2 LimbFiat
  NativeField NativeFieldProofs NativeArithProofs NativePowProofs ZCong BlsFp BlsFpProofs PrimeBlsP.
Import ListNotations.
Open Scope Z_scope.

(** the order of the base field of BLS12-381 *)
Definition bls_p : Z := 0x1a0111ea397fe69a4b1ba7b6434bacd764774b84f38512bf6730d2a0f6b0f6241eabfffeb153ffffb9feffffffffaaab.
Notation "x '|->' v" := (represents6 bls_p x v) (at level 70).

Local Lemma fpM_p : fpM = bls_p.
Proof. vm_compute. reflexivity. Qed.
Local Lemma pM : 1 < bls_p.
Proof. reflexivity. Qed.
Local Lemma primeM : prime fpM.
Proof. rewrite fpM_p. exact bls_p_prime. Qed.
Local Lemma rr x v : x |-> v -> rep6 x v.
Proof. rewrite <- fpM_p. apply represents_rep6. Qed.
Local Lemma rs x v : rep6 x v -> x |-> v mod bls_p.
Proof. rewrite <- fpM_p. apply rep6_represents. Qed.
Local Lemma rs' x v : 0 <= v < bls_p -> rep6 x v -> x |-> v.
Proof. intros H R. apply rs in R. rewrite Z.mod_small in R by exact H. exact R. Qed.
Local Lemma rg x v : x |-> v -> 0 <= v < bls_p.
Proof. intros (_ & _ & H & _). exact H. Qed.

(** ** C79: arithmetic *)
Theorem C79_add x y v w : x |-> v -> y |-> w -> fp_add x y |-> (v + w) mod bls_p.
Proof. intros Hx Hy. apply rs, rep6_add; apply rr; assumption. Qed.
Theorem C79_double x v : x |-> v -> blsfp_double x |-> (2 * v) mod bls_p.
Proof. intros Hx. apply rs. replace (2 * v) with (v + v) by ring. apply rep6_add; apply rr; assumption. Qed.
Theorem C79_sub x y v w : x |-> v -> y |-> w -> fp_sub x y |-> (v - w) mod bls_p.
Proof. intros Hx Hy. apply rs, rep6_sub; apply rr; assumption. Qed.
Theorem C79_neg x v : x |-> v -> fp_neg x |-> (- v) mod bls_p.
Proof. intros Hx. apply rs, rep6_neg, rr, Hx. Qed.
Theorem C79_mul x y v w : x |-> v -> y |-> w -> fp_mul x y |-> (v * w) mod bls_p.
Proof. intros Hx Hy. apply rs, rep6_mul; apply rr; assumption. Qed.
Theorem C79_square x v : x |-> v -> fp_square x |-> (v * v) mod bls_p.
Proof. intros Hx. apply rs, rep6_square, rr, Hx. Qed.
(** the curve is y^2 = x^3 + 4, so 3b is 12 *)
Theorem C79_mul_by_3b x v : x |-> v -> blsfp_mul_by_3b x |-> (12 * v) mod bls_p.
Proof.
  intros Hx. apply rs. unfold blsfp_mul_by_3b, blsfp_double. cbv zeta. apply rr in Hx.
  pose proof (rep6_add _ _ _ _ Hx Hx) as H2. pose proof (rep6_add _ _ _ _ H2 H2) as H4.
  pose proof (rep6_add _ _ _ _ H4 H4) as H8. pose proof (rep6_add _ _ _ _ H8 H4) as H12.
  replace (12 * v) with (v + v + (v + v) + (v + v + (v + v)) + (v + v + (v + v))) by ring. exact H12.
Qed.
Theorem C79_constants u l : word u -> words6 l ->
  blsfp_zero |-> 0 /\ blsfp_one |-> 1 /\ blsfp_set_uint64 u |-> u /\ blsfp_set_limbs l |-> val6 l mod bls_p.
Proof.
  intros Hu Hl. pose proof pM as M. split; [apply rs'; [lia|apply rep6_zero]|].
  split; [apply rs'; [lia|apply rep6_one]|]. split; [|apply rs, mul_r2, Hl].
  apply rs'.
  - assert (W < bls_p) by (vm_compute; reflexivity). unfold word in Hu. lia.
  - assert (Wx : words6 (L6 u 0 0 0 0 0)) by (cbn; pose proof word0; tauto).
    pose proof (mul_r2 _ Wx) as R. replace (val6 (L6 u 0 0 0 0 0)) with u in R by (unfold val6; ring). exact R.
Qed.
Theorem C79_cmove x y : words6 x -> words6 y -> blsfp_cmove x y 0 = x /\ blsfp_cmove x y 1 = y.
Proof. intros Hx Hy. split; rewrite blsfp_cmove_ok by (assumption || lia); reflexivity. Qed.
(** CNeg negates when asked; when not asked it gives back the receiver's old value, so it is a
    conditional negation only when receiver and argument are the same *)
Theorem C79_cneg f x v : words6 f -> x |-> v ->
  blsfp_cneg f x 1 |-> (- v) mod bls_p /\ blsfp_cneg f x 0 = f /\ blsfp_cneg x x 0 = x.
Proof.
  intros Hf Hx. pose proof (C79_neg x v Hx) as (Wn & _). pose proof Hx as (Wx & _). unfold blsfp_cneg.
  rewrite !blsfp_cmove_ok by (assumption || lia). split; [apply C79_neg, Hx|split; reflexivity].
Qed.
Theorem C79_exp x e v k : x |-> v -> e |-> k -> blsfp_exp x e |-> (v ^ k) mod bls_p.
Proof.
  intros Hx He. destruct (rep6_from e k (rr _ _ He)) as [We E]. pose proof (rg _ _ He) as Hk.
  rewrite fpM_p, Z.mod_small in E by exact Hk. apply rs. unfold blsfp_exp. rewrite <- E. apply rep6_pow; [exact We|apply rr, Hx].
Qed.
Theorem C79_pow x e v : x |-> v -> words6 e -> blsfp_pow x e |-> (v ^ val6 e) mod bls_p.
Proof. intros Hx He. apply rs, rep6_pow; [exact He|apply rr, Hx]. Qed.

(** ** C79: tests *)
Theorem C79_equal x y v w : x |-> v -> y |-> w -> blsfp_equal x y = if v =? w then 1 else 0.
Proof.
  intros Hx Hy. pose proof (rg _ _ Hx). pose proof (rg _ _ Hy).
  destruct (rep6_equal x y v w (rr _ _ Hx) (rr _ _ Hy)) as [[E C]|[E C]]; rewrite E, fpM_p in *; destruct (Z.eqb_spec v w) as [Q|Q]; try reflexivity.
  - exfalso. apply Q, (cong_small bls_p); assumption.
  - exfalso. apply C. rewrite Q. apply cong_refl.
Qed.
Theorem C79_is_zero_is_one x v : x |-> v ->
  blsfp_is_zero x = (if v =? 0 then 1 else 0) /\ blsfp_is_non_zero x = (if v =? 0 then 0 else 1) /\
  blsfp_is_one x = (if v =? 1 then 1 else 0).
Proof.
  intros Hx. pose proof (C79_constants 0 blsfp_zero word0 words6_0) as (H0 & H1 & _).
  pose proof (C79_equal _ _ _ _ Hx H0) as E. pose proof Hx as (Wx & _).
  rewrite blsfp_equal_ok in E by (assumption || apply words6_0). change (val6 blsfp_zero) with 0 in E.
  rewrite blsfp_is_zero_ok, blsfp_is_non_zero_ok by exact Wx.
  split; [exact E|]. split; [destruct (val6 x =? 0), (v =? 0); congruence || discriminate|]. apply C79_equal; assumption.
Qed.
(** Cmp compares the stored arrays, which is a total order but not that of the integers *)
Theorem C79_cmp x y v w : x |-> v -> y |-> w ->
  blsfp_cmp x y = match (v * 2 ^ 384) mod bls_p ?= (w * 2 ^ 384) mod bls_p with Lt => -1 | Eq => 0 | Gt => 1 end.
Proof. intros (Wx & _ & _ & Ex) (Wy & _ & _ & Ey). rewrite blsfp_cmp_ok by assumption. rewrite Ex, Ey. reflexivity. Qed.
Theorem C79_cmp_is_not_the_numeric_order_refuted :
  exists x y v w, x |-> v /\ y |-> w /\ w < v /\ blsfp_cmp x y = -1.
Proof.
  pose proof pM as M. set (v := val6 (blsfp_from_mont (L6 1 0 0 0 0 0))).
  assert (R : L6 1 0 0 0 0 0 |-> v).
  { split; [apply words6_consts; vm_compute; reflexivity|]. split; [vm_compute; reflexivity|].
    split; [split; vm_compute; [discriminate|reflexivity]|vm_compute; reflexivity]. }
  exists (L6 1 0 0 0 0 0), blsfp_one, v, 1. split; [exact R|].
  split; [apply rs'; [lia|apply rep6_one]|]. split; vm_compute; reflexivity.
Qed.
(** 1 exactly for the larger of v and its negative *)
Theorem C79_lexicographically_largest x v : x |-> v ->
  blsfp_lex_largest x = if (bls_p - v) mod bls_p <? v then 1 else 0.
Proof.
  intros Hx. destruct (rep6_from x v (rr _ _ Hx)) as [Wo E]. pose proof (rg _ _ Hx) as Hv. rewrite fpM_p, Z.mod_small in E by exact Hv.
  unfold blsfp_lex_largest. rewrite blsfp_borrow_ok; [|exact Wo|apply words6_consts; vm_compute; reflexivity].
  rewrite E. assert (H : 2 * val6 fp_half_modulus = bls_p + 1) by (vm_compute; reflexivity).
  replace ((bls_p - v) mod bls_p) with (if v =? 0 then 0 else bls_p - v).
  - destruct (Z.eqb_spec v 0); destruct (Z.ltb_spec v (val6 fp_half_modulus)); [change (1 - 1) with 0|change (0 - 1) with (-1)..|change (0 - 1) with (-1)];
      match goal with |- context [?a <? ?b] => destruct (Z.ltb_spec a b) end; reflexivity || (exfalso; lia).
  - destruct (Z.eqb_spec v 0) as [->|N]; [rewrite Z.sub_0_r, Z_mod_same_full; reflexivity|].
    symmetry. apply Z.mod_small. lia.
Qed.
Theorem C79_sgn0_is_the_parity x v : x |-> v -> blsfp_sgn0 x = v mod 2.
Proof.
  intros Hx. destruct (rep6_from x v (rr _ _ Hx)) as [Wo E]. pose proof (rg _ _ Hx) as Hv. rewrite fpM_p, Z.mod_small in E by exact Hv.
  unfold blsfp_sgn0. destruct (blsfp_from_mont x) as [t0 t1 t2 t3 t4 t5]. subst v.
  unfold wand. change 1 with (Z.ones 1). rewrite Z.land_ones by lia. change (2 ^ 1) with 2.
  unfold val6. rewrite W_eq.
  set (q := t1 + _). replace (t0 + 18446744073709551616 * q) with (t0 + (9223372036854775808 * q) * 2) by ring.
  rewrite Z.mod_add by lia. reflexivity.
Qed.

(** ** C79: inverses and roots *)
(** inverse of every non-zero element; zero gives (0, 0) *)
Theorem C79_invert x v : x |-> v ->
  (v = 0 -> blsfp_invert x = (x, 0)) /\
  (v <> 0 -> exists r w, blsfp_invert x = (r, 1) /\ r |-> w /\ (v * w) mod bls_p = 1).
Proof.
  intros Hx. pose proof pM as M. pose proof (rr _ _ Hx) as Rx. pose proof (rg _ _ Hx) as Hv. pose proof Hx as (Wx & _).
  assert (WE : words6 blsfp_inv_exp) by (apply words6_consts; vm_compute; reflexivity).
  pose proof (rep6_pow x v _ WE Rx) as Rp. replace (val6 blsfp_inv_exp) with (bls_p - 2) in Rp by (vm_compute; reflexivity).
  unfold blsfp_invert. destruct (C79_is_zero_is_one x v Hx) as (_ & NZ & _). rewrite NZ.
  rewrite blsfp_cmove_ok; [|exact Wx|eapply rep6_words; exact Rp|destruct (v =? 0); lia].
  split.
  - intros ->. reflexivity.
  - intros N. destruct (Z.eqb_spec v 0) as [|_]; [contradiction|]. change (1 =? 0) with false. cbv iota.
    exists (blsfp_pow x blsfp_inv_exp), (pw v (bls_p - 2) mod bls_p). split; [reflexivity|]. split; [apply rs, Rp|].
    assert (ND : ~ (bls_p | v)) by (intros [k Hk]; assert (k = 0) by nia; subst k; lia).
    rewrite Z.mul_mod_idemp_r by lia. rewrite <- (Z.mod_small 1 bls_p) by lia. apply cong_mod_eq; [lia|].
    pose proof (pw_fermat bls_p v bls_p_prime ND) as FE. replace (bls_p - 1) with (1 + (bls_p - 2)) in FE by lia.
    assert (0 <= bls_p - 2) by (vm_compute; discriminate).
    rewrite pw_add, pw_1 in FE by lia. exact FE.
Qed.
(** a root of every square; for a non-square the receiver keeps its value and the flag is 0 *)
Theorem C79_sqrt f x v : words6 f -> x |-> v ->
  ((exists y, (y * y) mod bls_p = v) -> exists r w, blsfp_sqrt f x = (r, 1) /\ r |-> w /\ (w * w) mod bls_p = v) /\
  (~ (exists y, (y * y) mod bls_p = v) -> blsfp_sqrt f x = (f, 0)).
Proof.
  intros Hf Hx. pose proof pM as M. pose proof (rr _ _ Hx) as Rx. pose proof (rg _ _ Hx) as Hv.
  assert (WE : words6 blsfp_sqrt_exp) by (apply words6_consts; vm_compute; reflexivity).
  pose proof (rep6_pow x v _ WE Rx) as Rp.
  pose proof (rep6_square _ _ Rp) as Rq.
  unfold blsfp_sqrt. cbv zeta.
  assert (Q : forall u, cong bls_p (u * u) v <-> (u * u) mod bls_p = v).
  { intros u. split; intros E.
    - rewrite <- (Z.mod_small v bls_p) by exact Hv. apply cong_mod_eq; [lia|exact E].
    - rewrite <- E. apply cong_sym, cong_mod. lia. }
  destruct (rep6_equal _ _ _ _ Rq Rx) as [[E C]|[E C]]; rewrite E; rewrite fpM_p in C;
    (rewrite blsfp_cmove_ok; [|exact Hf|eapply rep6_words; exact Rp|lia]).
  - change (1 =? 0) with false. cbv iota. apply Q in C. split.
    + intros _. exists (blsfp_pow x blsfp_sqrt_exp), (pw v (val6 blsfp_sqrt_exp) mod bls_p).
      split; [reflexivity|]. split; [apply rs, Rp|]. rewrite <- Zmult_mod. exact C.
    + intros N. exfalso. apply N. eexists. exact C.
  - split; [|intros _; reflexivity]. intros [y Hy]. exfalso. apply C. apply Q in Hy.
    assert (K : 0 <= val6 blsfp_sqrt_exp) by (vm_compute; discriminate).
    assert (K4 : val6 blsfp_sqrt_exp + val6 blsfp_sqrt_exp + (val6 blsfp_sqrt_exp + val6 blsfp_sqrt_exp) = bls_p - 1 + 1 + 1) by (vm_compute; reflexivity).
    rewrite <- pw_add by exact K. set (n := val6 blsfp_sqrt_exp) in *.
    apply (cong_trans _ _ (pw (y * y) (n + n))); [apply pw_cong; [lia|apply cong_sym, Hy]|].
    apply (cong_trans _ _ (y * y)); [|exact Hy].
    rewrite pw_mulb, <- pw_add by lia. rewrite K4. rewrite !pw_add, !pw_1 by (vm_compute; discriminate).
    destruct (Znumtheory.Zdivide_dec bls_p y) as [D|D].
    + assert (Y : cong bls_p y 0) by (destruct D as [k ->]; exists k; ring).
      apply (cong_trans _ _ (pw y (bls_p - 1) * y * 0)); [apply cong_mul; [apply cong_refl|exact Y]|].
      rewrite Z.mul_0_r. apply cong_sym. apply (cong_trans _ _ (y * 0)); [apply cong_mul; [apply cong_refl|exact Y]|]. rewrite Z.mul_0_r. apply cong_refl.
    + rewrite <- Z.mul_assoc. apply (cong_trans _ _ (1 * (y * y))); [apply cong_mul; [apply pw_fermat; [exact bls_p_prime|exact D]|apply cong_refl]|].
      rewrite Z.mul_1_l. apply cong_refl.
Qed.

(** ** C79: encodings (48 bytes, least significant first) *)
Theorem C79_bytes_is_the_value x v : x |-> v ->
  is_bytes (blsfp_bytes x) /\ length (blsfp_bytes x) = 48%nat /\ le_val (blsfp_bytes x) = v.
Proof.
  intros Hx. destruct (rep6_from x v (rr _ _ Hx)) as [Wo E]. rewrite fpM_p, Z.mod_small in E by (apply (rg _ _ Hx)).
  unfold blsfp_bytes. destruct (blsfp_from_mont x) as [t0 t1 t2 t3 t4 t5].
  destruct (blsfp_put_bytes _ _ _ _ _ _ Wo) as (E' & B & L). split; [exact B|]. split; [exact L|]. rewrite E'. exact E.
Qed.
Theorem C79_big_int_and_raw x v : x |-> v ->
  blsfp_big_int x = v /\ words6 (blsfp_raw x) /\ val6 (blsfp_raw x) = v.
Proof.
  intros H. split.
  - destruct (C79_bytes_is_the_value x v H) as (_ & _ & E). unfold blsfp_big_int, big_of_bytes, reverse_scalar_bytes.
    rewrite <- fold_left_rev_right, rev_involutive, <- E. clear E.
    induction (blsfp_bytes x) as [|b bs IH]; [reflexivity|]. cbn [fold_right le_val]. rewrite IH. ring.
  - destruct (rep6_from x v (rr _ _ H)) as [Wo E]. rewrite fpM_p, Z.mod_small in E by (apply (rg _ _ H)). exact (conj Wo E).
Qed.
(** accepted exactly when the encoded integer is below the modulus; otherwise the receiver keeps its value *)
Theorem C79_set_bytes f bs : words6 f -> is_bytes bs -> length bs = 48%nat ->
  (le_val bs < bls_p -> exists x, blsfp_set_bytes f bs = (x, 1) /\ x |-> le_val bs) /\
  (bls_p <= le_val bs -> blsfp_set_bytes f bs = (f, 0)).
Proof.
  intros Hf B L. destruct (blsfp_limbs_of_bytes bs B L) as [Wt Et]. unfold blsfp_set_bytes. cbv zeta.
  pose proof (mul_r2 _ Wt) as R. rewrite Et in R.
  rewrite blsfp_borrow_ok; [|exact Wt|apply words6_consts; vm_compute; reflexivity]. rewrite Et.
  change (val6 fp_modulus) with fpM. rewrite fpM_p.
  pose proof (val6_range _ Wt) as RG. rewrite Et in RG.
  rewrite blsfp_cmove_ok; [|exact Hf|eapply rep6_words; exact R|destruct (_ <? _); lia].
  destruct (Z.ltb_spec (le_val bs) bls_p).
  - split; [intros _|lia]. eexists. split; [reflexivity|]. apply rs'; [lia|exact R].
  - split; [lia|]. reflexivity.
Qed.
Theorem C79_roundtrip f x v : words6 f -> x |-> v -> blsfp_set_bytes f (blsfp_bytes x) = (x, 1).
Proof.
  intros Hf Hx. destruct (C79_bytes_is_the_value x v Hx) as (B & L & E). pose proof (rg _ _ Hx).
  destruct (C79_set_bytes f _ Hf B L) as [S _]. destruct S as (y & S & Hy); [lia|]. rewrite S, E in *. f_equal.
  apply (rep6_inj _ _ _ _ (rr _ _ Hy) (rr _ _ Hx)). apply cong_refl.
Qed.
Theorem C79_set_bytes_wide_reduces bs : is_bytes bs -> length bs = 96%nat ->
  blsfp_set_bytes_wide bs |-> le_val bs mod bls_p.
Proof.
  intros B L.
  set (lo := firstn 48 bs). set (hi := skipn 48 bs).
  assert (E : bs = lo ++ hi) by (symmetry; apply firstn_skipn).
  assert (Ll : length lo = 48%nat) by (unfold lo; rewrite firstn_length; lia).
  assert (Lh : length hi = 48%nat) by (unfold hi; rewrite skipn_length; lia).
  rewrite E in B. unfold is_bytes in B. rewrite Forall_app in B. destruct B as [Bl Bh].
  destruct (blsfp_limbs_of_bytes lo Bl Ll) as [W0 E0]. destruct (blsfp_limbs_of_bytes hi Bh Lh) as [W1 E1].
  match type of W0 with words6 ?x => set (dlo := x) in * end. match type of W1 with words6 ?x => set (dhi := x) in * end.
  assert (D : blsfp_set_bytes_wide bs = fp_add (fp_mul dlo fp_r2) (fp_mul dhi fp_r3)).
  { clear - L.
    assert (D0 : L6 (get_uint64 (slice 0 8 bs)) (get_uint64 (slice 8 16 bs)) (get_uint64 (slice 16 24 bs)) (get_uint64 (slice 24 32 bs)) (get_uint64 (slice 32 40 bs)) (get_uint64 (slice 40 48 bs)) = dlo).
    { unfold dlo, lo. do 96 (destruct bs as [|? bs]; [discriminate L|]). reflexivity. }
    assert (D1 : L6 (get_uint64 (slice 48 56 bs)) (get_uint64 (slice 56 64 bs)) (get_uint64 (slice 64 72 bs)) (get_uint64 (slice 72 80 bs)) (get_uint64 (slice 80 88 bs)) (get_uint64 (slice 88 96 bs)) = dhi).
    { unfold dhi, hi. do 96 (destruct bs as [|? bs]; [discriminate L|]). destruct bs; [|discriminate L]. reflexivity. }
    cbv delta [blsfp_set_bytes_wide] beta. rewrite D0, D1. reflexivity. }
  rewrite D. apply rs. rewrite E, le_val_app, Ll, <- E0, <- E1. change (256 ^ Z.of_nat 48) with (2 ^ 384).
  apply rep6_add; [apply mul_r2, W0|apply mul_r3, W1].
Qed.
(** every integer, negative ones included, is reduced *)
Theorem C79_set_big_int f bi : words6 f -> blsfp_set_big_int f bi |-> bi mod bls_p.
Proof.
  intros Hf. pose proof pM as M. unfold blsfp_set_big_int. cbv zeta. change blsfp_bi_modulus with bls_p.
  pose proof (Z.mod_pos_bound bi bls_p ltac:(lia)) as R.
  unfold fill_be, reverse_scalar_bytes. rewrite rev_involutive.
  destruct (put_le_ok 48 (bi mod bls_p)) as (E & B & L).
  { split; [lia|]. apply (Z.lt_trans _ bls_p); [lia|vm_compute; reflexivity]. }
  destruct (C79_set_bytes f _ Hf B L) as [S _]. destruct S as (y & S & Hy); [rewrite E; lia|]. rewrite S, E in *. exact Hy.
Qed.

(** ** Concrete cases *)
Example C79_example :
  fp_mul (blsfp_set_uint64 3) (blsfp_set_uint64 5) |-> 15 /\
  fp_sub (blsfp_set_uint64 3) (blsfp_set_uint64 5) |-> bls_p - 2 /\
  blsfp_lex_largest (fp_neg blsfp_one) = 1 /\ blsfp_lex_largest blsfp_one = 0 /\
  (exists r w, blsfp_sqrt blsfp_zero (blsfp_set_uint64 4) = (r, 1) /\ r |-> w /\ (w * w) mod bls_p = 4) /\
  blsfp_set_bytes blsfp_one (put_le 48 bls_p) = (blsfp_one, 0).
Proof.
  assert (W3 : word 3) by (unfold word; rewrite W_eq; lia). assert (W5 : word 5) by (unfold word; rewrite W_eq; lia).
  assert (W4 : word 4) by (unfold word; rewrite W_eq; lia).
  pose proof (C79_constants 3 blsfp_zero W3 words6_0) as (_ & H1 & H3 & _).
  pose proof (C79_constants 5 blsfp_zero W5 words6_0) as (_ & _ & H5 & _).
  pose proof (C79_constants 4 blsfp_zero W4 words6_0) as (_ & _ & H4 & _).
  split; [exact (C79_mul _ _ _ _ H3 H5)|]. split; [exact (C79_sub _ _ _ _ H3 H5)|].
  split; [rewrite (C79_lexicographically_largest _ _ (C79_neg _ _ H1)); vm_compute; reflexivity|].
  split; [rewrite (C79_lexicographically_largest _ _ H1); vm_compute; reflexivity|].
  split; [apply (C79_sqrt _ _ _ words6_0 H4); exists 2; reflexivity|].
  pose proof H1 as (W1 & _).
  destruct (put_le_ok 48 bls_p) as (E & B & L); [split; vm_compute; [discriminate|reflexivity]|].
  apply (C79_set_bytes _ _ W1 B L). rewrite E. lia.
Qed.
