(** The Mina package over the limb-level field of PastaField.v. *)
From Coq Require Import ZArith NArith Lia List Bool Ring Field Znumtheory.
From Verif Require Import EcField EcSpec EcProofs PointModel PointSpec PointProofs PointMulProofs PointProps LimbBase LimbSpec LimbProofs LimbFiat NativeField NativeArithProofs PastaField PastaProps ZCong LimbField CurveOrder PrimePasta MillerSpec TowerStep GenChain PallasCert PallasChain
  MinaBitsModel MinaBitsSpec MinaModel MinaSpec MinaProofs MinaTxnProofs MinaSponge MinaSignProofs.
Import ListNotations.
Set Implicit Arguments.
Unset Strict Implicit.
Local Open Scope Z_scope.

(** an array of limbs as a field element; arrays that are not reduced do not arise (pallas_codec_ok) *)
Definition fp_wrap (x : limbs4) : PallasFp :=
  match bool_dec (reduced4 pallas_p x) true with left H => exist _ x H | right _ => f0 end.
Definition fp_raw (x : PallasFp) : limbs4 := proj1_sig x.
(** the four words of a 256-bit integer; array literals and [binary.LittleEndian] words are used through their value *)
Definition words_of (v : Z) : limbs4 := L4 (v mod 2 ^ 64) ((v / 2 ^ 64) mod 2 ^ 64) ((v / 2 ^ 128) mod 2 ^ 64) ((v / 2 ^ 192) mod 2 ^ 64).
(** native/pasta/fp/fp.go: ToRaw, SetRaw, Bytes, SetBytes, IsOdd, Sqrt, which PastaField.v models on limbs *)
Definition pallas_codec : fp_codec PallasFp :=
  FpCodec (fun x => val4 (pasta_to_raw pastafp_field (fp_raw x)))
    (fun v => fp_wrap (pasta_set_raw pastafp_field (words_of v)))
    (fun x => pasta_bytes pastafp_field (fp_raw x))
    (fun bs => option_map fp_wrap (pasta_set_bytes pastafp_field bs))
    (fun x => pasta_is_odd pastafp_field (fp_raw x))
    (fun x => let '(r, ok) := pasta_sqrt pastafp_field (fp_raw x) in (fp_wrap r, ok)).
(** pallas_curve.go:738-743 [Generator] *)
Definition pallas_gen : pt PallasFp :=
  Pt f1 (fp_wrap (L4 0x2f474795455d409d 0xb443b9b74b8255d9 0x270c412f2c9a5d66 0x8e00f71ba43dd6b)) f1.

Lemma fp_in : In (pastafp_field, pallas_p) pasta_fields. Proof. now left. Qed.
Lemma p_gt1 : 1 < pallas_p. Proof. reflexivity. Qed.
Lemma wrap_rep x v : represents pallas_p x v -> fp_raw (fp_wrap x) = x.
Proof.
  intros H. unfold fp_wrap. destruct (bool_dec (reduced4 pallas_p x) true) as [E|N]; [reflexivity|]. exfalso. apply N. apply represents_red; [reflexivity|reflexivity|eauto].
Qed.
Lemma rep_ex (x : PallasFp) : exists v, represents pallas_p (fp_raw x) v.
Proof. apply represents_red; [reflexivity|reflexivity|exact (proj2_sig x)]. Qed.
Lemma raw_eq (x y : PallasFp) v : represents pallas_p (fp_raw x) v -> represents pallas_p (fp_raw y) v -> x = y.
Proof. intros X Y. apply raw_inj. exact (represents_inj _ _ _ _ X Y). Qed.
Lemma raw_val (x : PallasFp) v : represents pallas_p (fp_raw x) v -> fc_raw pallas_codec x = v.
Proof. intros X. exact (proj1 (proj2 (proj2 (C86_pasta_big_int_and_raw _ _ fp_in _ _ X)))). Qed.
Lemma rep_mul_fp (x y : PallasFp) v w : represents pallas_p (fp_raw x) v -> represents pallas_p (fp_raw y) w -> represents pallas_p (fp_raw (fmul x y)) ((v * w) mod pallas_p).
Proof. exact (lk_mul _ _ _ pallasfp_limb_ok (fp_raw x) (fp_raw y) v w). Qed.
Lemma rep_neg_fp (x : PallasFp) v : represents pallas_p (fp_raw x) v -> represents pallas_p (fp_raw (fopp x)) ((- v) mod pallas_p).
Proof. exact (lk_neg _ _ _ pallasfp_limb_ok (fp_raw x) v). Qed.
Lemma rep_add_fp (x y : PallasFp) v w : represents pallas_p (fp_raw x) v -> represents pallas_p (fp_raw y) w -> represents pallas_p (fp_raw (fadd x y)) ((v + w) mod pallas_p).
Proof. exact (lk_add _ _ _ pallasfp_limb_ok (fp_raw x) (fp_raw y) v w). Qed.
Lemma rep_zero_fp : represents pallas_p (fp_raw (f0 : PallasFp)) 0. Proof. exact (lk_zero _ _ _ pallasfp_limb_ok). Qed.
Lemma rep_one_fp : represents pallas_p (fp_raw (f1 : PallasFp)) 1. Proof. exact (lk_one _ _ _ pallasfp_limb_ok). Qed.
Lemma words_ok v : 0 <= v < 2 ^ 256 -> words4 (words_of v) /\ val4 (words_of v) = v.
Proof.
  intros H. unfold words_of, words4, val4, word. rewrite W_eq. change (2 ^ 64) with 18446744073709551616.
  split; [repeat split; apply Z.mod_pos_bound; reflexivity|].
  replace (2 ^ 128) with (18446744073709551616 * 18446744073709551616) by reflexivity.
  replace (2 ^ 192) with (18446744073709551616 * 18446744073709551616 * 18446744073709551616) by reflexivity.
  replace (2 ^ 256) with (18446744073709551616 * 18446744073709551616 * 18446744073709551616 * 18446744073709551616) in H by reflexivity.
  rewrite <- !Z.div_div by lia. set (w := 18446744073709551616) in *. assert (W0 : 0 < w) by reflexivity. clearbody w.
  pose proof (Z.div_mod v w ltac:(lia)). pose proof (Z.div_mod (v / w) w ltac:(lia)). pose proof (Z.div_mod (v / w / w) w ltac:(lia)).
  assert (B : v / w / w / w < w) by (repeat (apply Z.div_lt_upper_bound; [lia|]); lia).
  assert (B0 : 0 <= v / w / w / w) by (repeat apply Z.div_pos; lia).
  rewrite (Z.mod_small (v / w / w / w)) by lia. nia.
Qed.
Theorem pallas_codec_ok : codec_ok pallas_codec pallas_p.
Proof.
  constructor.
  - split; reflexivity.
  - reflexivity.
  - intros x. destruct (rep_ex x) as [v X]. rewrite (raw_val X). exact (lk_range _ _ _ pallasfp_limb_ok _ _ X).
  - intros x y E. destruct (rep_ex x) as [v X], (rep_ex y) as [w Y]. rewrite (raw_val X), (raw_val Y) in E. subst w. exact (raw_eq X Y).
  - apply raw_val. exact rep_zero_fp.
  - intros x. destruct (rep_ex x) as [v X]. rewrite (raw_val (rep_neg_fp X)), (raw_val X). reflexivity.
  - intros v V. destruct (words_ok V) as [W E]. pose proof (proj2 (proj2 (proj2 (C86_pasta_big_int_and_raw _ _ fp_in _ _ rep_zero_fp))) _ W) as R. rewrite E in R.
    apply raw_val. cbn [pallas_codec fc_set_raw]. rewrite (wrap_rep R). exact R.
  - intros x. destruct (rep_ex x) as [v X]. rewrite (raw_val X). exact (C86_pasta_bytes_is_the_value _ _ fp_in _ _ X).
  - intros x V. destruct (rep_ex x) as [v X]. rewrite (raw_val X) in V. cbn [pallas_codec fc_set_bytes fc_bytes]. rewrite (C86_pasta_roundtrip_partial _ _ fp_in _ _ X V). cbn [option_map]. f_equal.
    apply raw_inj. exact (wrap_rep X).
  - intros x. destruct (rep_ex x) as [v X]. rewrite (raw_val X). exact (C87_pasta_is_odd _ _ fp_in _ _ X).
  - intros x y E. destruct (rep_ex x) as [v X], (rep_ex y) as [w Y]. pose proof (rep_mul_fp Y Y) as Y2. rewrite E in Y2.
    destruct (proj1 (C85_pasta_sqrt _ _ fp_in _ _ Y2)) as (r & s & S1 & S2 & S3); [exists w; reflexivity|].
    exists (fp_wrap r). cbn [pallas_codec fc_sqrt]. rewrite S1. split; [reflexivity|]. apply (@raw_eq _ _ ((w * w) mod pallas_p)); [|exact Y2].
    rewrite <- S3. apply rep_mul_fp; rewrite (wrap_rep S2); exact S2.
Qed.
Section Five.
  Variable K : field.
  Add Field FK : (fth K).
  Lemma five_is : five K = fadd (fadd (fadd f1 f1) (fadd f1 f1)) f1. Proof. unfold five. ring. Qed.
End Five.
Lemma rep_five : represents pallas_p (fp_raw (five PallasFp)) 5.
Proof.
  pose proof rep_one_fp as O. pose proof (rep_add_fp O O) as T. change ((1 + 1) mod pallas_p) with 2 in T. pose proof (rep_add_fp T T) as Fo. change ((2 + 2) mod pallas_p) with 4 in Fo.
  pose proof (rep_add_fp Fo O) as Fi. change ((4 + 1) mod pallas_p) with 5 in Fi. assert (E : five PallasFp = fadd (fadd (fadd f1 f1) (fadd f1 f1)) f1); [|rewrite E; exact Fi].
  apply five_is.
Qed.
Theorem pallas_odd : odd_order_curve (f0 : PallasFp) (five PallasFp).
Proof.
  apply (@odd_order _ pallas_p _ _ pallasfp_limb_ok _ _ 0 5); [reflexivity|exact rep_zero_fp|exact rep_five|].
  intros v. replace (v * v * v + 0 * v + 5) with (v * v * v + 5) by ring. apply pallas_no_root.
Qed.
Lemma rep_gen_y : exists v, represents pallas_p (fp_raw (py pallas_gen)) v /\ (v * v) mod pallas_p = 6.
Proof.
  set (v := 12418654782883325593414442427049395787963493412651469444558597405572177144507).
  assert (R : represents pallas_p (L4 0x2f474795455d409d 0xb443b9b74b8255d9 0x270c412f2c9a5d66 0x8e00f71ba43dd6b) v).
  { split; [split; [unfold words4, word; rewrite W_eq; lia|reflexivity]|]. split; [split; [discriminate|reflexivity]|vm_compute; reflexivity]. }
  exists v. split; [|vm_compute; reflexivity]. cbn [pallas_gen py]. rewrite (wrap_rep R). exact R.
Qed.

(** ** The generator has order q *)
Definition rp (x : PallasFp) (v : Z) : Prop := exists v0, represents pallas_p (fp_raw x) v0 /\ cong pallas_p v0 v.
Lemma p_pos' : 0 < pallas_p. Proof. reflexivity. Qed.
Lemma rp_of x v : represents pallas_p (fp_raw x) v -> rp x v. Proof. intros H. exists v. split; [exact H|apply cong_refl]. Qed.
Lemma rp_ex v : exists x, rp x v.
Proof.
  pose proof (Z.mod_pos_bound v pallas_p p_pos') as B. assert (B' : 0 <= v mod pallas_p < 2 ^ 256) by (change (2 ^ 256) with 115792089237316195423570985008687907853269984665640564039457584007913129639936; unfold pallas_p in *; lia).
  destruct (words_ok B') as [W E]. pose proof (proj2 (proj2 (proj2 (C86_pasta_big_int_and_raw _ _ fp_in _ _ rep_zero_fp))) _ W) as R.
  rewrite E, Z.mod_mod in R by discriminate. exists (fp_wrap (pasta_set_raw pastafp_field (words_of (v mod pallas_p)))), (v mod pallas_p).
  split; [rewrite (wrap_rep R); exact R|apply cong_mod, p_pos'].
Qed.
Lemma rp_add x y v w : rp x v -> rp y w -> rp (fadd x y) (v + w).
Proof.
  intros [v0 [V CV]] [w0 [W CW]]. exists ((v0 + w0) mod pallas_p). split; [exact (rep_add_fp V W)|].
  eapply cong_trans; [apply cong_mod, p_pos'|]. apply cong_add; assumption.
Qed.
Lemma rp_opp x v : rp x v -> rp (fopp x) (- v).
Proof.
  intros [v0 [V CV]]. exists ((- v0) mod pallas_p). split; [exact (rep_neg_fp V)|].
  eapply cong_trans; [apply cong_mod, p_pos'|]. destruct CV as [k E]. exists (- k). lia.
Qed.
Lemma rp_mul x y v w : rp x v -> rp y w -> rp (fmul x y) (v * w).
Proof.
  intros [v0 [V CV]] [w0 [W CW]]. exists ((v0 * w0) mod pallas_p). split; [exact (rep_mul_fp V W)|].
  eapply cong_trans; [apply cong_mod, p_pos'|]. apply cong_mul; assumption.
Qed.
Section Sub.
  Variable K : field.
  Add Field FKs : (fth K).
  Lemma sub_is (x y : K) : fsub x y = fadd x (fopp y). Proof. ring. Qed.
  Lemma rhs_zero (x b : K) : curve_rhs f0 b x = fadd (fmul (fmul x x) x) b. Proof. unfold curve_rhs. ring. Qed.
End Sub.
Lemma rp_sub x y v w : rp x v -> rp y w -> rp (fsub x y) (v - w).
Proof. intros A B. rewrite sub_is. exact (rp_add A (rp_opp B)). Qed.
Lemma rp_eq x y v w : rp x v -> rp y w -> cong pallas_p v w -> x = y.
Proof.
  intros [v0 [V CV]] [w0 [W CW]] Q. assert (E : v0 = w0).
  { pose proof (lk_range _ _ _ pallasfp_limb_ok _ _ V). pose proof (lk_range _ _ _ pallasfp_limb_ok _ _ W).
    apply (cong_small pallas_p); [assumption..|]. eapply cong_trans; [exact CV|]. eapply cong_trans; [exact Q|]. apply cong_sym. exact CW. }
  subst w0. exact (raw_eq V W).
Qed.
Lemma zp_eq_ok x y v w k : rp x v -> rp y w -> zp_eq v w k = true -> x = y.
Proof. intros A B E. apply (rp_eq A B). apply Z.eqb_eq in E. exists k. lia. Qed.
Lemma rp_same x v w : rp x v -> rp x w -> cong pallas_p v w.
Proof.
  intros [v0 [V CV]] [w0 [W CW]]. pose proof (lk_fun _ _ _ pallasfp_limb_ok _ _ _ V W) as <-. eapply cong_trans; [apply cong_sym, CV|exact CW].
Qed.
Lemma zp_neq_ok x y v w : rp x v -> rp y w -> zp_neq v w = true -> x <> y.
Proof.
  intros A B E H. subst y. pose proof (rp_same A B) as [k D]. clear A B. unfold zp_neq in E. apply andb_true_iff in E. rewrite !Z.ltb_lt in E. destruct E as [E1 E2].
  rewrite D in E1, E2. destruct (Z.eq_dec k 0) as [->|N]; [rewrite Z.mul_0_l in E1; cbn in E1; lia|]. rewrite Z.abs_mul in E2. change (Z.abs pallas_p) with pallas_p in E2. unfold pallas_p in *. nia.
Qed.
Definition pallas_aff : point PallasFp := Some (f1, py pallas_gen).
Lemma gen_aff : jacobian pallas_gen = pallas_aff.
Proof. apply jac_one. Qed.
Lemma rp_gen_x : rp f1 pallas_gx. Proof. apply rp_of. exact rep_one_fp. Qed.
Lemma rp_gen_y : rp (py pallas_gen) pallas_gy.
Proof.
  apply rp_of. assert (R : represents pallas_p (L4 0x2f474795455d409d 0xb443b9b74b8255d9 0x270c412f2c9a5d66 0x8e00f71ba43dd6b) pallas_gy).
  { split; [split; [unfold words4, word; rewrite W_eq; lia|reflexivity]|]. split; [split; [discriminate|reflexivity]|vm_compute; reflexivity]. }
  cbn [pallas_gen py]. rewrite (wrap_rep R). exact R.
Qed.
Lemma pallas_gen_on : on_curve (f0 : PallasFp) (five PallasFp) pallas_aff.
Proof.
  cbn [on_curve pallas_aff]. rewrite rhs_zero.
  apply (rp_eq (rp_mul rp_gen_y rp_gen_y) (rp_add (rp_mul (rp_mul rp_gen_x rp_gen_x) rp_gen_x) (rp_of rep_five))).
  apply Z.mod_divide; [discriminate|vm_compute; reflexivity].
Qed.
Definition pallas_run := @run_mul PallasFp (five PallasFp) pallas_odd Z rp Z.add Z.sub Z.mul zp_sq zp_eq zp_neq rp_ex rp_add rp_sub rp_mul
  (fun x v H => rp_mul H H) zp_eq_ok zp_neq_ok.
Lemma pallas_chain_mul : exists u v, rp u pallas_gx /\ rp v (pallas_p - pallas_gy) /\ mulN (Z.to_N (pallas_q - 1)) pallas_aff = Some (u, v).
Proof. exact (@pallas_run pallas_gx pallas_gy _ _ rp_gen_x rp_gen_y pallas_gen_on pallas_chain (Z.to_N (pallas_q - 1)) pallas_gx _ pallas_chain_ok). Qed.
Section Half.
  Variable K : field.
  Variables b : K.
  Hypothesis Odd : odd_order_curve (f0 : K) b.
  Add Field FKh : (fth K).
  (** a multiple that is the opposite of the point *)
  Lemma order_of_opposite (G : point K) (n : Z) : on_curve f0 b G -> 0 < n -> ec_mul f0 (Z.to_nat (n - 1)) G = ec_neg G -> times n G = None.
  Proof.
    intros O N E. unfold times. replace (Z.to_nat n) with (Z.to_nat (n - 1) + 1)%nat by lia. rewrite (ec_mul_add Odd) by exact O. rewrite E, ec_mul_1.
    transitivity (ec_add f0 (ec_neg G) (ec_neg (ec_neg G))); [|apply ec_neg_r].
    f_equal. destruct G as [[x y]|]; [|reflexivity]. cbn. do 2 f_equal. ring.
  Qed.
End Half.
Lemma mulN_nat K (k : N) (P : point K) : mulN k P = ec_mul f0 (N.to_nat k) P. Proof. reflexivity. Qed.
Lemma to_nat_N z : N.to_nat (Z.to_N z) = Z.to_nat z. Proof. destruct z; reflexivity. Qed.
Theorem pallas_gen_order : times pallas_q (jacobian pallas_gen) = None.
Proof.
  rewrite gen_aff. apply (order_of_opposite pallas_odd pallas_gen_on); [reflexivity|].
  rewrite <- to_nat_N, <- mulN_nat. destruct pallas_chain_mul as (u & v & U & V & E). rewrite E. unfold pallas_aff. cbn [ec_neg]. do 2 f_equal.
  - apply (rp_eq U rp_gen_x). apply cong_refl.
  - apply (rp_eq V (rp_opp rp_gen_y)). exists 1. lia.
Qed.
Lemma pallas_gen_key : jacobian pallas_gen <> None.
Proof. rewrite gen_aff. discriminate. Qed.
