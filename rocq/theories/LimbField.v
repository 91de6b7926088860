(** The limb-level fields as instances of [field].

    The carrier is the type of reduced limb arrays; every operation of the record is the
    modelled Go function on limbs (nf_add, nf_mul, ... of NativeField.v, pasta_* of
    PastaField.v, fp_* / blsfp_* of BlsFp.v).  A function of PointModel.v or TowerModel.v
    applied to one of these fields is therefore the Go function down to the machine words. *)
From Coq Require Import ZArith Lia Bool Eqdep_dec Znumtheory Field Field_theory Ring Ring_theory List.
From Verif Require Import EcField LimbBase LimbSpec LimbProofs LimbBlsProofs ZCong
  NativeField NativeInstances NativeProps PastaField PastaProps BlsFp LimbBls BlsFpProps
  PrimeK256 PrimeP256 PrimePasta PrimeBlsP.
Import ListNotations.
Local Open Scope Z_scope.

Local Arguments Z.modulo : simpl never. Local Arguments Z.add : simpl never. Local Arguments Z.mul : simpl never.
Local Arguments Z.sub : simpl never. Local Arguments Z.opp : simpl never.

(** ** A representation of Z/m by a type [L] of arrays, with its operations *)
Record limb_ops (L : Type) := LimbOps {
  lo_reduced : L -> bool;
  lo_zero : L; lo_one : L;
  lo_add : L -> L -> L; lo_mul : L -> L -> L; lo_sub : L -> L -> L; lo_neg : L -> L;
  lo_inv : L -> L; lo_eq : L -> L -> bool }.
Arguments lo_reduced {L}. Arguments lo_zero {L}. Arguments lo_one {L}. Arguments lo_add {L}. Arguments lo_mul {L}.
Arguments lo_sub {L}. Arguments lo_neg {L}. Arguments lo_inv {L}. Arguments lo_eq {L}.

Record limb_ok {L : Type} (m : Z) (R : L -> Z -> Prop) (O : limb_ops L) : Prop := LimbOk {
  lk_prime : prime m;
  lk_red : forall x, lo_reduced O x = true <-> exists v, R x v;
  lk_range : forall x v, R x v -> 0 <= v < m;
  lk_fun : forall x v w, R x v -> R x w -> v = w;
  lk_inj : forall x y v, R x v -> R y v -> x = y;
  lk_zero : R (lo_zero O) 0; lk_one : R (lo_one O) 1;
  lk_add : forall x y v w, R x v -> R y w -> R (lo_add O x y) ((v + w) mod m);
  lk_mul : forall x y v w, R x v -> R y w -> R (lo_mul O x y) ((v * w) mod m);
  lk_sub : forall x y v w, R x v -> R y w -> R (lo_sub O x y) ((v - w) mod m);
  lk_neg : forall x v, R x v -> R (lo_neg O x) ((- v) mod m);
  lk_inv : forall x v, R x v -> exists w, R (lo_inv O x) w /\ (v <> 0 -> (v * w) mod m = 1);
  lk_eq : forall x y v w, R x v -> R y w -> lo_eq O x y = (v =? w) }.

Section Build.
  Context {L : Type} (m : Z) (R : L -> Z -> Prop) (O : limb_ops L) (K : limb_ok m R O).
  Definition lcar : Type := {x : L | lo_reduced O x = true}.
  Definition raw (x : lcar) : L := proj1_sig x.
  Lemma raw_inj x y : raw x = raw y -> x = y.
  Proof. destruct x as [x Hx], y as [y Hy]. cbn. intros ->. f_equal. apply UIP_dec, bool_dec. Qed.
  Lemma lrep x : exists v, R (raw x) v.
  Proof. apply (lk_red _ _ _ K). exact (proj2_sig x). Qed.
  Lemma red_of x v : R x v -> lo_reduced O x = true.
  Proof. intros H. apply (lk_red _ _ _ K). eauto. Qed.
  Lemma c_zero : lo_reduced O (lo_zero O) = true. Proof. eapply red_of, (lk_zero _ _ _ K). Qed.
  Lemma c_one : lo_reduced O (lo_one O) = true. Proof. eapply red_of, (lk_one _ _ _ K). Qed.
  Lemma c_add (x y : lcar) : lo_reduced O (lo_add O (raw x) (raw y)) = true.
  Proof. destruct (lrep x) as [v X], (lrep y) as [w Y]. eapply red_of, (lk_add _ _ _ K); eassumption. Qed.
  Lemma c_mul (x y : lcar) : lo_reduced O (lo_mul O (raw x) (raw y)) = true.
  Proof. destruct (lrep x) as [v X], (lrep y) as [w Y]. eapply red_of, (lk_mul _ _ _ K); eassumption. Qed.
  Lemma c_sub (x y : lcar) : lo_reduced O (lo_sub O (raw x) (raw y)) = true.
  Proof. destruct (lrep x) as [v X], (lrep y) as [w Y]. eapply red_of, (lk_sub _ _ _ K); eassumption. Qed.
  Lemma c_neg (x : lcar) : lo_reduced O (lo_neg O (raw x)) = true.
  Proof. destruct (lrep x) as [v X]. eapply red_of, (lk_neg _ _ _ K); eassumption. Qed.
  Lemma c_inv (x : lcar) : lo_reduced O (lo_inv O (raw x)) = true.
  Proof. destruct (lrep x) as [v X]. destruct (lk_inv _ _ _ K _ _ X) as (w & Y & _). eapply red_of, Y. Qed.
  Definition l_zero : lcar := exist _ _ c_zero.
  Definition l_one : lcar := exist _ _ c_one.
  Definition l_add x y : lcar := exist _ _ (c_add x y).
  Definition l_mul x y : lcar := exist _ _ (c_mul x y).
  Definition l_sub x y : lcar := exist _ _ (c_sub x y).
  Definition l_neg x : lcar := exist _ _ (c_neg x).
  Definition l_inv x : lcar := exist _ _ (c_inv x).
  Definition l_div x y : lcar := l_mul x (l_inv y).
  Definition l_eqb (x y : lcar) : bool := lo_eq O (raw x) (raw y).

  (** equality of reduced arrays follows from equality of their values *)
  Lemma by_val (x y : lcar) : (forall v w, R (raw x) v -> R (raw y) w -> v = w) -> x = y.
  Proof.
    intros H. apply raw_inj. destruct (lrep x) as [v X], (lrep y) as [w Y].
    rewrite <- (H v w X Y) in Y. exact (lk_inj _ _ _ K _ _ _ X Y).
  Qed.
  Lemma m_pos : 1 < m. Proof. destruct (lk_prime _ _ _ K). assumption. Qed.
  Lemma v_add x y v w : R (raw x) v -> R (raw y) w -> R (raw (l_add x y)) ((v + w) mod m).
  Proof. apply (lk_add _ _ _ K). Qed.
  Lemma v_mul x y v w : R (raw x) v -> R (raw y) w -> R (raw (l_mul x y)) ((v * w) mod m).
  Proof. apply (lk_mul _ _ _ K). Qed.
  Lemma v_sub x y v w : R (raw x) v -> R (raw y) w -> R (raw (l_sub x y)) ((v - w) mod m).
  Proof. apply (lk_sub _ _ _ K). Qed.
  Lemma v_neg x v : R (raw x) v -> R (raw (l_neg x)) ((- v) mod m).
  Proof. apply (lk_neg _ _ _ K). Qed.
  Lemma v_zero : R (raw l_zero) 0. Proof. apply (lk_zero _ _ _ K). Qed.
  Lemma v_one : R (raw l_one) 1. Proof. apply (lk_one _ _ _ K). Qed.
  Ltac fin X Y :=
    let v := fresh in let w := fresh in let V := fresh in let U := fresh in
    apply by_val; intros v w V U; rewrite <- (lk_fun _ _ _ K _ _ _ X V), <- (lk_fun _ _ _ K _ _ _ Y U); clear V U v w;
    rewrite ?Zplus_mod_idemp_l, ?Zplus_mod_idemp_r, ?Zmult_mod_idemp_l, ?Zmult_mod_idemp_r.
  Lemma limb_ring : ring_theory l_zero l_one l_add l_mul l_sub l_neg (@eq lcar).
  Proof.
    constructor.
    - intros x. destruct (lrep x) as [v X]. fin (v_add _ _ _ _ v_zero X) X.
      rewrite Z.add_0_l. apply Z.mod_small, (lk_range _ _ _ K _ _ X).
    - intros x y. destruct (lrep x) as [v X], (lrep y) as [w Y]. fin (v_add _ _ _ _ X Y) (v_add _ _ _ _ Y X). f_equal; ring.
    - intros x y z. destruct (lrep x) as [v X], (lrep y) as [w Y], (lrep z) as [u Z].
      fin (v_add _ _ _ _ X (v_add _ _ _ _ Y Z)) (v_add _ _ _ _ (v_add _ _ _ _ X Y) Z). f_equal; ring.
    - intros x. destruct (lrep x) as [v X]. fin (v_mul _ _ _ _ v_one X) X.
      rewrite Z.mul_1_l. apply Z.mod_small, (lk_range _ _ _ K _ _ X).
    - intros x y. destruct (lrep x) as [v X], (lrep y) as [w Y]. fin (v_mul _ _ _ _ X Y) (v_mul _ _ _ _ Y X). f_equal; ring.
    - intros x y z. destruct (lrep x) as [v X], (lrep y) as [w Y], (lrep z) as [u Z].
      fin (v_mul _ _ _ _ X (v_mul _ _ _ _ Y Z)) (v_mul _ _ _ _ (v_mul _ _ _ _ X Y) Z). f_equal; ring.
    - intros x y z. destruct (lrep x) as [v X], (lrep y) as [w Y], (lrep z) as [u Z].
      fin (v_mul _ _ _ _ (v_add _ _ _ _ X Y) Z) (v_add _ _ _ _ (v_mul _ _ _ _ X Z) (v_mul _ _ _ _ Y Z)). f_equal; ring.
    - intros x y. destruct (lrep x) as [v X], (lrep y) as [w Y]. fin (v_sub _ _ _ _ X Y) (v_add _ _ _ _ X (v_neg _ _ Y)). f_equal; ring.
    - intros x. destruct (lrep x) as [v X]. fin (v_add _ _ _ _ X (v_neg _ _ X)) v_zero.
      rewrite Z.add_opp_diag_r. apply Z.mod_0_l. pose proof m_pos. lia.
  Qed.
  Lemma limb_field_theory : field_theory l_zero l_one l_add l_mul l_sub l_neg l_div l_inv (@eq lcar).
  Proof.
    constructor; [exact limb_ring| |reflexivity|].
    - intros E. pose proof v_one as V. rewrite E in V. pose proof (lk_fun _ _ _ K _ _ _ V v_zero). discriminate.
    - intros x N. destruct (lrep x) as [v X]. destruct (lk_inv _ _ _ K _ _ X) as (w & Y & H).
      apply by_val. intros a b V U. rewrite <- (lk_fun _ _ _ K _ _ _ (v_mul (l_inv x) x _ _ Y X) V), <- (lk_fun _ _ _ K _ _ _ v_one U).
      rewrite Z.mul_comm. apply H. intros ->. apply N, by_val. intros c d C D.
      rewrite <- (lk_fun _ _ _ K _ _ _ X C). exact (lk_fun _ _ _ K _ _ _ v_zero D).
  Qed.
  Lemma l_eqb_spec x y : l_eqb x y = true <-> x = y.
  Proof.
    destruct (lrep x) as [v X], (lrep y) as [w Y]. unfold l_eqb. rewrite (lk_eq _ _ _ K _ _ _ _ X Y), Z.eqb_eq. split.
    - intros ->. apply raw_inj. exact (lk_inj _ _ _ K _ _ _ X Y).
    - intros ->. exact (lk_fun _ _ _ K _ _ _ X Y).
  Qed.
  Definition limb_field : field := Field limb_field_theory l_eqb_spec.
  (** an array known to represent a value, as a field element *)
  Definition mk (x : L) (H : lo_reduced O x = true) : limb_field := exist _ x H.
End Build.
Arguments raw {L O}. Arguments lcar {L}.

(** ** Reduced arrays, and the values they stand for *)
Definition wordb (x : Z) : bool := (0 <=? x) && (x <? 2 ^ 64).
Lemma wordb_ok x : wordb x = true <-> word x.
Proof. unfold wordb, word. rewrite W_eq, andb_true_iff, Z.leb_le, Z.ltb_lt. change (2 ^ 64) with 18446744073709551616. tauto. Qed.
Definition reduced4 (m : Z) (x : limbs4) : bool :=
  let '(L4 a b c d) := x in wordb a && wordb b && wordb c && wordb d && (val4 x <? m).
Definition reduced6 (m : Z) (x : limbs6) : bool :=
  let '(L6 a b c d e f) := x in wordb a && wordb b && wordb c && wordb d && wordb e && wordb f && (val6 x <? m).
Lemma reduced4_ok m x : reduced4 m x = true <-> canonical m x.
Proof.
  destruct x as [a b c d]. unfold reduced4, canonical, words4. rewrite !andb_true_iff, !wordb_ok, Z.ltb_lt. tauto.
Qed.
Lemma reduced6_ok m x : reduced6 m x = true <-> words6 x /\ val6 x < m.
Proof.
  destruct x as [a b c d e f]. unfold reduced6, words6. rewrite !andb_true_iff, !wordb_ok, Z.ltb_lt. tauto.
Qed.

Section Mont.
  Variables (m : Z) (n : Z).
  Hypothesis (M : 1 < m) (OD : Z.odd m = true) (N : 0 <= n).
  Local Lemma odd_bezout : exists u w, u * m + w * 2 ^ n = 1.
  Proof.
    assert (Rx : rel_prime m (2 ^ n)) by (apply rel_prime_pow2; [exact OD|lia]).
    destruct (rel_prime_bezout _ _ Rx) as [u w E]. eauto.
  Qed.
  Lemma mont_value k : 0 <= k < m -> exists v, 0 <= v < m /\ k = (v * 2 ^ n) mod m.
  Proof.
    intros Hk. destruct odd_bezout as (u & w & E). exists ((k * w) mod m).
    split; [apply Z.mod_pos_bound; lia|]. rewrite Zmult_mod_idemp_l.
    replace (k * w * 2 ^ n) with (k + (- k * u) * m) by (transitivity (k * (u * m + w * 2 ^ n) - k * u * m); [rewrite E; ring|ring]).
    rewrite Z_mod_plus_full. symmetry. apply Z.mod_small, Hk.
  Qed.
  Lemma mont_fun v w : 0 <= v < m -> 0 <= w < m -> (v * 2 ^ n) mod m = (w * 2 ^ n) mod m -> v = w.
  Proof.
    intros Hv Hw E. destruct odd_bezout as (u & t & B).
    assert (Q : forall v, 0 <= v < m -> v = ((v * 2 ^ n) mod m * t) mod m).
    { clear - B M. intros v Hv. rewrite Zmult_mod_idemp_l.
      replace (v * 2 ^ n * t) with (v + (- v * u) * m) by (transitivity (v * (u * m + t * 2 ^ n) - v * u * m); [rewrite B; ring|ring]).
      rewrite Z_mod_plus_full. symmetry. apply Z.mod_small, Hv. }
    rewrite (Q v Hv), (Q w Hw), E. reflexivity.
  Qed.
End Mont.

Lemma represents_red m x : 1 < m -> Z.odd m = true -> (reduced4 m x = true <-> exists v, represents m x v).
Proof.
  intros M OD. rewrite reduced4_ok. split.
  - intros C. pose proof C as [Wx Lx]. assert (R0 : 0 <= val4 x) by (apply val4_range; exact Wx).
    destruct (mont_value m 256 M OD ltac:(lia) (val4 x)) as (v & Hv & E); [lia|]. exists v. split; [exact C|]. split; [exact Hv|exact E].
  - intros (v & C & _). exact C.
Qed.
Lemma represents_fun m x v w : 1 < m -> Z.odd m = true -> represents m x v -> represents m x w -> v = w.
Proof.
  intros M OD (_ & Hv & E) (_ & Hw & E'). apply (mont_fun m 256 OD ltac:(lia) v w Hv Hw). congruence.
Qed.
Lemma represents_inj m x y v : represents m x v -> represents m y v -> x = y.
Proof. intros ((Wx & _) & _ & E) ((Wy & _) & _ & E'). apply val4_inj; [assumption..|congruence]. Qed.
Lemma represents6_red m x : 1 < m -> Z.odd m = true -> (reduced6 m x = true <-> exists v, represents6 m x v).
Proof.
  intros M OD. rewrite reduced6_ok. split.
  - intros [Wx Lx]. assert (R0 : 0 <= val6 x) by (apply val6_range; exact Wx).
    destruct (mont_value m 384 M OD ltac:(lia) (val6 x)) as (v & Hv & E); [lia|].
    exists v. split; [exact Wx|]. split; [exact Lx|]. split; [exact Hv|exact E].
  - intros (v & C & D & _). exact (conj C D).
Qed.
Lemma represents6_fun m x v w : 1 < m -> Z.odd m = true -> represents6 m x v -> represents6 m x w -> v = w.
Proof.
  intros M OD (_ & _ & Hv & E) (_ & _ & Hw & E'). apply (mont_fun m 384 OD ltac:(lia) v w Hv Hw). congruence.
Qed.
Lemma represents6_inj m x y v : represents6 m x v -> represents6 m y v -> x = y.
Proof. intros (Wx & _ & _ & E) (Wy & _ & _ & E'). apply val6_inj; [assumption..|congruence]. Qed.

(** ** The native fields (native/field.go with the arithmetic of k256/fp, k256/fq, p256/fp, p256/fq) *)
Definition native_ops (F : native_field) (m : Z) : limb_ops limbs4 :=
  LimbOps _ (reduced4 m) nf_zero (nf_one F) (nf_add F) (nf_mul F) (nf_sub F) (nf_neg F)
    (fun x => fst (nf_invert F nf_zero x)) (fun x y => nf_equal x y =? 1).
Local Lemma native_ok F m : In (F, m) native_fields -> m <> bls_r -> prime m -> 1 < m -> Z.odd m = true ->
  limb_ok m (represents m) (native_ops F m).
Proof.
  intros IN NB PM M OD.
  constructor; cbn [native_ops lo_reduced lo_zero lo_one lo_add lo_mul lo_sub lo_neg lo_inv lo_eq].
  - exact PM.
  - intros x. apply represents_red; assumption.
  - intros x v (_ & H & _). exact H.
  - intros x v w. apply represents_fun; assumption.
  - apply represents_inj.
  - exact (C80_zero F m IN).
  - exact (C80_one F m IN).
  - exact (C80_add F m IN).
  - exact (C80_mul F m IN).
  - exact (C80_sub F m IN).
  - intros x v. apply C81_neg; assumption.
  - intros x v X. pose proof (C80_zero F m IN) as Z0. pose proof Z0 as ((W0 & _) & _).
    destruct (C84_invert F m IN nf_zero x v W0 X) as [I0 I1]. destruct (Z.eq_dec v 0) as [E|E].
    + exists 0. rewrite (I0 E). split; [exact Z0|]. intros D. contradiction.
    + destruct (I1 E) as (y & w & Q & Y & P). exists w. rewrite Q. split; [exact Y|]. intros _. exact P.
  - intros x y v w X Y. rewrite (C83_equal F m IN x y v w X Y). destruct (v =? w); reflexivity.
Qed.
Lemma k256fp_limb_ok : limb_ok secp256k1_p (represents secp256k1_p) (native_ops k256fp_field secp256k1_p).
Proof. apply native_ok; [cbn; tauto|intros E; vm_compute in E; discriminate E|exact k256_p_prime|reflexivity|reflexivity]. Qed.
Lemma p256fp_limb_ok : limb_ok p256_p (represents p256_p) (native_ops p256fp_field p256_p).
Proof. apply native_ok; [cbn; tauto|intros E; vm_compute in E; discriminate E|exact p256_p_prime|reflexivity|reflexivity]. Qed.
Definition K256Fp : field := limb_field _ _ _ k256fp_limb_ok.
Definition P256Fp : field := limb_field _ _ _ p256fp_limb_ok.

(** ** The Pallas base field (native/pasta/fp/fp.go) *)
Definition pasta_ops (F : pasta_field) (m : Z) : limb_ops limbs4 :=
  LimbOps _ (reduced4 m) pasta_zero (pasta_one F) (pasta_add F) (pasta_mul F) (pasta_sub F) (pasta_neg F)
    (fun x => fst (pasta_invert F x)) pasta_equal.
Local Lemma pasta_ok F m : In (F, m) pasta_fields -> prime m -> 1 < m -> Z.odd m = true ->
  limb_ok m (represents m) (pasta_ops F m).
Proof.
  intros IN PM M OD.
  destruct (C85_pasta_constants F m IN 0 true ltac:(unfold word; rewrite W_eq; lia)) as (C0 & C1 & _).
  constructor; cbn [pasta_ops lo_reduced lo_zero lo_one lo_add lo_mul lo_sub lo_neg lo_inv lo_eq].
  - exact PM.
  - intros x. apply represents_red; assumption.
  - intros x v (_ & H & _). exact H.
  - intros x v w. apply represents_fun; assumption.
  - apply represents_inj.
  - exact C0.
  - exact C1.
  - exact (C85_pasta_add F m IN).
  - exact (C85_pasta_mul F m IN).
  - exact (C85_pasta_sub F m IN).
  - exact (C85_pasta_neg F m IN).
  - intros x v X. destruct (C85_pasta_invert F m IN x v X) as [I0 I1]. destruct (Z.eq_dec v 0) as [E|E].
    + destruct (I0 E) as (Y & _). exists 0. split; [exact Y|]. intros D. contradiction.
    + destruct (I1 E) as (w & Y & _ & P). exists w. split; [exact Y|]. intros _. exact P.
  - exact (C87_pasta_equal F m IN).
Qed.
Lemma pallasfp_limb_ok : limb_ok pallas_p (represents pallas_p) (pasta_ops pastafp_field pallas_p).
Proof. apply pasta_ok; [cbn; tauto|exact pallas_p_prime|reflexivity|reflexivity]. Qed.
Definition PallasFp : field := limb_field _ _ _ pallasfp_limb_ok.

(** ** The BLS12-381 base field (native/bls12381/fp.go) *)
Definition bls_ops : limb_ops limbs6 :=
  LimbOps _ (reduced6 bls_p) blsfp_zero blsfp_one fp_add fp_mul fp_sub fp_neg
    (fun x => fst (blsfp_invert x)) (fun x y => blsfp_equal x y =? 1).
Lemma blsfp_limb_ok : limb_ok bls_p (represents6 bls_p) bls_ops.
Proof.
  assert (M : 1 < bls_p) by reflexivity. assert (OD : Z.odd bls_p = true) by reflexivity.
  assert (Z6 : words6 blsfp_zero) by (cbn; unfold word; rewrite W_eq; lia).
  destruct (C79_constants 0 blsfp_zero ltac:(unfold word; rewrite W_eq; lia) Z6) as (C0 & C1 & _).
  constructor; cbn [bls_ops lo_reduced lo_zero lo_one lo_add lo_mul lo_sub lo_neg lo_inv lo_eq].
  - exact bls_p_prime.
  - intros x. apply represents6_red; assumption.
  - intros x v (_ & _ & H & _). exact H.
  - intros x v w. apply represents6_fun; assumption.
  - apply represents6_inj.
  - exact C0.
  - exact C1.
  - exact C79_add.
  - exact C79_mul.
  - exact C79_sub.
  - exact C79_neg.
  - intros x v X. destruct (C79_invert x v X) as [I0 I1]. destruct (Z.eq_dec v 0) as [E|E].
    + exists 0. rewrite (I0 E). split; [rewrite <- E; exact X|]. intros D. contradiction.
    + destruct (I1 E) as (y & w & Q & Y & P). exists w. rewrite Q. split; [exact Y|]. intros _. exact P.
  - intros x y v w X Y. rewrite (C79_equal x y v w X Y). destruct (v =? w); reflexivity.
Qed.
Definition BlsFp : field := limb_field _ _ _ blsfp_limb_ok.
