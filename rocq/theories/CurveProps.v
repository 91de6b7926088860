(** C88: Add, Double, Neg, Sub and Mul of secp256k1 and P-256 points, on limb arrays, are the group operations of the
    curve over the integers modulo p (chords and tangents, [CurveSpec]); no hypothesis on the curve is left. *)
From Coq Require Import ZArith NArith Lia List Bool Znumtheory.
From Verif Require Import EcField EcSpec PointModel PointSpec PointProps LimbBase LimbSpec LimbProofs ZCong NativeField NativeInstances NativeArithProofs
  NativeProps LimbField CurveOrder EncodeModel EncodeSpec EncodeProofs EncodeProps CurveModel CurveSpec LimbPoints CurveProofs.
Import ListNotations.
Open Scope Z_scope.

(** the two curves: code, arithmetic, equation, order of the scalar field *)
Definition systems : list (ncurve * narith * curve * Z) :=
  [(k256_curve, k256_arith, secp256k1, secp256k1_n); (p256_curve, p256_arith, nist_p256, p256_n)].

Section Link.
  Variables (C : ncurve) (A : narith) (E : curve) (n : Z).
  Hypothesis IN : In (C, A, E, n) systems.
  Lemma sys_curve : In (C, E) curves.
  Proof. destruct IN as [H|[H|[]]]; injection H as <- <- <- <-; [left|right; left]; reflexivity. Qed.
  Definition OK : curve_ok C E := curves_ok C E sys_curve.
  Local Notation F := (FL C E OK).
  Local Notation K := (ck_limb C E OK).
  Local Notation rcE := (rc E (represents (c_p E)) (native_ops (nc_field C) (c_p E)) K).
  Record linked := Linked {
    ln_a : F; ln_b : F; ln_add : pt F -> pt F -> pt F; ln_dbl : pt F -> pt F;
    ln_ra : rcE ln_a (c_a E); ln_rb : rcE ln_b (c_b E);
    ln_odd : odd_order_curve ln_a ln_b;
    ln_addu : forall p q, na_add A (unl C E OK p) (unl C E OK q) = unl C E OK (ln_add p q);
    ln_dblu : forall p, na_double A (unl C E OK p) = unl C E OK (ln_dbl p);
    ln_adde : forall p q, EcSpec.on_curve ln_a ln_b (homogeneous p) -> EcSpec.on_curve ln_a ln_b (homogeneous q) ->
      homogeneous (ln_add p q) = ec_add ln_a (homogeneous p) (homogeneous q);
    ln_dble : forall p, EcSpec.on_curve ln_a ln_b (homogeneous p) -> homogeneous (ln_dbl p) = ec_add ln_a (homogeneous p) (homogeneous p);
    ln_mule : forall p bytes, EcSpec.on_curve ln_a ln_b (homogeneous p) -> is_bytes32 bytes ->
      homogeneous (point_mul ln_add ln_dbl native_id p bytes) = ec_mul ln_a (N.to_nat (le_value bytes)) (homogeneous p);
    ln_scalar : In (na_scalar A, n) native_fields }.
  Lemma odd_of (a b : F) : rcE a (c_a E) -> rcE b (c_b E) -> odd_order_curve a b.
  Proof.
    intros Ha Hb. pose proof (ck_big _ _ OK) as M.
    apply (odd_order (c_p E) _ _ K a b (c_a E mod c_p E) (c_b E mod c_p E)); [exact M|exact (rc_mod E _ _ K _ _ Ha)|exact (rc_mod E _ _ K _ _ Hb)|].
    intros v H. apply (ck_noroot _ _ OK v). eapply cong_trans; [|exact H].
    apply cong_add; [apply cong_add; [apply cong_refl|apply cong_mul; [|apply cong_refl]]|]; apply cong_sym, cong_mod; lia.
  Qed.
End Link.

Section Sys.
  Variables (C : ncurve) (A : narith) (E : curve) (n : Z).
  Hypothesis IN : In (C, A, E, n) systems.
  Local Notation OKS := (OK C A E n IN).
  Lemma k_elt x v : represents (c_p E) x v -> exists X : FL C E OKS, rw C E OKS X = x /\ rc E (represents (c_p E)) (native_ops (nc_field C) (c_p E)) (ck_limb C E OKS) X v.
  Proof.
    intros H. exists (lft C E OKS x (proj2 (reduced4_ok _ _) (proj1 H))). split; [reflexivity|]. apply rc_of. exact H.
  Qed.
  Lemma link_exists : inhabited (linked C A E n IN).
  Proof.
    assert (D : C = k256_curve /\ A = k256_arith /\ E = secp256k1 /\ n = secp256k1_n \/ C = p256_curve /\ A = p256_arith /\ E = nist_p256 /\ n = p256_n).
    { destruct IN as [H|[H|[]]]; injection H as <- <- <- <-; [left|right]; tauto. }
    destruct D as [(HC & HA & HE & Hn)|(HC & HA & HE & Hn)].
    - assert (B : represents (c_p E) k256_B (c_b E)) by (subst E; apply represents_const; vm_compute; reflexivity).
      destruct (k_elt _ _ B) as (b & Rb & Hb).
      assert (Ha : rc E (represents (c_p E)) (native_ops (nc_field C) (c_p E)) (ck_limb C E OKS) (f0 : FL C E OKS) (c_a E)).
      { replace (c_a E) with 0 by (subst E; reflexivity). apply rc_0. }
      pose proof (odd_of C A E n IN _ _ Ha Hb) as OD.
      constructor. refine (Linked C A E n IN f0 b (k256_add b) (k256_double b) Ha Hb OD _ _ _ _ _ _).
      + intros p q. replace (na_add A) with (np_k256_add (nc_field C) (rw C E OKS b)) by (rewrite Rb; subst A C; reflexivity). apply k256_add_unl.
      + intros p. replace (na_double A) with (np_k256_double (nc_field C) (rw C E OKS b)) by (rewrite Rb; subst A C; reflexivity). apply k256_double_unl.
      + intros p q. apply (C70_k256_add OD).
      + intros p. apply (C70_k256_double OD).
      + intros p bs. apply (C73_k256_mul OD).
      + subst A n. right. left. reflexivity.
    - assert (B : represents (c_p E) EncodeModel.p256_B (c_b E)) by (subst E; apply represents_const; vm_compute; reflexivity).
      destruct (k_elt _ _ B) as (b & Rb & Hb).
      assert (Ha : rc E (represents (c_p E)) (native_ops (nc_field C) (c_p E)) (ck_limb C E OKS) (a_p256 (FL C E OKS)) (c_a E)).
      { replace (c_a E) with (- (1 + 1 + 1)) by (subst E; reflexivity). apply rc_opp. repeat apply rc_add; apply rc_1. }
      pose proof (odd_of C A E n IN _ _ Ha Hb) as OD.
      constructor. refine (Linked C A E n IN _ b (p256_add b) (p256_double b) Ha Hb OD _ _ _ _ _ _).
      + intros p q. replace (na_add A) with (np_p256_add (nc_field C) (rw C E OKS b)) by (rewrite Rb; subst A C; reflexivity). apply p256_add_unl.
      + intros p. replace (na_double A) with (np_p256_double (nc_field C) (rw C E OKS b)) by (rewrite Rb; subst A C; reflexivity). apply p256_double_unl.
      + intros p q. apply (C70_p256_add OD).
      + intros p. apply (C70_p256_double OD).
      + intros p bs. apply (C73_p256_mul OD).
      + subst A n. right. right. right. left. reflexivity.
  Qed.

  (** ** the group of the curve, over the integers *)
  Theorem C88_sum_is_a_function X Y : is_on E X -> is_on E Y -> exists! Z, sum E X Y Z.
  Proof.
    intros HX HY. destruct link_exists as [[a b add dbl Ha Hb OD _ _ _ _ _ _]].
    destruct (sum_total E _ _ (ck_limb C E OKS) a b Ha Hb OD X Y HX HY) as (Z & S & _). exists Z. split; [exact S|].
    intros Z' S'. exact (sum_fun E _ _ (ck_limb C E OKS) a b Ha Hb OD X Y Z Z' HX HY S S').
  Qed.
  Theorem C88_group_laws X Y Z : is_on E X -> is_on E Y -> is_on E Z ->
    (forall W, sum E X Y W -> is_on E W /\ sum E Y X W) /\
    (forall W V U, sum E X Y W -> sum E W Z V -> sum E Y Z U -> sum E X U V) /\
    sum E X None X /\ is_on E (opposite E X) /\ sum E X (opposite E X) None.
  Proof.
    intros HX HY HZ. destruct link_exists as [[a b add dbl Ha Hb OD _ _ _ _ _ _]].
    split; [intros W S; split; [exact (sum_on E _ _ (ck_limb C E OKS) a b Ha Hb OD _ _ _ HX HY S)|exact (sum_comm E _ _ (ck_limb C E OKS) a b Ha Hb OD _ _ _ HX HY S)]|].
    split; [intros W V U S1 S2 S3; exact (sum_assoc E _ _ (ck_limb C E OKS) a b Ha Hb OD _ _ _ _ _ _ HX HY HZ S1 S2 S3)|].
    split; [constructor|]. split; [exact (opp_on E _ _ (ck_limb C E OKS) a b Ha Hb X HX)|exact (sum_opp E X HX)].
  Qed.
  Theorem C88_multiple_is_a_function X k : is_on E X -> exists! Z, mult E X k Z.
  Proof.
    intros HX. destruct link_exists as [[a b add dbl Ha Hb OD _ _ _ _ _ _]].
    destruct (mult_total E _ _ (ck_limb C E OKS) a b Ha Hb OD X k HX) as (Z & S & _). exists Z. split; [exact S|].
    intros Z' S'. exact (mult_fun E _ _ (ck_limb C E OKS) a b Ha Hb OD X k Z Z' HX S S').
  Qed.
  Theorem C88_multiples_add X j k P Q S : is_on E X -> mult E X j P -> mult E X k Q ->
    (mult E X (j + k) S <-> sum E P Q S).
  Proof.
    intros HX MP MQ. destruct link_exists as [[a b add dbl Ha Hb OD _ _ _ _ _ _]].
    pose proof (mult_is E _ _ (ck_limb C E OKS) a b Ha Hb OD) as MI.
    destruct (pv_elt E _ _ (ck_limb C E OKS) X (on_coords E X HX)) as [x VX].
    destruct (MI _ _ _ _ VX HX MP) as [VP OP]. destruct (MI _ _ _ _ VX HX MQ) as [VQ OQ].
    pose proof (proj1 (pv_on E _ _ (ck_limb C E OKS) a b Ha Hb _ _ VX) HX) as OX.
    pose proof (PointMulProofs.ec_mul_add OD j k OX) as EQ.
    destruct (sum_sound E _ _ (ck_limb C E OKS) a b Ha Hb OD _ _ _ _ VP VQ OP OQ) as (S' & VS & SS).
    pose proof (eq_ind_r (fun z => pv E _ _ (ck_limb C E OKS) S' z) VS EQ) as VS1. clear VS. rename VS1 into VS.
    destruct (mult_sound E _ _ (ck_limb C E OKS) a b Ha Hb OD X (j + k) x VX HX) as (S'' & VS' & MS & _).
    pose proof (pv_fun E _ _ (ck_limb C E OKS) _ _ _ VS VS') as <-. split.
    - intros M. rewrite (mult_fun E _ _ (ck_limb C E OKS) a b Ha Hb OD X _ S S' HX M MS). exact SS.
    - intros M. rewrite (sum_fun E _ _ (ck_limb C E OKS) a b Ha Hb OD _ _ S S' OP OQ M SS). exact MS.
  Qed.
  Theorem C88_multiples_mul X j k P S : is_on E X -> mult E X j P -> (mult E X (k * j) S <-> mult E P k S).
  Proof.
    intros HX MP. destruct link_exists as [[a b add dbl Ha Hb OD _ _ _ _ _ _]].
    pose proof (mult_is E _ _ (ck_limb C E OKS) a b Ha Hb OD) as MI.
    destruct (pv_elt E _ _ (ck_limb C E OKS) X (on_coords E X HX)) as [x VX].
    destruct (MI _ _ _ _ VX HX MP) as [VP OP].
    pose proof (proj1 (pv_on E _ _ (ck_limb C E OKS) a b Ha Hb _ _ VX) HX) as OX.
    pose proof (PointMulProofs.ec_mul_mul OD k j OX) as EQ.
    destruct (mult_sound E _ _ (ck_limb C E OKS) a b Ha Hb OD P k _ VP OP) as (S' & VS & MS & _).
    pose proof (eq_ind_r (fun z => pv E _ _ (ck_limb C E OKS) S' z) VS EQ) as VS1. clear VS. rename VS1 into VS.
    destruct (mult_sound E _ _ (ck_limb C E OKS) a b Ha Hb OD X (k * j) x VX HX) as (S'' & VS' & MS' & _).
    pose proof (pv_fun E _ _ (ck_limb C E OKS) _ _ _ VS VS') as <-. split.
    - intros M. rewrite (mult_fun E _ _ (ck_limb C E OKS) a b Ha Hb OD X _ S S' HX M MS'). exact MS.
    - intros M. rewrite (mult_fun E _ _ (ck_limb C E OKS) a b Ha Hb OD P _ S S' OP M MS). exact MS'.
  Qed.

  (** ** the code computes it *)
  Theorem C88_add P Q X Y : denotes E P X -> denotes E Q Y -> is_on E X -> is_on E Y ->
    exists Z, denotes E (na_add A P Q) Z /\ sum E X Y Z /\ is_on E Z.
  Proof.
    intros HP HQ HX HY. destruct link_exists as [[a b add dbl Ha Hb OD AU _ AE _ _ _]].
    destruct (lift C E OKS _ _ HP) as [p <-], (lift C E OKS _ _ HQ) as [q <-]. apply denotes_unl in HP, HQ.
    destruct (sum_sound E _ _ (ck_limb C E OKS) a b Ha Hb OD _ _ _ _ HP HQ HX HY) as (Z & V & S).
    exists Z. split; [|split; [exact S|exact (sum_on E _ _ (ck_limb C E OKS) a b Ha Hb OD _ _ _ HX HY S)]].
    rewrite AU. apply denotes_unl. rewrite AE; [exact V|exact (proj1 (pv_on E _ _ (ck_limb C E OKS) a b Ha Hb _ _ HP) HX)|exact (proj1 (pv_on E _ _ (ck_limb C E OKS) a b Ha Hb _ _ HQ) HY)].
  Qed.
  Theorem C88_double P X : denotes E P X -> is_on E X ->
    exists Z, denotes E (na_double A P) Z /\ sum E X X Z /\ is_on E Z.
  Proof.
    intros HP HX. destruct link_exists as [[a b add dbl Ha Hb OD _ DU _ DE _ _]].
    destruct (lift C E OKS _ _ HP) as [p <-]. apply denotes_unl in HP.
    destruct (sum_sound E _ _ (ck_limb C E OKS) a b Ha Hb OD _ _ _ _ HP HP HX HX) as (Z & V & S).
    exists Z. split; [|split; [exact S|exact (sum_on E _ _ (ck_limb C E OKS) a b Ha Hb OD _ _ _ HX HX S)]].
    rewrite DU. apply denotes_unl. rewrite DE; [exact V|]. apply (pv_on E _ _ (ck_limb C E OKS) a b Ha Hb _ _ HP), HX.
  Qed.
  Theorem C88_neg P X : denotes E P X -> denotes E (np_neg C P) (opposite E X).
  Proof. intros H. exact (C91_neg C E (sys_curve C A E n IN) P X H). Qed.
  Theorem C88_sub P Q X Y : denotes E P X -> denotes E Q Y -> is_on E X -> is_on E Y ->
    exists Z, denotes E (np_sub C A P Q) Z /\ sum E X (opposite E Y) Z /\ is_on E Z.
  Proof.
    intros HP HQ HX HY. apply (C88_add P (np_neg C Q) X (opposite E Y) HP (C88_neg _ _ HQ) HX).
    exact (proj1 (proj2 (proj2 (proj2 (C88_group_laws Y Y Y HY HY HY))))).
  Qed.
  Theorem C88_mul P X s k : denotes E P X -> is_on E X -> represents n s k ->
    exists Z, denotes E (np_mul A P s) Z /\ mult E X (Z.to_nat k) Z /\ is_on E Z.
  Proof.
    intros HP HX HS. destruct link_exists as [[a b add dbl Ha Hb OD AU DU AE DE ME SI]].
    destruct (lift C E OKS _ _ HP) as [p <-]. apply denotes_unl in HP.
    destruct (C82_bytes_is_the_value _ _ SI s k HS) as (B & L & V).
    destruct (mult_sound E _ _ (ck_limb C E OKS) a b Ha Hb OD X (Z.to_nat k) _ HP HX) as (Z & VZ & M & OZ).
    exists Z. split; [|split; [exact M|exact OZ]].
    rewrite (mul_unl C E OKS A add dbl AU DU p s B). apply denotes_unl.
    rewrite ME; [|apply (pv_on E _ _ (ck_limb C E OKS) a b Ha Hb _ _ HP), HX|apply bytesN_32; assumption].
    rewrite bytesN_val by exact B. rewrite V. exact VZ.
  Qed.
End Sys.

(** the hypotheses are met: the generators, with a scalar *)
Theorem C88_example : forall C A E n, In (C, A, E, n) systems ->
  exists X, denotes E (np_generator C) X /\ is_on E X /\ X <> None /\ represents n (nf_one (na_scalar A)) 1.
Proof.
  intros C A E n IN. destruct (C91_generator_and_identity C E (sys_curve C A E n IN)) as [(x & y & D & O) _].
  exists (Some (x, y)). split; [exact D|]. split; [exact O|]. split; [discriminate|].
  destruct (link_exists C A E n IN) as [[? ? ? ? _ _ _ _ _ _ _ _ SI]]. exact (C80_one _ _ SI).
Qed.
