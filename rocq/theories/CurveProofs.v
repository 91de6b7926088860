(** The limb-level point code of secp256k1 and P-256 is the abstract point code of [PointModel] over
    the field of limb arrays. *)
From Coq Require Import ZArith NArith Lia List Bool Znumtheory Field Ring Ring_theory Field_theory Setoid.
From Verif Require Import EcField EcSpec PointModel PointSpec PointProps LimbBase LimbSpec LimbProofs ZCong NativeField NativeInstances NativeArithProofs
  NativeProps LimbField CurveOrder EncodeModel EncodeSpec EncodeProofs CurveModel CurveSpec LimbPoints.
Import ListNotations.
Open Scope Z_scope.

Lemma of_N_land x y : Z.of_N (N.land x y) = Z.land (Z.of_N x) (Z.of_N y).
Proof.
  apply Z.bits_inj'. intros n Hn. rewrite Z.land_spec. rewrite <- (Z2N.id n) by exact Hn.
  rewrite !Z.testbit_of_N. apply N.land_spec.
Qed.
Lemma of_N_shiftr x n : Z.of_N (N.shiftr x n) = Z.shiftr (Z.of_N x) (Z.of_N n).
Proof. rewrite N.shiftr_div_pow2, Z.shiftr_div_pow2, N2Z.inj_div, N2Z.inj_pow by apply N2Z.is_nonneg. reflexivity. Qed.

Section Link.
  Variables (C : ncurve) (E : curve).
  Hypothesis OK : curve_ok C E.
  Local Notation FN := (nc_field C).
  Local Notation m := (c_p E).
  Let IN : In (FN, m) native_fields := ck_in _ _ OK.
  Lemma ck_limb : limb_ok m (represents m) (native_ops FN m).
  Proof.
    apply LimbField.native_ok; [exact (ck_in _ _ OK)|exact (ck_nb _ _ OK)|exact (ck_prime _ _ OK)|pose proof (ck_big _ _ OK); lia|exact (ck_odd _ _ OK)].
  Qed.
  Definition FL : field := limb_field m (represents m) (native_ops FN m) ck_limb.
  Definition rw (x : FL) : limbs4 := @raw limbs4 (native_ops FN m) x.
  Definition unl (p : pt FL) : npoint := NP (rw (px p)) (rw (py p)) (rw (pz p)).
  Definition lft (x : limbs4) (H : reduced4 m x = true) : FL := exist _ x H.

  Lemma rw_add x y : rw (fadd x y) = nf_add FN (rw x) (rw y). Proof. reflexivity. Qed.
  Lemma rw_mul x y : rw (fmul x y) = nf_mul FN (rw x) (rw y). Proof. reflexivity. Qed.
  Lemma rw_sub x y : rw (fsub x y) = nf_sub FN (rw x) (rw y). Proof. reflexivity. Qed.
  Lemma rw_neg x : rw (fopp x) = nf_neg FN (rw x). Proof. reflexivity. Qed.
  Lemma rw_rep x : exists v, represents m (rw x) v. Proof. apply (lrep m _ _ ck_limb). Qed.
  Lemma rw_inj x y : rw x = rw y -> x = y. Proof. apply raw_inj. Qed.
  Lemma rw_sq x : nf_square FN (rw x) = rw (fmul x x).
  Proof.
    destruct (rw_rep x) as [v H]. rewrite rw_mul.
    exact (represents_inj _ _ _ _ (C80_square FN m IN _ _ H) (C80_mul FN m IN _ _ _ _ H H)).
  Qed.
  Lemma rw_zero (x : FL) : nf_is_zero (rw x) = z01 (is_zero x).
  Proof.
    destruct (rw_rep x) as [v H]. rewrite (proj1 (C83_is_zero_is_one FN m IN _ _ H)). unfold is_zero.
    destruct (feqb_case x (f0 : FL)) as [[-> EQ]|[-> NE]].
    - subst x. rewrite (represents_fun _ _ _ _ (Z.lt_trans 1 2 m eq_refl (ck_big _ _ OK)) (ck_odd _ _ OK) H (C80_zero FN m IN)). reflexivity.
    - destruct (Z.eqb_spec v 0) as [->|]; [|reflexivity]. elim NE. apply rw_inj. exact (represents_inj _ _ _ _ H (C80_zero FN m IN)).
  Qed.
  Lemma rw_sel (c : bool) X Y (x y : FL) : X = rw x -> Y = rw y -> nf_cmove FN X Y (z01 c) = rw (sel c x y).
  Proof.
    intros -> ->. destruct (rw_rep x) as [v ((H & _) & _)], (rw_rep y) as [w ((H' & _) & _)].
    destruct (C80_cmove FN m IN _ _ H H') as [C0 C1]. destruct c; [exact C1|exact C0].
  Qed.
  Lemma lift P A : denotes E P A -> exists p, unl p = P.
  Proof.
    destruct P as [X Y Z]. intros (vx & vy & vz & HX & HY & HZ & _). cbn [np_x np_y np_z] in *.
    exists (Pt (lft X (proj2 (reduced4_ok _ _) (proj1 HX))) (lft Y (proj2 (reduced4_ok _ _) (proj1 HY))) (lft Z (proj2 (reduced4_ok _ _) (proj1 HZ)))).
    reflexivity.
  Qed.
  Local Notation rcE := (rc E (represents m) (native_ops FN m) ck_limb).
  Local Notation pvE := (pv E (represents m) (native_ops FN m) ck_limb).
  Lemma denotes_unl p A : denotes E (unl p) A <-> pvE A (homogeneous p).
  Proof.
    assert (TO : forall A, denotes E (unl p) A -> pvE A (homogeneous p)).
    { clear A. intros A (X & Y & Z & HX & HY & HZ & H). cbn [unl np_x np_y np_z] in *. unfold homogeneous.
      pose proof (rw_zero (pz p)) as Z0. rewrite (proj1 (C83_is_zero_is_one FN m IN _ _ HZ)) in Z0. unfold is_zero in Z0.
      destruct A as [[x y]|].
      - destruct H as (NZ & Cx & Cy & Ex & Ey). destruct (feqb_case (pz p) (f0 : FL)) as [[Q EQ]|[Q NE]]; rewrite Q in Z0 |- *.
        + destruct (Z.eqb_spec Z 0); [contradiction|discriminate Z0].
        + cbn [pv].
          assert (D : forall (u : FL) U v, represents m (rw u) U -> coord E v -> (v * Z) mod m = U -> represents m (rw (fdiv u (pz p))) v).
          { intros u U v HU Cv EU.
            destruct (elt E (represents m) (native_ops FN m) ck_limb v) as [V HV].
            assert (EV : u = fmul V (pz p)).
            { apply (rc_inj E _ _ ck_limb _ _ (v * Z)).
              - apply (rc_cong E _ _ ck_limb _ U); [apply rc_of; exact HU|]. rewrite <- EU. apply cong_mod. pose proof (ck_big _ _ OK). lia.
              - apply rc_mul; [exact HV|apply rc_of; exact HZ]. }
            replace (fdiv u (pz p)) with V.
            - apply rc_mod in HV. rewrite Z.mod_small in HV by exact Cv. exact HV.
            - rewrite EV. symmetry. apply f_div_eq; [exact NE|]. apply (ARmul_comm (Rth_ARth (Eqsth FL) (Eq_ext _ _ _) (F_R (fth FL)))). }
          split; [exact (D _ _ _ HX Cx Ex)|exact (D _ _ _ HY Cy Ey)].
      - subst Z. destruct (feqb_case (pz p) (f0 : FL)) as [[Q EQ]|[Q NE]]; rewrite Q in Z0 |- *; [exact I|discriminate Z0]. }
    split; [apply TO|]. intros V.
    destruct (denotes_total C E OK (unl p)) as [B HB].
    1,2,3: cbn [unl np_x np_y np_z]; match goal with |- canonical _ (rw ?x) => destruct (rw_rep x) as [v Hv]; apply Hv end.
    rewrite (pv_fun E _ _ ck_limb _ _ _ V (TO _ HB)). exact HB.
  Qed.

  (** Add and Double *)
  Lemma k256_double_unl (b : FL) p : np_k256_double FN (rw b) (unl p) = unl (k256_double b p).
  Proof.
    unfold np_k256_double. cbn [unl np_x np_y np_z]. rewrite !rw_sq. reflexivity.
  Qed.
  Lemma k256_add_unl (b : FL) p q : np_k256_add FN (rw b) (unl p) (unl q) = unl (k256_add b p q).
  Proof.
    unfold np_k256_add. cbn [unl np_x np_y np_z]. rewrite !rw_zero. cbv zeta. unfold unl, k256_add. cbv zeta. cbn [px py pz].
    f_equal; (apply rw_sel; [apply rw_sel; [reflexivity|reflexivity]|reflexivity]).
  Qed.
  Lemma p256_double_unl (b : FL) p : np_p256_double FN (rw b) (unl p) = unl (p256_double b p).
  Proof.
    unfold np_p256_double. cbn [unl np_x np_y np_z]. rewrite !rw_sq. reflexivity.
  Qed.
  Lemma p256_add_unl (b : FL) p q : np_p256_add FN (rw b) (unl p) (unl q) = unl (p256_add b p q).
  Proof.
    unfold np_p256_add. cbn [unl np_x np_y np_z]. rewrite !rw_zero. cbv zeta. unfold unl, p256_add. cbv zeta. cbn [px py pz].
    f_equal; (apply rw_sel; [apply rw_sel; [reflexivity|reflexivity]|reflexivity]).
  Qed.
  Lemma neg_unl p : np_neg C (unl p) = unl (native_neg p). Proof. reflexivity. Qed.
  Lemma id_unl : np_identity = unl native_id. Proof. reflexivity. Qed.

  (** Mul *)
  Variable A : narith.
  Variables (add : pt FL -> pt FL -> pt FL) (dbl : pt FL -> pt FL).
  Hypothesis add_unl : forall p q, na_add A (unl p) (unl q) = unl (add p q).
  Hypothesis dbl_unl : forall p, na_double A (unl p) = unl (dbl p).
  Lemma nth_unl n t : nth n (map unl t) np_identity = unl (nth n t native_id).
  Proof. rewrite id_unl. apply map_nth. Qed.
  Lemma table_fill_unl n p : forall t, np_table_fill A n (unl p) (map unl t) = map unl (table_fill add dbl native_id n p t).
  Proof.
    induction n as [|n IH]; intros t; [reflexivity|]. cbn [np_table_fill table_fill]. cbv zeta.
    rewrite map_length, nth_unl, dbl_unl, add_unl, <- IH, map_app. reflexivity.
  Qed.
  Lemma table_unl p : np_table A (unl p) = map unl (table add dbl native_id p).
  Proof. exact (table_fill_unl 7 p [native_id; p]). Qed.
  Definition bytesN (bs : list Z) : list N := map Z.to_N bs.
  Lemma window_N bs k : is_bytes bs -> (k < 64)%nat ->
    Z.to_nat (np_window bs (4 * Z.of_nat k)) = N.to_nat (window (bytesN bs) (4 * N.of_nat k)).
  Proof.
    intros B Hk. unfold np_window, window, bytesN.
    assert (I : Z.shiftr (4 * Z.of_nat k) 3 = Z.of_N (N.shiftr (4 * N.of_nat k) 3)).
    { rewrite of_N_shiftr, N2Z.inj_mul, nat_N_Z. reflexivity. }
    assert (J : Z.land (4 * Z.of_nat k) 4 = Z.of_N (N.land (4 * N.of_nat k) 4)).
    { rewrite of_N_land, N2Z.inj_mul, nat_N_Z. reflexivity. }
    rewrite I, J. set (i := N.shiftr (4 * N.of_nat k) 3). set (j := N.land (4 * N.of_nat k) 4).
    assert (Hi : (i < 32)%N).
    { unfold i. rewrite N.shiftr_div_pow2. apply N.div_lt_upper_bound; [discriminate|]. change (2 ^ 3 * 32)%N with 256%N. lia. }
    assert (Hj : (j <= 4)%N).
    { unfold j. rewrite N.land_comm. change 4%N with (N.pred 5) at 2.
      assert (G : forall x, (N.land 4 x <= 4)%N).
      { intros x. destruct x as [|x]; [cbn; lia|]. destruct x as [x|x|]; cbn; try lia; destruct x as [x|x|]; cbn; try lia; destruct x; cbn; lia. }
      specialize (G (4 * N.of_nat k)%N). cbn [N.pred Pos.pred_N] in *. lia. }
    assert (HN : (Z.to_nat (32 - 1 - Z.of_N i) = 31 - N.to_nat i)%nat) by lia. rewrite HN.
    change 0%N with (Z.to_N 0). rewrite map_nth. set (x := nth (31 - N.to_nat i) bs 0).
    assert (Hx : 0 <= x).
    { unfold x. destruct (nth_in_or_default (31 - N.to_nat i) bs 0) as [D|D]; [|rewrite D; lia].
      unfold is_bytes in B. rewrite Forall_forall in B. apply B in D. lia. }
    rewrite <- (Z2N.id x) at 1 by exact Hx.
    replace (4 - Z.of_N j) with (Z.of_N (4 - j)) by lia.
    rewrite <- of_N_shiftr. change 15 with (Z.of_N 15). rewrite <- of_N_land. rewrite <- Z_N_nat, N2Z.id. reflexivity.
  Qed.
  Lemma mul_unl p s : is_bytes (nf_bytes (na_scalar A) s) ->
    np_mul A (unl p) s = unl (point_mul add dbl native_id p (bytesN (nf_bytes (na_scalar A) s))).
  Proof.
    intros B. unfold np_mul, point_mul. rewrite table_unl, id_unl. set (t := table add dbl native_id p).
    assert (G : forall l acc, (forall k, In k l -> (k < 64)%nat) ->
      fold_left (np_mul_step A (map unl t) (nf_bytes (na_scalar A) s)) l (unl acc) =
      unl (fold_left (mul_step add dbl native_id t (bytesN (nf_bytes (na_scalar A) s))) l acc)).
    { induction l as [|k l IH]; intros acc H; [reflexivity|]. cbn [fold_left]. rewrite <- IH by (intros; apply H; right; assumption).
      f_equal. unfold np_mul_step, mul_step. rewrite (window_N _ _ B) by (apply H; left; reflexivity).
      rewrite nth_unl, !dbl_unl, add_unl. reflexivity. }
    apply G. intros k H. apply in_seq in H. lia.
  Qed.
  Lemma bytesN_32 bs : is_bytes bs -> length bs = 32%nat -> is_bytes32 (bytesN bs).
  Proof.
    intros B L. split; [unfold bytesN; rewrite map_length; exact L|]. unfold bytesN, is_bytes in *. rewrite Forall_map.
    eapply Forall_impl; [|exact B]. intros x H. cbn in *. lia.
  Qed.
  Lemma bytesN_val bs : is_bytes bs -> N.to_nat (le_value (bytesN bs)) = Z.to_nat (le_val bs).
  Proof.
    intros B. assert (G : Z.of_N (le_value (bytesN bs)) = le_val bs /\ 0 <= le_val bs); [|lia].
    induction B as [|x l Hx B IH]; [split; reflexivity || lia|]. cbn [bytesN map le_value le_val]. fold (bytesN l). lia.
  Qed.
End Link.
