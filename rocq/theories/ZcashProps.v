(** C102-C104: the byte and integer encodings of BLS12-381 G1 and G2 points. *)
From Coq Require Import Field Ring ZArith NArith Lia Bool List.
From Verif Require Import EcField EcSpec EcProofs PointModel PointSpec PointProofs PointMulProofs PointProps LimbBase LimbSpec LimbBls LimbFiat NativeField NativeArithProofs BlsFp BlsFpProofs BlsFpProps
  LimbField ZCong CurveOrder TowerModel TowerSpec TowerAlg TowerField TowerBls TowerInst TowerProps BlsRep G2Model G1Cert G2Cert BlsGroupProps ZcashModel ZcashSpec ZcashProofs ZcashCoord.
Import ListNotations.
Set Implicit Arguments.
Unset Strict Implicit.
Local Open Scope Z_scope.

Section HinG.
  Variable K : field.
  Variables (b : K) (m3b : K -> K).
  Hypothesis odd : odd_order_curve f0 b.
  Hypothesis m3b_is : forall x, m3b x = fmul (fmul (fadd (fadd f1 f1) f1) b) x.
  Lemma subgroup_inG (p : pt K) : bls_point b p -> (in_correct_subgroup m3b p = true <-> ec_mul f0 (N.to_nat rN) (homogeneous p) = None).
  Proof.
    intros P. assert (S : is_bytes32 (repeat 0%N 32)) by (split; [reflexivity|]; apply Forall_forall; intros z Z; apply repeat_spec in Z; subst z; reflexivity).
    destruct (@law K b m3b odd m3b_is p p (repeat 0%N 32) P P S) as (_ & _ & _ & _ & _ & _ & _ & _ & H). exact H.
  Qed.
End HinG.
Definition inG1 : forall p, bls_point bls_b1 p -> _ := @subgroup_inG BlsFp bls_b1 g1_m3b bls_g1_odd g1_m3b_is.
Definition inG2 : forall p, bls_point bls_b2 p -> _ := @subgroup_inG Bls2 bls_b2 g2_m3b bls_g2_odd g2_m3b_is.
Lemma mask_bits h : 0 <= h < 32 -> (160 + h) mod 128 < 64 /\ (160 + h) mod 32 = h mod 32.
Proof. intros H. Z.to_euclidean_division_equations; lia. Qed.
(** the subgroup of order r *)
Definition sub1 (P : point BlsFp) : Prop := ec_mul f0 (N.to_nat rN) P = None.
Definition sub2 (P : point Bls2) : Prop := ec_mul f0 (N.to_nat rN) P = None.

(** ** G1 *)
Theorem C102_g1_form (p : pt BlsFp) : compressed_form 48 coord1 larger1 (homogeneous p) (g1_to_compressed p).
Proof. exact (@compress_ok BlsFp 48 bls_b1 g1_m3b fp_put fp_get fp_sqrt fp_cneg fp_lex coord1 larger1 sub1 bls_g1_odd put1 get1 fun1 inj1 bytes1 zero1 eq_refl lex1 opp1 nl1 sqrt1 cneg1_0 cneg1_1 inG1 p). Qed.
Theorem C102_g1_accepts (h : Z) (r : list Z) (p : pt BlsFp) : is_bytes (h :: r) -> length (h :: r) = 48%nat ->
  (g1_from_compressed (h :: r) = Some p <->
   128 <= h /\
   ((64 <= h mod 128 /\ p = bls_id) \/
    (h mod 128 < 64 /\ exists x y, coord1 (h mod 32 :: r) x /\ on_curve f0 bls_b1 (Some (x, y)) /\ (larger1 y <-> 32 <= h mod 64) /\
       sub1 (Some (x, y)) /\ p = Pt x y f1))).
Proof.
  exact (@decompress_ok BlsFp 48 bls_b1 g1_m3b fp_put fp_get fp_sqrt fp_cneg fp_lex coord1 larger1 sub1 bls_g1_odd put1 get1 fun1 inj1 bytes1 zero1 eq_refl lex1 opp1 nl1 sqrt1 cneg1_0 cneg1_1 inG1 h r p).
Qed.
Theorem C102_g1_roundtrip (p : pt BlsFp) : bls_point bls_b1 p -> in_correct_subgroup g1_m3b p = true ->
  exists q, g1_from_compressed (g1_to_compressed p) = Some q /\ bls_point bls_b1 q /\ homogeneous q = homogeneous p /\ proj_equal p q = 1.
Proof.
  intros P S. apply (inG1 P) in S.
  refine (@roundtrip_c BlsFp 48 bls_b1 g1_m3b fp_put fp_get fp_sqrt fp_cneg fp_lex coord1 larger1 sub1 bls_g1_odd put1 get1 fun1 inj1 bytes1 zero1 eq_refl lex1 opp1 nl1 sqrt1 cneg1_0 cneg1_1 inG1 p P _).
  intros x y E. rewrite E in S. exact S.
Qed.
Theorem C102_g1_canonical (bs : list Z) (p : pt BlsFp) : is_bytes bs -> length bs = 48%nat -> g1_from_compressed bs = Some p -> homogeneous p <> None ->
  bls_point bls_b1 p /\ in_correct_subgroup g1_m3b p = true /\ g1_to_compressed p = bs.
Proof.
  intros B L D N.
  destruct (@canonical_c BlsFp 48 bls_b1 g1_m3b fp_put fp_get fp_sqrt fp_cneg fp_lex coord1 larger1 sub1 bls_g1_odd put1 get1 fun1 inj1 bytes1 zero1 eq_refl lex1 opp1 nl1 sqrt1 cneg1_0 cneg1_1 inG1 bs p B L D N) as (P & S & E).
  split; [exact P|]. split; [apply (inG1 P), S|exact E].
Qed.
(** but the identity has many encodings: only the two top bits of the first byte are looked at *)
Theorem C102_g1_infinity_refuted : ~ (forall bs cs p, is_bytes bs -> is_bytes cs -> length bs = 48%nat -> length cs = 48%nat ->
  g1_from_compressed bs = Some p -> g1_from_compressed cs = Some p -> bs = cs).
Proof.
  intros H. specialize (H (192 :: repeat 0 47) (255 :: repeat 255 47) bls_id).
  assert (Q : 192 :: repeat 0 47 = 255 :: repeat 255 47); [|discriminate Q].
  assert (B : is_bytes (192 :: repeat 0 47)) by (constructor; [lia|]; apply Forall_forall; intros z Z; apply repeat_spec in Z; lia).
  assert (B' : is_bytes (255 :: repeat 255 47)) by (constructor; [lia|]; apply Forall_forall; intros z Z; apply repeat_spec in Z; lia).
  apply H; [exact B|exact B'|reflexivity|reflexivity| |].
  - apply (@C102_g1_accepts 192 (repeat 0 47) bls_id B eq_refl). split; [lia|]. left. split; [vm_compute; discriminate|reflexivity].
  - apply (@C102_g1_accepts 255 (repeat 255 47) bls_id B' eq_refl). split; [lia|]. left. split; [vm_compute; discriminate|reflexivity].
Qed.
Theorem C103_g1_form (p : pt BlsFp) : uncompressed_form 48 coord1 (homogeneous p) (g1_to_uncompressed p).
Proof. exact (@encode_ok BlsFp 48 bls_b1 g1_m3b fp_put fp_get fp_sqrt fp_cneg fp_lex coord1 larger1 sub1 bls_g1_odd put1 get1 fun1 inj1 bytes1 zero1 eq_refl lex1 opp1 nl1 sqrt1 cneg1_0 cneg1_1 inG1 p). Qed.
Theorem C103_g1_accepts (h : Z) (r ys : list Z) (p : pt BlsFp) : is_bytes ((h :: r) ++ ys) -> length (h :: r) = 48%nat -> length ys = 48%nat ->
  (g1_from_uncompressed ((h :: r) ++ ys) = Some p <->
   (64 <= h mod 128 /\ p = bls_id) \/
   (h mod 128 < 64 /\ exists x y, coord1 (h mod 32 :: r) x /\ coord1 ys y /\ on_curve f0 bls_b1 (Some (x, y)) /\ sub1 (Some (x, y)) /\ p = Pt x y f1)).
Proof. exact (@decode_ok BlsFp 48 bls_b1 g1_m3b fp_put fp_get fp_sqrt fp_cneg fp_lex coord1 larger1 sub1 bls_g1_odd put1 get1 fun1 inj1 bytes1 zero1 eq_refl lex1 opp1 nl1 sqrt1 cneg1_0 cneg1_1 inG1 h r ys p). Qed.
Theorem C103_g1_roundtrip (p : pt BlsFp) : bls_point bls_b1 p -> in_correct_subgroup g1_m3b p = true ->
  exists q, g1_from_uncompressed (g1_to_uncompressed p) = Some q /\ bls_point bls_b1 q /\ homogeneous q = homogeneous p /\ proj_equal p q = 1.
Proof.
  intros P S. apply (inG1 P) in S.
  refine (@roundtrip_u BlsFp 48 bls_b1 g1_m3b fp_put fp_get fp_sqrt fp_cneg fp_lex coord1 larger1 sub1 bls_g1_odd put1 get1 fun1 inj1 bytes1 zero1 eq_refl lex1 opp1 nl1 sqrt1 cneg1_0 cneg1_1 inG1 p P _).
  intros x y E. rewrite E in S. exact S.
Qed.
(** the three top bits apart, a point other than the identity has one encoding *)
Theorem C103_g1_canonical (h : Z) (r ys : list Z) (p : pt BlsFp) : is_bytes ((h :: r) ++ ys) -> length (h :: r) = 48%nat -> length ys = 48%nat ->
  g1_from_uncompressed ((h :: r) ++ ys) = Some p -> homogeneous p <> None ->
  bls_point bls_b1 p /\ in_correct_subgroup g1_m3b p = true /\ g1_to_uncompressed p = (h mod 32 :: r) ++ ys.
Proof.
  intros B L LY D N.
  destruct (@canonical_u BlsFp 48 bls_b1 g1_m3b fp_put fp_get fp_sqrt fp_cneg fp_lex coord1 larger1 sub1 bls_g1_odd put1 get1 fun1 inj1 bytes1 zero1 eq_refl lex1 opp1 nl1 sqrt1 cneg1_0 cneg1_1 inG1 h r ys p B L LY D N) as (P & S & E).
  split; [exact P|]. split; [apply (inG1 P), S|exact E].
Qed.
(** those bits are not looked at: the compressed flag may be set, the sort flag too *)
Theorem C103_g1_flags_refuted : ~ (forall bs cs p, is_bytes bs -> is_bytes cs -> length bs = 96%nat -> length cs = 96%nat -> homogeneous p <> None ->
  g1_from_uncompressed bs = Some p -> g1_from_uncompressed cs = Some p -> bs = cs).
Proof.
  intros H. destruct C100_g1_generator as (P & HP & _ & S & _). destruct (C103_g1_roundtrip P S) as (q & D & _ & Q & _).
  pose proof (C103_g1_form bls_g1_point) as F. rewrite HP in F, Q. destruct F as (bx & ys & CX & CY & E). rewrite E in D. clear E.
  destruct (bytes1 _ _ CX) as (B & L & h & r & -> & H0). destruct (bytes1 _ _ CY) as (BY & LY & _).
  assert (BB : is_bytes ((h :: r) ++ ys)) by (apply Forall_app; split; assumption).
  assert (BB' : is_bytes ((160 + h :: r) ++ ys)).
  { apply Forall_app. split; [|exact BY]. constructor; [lia|]. exact (Forall_inv_tail B). }
  assert (D' : g1_from_uncompressed ((160 + h :: r) ++ ys) = Some q).
  { apply (C103_g1_accepts q BB L LY) in D. apply (@C103_g1_accepts (160 + h) r ys q BB' L LY).
    destruct D as [[A _]|(_ & x & y & D)]; [rewrite Z.mod_small in A; lia|]. right. split; [exact (proj1 (mask_bits H0))|]. exists x, y.
    rewrite (proj2 (mask_bits H0)). exact D. }
  assert (NQ : homogeneous q <> None) by (rewrite Q; discriminate).
  assert (LB : length ((h :: r) ++ ys) = 96%nat) by (rewrite app_length, L, LY; reflexivity).
  assert (LB' : length ((160 + h :: r) ++ ys) = 96%nat) by (rewrite app_length, LY; cbn [length] in L |- *; rewrite L; reflexivity).
  pose proof (H _ _ _ BB BB' LB LB' NQ D D') as E. clear - E.
  apply (f_equal (hd 0)) in E. cbn [hd app] in E. lia.
Qed.

(** ** G2 *)
Theorem C102_g2_form (p : pt Bls2) : compressed_form 96 coord2 larger2 (homogeneous p) (g2_to_compressed p).
Proof. exact (@compress_ok Bls2 96 bls_b2 g2_m3b fp2_put fp2_get fp2_root fp2_cneg_int fp2_lex coord2 larger2 sub2 bls_g2_odd put2 get2 fun2 inj2 bytes2 zero2 eq_refl lex2 opp2 nl2 sqrt2 cneg2_0 cneg2_1 inG2 p). Qed.
Theorem C102_g2_accepts (h : Z) (r : list Z) (p : pt Bls2) : is_bytes (h :: r) -> length (h :: r) = 96%nat ->
  (g2_from_compressed (h :: r) = Some p <->
   128 <= h /\
   ((64 <= h mod 128 /\ p = bls_id) \/
    (h mod 128 < 64 /\ exists x y, coord2 (h mod 32 :: r) x /\ on_curve f0 bls_b2 (Some (x, y)) /\ (larger2 y <-> 32 <= h mod 64) /\
       sub2 (Some (x, y)) /\ p = Pt x y f1))).
Proof.
  exact (@decompress_ok Bls2 96 bls_b2 g2_m3b fp2_put fp2_get fp2_root fp2_cneg_int fp2_lex coord2 larger2 sub2 bls_g2_odd put2 get2 fun2 inj2 bytes2 zero2 eq_refl lex2 opp2 nl2 sqrt2 cneg2_0 cneg2_1 inG2 h r p).
Qed.
Theorem C102_g2_roundtrip (p : pt Bls2) : bls_point bls_b2 p -> in_correct_subgroup g2_m3b p = true ->
  exists q, g2_from_compressed (g2_to_compressed p) = Some q /\ bls_point bls_b2 q /\ homogeneous q = homogeneous p /\ proj_equal p q = 1.
Proof.
  intros P S. apply (inG2 P) in S.
  refine (@roundtrip_c Bls2 96 bls_b2 g2_m3b fp2_put fp2_get fp2_root fp2_cneg_int fp2_lex coord2 larger2 sub2 bls_g2_odd put2 get2 fun2 inj2 bytes2 zero2 eq_refl lex2 opp2 nl2 sqrt2 cneg2_0 cneg2_1 inG2 p P _).
  intros x y E. rewrite E in S. exact S.
Qed.
Theorem C102_g2_canonical (bs : list Z) (p : pt Bls2) : is_bytes bs -> length bs = 96%nat -> g2_from_compressed bs = Some p -> homogeneous p <> None ->
  bls_point bls_b2 p /\ in_correct_subgroup g2_m3b p = true /\ g2_to_compressed p = bs.
Proof.
  intros B L D N.
  destruct (@canonical_c Bls2 96 bls_b2 g2_m3b fp2_put fp2_get fp2_root fp2_cneg_int fp2_lex coord2 larger2 sub2 bls_g2_odd put2 get2 fun2 inj2 bytes2 zero2 eq_refl lex2 opp2 nl2 sqrt2 cneg2_0 cneg2_1 inG2 bs p B L D N) as (P & S & E).
  split; [exact P|]. split; [apply (inG2 P), S|exact E].
Qed.
(** but the identity has many encodings: only the two top bits of the first byte are looked at *)
Theorem C102_g2_infinity_refuted : ~ (forall bs cs p, is_bytes bs -> is_bytes cs -> length bs = 96%nat -> length cs = 96%nat ->
  g2_from_compressed bs = Some p -> g2_from_compressed cs = Some p -> bs = cs).
Proof.
  intros H. specialize (H (192 :: repeat 0 95) (255 :: repeat 255 95) bls_id).
  assert (Q : 192 :: repeat 0 95 = 255 :: repeat 255 95); [|discriminate Q].
  assert (B : is_bytes (192 :: repeat 0 95)) by (constructor; [lia|]; apply Forall_forall; intros z Z; apply repeat_spec in Z; lia).
  assert (B' : is_bytes (255 :: repeat 255 95)) by (constructor; [lia|]; apply Forall_forall; intros z Z; apply repeat_spec in Z; lia).
  apply H; [exact B|exact B'|reflexivity|reflexivity| |].
  - apply (@C102_g2_accepts 192 (repeat 0 95) bls_id B eq_refl). split; [lia|]. left. split; [vm_compute; discriminate|reflexivity].
  - apply (@C102_g2_accepts 255 (repeat 255 95) bls_id B' eq_refl). split; [lia|]. left. split; [vm_compute; discriminate|reflexivity].
Qed.
Theorem C103_g2_form (p : pt Bls2) : uncompressed_form 96 coord2 (homogeneous p) (g2_to_uncompressed p).
Proof. exact (@encode_ok Bls2 96 bls_b2 g2_m3b fp2_put fp2_get fp2_root fp2_cneg_int fp2_lex coord2 larger2 sub2 bls_g2_odd put2 get2 fun2 inj2 bytes2 zero2 eq_refl lex2 opp2 nl2 sqrt2 cneg2_0 cneg2_1 inG2 p). Qed.
Theorem C103_g2_accepts (h : Z) (r ys : list Z) (p : pt Bls2) : is_bytes ((h :: r) ++ ys) -> length (h :: r) = 96%nat -> length ys = 96%nat ->
  (g2_from_uncompressed ((h :: r) ++ ys) = Some p <->
   (64 <= h mod 128 /\ p = bls_id) \/
   (h mod 128 < 64 /\ exists x y, coord2 (h mod 32 :: r) x /\ coord2 ys y /\ on_curve f0 bls_b2 (Some (x, y)) /\ sub2 (Some (x, y)) /\ p = Pt x y f1)).
Proof. exact (@decode_ok Bls2 96 bls_b2 g2_m3b fp2_put fp2_get fp2_root fp2_cneg_int fp2_lex coord2 larger2 sub2 bls_g2_odd put2 get2 fun2 inj2 bytes2 zero2 eq_refl lex2 opp2 nl2 sqrt2 cneg2_0 cneg2_1 inG2 h r ys p). Qed.
Theorem C103_g2_roundtrip (p : pt Bls2) : bls_point bls_b2 p -> in_correct_subgroup g2_m3b p = true ->
  exists q, g2_from_uncompressed (g2_to_uncompressed p) = Some q /\ bls_point bls_b2 q /\ homogeneous q = homogeneous p /\ proj_equal p q = 1.
Proof.
  intros P S. apply (inG2 P) in S.
  refine (@roundtrip_u Bls2 96 bls_b2 g2_m3b fp2_put fp2_get fp2_root fp2_cneg_int fp2_lex coord2 larger2 sub2 bls_g2_odd put2 get2 fun2 inj2 bytes2 zero2 eq_refl lex2 opp2 nl2 sqrt2 cneg2_0 cneg2_1 inG2 p P _).
  intros x y E. rewrite E in S. exact S.
Qed.
(** the three top bits apart, a point other than the identity has one encoding *)
Theorem C103_g2_canonical (h : Z) (r ys : list Z) (p : pt Bls2) : is_bytes ((h :: r) ++ ys) -> length (h :: r) = 96%nat -> length ys = 96%nat ->
  g2_from_uncompressed ((h :: r) ++ ys) = Some p -> homogeneous p <> None ->
  bls_point bls_b2 p /\ in_correct_subgroup g2_m3b p = true /\ g2_to_uncompressed p = (h mod 32 :: r) ++ ys.
Proof.
  intros B L LY D N.
  destruct (@canonical_u Bls2 96 bls_b2 g2_m3b fp2_put fp2_get fp2_root fp2_cneg_int fp2_lex coord2 larger2 sub2 bls_g2_odd put2 get2 fun2 inj2 bytes2 zero2 eq_refl lex2 opp2 nl2 sqrt2 cneg2_0 cneg2_1 inG2 h r ys p B L LY D N) as (P & S & E).
  split; [exact P|]. split; [apply (inG2 P), S|exact E].
Qed.
(** those bits are not looked at: the compressed flag may be set, the sort flag too *)
Theorem C103_g2_flags_refuted : ~ (forall bs cs p, is_bytes bs -> is_bytes cs -> length bs = 192%nat -> length cs = 192%nat -> homogeneous p <> None ->
  g2_from_uncompressed bs = Some p -> g2_from_uncompressed cs = Some p -> bs = cs).
Proof.
  intros H. destruct C100_g2_generator as (P & HP & _ & S & _). destruct (C103_g2_roundtrip P S) as (q & D & _ & Q & _).
  pose proof (C103_g2_form bls_g2_point) as F. rewrite HP in F, Q. destruct F as (bx & ys & CX & CY & E). rewrite E in D. clear E.
  destruct (bytes2 _ _ CX) as (B & L & h & r & -> & H0). destruct (bytes2 _ _ CY) as (BY & LY & _).
  assert (BB : is_bytes ((h :: r) ++ ys)) by (apply Forall_app; split; assumption).
  assert (BB' : is_bytes ((160 + h :: r) ++ ys)).
  { apply Forall_app. split; [|exact BY]. constructor; [lia|]. exact (Forall_inv_tail B). }
  assert (D' : g2_from_uncompressed ((160 + h :: r) ++ ys) = Some q).
  { apply (C103_g2_accepts q BB L LY) in D. apply (@C103_g2_accepts (160 + h) r ys q BB' L LY).
    destruct D as [[A _]|(_ & x & y & D)]; [rewrite Z.mod_small in A; lia|]. right. split; [exact (proj1 (mask_bits H0))|]. exists x, y.
    rewrite (proj2 (mask_bits H0)). exact D. }
  assert (NQ : homogeneous q <> None) by (rewrite Q; discriminate).
  assert (LB : length ((h :: r) ++ ys) = 192%nat) by (rewrite app_length, L, LY; reflexivity).
  assert (LB' : length ((160 + h :: r) ++ ys) = 192%nat) by (rewrite app_length, LY; cbn [length] in L |- *; rewrite L; reflexivity).
  pose proof (H _ _ _ BB BB' LB LB' NQ D D') as E. clear - E.
  apply (f_equal (hd 0)) in E. cbn [hd app] in E. lia.
Qed.

(** ** C104: BigInt and SetBigInt *)
Theorem C104_g1_big_int (p : pt BlsFp) :
  match homogeneous p with
  | None => g1_big_int p = (0, 0)
  | Some (x, y) => rv x (fst (g1_big_int p)) /\ rv y (snd (g1_big_int p))
  end.
Proof.
  unfold g1_big_int. cbv zeta. rewrite C75_to_affine. destruct (homogeneous p) as [[x y]|]; cbn [PointModel.px py fst snd].
  - destruct (rv_ex x) as [v X], (rv_ex y) as [w Y]. rewrite (proj1 (C79_big_int_and_raw _ _ X)), (proj1 (C79_big_int_and_raw _ _ Y)). split; assumption.
  - rewrite (proj1 (C79_big_int_and_raw _ _ rv_0)). reflexivity.
Qed.
Lemma mul_none {K : field} (n : nat) : ec_mul f0 n (None : point K) = None.
Proof. induction n as [|n IH]; [reflexivity|]. cbn [ec_mul]. rewrite IH. reflexivity. Qed.
(** any integers are accepted, and stand for their residues *)
Theorem C104_g1_set (vx vy : Z) (x y : BlsFp) : rv x (vx mod bls_p) -> rv y (vy mod bls_p) ->
  match g1_set_big_int vx vy with
  | Some p => bls_point bls_b1 p /\ in_correct_subgroup g1_m3b p = true /\
      ((x = f0 /\ y = f0 /\ homogeneous p = None) \/ (on_curve f0 bls_b1 (Some (x, y)) /\ homogeneous p = Some (x, y)))
  | None => ~ (x = f0 /\ y = f0) /\ ~ (on_curve f0 bls_b1 (Some (x, y)) /\ sub1 (Some (x, y)))
  end.
Proof.
  intros X Y. unfold g1_set_big_int.
  assert (EX : bls_const (blsfp_set_big_int blsfp_zero vx) = x) by (apply (rv_eq _ _ _ _ (const_rv _ _ (C79_set_big_int _ vx words_zero)) X), cong_refl).
  assert (EY : bls_const (blsfp_set_big_int blsfp_zero vy) = y) by (apply (rv_eq _ _ _ _ (const_rv _ _ (C79_set_big_int _ vy words_zero)) Y), cong_refl).
  rewrite EX, EY. pose proof (@C75_g1_set BlsFp bls_b1 g1_m3b x y bls_g1_odd g1_m3b_is) as H.
  change (le_value fq_modulus_bytes) with bls_q in H. rewrite <- rN_q in H. destruct (g1_set g1_m3b bls_b1 x y) as [p|].
  - destruct H as [P [(-> & -> & H)|(O & S & H)]]; (split; [exact P|]).
    + split; [apply (inG1 P); rewrite H; unfold sub1; apply mul_none|]. left. auto.
    + split; [apply (inG1 P); rewrite H; exact S|]. right. split; [exact O|exact H].
  - destruct H as [N [H|H]]; (split; [exact N|]); intros [O S]; [exact (H O)|exact (H S)].
Qed.

Theorem C104_g1_roundtrip (p : pt BlsFp) : bls_point bls_b1 p -> in_correct_subgroup g1_m3b p = true ->
  exists q, g1_set_big_int (fst (g1_big_int p)) (snd (g1_big_int p)) = Some q /\ homogeneous q = homogeneous p /\ proj_equal p q = 1.
Proof.
  intros P S. apply (inG1 P) in S. pose proof (C104_g1_big_int p) as B. destruct P as [P _].
  destruct (homogeneous p) as [[x y]|] eqn:E.
  - destruct B as [X Y]. set (vx := fst _) in *. set (vy := snd _) in *.
    assert (RX : rv x (vx mod bls_p)) by (rewrite Z.mod_small by exact (rv_range _ _ X); exact X).
    assert (RY : rv y (vy mod bls_p)) by (rewrite Z.mod_small by exact (rv_range _ _ Y); exact Y).
    pose proof (C104_g1_set RX RY) as H. destruct (g1_set_big_int vx vy) as [q|].
    + exists q. split; [reflexivity|]. destruct H as (_ & _ & [(-> & -> & _)|[_ H]]); [exfalso; exact (y_neq bls_g1_odd P eq_refl)|].
      split; [exact H|]. apply C74_equal. rewrite E, H. reflexivity.
    + exfalso. exact (proj2 H (conj P S)).
  - rewrite B. cbn [fst snd]. pose proof (@C104_g1_set 0 0 f0 f0 rv_0 rv_0) as H. destruct (g1_set_big_int 0 0) as [q|].
    + exists q. split; [reflexivity|]. destruct H as (_ & _ & [(_ & _ & H)|[O _]]); [|exfalso; exact (y_neq bls_g1_odd O eq_refl)].
      split; [exact H|]. apply C74_equal. rewrite E, H. reflexivity.
    + exfalso. apply (proj1 H). split; reflexivity.
Qed.
(** G2: BigInt does not look at the point *)
Theorem C104_g2_big_int_refuted : ~ (forall p q, bls_point bls_b2 p -> bls_point bls_b2 q -> in_correct_subgroup g2_m3b p = true ->
  in_correct_subgroup g2_m3b q = true -> g2_big_int p = g2_big_int q -> homogeneous p = homogeneous q).
Proof.
  intros H. destruct C100_g2_generator as (P & HP & _ & S & _). assert (PI : bls_point bls_b2 bls_id) by apply C71_identity.
  assert (SI : in_correct_subgroup g2_m3b bls_id = true) by (apply (inG2 PI); rewrite id_hom; apply mul_none).
  pose proof (H _ _ P PI S SI eq_refl) as E. rewrite HP, id_hom in E. discriminate E.
Qed.
(** and SetBigInt of what it returns is the identity *)
Theorem C104_g2_roundtrip_refuted (p : pt Bls2) : bls_point bls_b2 p -> homogeneous p <> None ->
  exists q, g2_set_big_int (fst (g2_big_int p)) (snd (g2_big_int p)) = Some (Some q) /\ homogeneous q <> homogeneous p.
Proof.
  intros P N. exists bls_id. split; [|rewrite id_hom; auto].
  assert (E : g2_big_int p = (64 * 256 ^ 95, 0)).
  { unfold g2_big_int. cbv zeta. assert (Z0 : homogeneous (Pt (F := Bls2) f0 f0 f0) = None) by (unfold homogeneous; cbn [pz]; rewrite feqb_true; reflexivity).
    pose proof (C103_g2_form (Pt (F := Bls2) f0 f0 f0)) as F. rewrite Z0 in F. cbn [uncompressed_form] in F. rewrite F. vm_compute. reflexivity. }
  rewrite E. cbn [fst snd]. unfold g2_set_big_int. 
  change ((64 * 256 ^ 95 =? 0) && (0 =? 0)) with false. change ((2 ^ 768 <=? Z.abs (64 * 256 ^ 95)) || (2 ^ 768 <=? Z.abs 0)) with false. cbv iota.
  reflexivity.
Qed.
(** SetBigInt takes the integers written by the uncompressed coordinates *)
Lemma fill48 v : 0 <= v < 2 ^ 384 -> is_bytes (fill_be 48 v) /\ length (fill_be 48 v) = 48%nat /\ be_val (fill_be 48 v) = v.
Proof.
  intros H. unfold fill_be. destruct (put_le_ok 48 v) as (E & B & L); [exact H|].
  split; [apply rev_bytes, B|]. split; [rewrite rev_length; exact L|]. rewrite be_le, rev_involutive. exact E.
Qed.
Lemma fill96 v : 0 <= v < 2 ^ 768 -> is_bytes (fill_be 96 v) /\ length (fill_be 96 v) = 96%nat /\ be_val (fill_be 96 v) = v.
Proof.
  intros H. unfold fill_be. destruct (put_le_ok 96 v) as (E & B & L); [exact H|].
  split; [apply rev_bytes, B|]. split; [rewrite rev_length; exact L|]. rewrite be_le, rev_involutive. exact E.
Qed.
Lemma value_coord (x : Bls2) v : value2 x v -> 0 <= v < 2 ^ 768 /\ coord2 (fill_be 96 v) x.
Proof.
  intros (a & b & A & B & ->). pose proof (rv_range _ _ A) as RA. pose proof (rv_range _ _ B) as RB.
  assert (P : bls_p < 2 ^ 384) by (vm_compute; reflexivity).
  assert (R : 0 <= b * 2 ^ 384 + a < 2 ^ 768) by (change (2 ^ 768) with (2 ^ 384 * 2 ^ 384); clear - RA RB P; set (M := 2 ^ 384) in *; nia).
  split; [exact R|]. destruct (@fill48 a) as (A1 & A2 & A3); [clear - RA P; lia|]. destruct (@fill48 b) as (B1 & B2 & B3); [clear - RB P; lia|].
  destruct (fill96 R) as (C1 & C2 & C3). exists (fill_be 48 b), (fill_be 48 a). split.
  - apply (be_inj 96); [exact C2|rewrite app_length, B2, A2; reflexivity|exact C1|apply Forall_app; split; assumption|].
    rewrite C3. rewrite be_le, rev_app_distr, le_val_app, rev_length, A2, <- !be_le, A3, B3. change (256 ^ Z.of_nat 48) with (2 ^ 384). ring.
  - split; (split; [assumption|]; split; [assumption|]); [rewrite B3|rewrite A3]; assumption.
Qed.
Theorem C104_g2_set (vx vy : Z) (x y : Bls2) : value2 x vx -> value2 y vy -> on_curve f0 bls_b2 (Some (x, y)) -> sub2 (Some (x, y)) ->
  exists p, g2_set_big_int vx vy = Some (Some p) /\ bls_point bls_b2 p /\ homogeneous p = Some (x, y).
Proof.
  intros X Y O S. destruct (value_coord X) as [RX CX]. destruct (value_coord Y) as [RY CY]. exists (Pt x y f1). split; [|split; [exact (point1 O)|apply hom1]].
  unfold g2_set_big_int. assert (NZ : vy <> 0).
  { intros ->. apply (y_neq bls_g2_odd O). apply (fun2 _ _ _ CY). change (fill_be 96 0) with (repeat 0 96). exact zero2. }
  rewrite (proj2 (Z.eqb_neq vy 0) NZ), andb_false_r. rewrite !Z.abs_eq by (apply RX || apply RY).
  rewrite (proj2 (Z.leb_gt (2 ^ 768) vx)), (proj2 (Z.leb_gt (2 ^ 768) vy)) by (apply RX || apply RY). cbn [orb]. apply f_equal.
  destruct (bytes2 _ _ CX) as (B & L & h & r & E & H). rewrite E in *. destruct (bytes2 _ _ CY) as (BY & LY & _).
  apply (C103_g2_accepts (Pt x y f1)); [apply Forall_app; split; assumption|exact L|exact LY|].
  right. split; [rewrite Z.mod_small by (clear - H; lia); clear - H; lia|]. exists x, y.
  rewrite Z.mod_small by (clear - H; lia). auto.
Qed.
(** the generators meet the hypotheses *)
Example C104_hypotheses : (exists p, bls_point bls_b1 p /\ in_correct_subgroup g1_m3b p = true /\ homogeneous p <> None) /\
  (exists p, bls_point bls_b2 p /\ in_correct_subgroup g2_m3b p = true /\ homogeneous p <> None).
Proof.
  destruct C100_g1_generator as (P & H & _ & S & _). destruct C100_g2_generator as (P2 & H2 & _ & S2 & _). split.
  - exists bls_g1_point. split; [exact P|]. split; [exact S|]. rewrite H. discriminate.
  - exists bls_g2_point. split; [exact P2|]. split; [exact S2|]. rewrite H2. discriminate.
Qed.
