(** psi, psi2 and ClearCofactor of the G2 model as maps of curve points. *)
From Coq Require Import Field Ring ZArith NArith Lia Bool List Znumtheory Permutation.
From Verif Require Import EcField EcSpec EcAlg EcProofs PointModel PointSpec PointProofs PointMulProofs PointProps MillerSpec
  LimbBase LimbSpec LimbBls LimbField BlsFpProps ZCong NativeRoots
  TowerModel TowerSpec TowerAlg TowerField TowerFrob TowerBls TowerStep TowerMiller TowerInst
  G2Psi BlsRep G2Model G2Cert.
Import ListNotations.
Set Implicit Arguments.
Unset Strict Implicit.
Local Open Scope fld_scope.

(** ** sums of points, in any order *)
Section Sums.
  Variable K : field.
  Variable b : K.
  Hypothesis odd : odd_order_curve 0 b.
  Local Notation on := (on_curve 0 b).
  Definition psum (l : list (point K)) : point K := fold_right (ec_add 0) None l.
  Lemma psum_on l : Forall on l -> on (psum l).
  Proof. induction 1 as [|P l H _ IH]; [exact I|]. cbn [psum fold_right]. apply (ec_closed odd); assumption. Qed.
  Lemma psum_perm l m : Permutation l m -> Forall on l -> psum l = psum m.
  Proof.
    induction 1 as [|P l m H IH|P Q l|l m n H1 IH1 H2 IH2]; intros A.
    - reflexivity.
    - inversion A; subst. cbn [psum fold_right]. f_equal. now apply IH.
    - inversion A as [|? ? HP A1]; subst. inversion A1 as [|? ? HQ A2]; subst. cbn [psum fold_right].
      pose proof (psum_on A2) as HS. unfold psum in HS.
      rewrite <- !(ec_assoc odd) by assumption. f_equal. now apply (ec_comm odd).
    - rewrite IH1 by assumption. apply IH2. eapply Permutation_Forall; eassumption.
  Qed.
  Lemma psum_app l m : Forall on l -> Forall on m -> psum (l ++ m) = ec_add 0 (psum l) (psum m).
  Proof.
    induction 1 as [|P l H A IH]; intros B; [reflexivity|]. cbn [psum fold_right app]. change (fold_right (ec_add 0) None (l ++ m)) with (psum (l ++ m)). rewrite (IH B).
    symmetry. apply (ec_assoc odd); [exact H|apply (psum_on A)|apply (psum_on B)].
  Qed.
  Lemma psum_1 P : psum [P] = P. Proof. apply ec_zero_r. Qed.
  Lemma snoc l P : Forall on l -> on P -> ec_add 0 (psum l) P = psum (l ++ [P]).
  Proof. intros A B. rewrite psum_app by auto. now rewrite psum_1. Qed.
  Lemma mulN_padd n P Q : on P -> on Q -> mulN n (ec_add 0 P Q) = ec_add 0 (mulN n P) (mulN n Q).
  Proof.
    intros HP HQ. unfold mulN. induction (N.to_nat n) as [|k IH]; [reflexivity|]. cbn [ec_mul]. rewrite IH.
    pose proof (ec_mul_on odd k HP) as A. pose proof (ec_mul_on odd k HQ) as B.
    transitivity (psum ([P; Q] ++ [ec_mul 0 k P; ec_mul 0 k Q])).
    - rewrite psum_app by (repeat constructor; assumption). cbn [psum fold_right]. rewrite !ec_zero_r. reflexivity.
    - transitivity (psum ([P; ec_mul 0 k P] ++ [Q; ec_mul 0 k Q])).
      + apply psum_perm; [|repeat constructor; assumption]. cbn [app]. constructor.
        apply perm_swap.
      + rewrite psum_app by (repeat constructor; assumption). cbn [psum fold_right]. rewrite !ec_zero_r. reflexivity.
  Qed.
  (** the combination ClearCofactor computes *)
  Lemma clear_sum (P T U V W X2 Q : point K) : on P -> on T -> on U -> on V -> on W -> on X2 -> on Q -> ec_add 0 Q P = ec_add 0 X2 T ->
    ec_add 0 (ec_add 0 (ec_add 0 (ec_add 0 V (ec_add 0 X2 (ec_neg W))) T) (ec_neg U)) (ec_neg P) =
    ec_add 0 (ec_add 0 Q (ec_neg (ec_add 0 W U))) V.
  Proof.
    intros HP HT HU HV HW HX HQ E.
    pose proof (ec_neg_on HP) as NP. pose proof (ec_neg_on HU) as NU. pose proof (ec_neg_on HW) as NW.
    transitivity (psum [V; X2; ec_neg W; T; ec_neg U; ec_neg P]).
    - rewrite <- (psum_1 V) at 1. rewrite <- (psum_1 (ec_neg W)) at 1.
      change (ec_add 0 X2 (psum [ec_neg W])) with (psum [X2; ec_neg W]). rewrite <- psum_app by (repeat constructor; assumption).
      rewrite !snoc by (repeat (apply Forall_app; split); repeat constructor; assumption). reflexivity.
    - transitivity (psum ([X2; T; ec_neg P] ++ [ec_neg W; ec_neg U; V])).
      + apply psum_perm; [|repeat constructor; assumption].
        cbn [app]. transitivity ([X2; ec_neg W; T; ec_neg U; ec_neg P] ++ [V]); [apply (Permutation_app_comm [V])|]. cbn [app].
        constructor. transitivity (T :: ec_neg W :: ec_neg U :: ec_neg P :: [V]); [constructor|]. constructor.
        change (Permutation ([ec_neg W; ec_neg U] ++ [ec_neg P] ++ [V]) ([ec_neg P] ++ [ec_neg W; ec_neg U] ++ [V])).
        rewrite !app_assoc. apply Permutation_app_tail. apply Permutation_app_comm.
      + rewrite psum_app by (repeat constructor; assumption).
        assert (A : psum [X2; T; ec_neg P] = Q).
        { cbn [psum fold_right]. rewrite ec_zero_r, <- (ec_assoc odd HX HT NP), <- E, (ec_assoc odd HQ HP NP), ec_neg_r. apply ec_zero_r. }
        rewrite A. cbn [psum fold_right]. rewrite ec_zero_r, (ec_neg_add odd HW HU).
        rewrite <- (ec_assoc odd NW NU HV). symmetry. apply (ec_assoc odd); [exact HQ|apply (ec_closed odd); assumption|exact HV].
  Qed.
End Sums.

(** ** the constants *)
Definition psi_yA : Z := 2973677408986561043442465346520108879172042883009249989176415018091420807192182638567116318576472649347015917690530.
Definition psi_yB : Z := 1028732146235106349975324479215795277384839936929757896155643118032610843298655225875571310552543014690878354869257.
Lemma psi_x_inv : (bls_psi_x : Bls2) * (psi_w * psi_w) = 1.
Proof.
  assert (X : rz2 (bls_psi_x : Bls2) (0, bls_p + 1 - psi_cv)%Z) by (split; [exact (rz_of rv_0)|apply rz_of, rv_const; vm_compute; reflexivity]).
  apply (rz2_eq (rz2_mul X rz2_w2) rz2_1); congv.
Qed.
Lemma psi_y_inv : (bls_psi_y : Bls2) * (psi_w * psi_w * psi_w) = 1.
Proof.
  assert (X : rz2 (bls_psi_y : Bls2) (psi_yA, psi_yB)%Z) by (split; apply rz_of, rv_const; vm_compute; reflexivity).
  apply (rz2_eq (rz2_mul X rz2_w3) rz2_1); congv.
Qed.
Lemma psi2_x_c : (bls_psi2_x : Bls2) = fopp psi_c.
Proof.
  assert (X : rz2 (bls_psi2_x : Bls2) (bls_p - psi_cv, 0)%Z) by (split; [apply rz_of, rv_const; vm_compute; reflexivity|exact (rz_of rv_0)]).
  apply (rz2_eq X (rz2_opp rz2_cv)); congv.
Qed.

(** ** psi on triples *)
Section Tr.
  Variable K : field.
  Add Field Ktr : (fth K).
  Lemma div_eq2 (a k d c : K) : d <> 0 -> c * d = 1 -> a * c = a / d.
  Proof. intros D E. symmetry. apply f_div_eq; [exact D|]. transitivity (a * (c * d)); [rewrite E; ring|ring]. Qed.
  Lemma scale_div (a z c : K) : z <> 0 -> a * c / z = a / z * c. Proof. intros Z. field. exact Z. Qed.
  Lemma div_neg (a z : K) : z <> 0 -> fopp a / z = fopp (a / z). Proof. intros Z. field. exact Z. Qed.
  Lemma mul_comm (a b : K) : a * b = b * a. Proof. ring. Qed.
  Lemma inv_neq (c d : K) : c * d = 1 -> c <> 0. Proof. intros E Z. apply (@f_one_zero K). rewrite <- E, Z. ring. Qed.
  Lemma mul0l (c : K) : 0 * c = 0. Proof. ring. Qed.
  Lemma opp_nz (c : K) : c <> 0 -> fopp c <> 0. Proof. intros C E. apply C. transitivity (fopp (fopp c)); [ring|rewrite E; ring]. Qed.
End Tr.
(** g2.go:1027-1048, 721-738 with their constants *)
Definition bls_g2_psi (a : pt Bls2) : pt Bls2 := g2_psi (N1 := bls_N1) bls_psi_x bls_psi_y a.
Definition bls_g2_psi2 (a : pt Bls2) : pt Bls2 := g2_psi2 (N1 := bls_N1) bls_psi2_x a.
Definition bls_g2_clear (a : pt Bls2) : pt Bls2 := g2_clear_cofactor (N1 := bls_N1) g2_m3b bls_psi_x bls_psi_y bls_psi2_x a.
Lemma g2_psi_form (a : pt Bls2) : bls_g2_psi a = Pt (cj2 (PointModel.px a) * (bls_psi_x : Bls2)) (cj2 (py a) * (bls_psi_y : Bls2)) (cj2 (pz a)).
Proof. reflexivity. Qed.
Lemma g2_psi2_form (a : pt Bls2) : bls_g2_psi2 a = Pt (PointModel.px a * (bls_psi2_x : Bls2)) (fopp (py a)) (pz a).
Proof. reflexivity. Qed.
Section PsiAbs.
  Variable K : field.
  Add Field Kpa : (fth K).
  Variable cj : K -> K.
  Hypothesis cj_1 : cj 1 = 1.
  Hypothesis cj_mul : forall x y, cj (x * y) = cj x * cj y.
  Hypothesis cj_add : forall x y, cj (x + y) = cj x + cj y.
  Hypothesis cj_cj : forall x, cj (cj x) = x.
  Variables (w c b cx cy c2 : K).
  Hypothesis W : w <> 0.
  Hypothesis CX : cx * (w * w) = 1.
  Hypothesis CY : cy * (w * w * w) = 1.
  Hypothesis NC : w * cj w = c.
  Hypothesis C2 : c * c = c - 1.
  Hypothesis HB : cj b = b * (w * w * w * (w * w * w)).
  Hypothesis C2X : c2 = fopp c.
  Definition tpsi (a : pt K) : pt K := Pt (cj (PointModel.px a) * cx) (cj (py a) * cy) (cj (pz a)).
  Definition tpsi2 (a : pt K) : pt K := Pt (PointModel.px a * c2) (fopp (py a)) (pz a).
  Lemma cj0 : cj 0 = 0. Proof. exact (h0 cj_add). Qed.
  Lemma cj_eq0 x : cj x = 0 -> x = 0. Proof. intros E. rewrite <- (cj_cj x), E. apply cj0. Qed.
  Lemma tpsi_hom a : homogeneous (tpsi a) = psi cj w (homogeneous a).
  Proof.
    unfold homogeneous, tpsi. cbn [PointModel.px py pz]. destruct (feqb_case (pz a) 0) as [[-> E]|[-> N]].
    - rewrite E, cj0, feqb_true. reflexivity.
    - assert (N' : cj (pz a) <> 0) by (intros E; apply N, cj_eq0, E). rewrite (feqb_false N'). cbn [psi untwist]. unfold ux, uy.
      rewrite !(hdiv cj_1 cj_mul) by exact N. rewrite !scale_div by exact N'. do 2 f_equal; apply div_eq2; auto; repeat apply f_mul_neq; exact W.
  Qed.
  Lemma tpsi_proper a : proper a -> proper (tpsi a).
  Proof.
    unfold proper, tpsi. cbn [PointModel.px py pz]. intros P E. destruct (P (cj_eq0 E)) as [-> Y]. rewrite cj0. split; [apply mul0l|].
    apply f_mul_neq; [intros E'; apply Y, cj_eq0, E'|exact (inv_neq CY)].
  Qed.
  Lemma tpsi_ok a : bls_point b a -> bls_point b (tpsi a) /\ homogeneous (tpsi a) = psi cj w (homogeneous a).
  Proof.
    intros [O P]. split; [split|apply tpsi_hom]; [|now apply tpsi_proper]. rewrite tpsi_hom.
    exact (@psi_on' K cj cj_mul cj_add w b W HB _ O).
  Qed.
  Lemma tpsi2_hom a : homogeneous (tpsi2 a) = psi cj w (psi cj w (homogeneous a)).
  Proof.
    unfold homogeneous, tpsi2. cbn [PointModel.px py pz]. destruct (feqb_case (pz a) 0) as [[-> E]|[-> N]]; [reflexivity|].
    rewrite (@psi2_is K cj cj_1 cj_mul cj_cj w c W NC C2), C2X. do 2 f_equal; [|now apply div_neg].
    rewrite scale_div by exact N. apply mul_comm.
  Qed.
  Lemma tpsi2_ok a : bls_point b a -> bls_point b (tpsi2 a) /\ homogeneous (tpsi2 a) = psi cj w (psi cj w (homogeneous a)).
  Proof.
    intros [O P]. split; [split|apply tpsi2_hom].
    - rewrite tpsi2_hom. apply (@psi_on' K cj cj_mul cj_add w b W HB), (@psi_on' K cj cj_mul cj_add w b W HB), O.
    - unfold proper, tpsi2. cbn [PointModel.px py pz]. intros E. destruct (P E) as [-> Y]. split; [apply mul0l|now apply opp_nz].
  Qed.

  Variable m3b : K -> K.
  Hypothesis odd : odd_order_curve 0 b.
  Hypothesis M3 : forall x, m3b x = (1 + 1 + 1) * b * x.
  Definition tclear (a : pt K) : pt K :=
    let t1 := bls_mul_by_x m3b a in
    let t2 := tpsi a in
    let p := tpsi2 (bls_double m3b a) in
    let t3 := bls_mul_by_x m3b (bls_add m3b t1 t2) in
    bls_sub m3b (bls_sub m3b (bls_sub m3b (bls_add m3b p t3) t1) t2) a.
  Local Notation psi := (psi cj w).
  Lemma mulx_ok a : bls_point b a -> bls_point b (bls_mul_by_x m3b a) /\ homogeneous (bls_mul_by_x m3b a) = ec_neg (mulN bls_x (homogeneous a)).
  Proof. intros A. unfold mulN. exact (C76_mul_by_x odd M3 A). Qed.
  Lemma tclear_ok a : bls_point b a -> bls_point b (tclear a) /\
    homogeneous (tclear a) = ec_add 0 (ec_add 0 (mulN (bls_x * bls_x + bls_x - 1) (homogeneous a)) (ec_neg (mulN (bls_x + 1) (psi (homogeneous a)))))
      (psi (psi (ec_add 0 (homogeneous a) (homogeneous a)))).
  Proof.
    intros A. unfold tclear. cbv zeta.
    destruct (mulx_ok A) as [V1 E1]. destruct (tpsi_ok A) as [V2 E2]. destruct (C71_double odd M3 A) as [VD ED].
    destruct (tpsi2_ok VD) as [VP EP]. rewrite ED in EP.
    destruct (C71_add odd M3 V1 V2) as [V12 E12]. destruct (mulx_ok V12) as [V3 E3].
    destruct (C71_add odd M3 VP V3) as [W1 F1]. destruct (C71_sub odd M3 W1 V1) as [W2 F2].
    destruct (C71_sub odd M3 W2 V2) as [W3 F3]. destruct (C71_sub odd M3 W3 A) as [W4 F4].
    split; [exact W4|]. clear W4 W3 W2 W1. assert (G1 : (1 <= bls_x)%N) by (vm_compute; discriminate).
    revert G1 E1 E3. generalize bls_x. intros n G1 E1 E3. rewrite F4, F3, F2, F1, E3, EP, E12, E1, E2, ec_neg_neg.
    set (P := homogeneous a) in *.
    assert (O : on_curve 0 b P) by apply A. assert (OU : on_curve 0 b (psi P)) by (apply (@psi_on' K cj cj_mul cj_add w b W HB), O).
    assert (OT : on_curve 0 b (mulN n P)) by (apply (mulN_on odd); exact O).
    assert (OW : on_curve 0 b (mulN n (psi P))) by (apply (mulN_on odd); exact OU).
    assert (OX : on_curve 0 b (mulN (n * n) P)) by (apply (mulN_on odd); exact O).
    assert (S : ec_neg (mulN n (ec_add 0 (ec_neg (mulN n P)) (psi P))) = ec_add 0 (mulN (n * n) P) (ec_neg (mulN n (psi P)))).
    { rewrite (mulN_padd odd); [|exact (ec_neg_on OT)|exact OU].
      rewrite (mulN_neg odd) by exact OT. rewrite (mulN_mul odd) by exact O.
      rewrite (ec_neg_add odd), ec_neg_neg; [reflexivity| |exact OW]. apply ec_neg_on, (mulN_on odd). exact OT. }
    rewrite S. rewrite (@mulN_add K b odd n 1 (psi P) OU), mulN_1.
    apply (clear_sum odd); try assumption.
    - apply (@psi_on' K cj cj_mul cj_add w b W HB), (@psi_on' K cj cj_mul cj_add w b W HB), (ec_closed odd); exact O.
    - apply (mulN_on odd). exact O.
    - rewrite <- (mulN_1 P) at 2. rewrite <- !(mulN_add odd) by exact O. f_equal. lia.
  Qed.
End PsiAbs.

(** ** at BLS12-381 *)
Definition bls_tpsi_ok (a : pt Bls2) : bls_point bls_b2 a -> bls_point bls_b2 (bls_g2_psi a) /\ homogeneous (bls_g2_psi a) = bls_psi (homogeneous a) :=
  @tpsi_ok Bls2 cj2 cj2_1 cj2_mul cj2_add cj2_cj psi_w bls_b2 bls_psi_x bls_psi_y bls_psi2_x psi_w_neq psi_x_inv psi_y_inv psi_hb a.
Definition bls_tpsi2_ok (a : pt Bls2) : bls_point bls_b2 a -> bls_point bls_b2 (bls_g2_psi2 a) /\ homogeneous (bls_g2_psi2 a) = bls_psi (bls_psi (homogeneous a)) :=
  @tpsi2_ok Bls2 cj2 cj2_1 cj2_mul cj2_add cj2_cj psi_w psi_c bls_b2 bls_psi2_x psi_w_neq psi_nc psi_c2 psi_hb psi2_x_c a.
Definition bls_tclear_ok (a : pt Bls2) : bls_point bls_b2 a -> bls_point bls_b2 (bls_g2_clear a) /\
    homogeneous (bls_g2_clear a) = ec_add 0 (ec_add 0 (mulN (bls_x * bls_x + bls_x - 1) (homogeneous a)) (ec_neg (mulN (bls_x + 1) (bls_psi (homogeneous a)))))
      (bls_psi (bls_psi (ec_add 0 (homogeneous a) (homogeneous a)))) :=
  @tclear_ok Bls2 cj2 cj2_1 cj2_mul cj2_add cj2_cj psi_w psi_c bls_b2 bls_psi_x bls_psi_y bls_psi2_x psi_w_neq psi_x_inv psi_y_inv psi_nc psi_c2 psi_hb psi2_x_c
    g2_m3b bls_g2_odd g2_m3b_is a.
Lemma psi_w2_xi : psi_w * psi_w = fpow (xi bls_N1) ((pN - 1) / 3).
Proof.
  unfold psi_w. rewrite bls_G6, <- fpow_add. apply (f_equal (fpow (xi bls_N1))). vm_compute. reflexivity.
Qed.
Lemma psi_w3_xi : psi_w * psi_w * psi_w = fpow (xi bls_N1) ((pN - 1) / 2).
Proof.
  unfold psi_w. rewrite bls_G6, <- !fpow_add. apply (f_equal (fpow (xi bls_N1))). vm_compute. reflexivity.
Qed.
Lemma bls_psi_form (P : point Bls2) : bls_psi P =
  match P with None => None | Some (x, y) => Some (cj2 x / fpow (xi bls_N1) ((pN - 1) / 3), cj2 y / fpow (xi bls_N1) ((pN - 1) / 2)) end.
Proof.
  destruct P as [[x y]|]; [|reflexivity]. rewrite <- psi_w2_xi, <- psi_w3_xi. reflexivity.
Qed.
