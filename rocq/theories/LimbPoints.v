(** The chord-and-tangent group over the integers modulo a prime is the group of the curve over
    the field of limb arrays. *)
From Coq Require Import ZArith Lia List Bool Znumtheory Field Ring.
From Verif Require Import EcField EcSpec EcAlg EcProofs PointModel PointSpec PointProofs PointMulProofs PointProps ZCong LimbField CurveOrder EncodeSpec CurveSpec.
Import ListNotations.
Local Open Scope Z_scope.

Section Points.
  Context {L : Type} (E : curve) (R : L -> Z -> Prop) (O : limb_ops L).
  Local Notation m := (c_p E).
  Variable K : limb_ok m R O.
  Local Notation F := (limb_field m R O K).
  Local Notation rw := (fun x : F => @raw L O x).
  Let M1 : 1 < m := m_pos m R O K.

  (** [x] stands for the integer [v] modulo m *)
  Definition rc (x : F) (v : Z) : Prop := exists u, R (rw x) u /\ cong m u v.
  Lemma rc_of x v : R (rw x) v -> rc x v. Proof. exists v. split; [assumption|apply cong_refl]. Qed.
  Lemma rc_cong x v w : rc x v -> cong m v w -> rc x w.
  Proof. intros (u & H & C) D. exists u. split; [exact H|exact (cong_trans _ _ _ _ C D)]. Qed.
  Lemma rc_fun x v w : rc x v -> rc x w -> cong m v w.
  Proof.
    intros (u & H & C) (u' & H' & C'). rewrite (lk_fun _ _ _ K _ _ _ H H') in C. exact (cong_trans _ _ _ _ (cong_sym _ _ _ C) C').
  Qed.
  Lemma rc_inj x y v : rc x v -> rc y v -> x = y.
  Proof.
    intros (u & H & C) (u' & H' & C'). apply by_val with (m := m) (R := R); [exact K|]. intros a b Ha Hb.
    rewrite <- (lk_fun _ _ _ K _ _ _ H Ha), <- (lk_fun _ _ _ K _ _ _ H' Hb).
    apply (cong_small m); [apply (lk_range _ _ _ K _ _ H)|apply (lk_range _ _ _ K _ _ H')|].
    exact (cong_trans _ _ _ _ C (cong_sym _ _ _ C')).
  Qed.
  Lemma rc_mod x v : rc x v -> R (rw x) (v mod m).
  Proof.
    intros (u & H & C). rewrite <- (cong_mod_eq m u v ltac:(lia) C), Z.mod_small by apply (lk_range _ _ _ K _ _ H). exact H.
  Qed.
  Local Lemma red v w : 0 < m -> v = w mod m -> cong m v w.
  Proof. intros M ->. apply cong_mod. lia. Qed.
  Lemma rc_add x y v w : rc x v -> rc y w -> rc (fadd x y) (v + w).
  Proof.
    intros (u & H & C) (u' & H' & C'). exists ((u + u') mod m). split; [exact (v_add m R O K _ _ _ _ H H')|].
    apply (cong_trans _ _ (u + u')); [apply cong_mod; lia|apply cong_add; assumption].
  Qed.
  Lemma rc_mul x y v w : rc x v -> rc y w -> rc (fmul x y) (v * w).
  Proof.
    intros (u & H & C) (u' & H' & C'). exists ((u * u') mod m). split; [exact (v_mul m R O K _ _ _ _ H H')|].
    apply (cong_trans _ _ (u * u')); [apply cong_mod; lia|apply cong_mul; assumption].
  Qed.
  Lemma rc_opp x v : rc x v -> rc (fopp x) (- v).
  Proof.
    intros (u & H & C). exists ((- u) mod m). split; [exact (v_neg m R O K _ _ H)|].
    apply (cong_trans _ _ (- u)); [apply cong_mod; lia|apply cong_opp; assumption].
  Qed.
  Lemma rc_sub x y v w : rc x v -> rc y w -> rc (fsub x y) (v - w).
  Proof.
    intros (u & H & C) (u' & H' & C'). exists ((u - u') mod m). split; [exact (v_sub m R O K _ _ _ _ H H')|].
    apply (cong_trans _ _ (u - u')); [apply cong_mod; lia|apply cong_sub; assumption].
  Qed.
  Lemma rc_0 : rc f0 0. Proof. apply rc_of, (v_zero m R O K). Qed.
  Lemma rc_1 : rc f1 1. Proof. apply rc_of, (v_one m R O K). Qed.
  Lemma rc_exists x : exists v, 0 <= v < m /\ R (rw x) v.
  Proof. destruct (lrep m R O K x) as [v H]. exists v. split; [exact (lk_range _ _ _ K _ _ H)|exact H]. Qed.
  Lemma elt v : exists x : F, rc x v.
  Proof.
    assert (N : forall n, 0 <= n -> exists x : F, rc x n).
    { intros n Hn. pattern n. apply natlike_ind; [exists f0; exact rc_0| |exact Hn].
      intros k _ (x & H). exists (fadd x f1). apply rc_add; [exact H|exact rc_1]. }
    destruct (N (v mod m)) as (x & H); [apply Z.mod_pos_bound; lia|]. exists x. apply (rc_cong _ _ _ H), cong_mod. lia.
  Qed.
  Lemma rc_eq x y v w : rc x v -> rc y w -> (x = y <-> cong m v w).
  Proof.
    intros H H'. split; [intros <-; exact (rc_fun _ _ _ H H')|]. intros C. exact (rc_inj x y w (rc_cong _ _ _ H C) H').
  Qed.

  (** affine points *)
  Definition pv (A : zpoint) (P : point F) : Prop :=
    match A, P with
    | None, None => True
    | Some (x, y), Some (X, Y) => R (rw X) x /\ R (rw Y) y
    | _, _ => False
    end.
  Definition coords (A : zpoint) : Prop := match A with None => True | Some (x, y) => coord E x /\ coord E y end.
  Lemma pv_coords A P : pv A P -> coords A.
  Proof.
    destruct A as [[x y]|], P as [[X Y]|]; cbn; try tauto. intros [HX HY].
    split; [exact (lk_range _ _ _ K _ _ HX)|exact (lk_range _ _ _ K _ _ HY)].
  Qed.
  Lemma pv_val P : exists A, pv A P.
  Proof.
    destruct P as [[X Y]|]; [|exists None; exact I]. destruct (rc_exists X) as (x & _ & HX), (rc_exists Y) as (y & _ & HY).
    exists (Some (x, y)). split; assumption.
  Qed.
  Lemma pv_elt A : coords A -> exists P, pv A P.
  Proof.
    destruct A as [[x y]|]; [|exists None; exact I]. intros [Cx Cy]. destruct (elt x) as (X & HX), (elt y) as (Y & HY).
    exists (Some (X, Y)). apply rc_mod in HX, HY. rewrite Z.mod_small in HX by exact Cx. rewrite Z.mod_small in HY by exact Cy. split; assumption.
  Qed.
  Lemma pv_fun A B P : pv A P -> pv B P -> A = B.
  Proof.
    destruct A as [[x y]|], B as [[x' y']|], P as [[X Y]|]; cbn; try tauto. intros [H H0] [H' H0'].
    rewrite (lk_fun _ _ _ K _ _ _ H H'), (lk_fun _ _ _ K _ _ _ H0 H0'). reflexivity.
  Qed.
  Lemma pv_inj A P Q : pv A P -> pv A Q -> P = Q.
  Proof.
    destruct A as [[x y]|], P as [[X Y]|], Q as [[X' Y']|]; cbn; try tauto. intros [H H0] [H' H0'].
    rewrite (rc_inj X X' x), (rc_inj Y Y' y) by (apply rc_of; assumption). reflexivity.
  Qed.
  Lemma pv_opp A P : pv A P -> pv (opposite E A) (ec_neg P).
  Proof.
    destruct A as [[x y]|], P as [[X Y]|]; cbn; try tauto. intros [H H0]. split; [exact H|]. apply (rc_mod (fopp Y)), rc_opp, rc_of, H0.
  Qed.

  Variables a b : F.
  Hypothesis Ha : rc a (c_a E).
  Hypothesis Hb : rc b (c_b E).
  Lemma rc_rhs x v : rc x v -> rc (curve_rhs a b x) (v * v * v + c_a E * v + c_b E).
  Proof. intros H. unfold curve_rhs. repeat (apply rc_add || apply rc_mul); assumption. Qed.
  Lemma pv_on A P : pv A P -> (is_on E A <-> EcSpec.on_curve a b P).
  Proof.
    intros V. pose proof (pv_coords _ _ V) as C. destruct A as [[x y]|], P as [[X Y]|]; cbn in *; try tauto.
    destruct V as [HX HY]. pose proof (rc_mul _ _ _ _ (rc_of _ _ HY) (rc_of _ _ HY)) as Y2. pose proof (rc_rhs _ _ (rc_of _ _ HX)) as RX.
    rewrite (rc_eq _ _ _ _ Y2 RX). unfold EncodeSpec.on_curve. split.
    - intros (_ & _ & H). apply mod_eq_cong; [lia|exact H].
    - intros H. split; [apply C|]. split; [apply C|]. apply cong_mod_eq; [lia|exact H].
  Qed.

  Hypothesis odd : odd_order_curve a b.
  Add Field fFL : (fth F).
  Lemma rc_two y v : rc y v -> rc (fmul (fadd f1 f1) y) (2 * v).
  Proof. intros H. apply (rc_mul _ _ 2); [apply (rc_add _ _ 1 1); exact rc_1|exact H]. Qed.
  Lemma rc_third l lv x1 y1 x2 X1 Y1 X2 : rc l lv -> rc X1 x1 -> rc Y1 y1 -> rc X2 x2 ->
    exists x3 y3, third E lv x1 y1 x2 x3 y3 /\ pv (Some (x3, y3)) (Some (line_third l X1 Y1 X2)).
  Proof.
    intros Hl H1 H2 H3. exists ((lv * lv - x1 - x2) mod m), ((lv * (x1 - (lv * lv - x1 - x2) mod m) - y1) mod m).
    split; [split; reflexivity|]. cbn [pv]. unfold line_third.
    assert (HX : rc (fsub (fsub (fmul l l) X1) X2) (lv * lv - x1 - x2)) by (repeat (apply rc_sub || apply rc_mul); assumption).
    split; [exact (rc_mod _ _ HX)|]. apply rc_mod. apply rc_sub; [|exact H2]. apply rc_mul; [exact Hl|]. apply rc_sub; [exact H1|].
    apply (rc_cong _ _ _ HX), cong_sym, cong_mod. lia.
  Qed.
  (** the group of the curve over the limb arrays is the integer group *)
  Lemma sum_sound A B P Q : pv A P -> pv B Q -> is_on E A -> is_on E B -> exists C, pv C (ec_add a P Q) /\ sum E A B C.
  Proof.
    intros VA VB OA OB. pose proof (proj1 (pv_on _ _ VA) OA) as PA. pose proof (proj1 (pv_on _ _ VB) OB) as PB.
    destruct A as [[x1 y1]|], P as [[X1 Y1]|]; cbn [pv] in VA; try tauto.
    2: { exists B. split; [exact VB|constructor]. }
    destruct B as [[x2 y2]|], Q as [[X2 Y2]|]; cbn [pv] in VB; try tauto.
    2: { exists (Some (x1, y1)). split; [exact VA|constructor]. }
    destruct VA as [RX1 RY1], VB as [RX2 RY2].
    pose proof (rc_of _ _ RX1) as HX1. pose proof (rc_of _ _ RY1) as HY1. pose proof (rc_of _ _ RX2) as HX2. pose proof (rc_of _ _ RY2) as HY2.
    cbn [ec_add]. destruct (feqb_case X1 X2) as [[-> EX]|[-> NX]].
    - subst X2. assert (x2 = x1) by (exact (lk_fun _ _ _ K _ _ _ RX2 RX1)). subst x2.
      destruct (feqb_case Y1 (fopp Y2)) as [[-> EY]|[-> NY]].
      + exists None. split; [exact I|]. assert (y2 = (- y1) mod m) as ->; [|constructor].
        assert (HN : rc Y2 (- y1)).
        { replace Y2 with (fopp Y1) by (rewrite EY; ring). apply rc_opp, HY1. }
        exact (lk_fun _ _ _ K _ _ _ RY2 (rc_mod _ _ HN)).
      + assert (EY : Y1 = Y2).
        { change (fmul Y1 Y1 = curve_rhs a b X1) in PA. change (fmul Y2 Y2 = curve_rhs a b X1) in PB. assert (Z0 : fmul (fsub Y1 Y2) (fadd Y1 Y2) = f0).
          { replace (fmul (fsub Y1 Y2) (fadd Y1 Y2)) with (fsub (fmul Y1 Y1) (fmul Y2 Y2)) by ring. rewrite PA, PB. ring. }
          apply f_integral in Z0. destruct Z0 as [Z0|Z0].
          - replace Y1 with (fadd (fsub Y1 Y2) Y2) by ring. rewrite Z0. ring.
          - elim NY. replace Y1 with (fsub (fadd Y1 Y2) Y2) by ring. rewrite Z0. ring. }
        subst Y2. assert (y2 = y1) by (exact (lk_fun _ _ _ K _ _ _ RY2 RY1)). subst y2.
        set (l := fdiv (fadd (fmul (fadd (fadd f1 f1) f1) (fmul X1 X1)) a) (fmul (fadd f1 f1) Y1)).
        destruct (rc_exists l) as (lv & _ & Hl). apply rc_of in Hl.
        destruct (rc_third l lv x1 y1 x1 X1 Y1 X1 Hl HX1 HY1 HX1) as (x3 & y3 & T & V). exists (Some (x3, y3)). split; [exact V|].
        assert (NY0 : Y1 <> f0) by exact (y_neq odd PA).
        apply sum_tangent with (l := lv); [| |exact T].
        * intros ->. apply NY0. exact (rc_inj _ _ 0 HY1 rc_0).
        * apply cong_mod_eq; [lia|]. assert (Q0 : fmul l (fmul (fadd f1 f1) Y1) = fadd (fmul (fadd (fadd f1 f1) f1) (fmul X1 X1)) a).
          { unfold l. field. split; [exact NY0|exact (proj1 odd)]. }
          apply (rc_fun (fmul l (fmul (fadd f1 f1) Y1))); [apply rc_mul; [exact Hl|apply rc_two, HY1]|]. rewrite Q0.
          apply rc_add; [|exact Ha]. replace (3 * x1 * x1) with (3 * (x1 * x1)) by ring. apply rc_mul; [|apply rc_mul; exact HX1].
          apply (rc_add _ _ 2 1); [|exact rc_1]. apply (rc_add _ _ 1 1); exact rc_1.
    - set (l := fdiv (fsub Y1 Y2) (fsub X1 X2)).
      destruct (rc_exists l) as (lv & _ & Hl). apply rc_of in Hl.
      destruct (rc_third l lv x1 y1 x2 X1 Y1 X2 Hl HX1 HY1 HX2) as (x3 & y3 & T & V). exists (Some (x3, y3)). split; [exact V|].
      apply sum_chord with (l := lv); [| |exact T].
      + intros ->. apply NX. exact (rc_inj _ _ _ HX1 HX2).
      + apply cong_mod_eq; [lia|]. assert (NZ : fsub X1 X2 <> f0).
        { intros Z0. apply NX. replace X1 with (fadd (fsub X1 X2) X2) by ring. rewrite Z0. ring. }
        assert (Q0 : fmul l (fsub X2 X1) = fsub Y2 Y1) by (unfold l; field; exact NZ).
        apply (rc_fun (fmul l (fsub X2 X1))); [apply rc_mul; [exact Hl|apply rc_sub; assumption]|]. rewrite Q0. apply rc_sub; assumption.
  Qed.
  (** the sum is a function on the curve *)
  Lemma slope_fun x1 y1 x2 l l' x3 y3 x3' y3' : cong m l l' -> third E l x1 y1 x2 x3 y3 -> third E l' x1 y1 x2 x3' y3' -> x3 = x3' /\ y3 = y3'.
  Proof.
    intros C [-> ->] [-> ->]. assert (Q : (l * l - x1 - x2) mod m = (l' * l' - x1 - x2) mod m).
    { apply cong_mod_eq; [lia|]. repeat (apply cong_sub || apply cong_mul); assumption || apply cong_refl. }
    split; [exact Q|]. rewrite Q. apply cong_mod_eq; [lia|]. apply cong_sub; [|apply cong_refl]. apply cong_mul; [exact C|apply cong_refl].
  Qed.
  Lemma on_y x y : EncodeSpec.on_curve E x y -> ~ (m | y).
  Proof.
    intros H D. destruct (elt x) as (X & HX), (elt y) as (Y & HY).
    assert (PO : fmul Y Y = curve_rhs a b X).
    { apply (proj2 (rc_eq _ _ _ _ (rc_mul _ _ _ _ HY HY) (rc_rhs _ _ HX))). apply mod_eq_cong; [lia|apply H]. }
    apply (y_neq odd PO). apply (rc_inj _ _ 0); [|exact rc_0]. apply (rc_cong _ _ _ HY). unfold cong. rewrite Z.sub_0_r. exact D.
  Qed.
  Lemma sum_fun A B C C' : is_on E A -> is_on E B -> sum E A B C -> sum E A B C' -> C = C'.
  Proof.
    intros OA OB H H'. pose proof (lk_prime _ _ _ K) as PM.
    assert (DBL : forall x y, EncodeSpec.on_curve E x y -> y = (- y) mod m -> False).
    { intros x y H0 Q. apply (on_y x y H0). assert (D : (m | 2 * y)).
      { apply Z.mod_divide; [lia|]. replace (2 * y) with (y - (- y)) by ring. apply Z.mod_divide; [lia|].
        assert (C0 : cong m y (- y)) by (rewrite Q at 1; apply cong_mod; lia). exact C0. }
      apply prime_mult in D; [|exact PM]. destruct D as [D|D]; [|exact D].
      exfalso. destruct odd as [N2 _]. apply N2. apply (rc_inj _ _ 2); [apply (rc_add _ _ 1 1); exact rc_1|].
      apply (rc_cong _ _ _ rc_0). apply cong_sym. unfold cong. rewrite Z.sub_0_r. exact D. }
    assert (CH : forall x1 y1 x2 y2 l l', coord E x1 -> coord E x2 -> x1 <> x2 -> (l * (x2 - x1)) mod m = (y2 - y1) mod m -> (l' * (x2 - x1)) mod m = (y2 - y1) mod m -> cong m l l').
    { intros x1 y1 x2 y2 l l' C1 C2 N Q Q'. unfold coord in *. apply (cong_cancel m (x2 - x1)).
      - apply prime_rel_prime; [exact PM|]. intros [k D]. assert (k = 0) by nia. subst k. lia.
      - apply mod_eq_cong; [lia|]. rewrite Q, Q'. reflexivity. }
    assert (TG : forall x y l l', EncodeSpec.on_curve E x y -> (l * (2 * y)) mod m = (3 * x * x + c_a E) mod m -> (l' * (2 * y)) mod m = (3 * x * x + c_a E) mod m -> cong m l l').
    { intros x y l l' H0 Q Q'. apply (cong_cancel m (2 * y)).
      - apply prime_rel_prime; [exact PM|]. intros D. apply prime_mult in D; [|exact PM]. destruct D as [D|D]; [|exact (on_y _ _ H0 D)].
        destruct odd as [N2 _]. apply N2. apply (rc_inj _ _ 2); [apply (rc_add _ _ 1 1); exact rc_1|].
        apply (rc_cong _ _ _ rc_0). apply cong_sym. unfold cong. rewrite Z.sub_0_r. exact D.
      - apply mod_eq_cong; [lia|]. rewrite Q, Q'. reflexivity. }
    assert (COL : forall x y y', EncodeSpec.on_curve E x y -> y' = (- y) mod m -> y' = y -> False).
    { intros x y y' H0 -> Q. exact (DBL x y H0 (eq_sym Q)). }
    destruct H; inversion H'; subst; try reflexivity; try congruence; cbn [is_on] in *.
    - exfalso. eapply (DBL x y); [exact OA|assumption || (symmetry; assumption)].
    - assert (CL : cong m l l0) by (apply (CH x1 y1 x2 y2); [apply OA|apply OB|assumption..]).
      destruct (slope_fun x1 y1 x2 l l0 x3 y3 x5 y5 CL) as [-> ->]; [assumption..|reflexivity].
    - exfalso. eapply (DBL x y); [exact OA|]. congruence.
    - assert (CL : cong m l l0) by (apply (TG x y); assumption).
      destruct (slope_fun x y x l l0 x3 y3 x1 y1 CL) as [-> ->]; [assumption..|reflexivity].
  Qed.
  Lemma sum_is A B C P Q : pv A P -> pv B Q -> is_on E A -> is_on E B -> sum E A B C -> pv C (ec_add a P Q).
  Proof.
    intros VA VB OA OB S. destruct (sum_sound _ _ _ _ VA VB OA OB) as (C' & V & S').
    rewrite (sum_fun _ _ _ _ OA OB S S'). exact V.
  Qed.
  Lemma on_coords A : is_on E A -> coords A.
  Proof. destruct A as [[x y]|]; cbn; [|tauto]. intros (H & H0 & _). split; assumption. Qed.
  Lemma ec_on P Q : EcSpec.on_curve a b P -> EcSpec.on_curve a b Q -> EcSpec.on_curve a b (ec_add a P Q).
  Proof. apply (ec_closed odd). Qed.

  (** ** the laws, over the integers *)
  Lemma sum_total A B : is_on E A -> is_on E B -> exists C, sum E A B C /\ is_on E C.
  Proof.
    intros OA OB. destruct (pv_elt _ (on_coords _ OA)) as [P VA], (pv_elt _ (on_coords _ OB)) as [Q VB].
    destruct (sum_sound _ _ _ _ VA VB OA OB) as (C & V & S). exists C. split; [exact S|].
    apply (pv_on _ _ V). apply ec_on; [apply (pv_on _ _ VA), OA|apply (pv_on _ _ VB), OB].
  Qed.
  Lemma sum_on A B C : is_on E A -> is_on E B -> sum E A B C -> is_on E C.
  Proof. intros OA OB S. destruct (sum_total A B OA OB) as (C' & S' & H). rewrite (sum_fun _ _ _ _ OA OB S S'). exact H. Qed.
  Lemma sum_comm A B C : is_on E A -> is_on E B -> sum E A B C -> sum E B A C.
  Proof.
    intros OA OB S. destruct (pv_elt _ (on_coords _ OA)) as [P VA], (pv_elt _ (on_coords _ OB)) as [Q VB].
    pose proof (sum_is _ _ _ _ _ VA VB OA OB S) as V. destruct (sum_sound _ _ _ _ VB VA OB OA) as (C' & V' & S').
    rewrite (ec_comm odd) in V' by (apply (pv_on _ _ VA), OA || apply (pv_on _ _ VB), OB). rewrite (pv_fun _ _ _ V V'). exact S'.
  Qed.
  Lemma sum_assoc A B C X Y Z : is_on E A -> is_on E B -> is_on E C -> sum E A B X -> sum E X C Z -> sum E B C Y -> sum E A Y Z.
  Proof.
    intros OA OB OC S1 S2 S3.
    destruct (pv_elt _ (on_coords _ OA)) as [P VA], (pv_elt _ (on_coords _ OB)) as [Q VB], (pv_elt _ (on_coords _ OC)) as [T VC].
    pose proof (sum_on _ _ _ OA OB S1) as OX. pose proof (sum_on _ _ _ OB OC S3) as OY.
    pose proof (sum_is _ _ _ _ _ VA VB OA OB S1) as VX. pose proof (sum_is _ _ _ _ _ VB VC OB OC S3) as VY.
    pose proof (sum_is _ _ _ _ _ VX VC OX OC S2) as VZ.
    destruct (sum_sound _ _ _ _ VA VY OA OY) as (Z' & VZ' & S').
    rewrite <- (ec_assoc odd) in VZ' by (apply (pv_on _ _ VA), OA || apply (pv_on _ _ VB), OB || apply (pv_on _ _ VC), OC).
    rewrite (pv_fun _ _ _ VZ VZ'). exact S'.
  Qed.
  Lemma sum_opp A : is_on E A -> sum E A (opposite E A) None.
  Proof. destruct A as [[x y]|]; intros H; cbn; constructor. Qed.
  Lemma opp_on A : is_on E A -> is_on E (opposite E A).
  Proof.
    intros H. destruct (pv_elt _ (on_coords _ H)) as [P V]. apply (pv_on _ _ (pv_opp _ _ V)).
    apply ec_neg_on. apply (pv_on _ _ V), H.
  Qed.
  (** n-fold sums *)
  Lemma mult_is A n C P : pv A P -> is_on E A -> mult E A n C -> pv C (ec_mul a n P) /\ is_on E C.
  Proof.
    intros VA OA M. induction M as [|n B C M IH S]; [split; exact I|].
    destruct IH as [VB OB]. split; [exact (sum_is _ _ _ _ _ VA VB OA OB S)|exact (sum_on _ _ _ OA OB S)].
  Qed.
  Lemma mult_total A n : is_on E A -> exists C, mult E A n C /\ is_on E C.
  Proof.
    intros OA. induction n as [|n (B & M & OB)]; [exists None; split; [constructor|exact I]|].
    destruct (sum_total A B OA OB) as (C & S & OC). exists C. split; [econstructor; eassumption|exact OC].
  Qed.
  Lemma mult_sound A n P : pv A P -> is_on E A -> exists C, pv C (ec_mul a n P) /\ mult E A n C /\ is_on E C.
  Proof.
    intros VA OA. destruct (mult_total A n OA) as (C & M & OC). exists C. destruct (mult_is _ _ _ _ VA OA M) as [V _]. tauto.
  Qed.
  Lemma mult_fun A n C C' : is_on E A -> mult E A n C -> mult E A n C' -> C = C'.
  Proof.
    intros OA M M'. destruct (pv_elt _ (on_coords _ OA)) as [P V].
    exact (pv_fun _ _ _ (proj1 (mult_is _ _ _ _ V OA M)) (proj1 (mult_is _ _ _ _ V OA M'))).
  Qed.
End Points.
