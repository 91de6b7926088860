(** The curve constants of the implementation and the absence of points of order two:
    x^3 + 7 (secp256k1), x^3 - 3x + b (P-256), x^3 + 5 (Pallas) and x^3 + 4 (BLS12-381 G1)
    have no root modulo their primes.  Read off modular exponentiations: -b is not a cube,
    and for P-256 x^p - x is prime to x^3 - 3x + b. *)
From Coq Require Import ZArith Lia List Bool Znumtheory.
From Verif Require Import EcField EcSpec PointModel PointSpec LimbBase LimbSpec LimbProofs ZCong Pockl NativeFieldProofs NativePowProofs NativeArithProofs NativeRoots
  NativeField NativeInstances NativeProps PastaField PastaProps BlsFp LimbBls BlsFpProps LimbField
  PrimeK256 PrimeP256 PrimePasta PrimeBlsP.
Import ListNotations.
Local Open Scope Z_scope.

(** ** No roots, over the integers *)
Lemma no_cube m b e r : prime m -> ~ (m | b) -> Zpos e * 3 = m - 1 -> cong m (pw (- b) (Zpos e)) r -> ~ cong m r 1 ->
  forall v, ~ cong m (v * v * v + b) 0.
Proof.
  intros P NB E C N v H. apply N.
  assert (ND : ~ (m | v)).
  { intros D. apply NB. replace b with ((v * v * v + b) - v * v * v) by ring.
    apply Z.divide_sub_r; [unfold cong in H; rewrite Z.sub_0_r in H; exact H|apply Z.divide_mul_r, D]. }
  apply (cong_trans _ _ (pw (v * v * v) (Zpos e))).
  - apply (cong_trans _ _ _ _ (cong_sym _ _ _ C)). apply pw_cong; [lia|]. apply cong_sym.
    destruct H as [k Hk]. exists k. lia.
  - apply (cong_trans _ _ (pw v (m - 1))); [|apply pw_fermat; assumption].
    rewrite !pw_mulb by lia. rewrite <- !pw_add by lia.
    replace (Zpos e + Zpos e + Zpos e) with (m - 1) by lia. apply cong_refl.
Qed.

Lemma k256_no_root v : ~ cong secp256k1_p (v * v * v + 7) 0.
Proof.
  eapply no_cube with (e := 38597363079105398474523661669562635951089994888546854679819194669302944890554%positive)
    (r := 55594575648329892869085402983802832744385952214688224221778511981742606582254);
    [exact k256_p_prime| |vm_compute; reflexivity| |].
  - intros D. apply Z.mod_divide in D; [|discriminate]. vm_compute in D. discriminate D.
  - apply (pw_const _ (2 ^ 516 / secp256k1_p) 248 268); vm_compute; reflexivity.
  - intros D. apply Z.mod_divide in D; [|discriminate]. vm_compute in D. discriminate D.
Qed.
Lemma pallas_no_root v : ~ cong pallas_p (v * v * v + 5) 0.
Proof.
  eapply no_cube with (e := 9649340769776349618630915417390658987787685493980520238651558921449989210112%positive)
    (r := 20444556541222657078399132219657928148671392403212669005631716460534733845831);
    [exact pallas_p_prime| |vm_compute; reflexivity| |].
  - intros D. apply Z.mod_divide in D; [|discriminate]. vm_compute in D. discriminate D.
  - apply (pw_const _ (2 ^ 516 / pallas_p) 248 268); vm_compute; reflexivity.
  - intros D. apply Z.mod_divide in D; [|discriminate]. vm_compute in D. discriminate D.
Qed.
Lemma g1_no_root v : ~ cong bls_p (v * v * v + 4) 0.
Proof.
  eapply no_cube with (e := 1334136518407222464472596608578634718852294273313002628444019378708010550163612621480895876376338554679298090853262%positive)
    (r := 4002409555221667392624310435006688643935503118305586438271171395842971157480381377015405980053539358417135540939436);
    [exact bls_p_prime| |vm_compute; reflexivity| |].
  - intros D. apply Z.mod_divide in D; [|discriminate]. vm_compute in D. discriminate D.
  - apply (pw_const _ (2 ^ 766 / bls_p) 370 396); vm_compute; reflexivity.
  - intros D. apply Z.mod_divide in D; [|discriminate]. vm_compute in D. discriminate D.
Qed.

(** P-256: powers of a root of x^3 - 3x + b, as polynomials of degree two in it *)
Section Cubic.
  Variables (m b mu k1 k2 : Z).
  Definition c3_red (t : Z * Z * Z) : Z * Z * Z :=
    let '(a0, a1, a2) := t in (red m mu k1 k2 a0, red m mu k1 k2 a1, red m mu k1 k2 a2).
  Definition c3_sq (t : Z * Z * Z) : Z * Z * Z :=
    let '(a0, a1, a2) := t in
    let c3 := red m mu k1 k2 (2 * (a1 * a2)) in
    let c4 := red m mu k1 k2 (a2 * a2) in
    c3_red (a0 * a0 - b * c3, 2 * (a0 * a1) + 3 * c3 - b * c4, 2 * (a0 * a2) + a1 * a1 + 3 * c4).
  Definition c3_x (t : Z * Z * Z) : Z * Z * Z :=
    let '(a0, a1, a2) := t in (red m mu k1 k2 (- (b * a2)), a0 + 3 * a2, a1).
  Fixpoint c3_pow (e : positive) : Z * Z * Z :=
    match e with
    | xH => (0, 1, 0)
    | xO e => c3_sq (c3_pow e)
    | xI e => c3_x (c3_sq (c3_pow e))
    end.
  Definition c3_ev (t : Z * Z * Z) (v : Z) : Z := let '(a0, a1, a2) := t in a0 + a1 * v + a2 * (v * v).
  Variable v : Z.
  Hypothesis root : cong m (v * v * v - 3 * v + b) 0.
  Lemma c3_red_ok t : cong m (c3_ev (c3_red t) v) (c3_ev t v).
  Proof.
    destruct t as [[a0 a1] a2]. unfold c3_red, c3_ev.
    repeat (apply cong_add || apply cong_mul || apply cong_refl || apply red_ok).
  Qed.
  Lemma c3_sq_ok t : cong m (c3_ev (c3_sq t) v) (c3_ev t v * c3_ev t v).
  Proof.
    destruct t as [[a0 a1] a2]. unfold c3_sq. apply (cong_trans _ _ _ _ (c3_red_ok _)). unfold c3_ev.
    pose proof (red_ok m mu k1 k2 (2 * (a1 * a2))) as [k3 E3]. pose proof (red_ok m mu k1 k2 (a2 * a2)) as [k4 E4].
    set (c3 := red m mu k1 k2 (2 * (a1 * a2))) in *. set (c4 := red m mu k1 k2 (a2 * a2)) in *. clearbody c3 c4.
    assert (E3' : c3 = 2 * (a1 * a2) + k3 * m) by lia. assert (E4' : c4 = a2 * a2 + k4 * m) by lia.
    destruct root as [k E]. rewrite Z.sub_0_r in E.
    exists (- ((2 * (a1 * a2) + a2 * a2 * v) * k) + k3 * (3 * v - b) + k4 * (3 * (v * v) - b * v)).
    rewrite E3', E4'. replace b with (k * m - (v * v * v - 3 * v)) by lia. ring.
  Qed.
  Lemma c3_x_ok t : cong m (c3_ev (c3_x t) v) (c3_ev t v * v).
  Proof.
    destruct t as [[a0 a1] a2]. unfold c3_x, c3_ev.
    apply (cong_trans _ _ (- (b * a2) + (a0 + 3 * a2) * v + a1 * (v * v))).
    { repeat (apply cong_add || apply cong_refl || apply red_ok). }
    destruct root as [k E]. rewrite Z.sub_0_r in E. exists (- (a2 * k)).
    rewrite Z.mul_opp_l, <- Z.mul_assoc, <- E. ring.
  Qed.
  Lemma c3_pow_ok e : cong m (c3_ev (c3_pow e) v) (pw v (Zpos e)).
  Proof.
    induction e as [e IH|e IH|]; cbn [c3_pow].
    - apply (cong_trans _ _ _ _ (c3_x_ok _)). replace (Zpos e~1) with (Zpos e + Zpos e + 1) by lia.
      rewrite !pw_add, pw_1 by lia. apply cong_mul; [|apply cong_refl].
      apply (cong_trans _ _ _ _ (c3_sq_ok _)). apply cong_mul; exact IH.
    - replace (Zpos e~0) with (Zpos e + Zpos e) by lia. rewrite pw_add by lia.
      apply (cong_trans _ _ _ _ (c3_sq_ok _)). apply cong_mul; exact IH.
    - rewrite pw_1. unfold c3_ev. replace (0 + 1 * v + 0 * (v * v)) with v by ring. apply cong_refl.
  Qed.
End Cubic.

Definition p256_b : Z := 0x5ac635d8aa3a93e7b3ebbd55769886bc651d06b0cc53b0f63bce3c3e27d2604b.
Definition p256_xp : Z * Z * Z :=
  (66434390973925144466073271287821796038003695194169110494110089305650096453661,
   12402202686218762177567235911775779164004716598278868847786114277539554646092,
   24678849118215552148312087830792888746041224110560601850711771001608500700145).
Definition p256_exp : positive := Z.to_pos (2 ^ 256 - 2 ^ 224 + 2 ^ 192 + 2 ^ 96 - 1).
Lemma p256_xp_is : let '(a0, a1, a2) := c3_pow p256_p p256_b (2 ^ 516 / p256_p) 248 268 p256_exp in
  let '(b0, b1, b2) := p256_xp in
  ((a0 - b0) mod p256_p =? 0) && ((a1 - b1) mod p256_p =? 0) && ((a2 - b2) mod p256_p =? 0) = true.
Proof. vm_compute. reflexivity. Qed.
Lemma p256_no_root v : ~ cong p256_p (v * v * v - 3 * v + p256_b) 0.
Proof.
  intros H. assert (PM := p256_p_prime).
  pose proof (c3_pow_ok _ _ (2 ^ 516 / p256_p) 248 268 v H p256_exp) as C.
  pose proof p256_xp_is as X. destruct (c3_pow _ _ _ _ _ _) as [[a0 a1] a2]. unfold p256_xp in X.
  apply andb_true_iff in X. destruct X as [X X2]. apply andb_true_iff in X. destruct X as [X0 X1].
  apply (cong_by_mod p256_p) in X0, X1, X2; [|reflexivity..].
  assert (F : cong p256_p (pw v (Zpos p256_exp)) v).
  { assert (EP : Zpos p256_exp = 1 + (p256_p - 1)) by (vm_compute; reflexivity). rewrite EP.
    assert (M0 : p256_p <> 0) by discriminate. assert (M1 : 0 <= p256_p - 1) by (vm_compute; discriminate).
    rewrite pw_add, pw_1 by (exact M1 || lia).
    destruct (Zdivide_dec p256_p v) as [D|D].
    - apply (cong_trans _ _ 0); [|apply cong_sym]; unfold cong; rewrite Z.sub_0_r; [apply Z.divide_mul_l, D|exact D].
    - replace v with (v * 1) at 3 by ring. apply cong_mul; [apply cong_refl|apply pw_fermat; assumption]. }
  unfold c3_ev in C.
  set (g0 := 66434390973925144466073271287821796038003695194169110494110089305650096453661) in *.
  set (g1 := 12402202686218762177567235911775779164004716598278868847786114277539554646092) in *.
  set (g2 := 24678849118215552148312087830792888746041224110560601850711771001608500700145) in *.
  assert (G : cong p256_p (g0 + g1 * v + g2 * (v * v)) v).
  { apply (cong_trans _ _ (a0 + a1 * v + a2 * (v * v))).
    - apply cong_sym. repeat (apply cong_add || apply cong_mul || apply cong_refl || assumption).
    - apply (cong_trans _ _ _ _ C F). }
  assert (G' : cong p256_p (g0 + (g1 - 1) * v + g2 * (v * v)) 0).
  { destruct G as [k E]. exists k. rewrite <- E. ring. }
  (* u * (x^p - x) + w * (x^3 - 3 x + b) = 1 *)
  set (u0 := 76626890310466861426869089647039036757962535851890885406097439786770458211455).
  set (u1 := 74462945259064871768191128030512052509059297803194871526163573358218695456204).
  set (u2 := 34768139465301476436978405170953382516735956999154666452188405812258086013549).
  set (w0 := 107286402702237026811154678719514266289498743974321057492273529440068429825344).
  set (w1 := 6389611969556882025875921584714237703390037729321797349080302270353162149340).
  assert (B : cong p256_p ((u0 + u1 * v + u2 * (v * v)) * (g0 + (g1 - 1) * v + g2 * (v * v)) + (w0 + w1 * v) * (v * v * v - 3 * v + p256_b)) 1).
  { replace ((u0 + u1 * v + u2 * (v * v)) * (g0 + (g1 - 1) * v + g2 * (v * v)) + (w0 + w1 * v) * (v * v * v - 3 * v + p256_b))
      with ((u0 * g0 + w0 * p256_b) + (u0 * (g1 - 1) + u1 * g0 + w1 * p256_b - 3 * w0) * v
            + (u0 * g2 + u1 * (g1 - 1) + u2 * g0 - 3 * w1) * (v * v)
            + (u1 * g2 + u2 * (g1 - 1) + w0) * (v * v * v) + (u2 * g2 + w1) * (v * v * v * v)) by ring.
    replace 1 with (1 + 0 * v + 0 * (v * v) + 0 * (v * v * v) + 0 * (v * v * v * v)) by ring.
    repeat apply cong_add; try apply cong_mul; try apply cong_refl; (apply cong_by_mod; [reflexivity|vm_compute; reflexivity]). }
  assert (Q : cong p256_p 0 1).
  { eapply cong_trans; [apply cong_sym|exact B].
    set (X := g0 + _ + _) in *. set (Y := v * v * v - 3 * v + p256_b) in *. clearbody X Y.
    replace 0 with ((u0 + u1 * v + u2 * (v * v)) * 0 + (w0 + w1 * v) * 0) at 1 by ring.
    apply cong_add; apply cong_mul; try apply cong_refl; assumption. }
  apply Z.mod_divide in Q; [|discriminate]. vm_compute in Q. discriminate Q.
Qed.

(** ** The curves, over the limb-level fields *)
Section Odd.
  Context {L : Type} (m : Z) (R : L -> Z -> Prop) (O : limb_ops L) (K : limb_ok m R O).
  Let F := limb_field m R O K.
  Lemma odd_order (a b : F) (av bv : Z) : 2 < m -> R (raw a) av -> R (raw b) bv ->
    (forall v, ~ cong m (v * v * v + av * v + bv) 0) -> odd_order_curve a b.
  Proof.
    intros M Ha Hb N. split.
    - intros E. pose proof (v_one m R O K) as V1. pose proof (v_add m R O K _ _ _ _ V1 V1) as V2.
      pose proof (v_zero m R O K) as V0. change (raw (l_add m R O K (l_one m R O K) (l_one m R O K))) with (raw (fadd (f1 : F) f1)) in V2.
      rewrite E in V2. pose proof (lk_fun _ _ _ K _ _ _ V2 V0) as Q. change (1 + 1) with 2 in Q. rewrite Z.mod_small in Q by lia. discriminate Q.
    - intros x E. destruct (lrep m R O K x) as [v V].
      pose proof (v_mul m R O K _ _ _ _ (v_mul m R O K _ _ _ _ V V) V) as V3.
      pose proof (v_add m R O K _ _ _ _ (v_add m R O K _ _ _ _ V3 (v_mul m R O K _ _ _ _ Ha V)) Hb) as S.
      pose proof (v_zero m R O K) as V0.
      change (raw _) with (raw (curve_rhs a b x)) in S at 1. rewrite E in S.
      pose proof (lk_fun _ _ _ K _ _ _ S V0) as Q. apply (N v).
      rewrite Zplus_mod_idemp_l, ?Zmult_mod_idemp_l in Q.
      rewrite <- Z.add_assoc, Zplus_mod_idemp_l, Zplus_assoc in Q.
      replace (v * v * v + av * v mod m + bv) with (av * v mod m + (v * v * v + bv)) in Q by ring.
      rewrite Zplus_mod_idemp_l in Q. unfold cong. rewrite Z.sub_0_r.
      replace (v * v * v + av * v + bv) with (av * v + (v * v * v + bv)) by ring.
      apply Z.mod_divide; [lia|exact Q].
  Qed.
End Odd.
