(** psi of the BLS12-381 G2 curve and the order of the generator. *)
From Coq Require Import Field Ring ZArith NArith Lia Bool List Znumtheory.
From Verif Require Import EcField EcSpec EcAlg EcProofs PointModel PointSpec PointMulProofs MillerSpec LimbBase LimbSpec LimbBls LimbField BlsFpProps ZCong NativeRoots CurveOrder
  TowerModel TowerSpec TowerAlg TowerField TowerBls TowerStep TowerMiller TowerInst G2Psi GenChain BlsRep BlsG2Cert BlsG2Chain G2Model.
Import ListNotations.
Set Implicit Arguments.
Unset Strict Implicit.

(** ** psi *)
Definition psi_w : Bls2 := bls_pm1Div6.
Definition psi_c : Bls2 := Quad (fmul (fadd f1 f1) (fmul (qu_a bls_pm1Div6) (qu_a bls_pm1Div6))) f0.
Lemma rz_e : rz (qu_a bls_pm1Div6) bls_e.
Proof. apply rz_of, rv_const. vm_compute. reflexivity. Qed.
Lemma rz_me : rz (qu_b bls_pm1Div6) (- bls_e).
Proof.
  apply (rz_cong (v := bls_p - bls_e)%Z); [apply rz_of, rv_const; vm_compute; reflexivity|]. exists 1%Z. ring.
Qed.
Lemma rz2_w : rz2 psi_w (bls_e, - bls_e)%Z. Proof. split; [exact rz_e|exact rz_me]. Qed.
Lemma rz_two : rz (fadd f1 f1) 2. Proof. exact (rz_of rv_two). Qed.
Lemma rz2_c : rz2 psi_c (bls_c, 0)%Z.
Proof.
  split; [|exact (rz_of rv_0)]. eapply rz_cong; [exact (rz_mul rz_two (rz_mul rz_e rz_e))|].
  apply cong_sym, cong_mod, p_pos.
Qed.
Definition psi_cv : Z := 793479390729215512621379701633421447060886740281060493010456487427281649075476305620758731620351.
Definition psi_ec : Z := 2973677408986561043442465346520108879172042883009249989176415018091420807192182638567116318576472649347015917690530.
Lemma rz2_cv : rz2 psi_c (psi_cv, 0)%Z.
Proof. apply (rz2_cong rz2_c); [|apply cong_refl]. apply cong_by_mod; [reflexivity|vm_compute; reflexivity]. Qed.
Lemma rz2_w2 : rz2 (fmul psi_w psi_w) (0, - psi_cv)%Z.
Proof.
  apply (rz2_cong (rz2_mul rz2_w rz2_w)); apply cong_by_mod; [reflexivity|vm_compute; reflexivity|reflexivity|vm_compute; reflexivity].
Qed.
Lemma rz2_w3 : rz2 (fmul (fmul psi_w psi_w) psi_w) (- psi_ec, - psi_ec)%Z.
Proof.
  apply (rz2_cong (rz2_mul rz2_w2 rz2_w)); apply cong_by_mod; [reflexivity|vm_compute; reflexivity|reflexivity|vm_compute; reflexivity].
Qed.
Lemma rz2_1 : rz2 (f1 : Bls2) (1, 0)%Z. Proof. split; [exact (rz_of rv_1)|exact (rz_of rv_0)]. Qed.
Lemma rz2_0 : rz2 (f0 : Bls2) (0, 0)%Z. Proof. split; exact (rz_of rv_0). Qed.
Lemma rz2_cj x v : rz2 x v -> rz2 (fp2_conjugate x : Bls2) (fst v, - snd v)%Z.
Proof. intros [A B]. split; [exact A|exact (rz_opp B)]. Qed.
Lemma rz2_eq x y v w : rz2 x v -> rz2 y w -> cong bls_p (fst v) (fst w) -> cong bls_p (snd v) (snd w) -> x = y.
Proof.
  intros [A A'] [B B'] C D. destruct x as [a b], y as [c d]. cbn [qu_a qu_b] in *. rewrite (rz_eq A B C), (rz_eq A' B' D). reflexivity.
Qed.
Ltac congv := apply cong_by_mod; [reflexivity|vm_compute; reflexivity].
Lemma psi_w_neq : psi_w <> f0.
Proof.
  apply (z2_neq_ok (v := (bls_e, - bls_e)%Z) (w := (0, 0)%Z)); [exact rz2_w|exact rz2_0|vm_compute; reflexivity].
Qed.
Lemma psi_nc : fmul psi_w (fp2_conjugate psi_w : Bls2) = psi_c.
Proof. apply (rz2_eq (rz2_mul rz2_w (rz2_cj rz2_w)) rz2_cv); congv. Qed.
Lemma psi_c2 : fmul psi_c psi_c = fsub psi_c f1.
Proof. apply (rz2_eq (rz2_mul rz2_cv rz2_cv) (rz2_sub rz2_cv rz2_1)); congv. Qed.
Lemma rz2_b2 : rz2 bls_b2 (4, 4)%Z.
Proof. rewrite <- bls_b2_const. split; apply rz_of, rv_const; vm_compute; reflexivity. Qed.
Lemma psi_hb : (fp2_conjugate bls_b2 : Bls2) = fmul bls_b2 (fmul (fmul (fmul psi_w psi_w) psi_w) (fmul (fmul psi_w psi_w) psi_w)).
Proof.
  apply (rz2_eq (rz2_cj rz2_b2) (rz2_mul rz2_b2 (rz2_mul rz2_w3 rz2_w3))); congv.
Qed.
Lemma psi_t3 : (fadd (fadd f1 f1) f1 : Bls2) <> f0.
Proof.
  apply (z2_neq_ok (v := (3, 0)%Z) (w := (0, 0)%Z)); [exact (rz2_add (rz2_add rz2_1 rz2_1) rz2_1)|exact rz2_0|vm_compute; reflexivity].
Qed.
Definition cj2 (x : Bls2) : Bls2 := fp2_conjugate x.
Lemma cj2_1 : cj2 f1 = f1.
Proof. apply (rz2_eq (rz2_cj rz2_1) rz2_1); congv. Qed.
Definition cj2_mul : forall x y, cj2 (fmul x y) = fmul (cj2 x) (cj2 y) := @fp2_conj_mul BlsFp.
Definition cj2_add : forall x y, cj2 (fadd x y) = fadd (cj2 x) (cj2 y) := @fp2_conj_add BlsFp.
Definition cj2_cj : forall x, cj2 (cj2 x) = x := @fp2_conj_conj BlsFp.
Definition bls_psi : point Bls2 -> point Bls2 := psi cj2 psi_w.
Definition bls_psi_on P : on_curve f0 bls_b2 P -> on_curve f0 bls_b2 (bls_psi P) :=
  @psi_on' Bls2 cj2 cj2_mul cj2_add psi_w bls_b2 psi_w_neq psi_hb P.
Definition bls_psi_add P Q : on_curve f0 bls_b2 P -> on_curve f0 bls_b2 Q -> bls_psi (ec_add f0 P Q) = ec_add f0 (bls_psi P) (bls_psi Q) :=
  @psi_add' Bls2 cj2 cj2_1 cj2_mul cj2_add psi_w bls_b2 psi_w_neq bls_g2_odd P Q.
Definition bls_psi4 P : on_curve f0 bls_b2 P -> ec_add f0 (bls_psi (bls_psi (bls_psi (bls_psi P)))) P = bls_psi (bls_psi P) :=
  @psi4_is Bls2 cj2 cj2_1 cj2_mul cj2_cj psi_w psi_c bls_b2 psi_w_neq psi_nc psi_c2 bls_g2_odd psi_t3 P.
Definition bls_psi2 x y : bls_psi (bls_psi (Some (x, y))) = Some (fmul (fopp psi_c) x, fopp y) :=
  @psi2_is Bls2 cj2 cj2_1 cj2_mul cj2_cj psi_w psi_c psi_w_neq psi_nc psi_c2 x y.
Definition xN : N := Z.to_N bls_param_x.
Lemma xN_r : (xN * xN * (xN * xN) + 1 = xN * xN + rN)%N. Proof. vm_compute. reflexivity. Qed.
Lemma bls_psi_order P : on_curve f0 bls_b2 P -> bls_psi P = ec_neg (mulN xN P) -> mulN rN P = None.
Proof.
  intros H E.
  exact (@psi_order Bls2 cj2 cj2_1 cj2_mul cj2_add cj2_cj psi_w psi_c bls_b2 psi_w_neq psi_nc psi_c2 psi_hb bls_g2_odd psi_t3 xN rN P H E xN_r).
Qed.

(** ** the generator of G2 *)
Lemma g2_gen_x : rz2 (jx bls_g2_gen) g2_gx. Proof. split; apply rz_of, rv_const; vm_compute; reflexivity. Qed.
Lemma g2_gen_y : rz2 (jy bls_g2_gen) g2_gy. Proof. split; apply rz_of, rv_const; vm_compute; reflexivity. Qed.
Definition g2_aff : point Bls2 := Some (jx bls_g2_gen : Bls2, jy bls_g2_gen : Bls2).
Section Rhs.
  Variable K : field.
  Add Field Krhs : (fth K).
  Lemma rhs0 (b x : K) : curve_rhs f0 b x = fadd (fmul (fmul x x) x) b. Proof. unfold curve_rhs. ring. Qed.
End Rhs.
Lemma g2_gen_on : on_curve f0 bls_b2 g2_aff.
Proof.
  cbn [on_curve g2_aff]. rewrite rhs0.
  apply (rz2_eq (rz2_mul g2_gen_y g2_gen_y) (rz2_add (rz2_mul (rz2_mul g2_gen_x g2_gen_x) g2_gen_x) rz2_b2)); congv.
Qed.
Lemma g2_gen_x_mul : exists u v, rz2 u g2_xx /\ rz2 v g2_xy /\ mulN xN g2_aff = Some (u, v).
Proof.
  exact (@run_mul Bls2 bls_b2 bls_g2_odd (Z * Z)%type rz2 z2_add z2_sub z2_mul z2_sq z2_eq z2_neq rz2_ex rz2_add rz2_sub rz2_mul rz2_sq z2_eq_ok z2_neq_ok
    g2_gx g2_gy _ _ g2_gen_x g2_gen_y g2_gen_on g2_chain xN g2_xx g2_xy g2_chain_ok).
Qed.
Lemma g2_gen_psi : bls_psi g2_aff = ec_neg (mulN xN g2_aff).
Proof.
  destruct g2_gen_x_mul as (u & v & U & V & ->). cbn [bls_psi psi untwist g2_aff ec_neg]. unfold ux, uy. do 2 f_equal.
  - apply f_div_eq; [apply f_mul_neq; exact psi_w_neq|].
    apply (rz2_eq (rz2_cj g2_gen_x) (rz2_mul rz2_w2 U)); congv.
  - apply f_div_eq; [repeat apply f_mul_neq; exact psi_w_neq|].
    apply (rz2_eq (rz2_cj g2_gen_y) (rz2_mul rz2_w3 (rz2_opp V))); congv.
Qed.
Lemma g2_gen_order : mulN rN g2_aff = None.
Proof. apply bls_psi_order; [exact g2_gen_on|exact g2_gen_psi]. Qed.
