(** The order of the G1 generator. *)
From Coq Require Import Field Ring ZArith NArith Lia Bool List Znumtheory.
From Verif Require Import EcField EcSpec EcAlg EcProofs PointModel PointSpec PointMulProofs MillerSpec LimbBase LimbSpec LimbBls LimbField BlsFpProps ZCong NativeRoots CurveOrder
  TowerModel TowerSpec TowerAlg TowerField TowerBls TowerStep TowerMiller TowerInst G2Psi G1Phi GenChain BlsRep BlsG1Cert BlsG1Chain G2Cert G2Model.
Import ListNotations.
Set Implicit Arguments.
Unset Strict Implicit.

Lemma rv_b1 : rv bls_b1 4. Proof. apply rv_const. vm_compute. reflexivity. Qed.
Lemma rz_b1 : rz bls_b1 4. Proof. exact (rz_of rv_b1). Qed.
Lemma bls_g1_odd : odd_order_curve (f0 : BlsFp) bls_b1.
Proof.
  apply (@odd_order _ bls_p _ _ blsfp_limb_ok _ _ 0%Z 4%Z); [reflexivity|exact rv_0|exact rv_b1|].
  intros v. replace (v * v * v + 0 * v + 4)%Z with (v * v * v + 4)%Z by ring. apply g1_no_root.
Qed.
Section M12.
  Variable F : field.
  Add Field F12 : (fth F).
  Lemma mul12_is (b x : F) : b = four F -> mul12 x = fmul (fmul (fadd (fadd f1 f1) f1) b) x.
  Proof. intros ->. unfold mul12, four. ring. Qed.
End M12.
Lemma g1_m3b_is (x : BlsFp) : g1_m3b x = fmul (fmul (fadd (fadd f1 f1) f1) bls_b1) x.
Proof. apply mul12_is. apply (rz_eq rz_b1 (rz_of rv_four)). apply cong_refl. Qed.

Definition beta_v : Z := 793479390729215512621379701633421447060886740281060493010456487427281649075476305620758731620350.
Definition g1_beta : BlsFp := fz BlsFp (Z.to_N beta_v).
Lemma rz_beta : rz g1_beta beta_v.
Proof. exists (Z.of_N (Z.to_N beta_v) mod bls_p)%Z. split; [apply rv_fz|]. apply cong_mod, p_pos. Qed.
Lemma g1_B2 : fmul g1_beta g1_beta = fsub (fopp g1_beta) f1.
Proof. apply (rz_eq (rz_mul rz_beta rz_beta) (rz_sub (rz_opp rz_beta) (rz_of rv_1))); congv. Qed.
Section B3.
  Variable F : field.
  Add Field FB3 : (fth F).
  Lemma cube_one (x : F) : fmul x x = fsub (fopp x) f1 -> fmul (fmul x x) x = f1.
  Proof. intros E. rewrite E. transitivity (fsub (fopp (fmul x x)) x); [ring|]. rewrite E. ring. Qed.
End B3.
Definition g1_B3 : fmul (fmul g1_beta g1_beta) g1_beta = f1 := cube_one g1_B2.
Lemma g1_T3 : (fadd (fadd f1 f1) f1 : BlsFp) <> f0.
Proof.
  apply (z1_neq_ok (v := 3%Z) (w := 0%Z)); [exact (rz_add (rz_add (rz_of rv_1) (rz_of rv_1)) (rz_of rv_1))|exact (rz_of rv_0)|vm_compute; reflexivity].
Qed.
Definition bls_phi1 : point BlsFp -> point BlsFp := g1phi g1_beta.
Lemma g1_order s P : on_curve f0 bls_b1 P -> bls_phi1 P = ec_neg (mulN s P) -> (s * s + 1 = s + rN)%N -> mulN rN P = None.
Proof. exact (@g1phi_order BlsFp g1_beta bls_b1 g1_B3 g1_B2 g1_T3 bls_g1_odd s rN P). Qed.

Definition g1_aff : point BlsFp := Some (PointModel.px bls_g1_point, PointModel.py bls_g1_point).
Lemma g1_gen_x : rz (PointModel.px bls_g1_point) g1_gx. Proof. apply rz_of, rv_const; vm_compute; reflexivity. Qed.
Lemma g1_gen_y : rz (PointModel.py bls_g1_point) g1_gy. Proof. apply rz_of, rv_const; vm_compute; reflexivity. Qed.
Lemma g1_gen_on : on_curve f0 bls_b1 g1_aff.
Proof.
  cbn [on_curve g1_aff]. rewrite rhs0.
  apply (rz_eq (rz_mul g1_gen_y g1_gen_y) (rz_add (rz_mul (rz_mul g1_gen_x g1_gen_x) g1_gen_x) rz_b1)); congv.
Qed.
Definition g1_run := @run_mul BlsFp bls_b1 bls_g1_odd Z rz Z.add Z.sub Z.mul z1_sq z1_eq z1_neq rz_ex rz_add rz_sub rz_mul
  (fun x v H => rz_mul H H) z1_eq_ok z1_neq_ok.
Lemma g1_gen_x_mul : exists u v, rz u g1_mx /\ rz v g1_my /\ mulN xN g1_aff = Some (u, v).
Proof. exact (@g1_run g1_gx g1_gy _ _ g1_gen_x g1_gen_y g1_gen_on g1_chain1 xN g1_mx g1_my g1_chain1_ok). Qed.
Lemma g1_gen_xx_mul : exists u v, rz u g1_ex /\ rz v g1_ey /\ mulN (xN * xN) g1_aff = Some (u, v).
Proof.
  destruct g1_gen_x_mul as (u & v & U & V & E). rewrite (mulN_mul bls_g1_odd) by exact g1_gen_on.
  pose proof (mulN_on bls_g1_odd xN g1_gen_on) as O. rewrite E in *.
  exact (@g1_run g1_mx g1_my u v U V O g1_chain2 xN g1_ex g1_ey g1_chain2_ok).
Qed.
Lemma g1_gen_order : mulN rN g1_aff = None.
Proof.
  apply (@g1_order (xN * xN)%N); [exact g1_gen_on| |exact xN_r].
  destruct g1_gen_xx_mul as (u & v & U & V & ->). cbn [bls_phi1 g1phi g1_aff ec_neg]. do 2 f_equal.
  - apply (rz_eq (rz_mul rz_beta g1_gen_x) U). congv.
  - apply (rz_eq g1_gen_y (rz_opp V)). congv.
Qed.
