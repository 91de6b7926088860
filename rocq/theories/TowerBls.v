(** The hypotheses of TowerFrob.v and TowerFinal.v at the limb-level BLS12-381 base field. *)
From Coq Require Import ZArith NArith Lia List Bool Znumtheory.
From Verif Require Import EcField LimbBase LimbSpec LimbProofs LimbBls LimbBlsProofs ZCong ZFermat Pockl NativeFieldProofs NativePowProofs NativeRoots
  BlsFp BlsFpProps LimbField PrimeBlsP TowerModel TowerSpec TowerAlg TowerField TowerFrob TowerFinal.
Import ListNotations.
Local Open Scope Z_scope.

Definition pN : N := Z.to_N bls_p.
Definition jN : N := ((pN - 43) / 48)%N.
Lemma pN_Z : Z.of_N pN = bls_p. Proof. vm_compute. reflexivity. Qed.
Lemma pN_j : pN = (48 * jN + 43)%N. Proof. vm_compute. reflexivity. Qed.
Lemma pN_prime : prime (Z.of_N pN). Proof. rewrite pN_Z. exact bls_p_prime. Qed.

(** values *)
Definition rv (x : BlsFp) (v : Z) : Prop := represents6 bls_p (raw x) v.
Lemma rv_eq x y v w : rv x v -> rv y w -> cong bls_p v w -> x = y.
Proof.
  intros X Y C. apply (by_val _ _ _ blsfp_limb_ok). intros a b A B.
  pose proof (lk_fun _ _ _ blsfp_limb_ok _ _ _ X A) as <-. pose proof (lk_fun _ _ _ blsfp_limb_ok _ _ _ Y B) as <-.
  apply (cong_small bls_p); [apply (lk_range _ _ _ blsfp_limb_ok _ _ X)|apply (lk_range _ _ _ blsfp_limb_ok _ _ Y)|exact C].
Qed.
Lemma rv_fun x v w : rv x v -> rv x w -> v = w. Proof. apply (lk_fun _ _ _ blsfp_limb_ok). Qed.
Lemma rv_range x v : rv x v -> 0 <= v < bls_p. Proof. apply (lk_range _ _ _ blsfp_limb_ok). Qed.
Lemma rv_ex x : exists v, rv x v. Proof. apply (lrep _ _ _ blsfp_limb_ok). Qed.
Lemma rv_0 : rv f0 0. Proof. apply (v_zero _ _ _ blsfp_limb_ok). Qed.
Lemma rv_1 : rv f1 1. Proof. apply (v_one _ _ _ blsfp_limb_ok). Qed.
Lemma rv_add x y v w : rv x v -> rv y w -> rv (fadd x y) ((v + w) mod bls_p). Proof. apply (v_add _ _ _ blsfp_limb_ok). Qed.
Lemma rv_mul x y v w : rv x v -> rv y w -> rv (fmul x y) ((v * w) mod bls_p). Proof. apply (v_mul _ _ _ blsfp_limb_ok). Qed.
Lemma rv_opp x v : rv x v -> rv (fopp x) ((- v) mod bls_p). Proof. apply (v_neg _ _ _ blsfp_limb_ok). Qed.
Lemma p_pos : 0 < bls_p. Proof. vm_compute. reflexivity. Qed.
Lemma rv_cong x v w : rv x v -> 0 <= w < bls_p -> cong bls_p v w -> rv x w.
Proof. intros X W C. replace w with v; [exact X|]. apply (cong_small bls_p); [apply (rv_range _ _ X)|exact W|exact C]. Qed.
Lemma rv_fz n : rv (fz BlsFp n) (Z.of_N n mod bls_p).
Proof.
  induction n as [|n IH] using N.peano_ind; [exact rv_0|]. rewrite fz_succ.
  eapply rv_cong; [exact (rv_add _ _ _ _ IH rv_1)|apply Z.mod_pos_bound, p_pos|].
  rewrite Zplus_mod_idemp_l. replace (Z.of_N n + 1) with (Z.of_N (N.succ n)) by lia. apply cong_refl.
Qed.
Lemma rv_pow x v n : rv x v -> rv (fpow x n) (pw v (Z.of_N n) mod bls_p).
Proof.
  intros X. induction n as [|n IH] using N.peano_ind.
  - change (Z.of_N 0) with 0. rewrite pw_0. exact rv_1.
  - rewrite fpow_succ. eapply rv_cong; [exact (rv_mul _ _ _ _ IH X)|apply Z.mod_pos_bound, p_pos|].
    rewrite Zmult_mod_idemp_l. replace (Z.of_N (N.succ n)) with (Z.of_N n + 1) by lia. rewrite pw_add, pw_1 by lia. apply cong_refl.
Qed.
Lemma bls_char : fz BlsFp pN = f0.
Proof.
  apply (rv_eq _ _ _ _ (rv_fz pN) rv_0). rewrite pN_Z, Z_mod_same_full. apply cong_refl.
Qed.
Lemma fermat_pw m v : prime m -> 0 <= v -> cong m (pw v m) v.
Proof. Transparent pw. unfold pw. Opaque pw. apply fermat_Z. Qed.
Lemma bls_fermat (x : BlsFp) : fpow x pN = x.
Proof.
  destruct (rv_ex x) as [v X]. apply (rv_eq _ _ _ _ (rv_pow x v pN X) X). rewrite pN_Z.
  apply (cong_trans _ _ (pw v bls_p)); [apply cong_mod, p_pos|].
  apply fermat_pw; [exact bls_p_prime|apply (rv_range _ _ X)].
Qed.

(** constants *)
Lemma rv_const l v : (reduced6 bls_p l && (0 <=? v) && (v <? bls_p) && ((val6 l - v * 2 ^ 384) mod bls_p =? 0))%bool = true -> rv (bls_const l) v.
Proof.
  rewrite !andb_true_iff, Z.leb_le, Z.ltb_lt, Z.eqb_eq. intros [[[R V0] V1] E]. unfold bls_const.
  destruct (bool_dec (reduced6 bls_p l) true) as [H|H]; [|contradiction]. unfold rv. cbn [raw proj1_sig].
  apply reduced6_ok in R. destruct R as [Wl Ll]. split; [exact Wl|]. split; [exact Ll|]. split; [lia|].
  assert (C : cong bls_p (val6 l) (v * 2 ^ 384)) by (apply cong_by_mod; [reflexivity|apply Z.eqb_eq; exact E]).
  apply (cong_mod_eq bls_p) in C; [|exact p_pos]. rewrite <- C. symmetry. apply Z.mod_small. split; [apply val6_range, Wl|exact Ll].
Qed.
Definition bls_e : Z := 3850754370037169011952147076051364057158807420970682438676050522613628423219637725072182697113062777891589506424760.
Lemma rv_two : rv (fadd f1 f1) 2.
Proof. eapply rv_cong; [exact (rv_add _ _ _ _ rv_1 rv_1)|split; [discriminate|reflexivity]|apply cong_refl]. Qed.
Definition kP : positive := Z.to_pos ((bls_p - 7) / 12).
Lemma kk_kP : Z.of_N (kk jN) = Zpos kP. Proof. vm_compute. reflexivity. Qed.
Lemma bls_e_pow : cong bls_p (pw 2 (Zpos kP)) bls_e.
Proof. apply (pw_const _ (2 ^ 766 / bls_p) 370 396); vm_compute; reflexivity. Qed.
Lemma rv_ee : rv (ee BlsFp jN) bls_e.
Proof.
  eapply rv_cong; [exact (rv_pow _ _ (kk jN) rv_two)|split; [discriminate|reflexivity]|].
  rewrite kk_kP. eapply cong_trans; [apply cong_mod, p_pos|exact bls_e_pow].
Qed.
Definition bls_c : Z := (2 * (bls_e * bls_e)) mod bls_p.
Lemma rv_cc : rv (cc BlsFp jN) bls_c.
Proof.
  eapply rv_cong; [exact (rv_mul _ _ _ _ rv_two (rv_mul _ _ _ _ rv_ee rv_ee))|apply Z.mod_pos_bound, p_pos|].
  rewrite Zmult_mod_idemp_r. apply cong_refl.
Qed.
Lemma bls_two : fadd f1 f1 <> (f0 : BlsFp).
Proof. intros E. pose proof rv_two as H. rewrite E in H. pose proof (rv_fun _ _ _ H rv_0). discriminate. Qed.
Lemma bls_HC3 : fmul (fmul (cc BlsFp jN) (cc BlsFp jN)) (cc BlsFp jN) = fopp f1.
Proof.
  apply (rv_eq _ _ _ _ (rv_mul _ _ _ _ (rv_mul _ _ _ _ rv_cc rv_cc) rv_cc) (rv_opp _ _ rv_1)).
  apply cong_by_mod; vm_compute; reflexivity.
Qed.
Lemma bls_HC2 : fmul (cc BlsFp jN) (cc BlsFp jN) <> f1.
Proof.
  intros E. pose proof (rv_mul _ _ _ _ rv_cc rv_cc) as H. rewrite E in H. pose proof (rv_fun _ _ _ H rv_1) as Q. vm_compute in Q. discriminate Q.
Qed.
Definition bls_N1 : forall x : BlsFp, fmul x x <> fopp f1 := m1_no_square pN_j bls_fermat bls_two.
Definition Bls2 : field := Fp2 bls_N1.
Definition bls_N3 : forall x : Bls2, fmul (fmul x x) x <> xi bls_N1 := xi_not_cube (two_no_cube pN_j bls_fermat bls_two bls_HC2).
Definition Bls6 : field := Fp6 bls_N3.
Definition bls_N2 : forall x : Bls6, fmul x x <> vv bls_N3 := vv_not_square (xi_not_square (two_no_square pN_j bls_fermat bls_two bls_HC3)).
Definition Bls12 : field := Fp12 bls_N2.

(** the Frobenius constants are powers of 1 + u *)
Lemma bls_G6 : bls_pm1Div6 = fpow (xi bls_N1) (2 * kk jN + 1).
Proof.
  rewrite xi_pow6_q. unfold bls_pm1Div6. apply f_equal2.
  - eapply rv_eq; [apply (rv_const _ bls_e); vm_compute; reflexivity|exact rv_ee|apply cong_refl].
  - eapply rv_eq; [apply (rv_const _ (bls_p - bls_e)); vm_compute; reflexivity|exact (rv_opp _ _ rv_ee)|apply cong_by_mod; vm_compute; reflexivity].
Qed.
Lemma bls_G3 : bls_pm1Div3 = fpow (xi bls_N1) (2 * (2 * kk jN + 1)).
Proof.
  rewrite xi_pow3_q. unfold bls_pm1Div3. apply f_equal2; [reflexivity|].
  eapply rv_eq; [apply (rv_const _ (bls_p - bls_c)); vm_compute; reflexivity|exact (rv_opp _ _ rv_cc)|apply cong_by_mod; vm_compute; reflexivity].
Qed.
Lemma bls_G33 : bls_p2m2Div3 = fpow (xi bls_N1) (4 * (2 * kk jN + 1)).
Proof.
  rewrite xi_pow33_q. unfold bls_p2m2Div3. apply f_equal2; [|reflexivity].
  eapply rv_eq; [apply (rv_const _ ((- (bls_c * bls_c)) mod bls_p)); vm_compute; reflexivity|exact (rv_opp _ _ (rv_mul _ _ _ _ rv_cc rv_cc))|].
  apply cong_by_mod; vm_compute; reflexivity.
Qed.
Lemma bls_m1 : bls_minus_one = fopp f1.
Proof.
  eapply rv_eq; [apply (rv_const _ (bls_p - 1)); vm_compute; reflexivity|exact (rv_opp _ _ rv_1)|apply cong_by_mod; vm_compute; reflexivity].
Qed.
