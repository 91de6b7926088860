(** * The constants of the square-root routines: the roots of unity of Tonelli-Shanks,
    and the Sqrt of each of the five fields. *)
From Coq Require Import ZArith Lia List Bool Znumtheory.
From Verif Require Import LimbBase LimbSpec LimbProofs LimbBls LimbBlsProofs LimbBlsProofs2 LimbFiat
  LimbK256FpProofs LimbK256FqProofs LimbP256FpProofs LimbP256FqProofs
  NativeField NativeChains NativeInstances NativeFieldProofs NativeArithProofs NativePowProofs ZCong Pockl
  PrimeK256 PrimeP256 PrimeBls.
Import ListNotations.
Open Scope Z_scope.

Lemma cong_by_mod m a b : (m =? 0) = false -> ((a - b) mod m =? 0) = true -> cong m a b.
Proof.
  intros N H. apply Z.eqb_eq in H. apply Z.eqb_neq in N. unfold cong. apply Z.mod_divide; assumption.
Qed.
(** a representation given by numerals *)
Lemma rep_const m a b c d v :
  (((0 <=? a) && (a <? W) && (0 <=? b) && (b <? W) && (0 <=? c) && (c <? W) && (0 <=? d) && (d <? W))%bool
   && (val4 (L4 a b c d) <? m) && negb (m =? 0) && ((val4 (L4 a b c d) - v * 2 ^ 256) mod m =? 0))%bool = true ->
  rep m (L4 a b c d) v.
Proof.
  rewrite !andb_true_iff, negb_true_iff. intros [[[H L] N] E].
  split; [split|].
  - apply words4_consts. rewrite !andb_true_iff. tauto.
  - apply Z.ltb_lt, L.
  - apply cong_by_mod; assumption.
Qed.
(** a power given by repeated squaring *)
Lemma pw_const m mu k1 k2 a e r : (m =? 0) = false -> ((pm m mu k1 k2 a e - r) mod m =? 0) = true ->
  cong m (pw a (Zpos e)) r.
Proof.
  Transparent pw. intros N H. unfold pw. apply (cong_trans _ _ (pm m mu k1 k2 a e)); [apply cong_sym, pm_ok|].
  apply cong_by_mod; assumption.
Qed.
Opaque pw.

Definition sqrt_spec (m : Z) (F : native_field) : Prop :=
  forall out x v, words4 out -> rep m x v ->
    ((exists y, cong m (y * y) v) ->
       exists r u, nf_sqrt_m F out x = (1, r) /\ rep m r u /\ cong m (u * u) v) /\
    (~ (exists y, cong m (y * y) v) -> nf_sqrt_m F out x = (0, out)).

Lemma k256fp_sqrt_ok : sqrt_spec k256fp_m k256fp_field.
Proof.
  intros out x v Ho Hx. cbn [nf_sqrt_m k256fp_field].
  apply (sqrt_3mod4_ok _ _ _ k256fp_arith_ok k256fp_params_ok k256fp_sqrt_c1);
    [apply words4_consts; vm_compute; reflexivity|vm_compute; reflexivity|exact k256_p_prime|exact Ho|exact Hx].
Qed.
Lemma p256fp_sqrt_ok : sqrt_spec p256fp_m p256fp_field.
Proof.
  intros out x v Ho Hx. cbn [nf_sqrt_m p256fp_field].
  apply (sqrt_3mod4_ok _ _ _ p256fp_arith_ok p256fp_params_ok p256fp_sqrt_c1);
    [apply words4_consts; vm_compute; reflexivity|vm_compute; reflexivity|exact p256_p_prime|exact Ho|exact Hx].
Qed.
Lemma k256fq_sqrt_ok : sqrt_spec k256fq_m k256fq_field.
Proof.
  intros out x v Ho Hx. cbn [nf_sqrt_m k256fq_field].
  apply (sqrt_ts_ok _ _ _ k256fq_arith_ok k256fq_params_ok 6 k256fq_sqrt_c3 k256fq_sqrt_c5
    0xc1dc060e7a91986df9879a3fbc483a898bdeab680756045992f4b5402b052f2); [lia|apply words4_consts; vm_compute; reflexivity|vm_compute; reflexivity| | |exact k256_n_prime|exact Ho|exact Hx].
  - apply rep_const. vm_compute. reflexivity.
  - apply (pw_const _ (2 ^ 512 / k256fq_m) 0 512); vm_compute; reflexivity.
Qed.
Lemma p256fq_sqrt_ok : sqrt_spec p256fq_m p256fq_field.
Proof.
  intros out x v Ho Hx. cbn [nf_sqrt_m p256fq_field].
  apply (sqrt_ts_ok _ _ _ p256fq_arith_ok p256fq_params_ok 4 p256fq_sqrt_c3 p256fq_sqrt_c5
    0xffc97f062a770992ba807ace842a3dfc1546cad004378daf0592d7fbb41e6602); [lia|apply words4_consts; vm_compute; reflexivity|vm_compute; reflexivity| | |exact p256_n_prime|exact Ho|exact Hx].
  - apply rep_const. vm_compute. reflexivity.
  - apply (pw_const _ (2 ^ 512 / p256fq_m) 0 512); vm_compute; reflexivity.
Qed.

(** bls12381/fq.go: the generator stands for 7 *)
Lemma fq_generator_is_7 : rep fqM fq_generator 7.
Proof. unfold fq_generator. apply rep_const. vm_compute. reflexivity. Qed.
Lemma seven_nonresidue : cong fqM (pw 7 (val4 blsfq_sqrt_c2 * 2 ^ 31)) (-1).
Proof.
  let e := eval vm_compute in (val4 blsfq_sqrt_c2 * 2 ^ 31) in change (val4 blsfq_sqrt_c2 * 2 ^ 31) with e.
  apply (pw_const _ 16364744645730252930785627053835748877812200352683725940437419160735895728481476 249 269); vm_compute; reflexivity.
Qed.
Lemma blsfq_sqrt_ok : sqrt_spec fqM blsfq_field.
Proof.
  assert (W2 : words4 blsfq_sqrt_c2) by (apply words4_consts; vm_compute; reflexivity).
  intros out x v Ho Hx. cbn [nf_sqrt_m blsfq_field].
  apply (sqrt_ts_ok _ _ _ blsfq_arith_ok blsfq_params_ok 32 blsfq_sqrt_c3 blsfq_sqrt_c5 (pw 7 (val4 blsfq_sqrt_c2)));
    [lia|apply words4_consts; vm_compute; reflexivity|vm_compute; reflexivity| | |exact bls_r_prime|exact Ho|exact Hx].
  - apply (rep_pow _ _ _ blsfq_arith_ok blsfq_params_ok _ _ _ W2 fq_generator_is_7).
  - change (Z.of_nat (32 - 1)) with 31.
    rewrite pw_mul; [exact seven_nonresidue|apply val4_range, W2|lia].
Qed.
