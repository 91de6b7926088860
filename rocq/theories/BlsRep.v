(** Integers standing for elements of the BLS12-381 base field and of its quadratic extension, modulo p. *)
From Coq Require Import Field Ring ZArith NArith Lia Bool List.
From Verif Require Import EcField EcSpec EcProofs LimbField BlsFpProps ZCong TowerModel TowerSpec TowerAlg TowerField TowerBls TowerStep.
Import ListNotations.
Set Implicit Arguments.
Unset Strict Implicit.

Section Rz.
  Local Open Scope Z_scope.
  Definition rz (x : BlsFp) (v : Z) : Prop := exists v0, rv x v0 /\ cong bls_p v0 v.
  Lemma rz_of x v : rv x v -> rz x v. Proof. intros H. exists v. split; [exact H|apply cong_refl]. Qed.
  Lemma rz_ex v : exists x, rz x v.
  Proof.
    exists (fz BlsFp (Z.to_N (v mod bls_p))). exists (v mod bls_p). split; [|apply cong_mod, p_pos].
    pose proof (Z.mod_pos_bound v bls_p p_pos) as B.
    eapply rv_cong; [apply rv_fz|exact B|]. rewrite Z2N.id by lia. apply cong_mod, p_pos.
  Qed.
  Lemma rz_add x y v w : rz x v -> rz y w -> rz (fadd x y) (v + w).
  Proof.
    intros [v0 [V CV]] [w0 [W CW]]. exists ((v0 + w0) mod bls_p). split; [exact (rv_add _ _ _ _ V W)|].
    eapply cong_trans; [apply cong_mod, p_pos|]. apply cong_add; assumption.
  Qed.
  Lemma rz_opp x v : rz x v -> rz (fopp x) (- v).
  Proof.
    intros [v0 [V CV]]. exists ((- v0) mod bls_p). split; [exact (rv_opp _ _ V)|].
    eapply cong_trans; [apply cong_mod, p_pos|]. destruct CV as [k E]. exists (- k). lia.
  Qed.
  Lemma rz_mul x y v w : rz x v -> rz y w -> rz (fmul x y) (v * w).
  Proof.
    intros [v0 [V CV]] [w0 [W CW]]. exists ((v0 * w0) mod bls_p). split; [exact (rv_mul _ _ _ _ V W)|].
    eapply cong_trans; [apply cong_mod, p_pos|]. apply cong_mul; assumption.
  Qed.
  Lemma rz_eq x y v w : rz x v -> rz y w -> cong bls_p v w -> x = y.
  Proof.
    intros [v0 [V CV]] [w0 [W CW]] C. apply (rv_eq _ _ _ _ V W).
    eapply cong_trans; [exact CV|]. eapply cong_trans; [exact C|]. apply cong_sym. exact CW.
  Qed.
  Lemma rz_cong x v w : rz x v -> cong bls_p v w -> rz x w.
  Proof. intros [v0 [V CV]] C. exists v0. split; [exact V|]. eapply cong_trans; [exact CV|exact C]. Qed.
  Lemma rz_same x v w : rz x v -> rz x w -> cong bls_p v w.
  Proof.
    intros [v0 [V CV]] [w0 [W CW]]. pose proof (rv_fun _ _ _ V W) as <-. eapply cong_trans; [apply cong_sym, CV|exact CW].
  Qed.
End Rz.
Section Sub.
  Variable F : field.
  Add Field FSub : (fth F).
  Lemma f_sub_is (x y : F) : fsub x y = fadd x (fopp y). Proof. ring. Qed.
End Sub.
Lemma rz_sub x y v w : rz x v -> rz y w -> rz (fsub x y) (v - w).
Proof. intros A B. rewrite f_sub_is. exact (rz_add A (rz_opp B)). Qed.

(** ** the operations of the certificate, on integers *)
Definition z1_eq (a b k : Z) : bool := Z.eqb (a - b) (bls_p * k).
Definition z1_neq (a b : Z) : bool := (Z.ltb 0 (Z.abs (a - b)) && Z.ltb (Z.abs (a - b)) bls_p)%bool.
Lemma z1_eq_ok x y v w k : rz x v -> rz y w -> z1_eq v w k = true -> x = y.
Proof. intros A B E. apply (rz_eq A B). apply Z.eqb_eq in E. exists k. lia. Qed.
Lemma z1_neq_ok x y v w : rz x v -> rz y w -> z1_neq v w = true -> x <> y.
Proof.
  intros A B E H. subst y. pose proof (rz_same A B) as [k D]. unfold z1_neq in E.
  apply andb_true_iff in E. rewrite !Z.ltb_lt in E. revert E D. pose proof p_pos. generalize dependent bls_p. intros q Q [E1 E2] D. rewrite D in E1, E2. destruct (Z.eq_dec k 0) as [->|N]; [rewrite Z.mul_0_l in E1; cbn in E1; lia|]. rewrite Z.abs_mul, (Z.abs_eq q) in E2 by lia. assert (1 <= Z.abs k)%Z by lia. nia.
Qed.

(** ** the quadratic extension *)
Definition rz2 (x : Bls2) (v : Z * Z) : Prop := rz (qu_a x) (fst v) /\ rz (qu_b x) (snd v).
Definition z2_add (a b : Z * Z) : Z * Z := (fst a + fst b, snd a + snd b)%Z.
Definition z2_sub (a b : Z * Z) : Z * Z := (fst a - fst b, snd a - snd b)%Z.
Definition z2_mul (a b : Z * Z) : Z * Z :=
  (let m0 := fst a * fst b in let m1 := snd a * snd b in let m2 := (fst a + snd a) * (fst b + snd b) in (m0 - m1, m2 - m0 - m1))%Z.
Definition z2_sq (a : Z * Z) : Z * Z := (let m := fst a * snd a in ((fst a + snd a) * (fst a - snd a), m + m))%Z.
Definition z2_eq (a b k : Z * Z) : bool := (z1_eq (fst a) (fst b) (fst k) && z1_eq (snd a) (snd b) (snd k))%bool.
Definition z2_neq (a b : Z * Z) : bool := (z1_neq (fst a) (fst b) || z1_neq (snd a) (snd b))%bool.
Lemma rz2_ex v : exists x, rz2 x v.
Proof. destruct (rz_ex (fst v)) as [a A], (rz_ex (snd v)) as [b B]. exists (Quad a b). split; assumption. Qed.
Lemma rz2_add x y v w : rz2 x v -> rz2 y w -> rz2 (fadd x y) (z2_add v w).
Proof. intros [A A'] [B B']. split; [exact (rz_add A B)|exact (rz_add A' B')]. Qed.
Lemma rz2_opp x v : rz2 x v -> rz2 (fopp x) (- fst v, - snd v)%Z.
Proof. intros [A A']. split; [exact (rz_opp A)|exact (rz_opp A')]. Qed.
Lemma rz2_sub x y v w : rz2 x v -> rz2 y w -> rz2 (fsub x y) (z2_sub v w).
Proof.
  intros A B. rewrite f_sub_is. destruct (rz2_add A (rz2_opp B)) as [C D]. split.
  - eapply rz_cong; [exact C|]. unfold z2_add, z2_sub. cbn [fst snd]. replace (fst v + - fst w)%Z with (fst v - fst w)%Z by ring. apply cong_refl.
  - eapply rz_cong; [exact D|]. unfold z2_add, z2_sub. cbn [fst snd]. replace (snd v + - snd w)%Z with (snd v - snd w)%Z by ring. apply cong_refl.
Qed.
Lemma rz2_mul x y v w : rz2 x v -> rz2 y w -> rz2 (fmul x y) (z2_mul v w).
Proof.
  intros [A A'] [B B']. change (@fmul Bls2 x y) with (fp2_mul x y). rewrite fp2_mul_spec. unfold quad_mul, rz2. cbn [qu_a qu_b]. split.
  - eapply rz_cong; [exact (rz_add (rz_mul A B) (rz_mul (rz_opp (rz_of rv_1)) (rz_mul A' B')))|].
    unfold z2_mul. cbv zeta. cbn [fst snd]. match goal with |- cong _ ?a ?b => replace a with b by ring end. apply cong_refl.
  - eapply rz_cong; [exact (rz_add (rz_mul A B') (rz_mul A' B))|].
    unfold z2_mul. cbv zeta. cbn [fst snd]. match goal with |- cong _ ?a ?b => replace a with b by ring end. apply cong_refl.
Qed.
Lemma rz2_cong x v w : rz2 x v -> cong bls_p (fst v) (fst w) -> cong bls_p (snd v) (snd w) -> rz2 x w.
Proof. intros [A B] C D. split; [exact (rz_cong A C)|exact (rz_cong B D)]. Qed.
Lemma rz2_sq x v : rz2 x v -> rz2 (fmul x x) (z2_sq v).
Proof.
  intros A. apply (rz2_cong (rz2_mul A A)); unfold z2_mul, z2_sq; cbv zeta; cbn [fst snd];
  match goal with |- cong _ ?a ?b => replace a with b by ring end; apply cong_refl.
Qed.
Lemma z2_eq_ok x y v w k : rz2 x v -> rz2 y w -> z2_eq v w k = true -> x = y.
Proof.
  intros [A A'] [B B'] E. apply andb_true_iff in E. destruct E as [E E']. destruct x as [a b], y as [c d]. cbn [qu_a qu_b] in *.
  rewrite (z1_eq_ok A B E), (z1_eq_ok A' B' E'). reflexivity.
Qed.
Lemma z2_neq_ok x y v w : rz2 x v -> rz2 y w -> z2_neq v w = true -> x <> y.
Proof.
  intros [A A'] [B B'] E H. subst y. apply orb_true_iff in E. destruct E as [E|E].
  - exact (z1_neq_ok A B E eq_refl).
  - exact (z1_neq_ok A' B' E eq_refl).
Qed.
