(** Windowed multiplication and MulByX, for any representation of the points of a curve. *)
From Coq Require Import Bool List NArith ZArith PArith Lia Field Ring.
From Verif Require Import EcField EcSpec EcAlg EcProofs PointModel PointSpec PointProofs.
Set Implicit Arguments.
Unset Strict Implicit.
Import ListNotations.

Section Mul.
  Variable F : field.
  Variables a b : F.
  Hypothesis odd : odd_order_curve a b.
  Notation "P ⊕ Q" := (ec_add a P Q) (at level 50, left associativity).
  Notation on := (on_curve a b).

  Lemma ec_mul_on n P : on P -> on (ec_mul a n P).
  Proof. intros H. induction n as [|n IH]; [exact I|]. apply ec_closed; auto. Qed.
  Lemma ec_mul_add m n P : on P -> ec_mul a (m + n) P = ec_mul a m P ⊕ ec_mul a n P.
  Proof.
    intros H. induction m as [|m IH]; [reflexivity|]. cbn [Nat.add ec_mul].
    rewrite IH, (ec_assoc odd); auto using ec_mul_on.
  Qed.
  Lemma ec_mul_mul m n P : on P -> ec_mul a (m * n) P = ec_mul a m (ec_mul a n P).
  Proof. intros H. induction m as [|m IH]; [reflexivity|]. cbn [Nat.mul ec_mul]. now rewrite ec_mul_add, IH. Qed.
  Lemma ec_mul_1 P : ec_mul a 1 P = P. Proof. apply ec_zero_r. Qed.
  Lemma ec_neg_add P Q : on P -> on Q -> ec_neg (P ⊕ Q) = ec_neg P ⊕ ec_neg Q.
  Proof.
    intros HP HQ. assert (on (P ⊕ Q)) by (now apply ec_closed). assert (on (ec_neg P)) by now apply ec_neg_on.
    assert (on (ec_neg Q)) by now apply ec_neg_on. assert (on (ec_neg (P ⊕ Q))) by now apply ec_neg_on.
    assert (on (ec_neg P ⊕ ec_neg Q)) by now apply ec_closed.
    assert (E : (P ⊕ Q) ⊕ (ec_neg P ⊕ ec_neg Q) = None).
    { rewrite (ec_comm odd HP HQ), (ec_assoc odd HQ HP H3), <- (ec_assoc odd HP H0 H1), ec_neg_r. cbn [ec_add]. apply ec_neg_r. }
    transitivity (ec_neg (P ⊕ Q) ⊕ ((P ⊕ Q) ⊕ (ec_neg P ⊕ ec_neg Q))); [now rewrite E, ec_zero_r|].
    rewrite <- (ec_assoc odd H2 H H3), (ec_comm odd H2 H), ec_neg_r. reflexivity.
  Qed.
  Add Field fFM : (fth F).
  Lemma ec_neg_neg (P : point F) : ec_neg (ec_neg P) = P.
  Proof. destruct P as [[x y]|]; [|reflexivity]. cbn. do 2 f_equal. ring. Qed.

  Variables (den : pt F -> point F) (valid : pt F -> Prop).
  Variables (add : pt F -> pt F -> pt F) (dbl neg : pt F -> pt F) (ident : pt F).
  Hypothesis valid_on : forall p, valid p -> on (den p).
  Hypothesis add_ok : forall p q, valid p -> valid q -> valid (add p q) /\ den (add p q) = den p ⊕ den q.
  Hypothesis dbl_ok : forall p, valid p -> valid (dbl p) /\ den (dbl p) = den p ⊕ den p.
  Hypothesis id_ok : valid ident /\ den ident = None.
  Hypothesis neg_ok : forall p, valid p -> valid (neg p) /\ den (neg p) = ec_neg (den p).

  Definition multiple (P : point F) (n : nat) (p : pt F) : Prop := valid p /\ den p = ec_mul a n P.
  Lemma multiple_add P m n p q : on P -> multiple P m p -> multiple P n q -> multiple P (m + n) (add p q).
  Proof.
    intros HP [V1 E1] [V2 E2]. destruct (add_ok V1 V2) as [V E]. split; [exact V|]. now rewrite E, E1, E2, ec_mul_add.
  Qed.
  Lemma multiple_dbl P n p : on P -> multiple P n p -> multiple P (n + n) (dbl p).
  Proof. intros HP [V1 E1]. destruct (dbl_ok V1) as [V E]. split; [exact V|]. now rewrite E, E1, ec_mul_add. Qed.
  Lemma multiple_id P : multiple P 0 ident. Proof. exact id_ok. Qed.
  Lemma multiple_1 p : valid p -> multiple (den p) 1 p. Proof. intros V. split; [exact V|]. now rewrite ec_mul_1. Qed.
  Lemma multiple_neg P n p : multiple P n p -> valid (neg p) /\ den (neg p) = ec_neg (ec_mul a n P).
  Proof. intros [V E]. rewrite <- E. now apply neg_ok. Qed.

  Definition table_inv (P : point F) (t : list (pt F)) : Prop :=
    forall i, i < length t -> multiple P i (nth i t ident).
  Lemma table_fill_ok n p t : valid p -> table_inv (den p) t -> (exists k, 1 <= k /\ length t = k + k) ->
    table_inv (den p) (table_fill add dbl ident n p t) /\ length (table_fill add dbl ident n p t) = length t + (n + n).
  Proof.
    intros V. revert t. induction n as [|n IH]; intros t T [k [K1 K2]]; [cbn; split; [exact T|lia]|].
    cbn [table_fill]. set (even := dbl _). set (t' := t ++ [even; add even p]).
    assert (D2 : Nat.div2 (length t) = k).
    { rewrite K2. replace (k + k)%nat with (2 * k)%nat by lia. apply Nat.div2_double. }
    assert (HP := valid_on V).
    assert (E : multiple (den p) (length t) even).
    { rewrite K2. subst even. rewrite D2. apply multiple_dbl; [exact HP|]. apply T. lia. }
    destruct (IH t') as [I L].
    - intros i Hi. unfold t' in *. rewrite app_length in Hi. cbn in Hi.
      destruct (Nat.lt_ge_cases i (length t)) as [H|H]; [rewrite app_nth1 by exact H; now apply T|].
      rewrite app_nth2 by exact H. destruct (i - length t) as [|[|j]] eqn:Q; [| |lia]; cbn [nth].
      + replace i with (length t) by lia. exact E.
      + replace i with (length t + 1)%nat by lia. apply multiple_add; auto using multiple_1.
    - exists (S k). unfold t'. rewrite app_length. cbn. lia.
    - split; [exact I|]. rewrite L. unfold t'. rewrite app_length. cbn. lia.
  Qed.
  Lemma table_ok p : valid p -> table_inv (den p) (table add dbl ident p) /\ length (table add dbl ident p) = 16.
  Proof.
    intros V. apply (@table_fill_ok 7 p [ident; p]); [exact V| |exists 1; cbn; lia].
    intros [|[|i]] Hi; cbn in *; [apply multiple_id|now apply multiple_1|lia].
  Qed.

  (** Horner evaluation of the windows *)
  Definition horner (l : list N) (v : N) : N := fold_left (fun v w => 16 * v + w)%N l v.
  Lemma mul_steps p bytes : valid p -> forall ks acc v, multiple (den p) (N.to_nat v) acc ->
    (forall k, (window bytes (4 * N.of_nat k) < 16)%N) ->
    multiple (den p) (N.to_nat (horner (map (fun k => window bytes (4 * N.of_nat k)) ks) v))
      (fold_left (mul_step add dbl ident (table add dbl ident p) bytes) ks acc).
  Proof.
    intros V. destruct (table_ok V) as [T L]. assert (HP := valid_on V).
    induction ks as [|k ks IH]; intros acc v M W; [exact M|]. cbn [fold_left map horner]. apply IH; [|exact W].
    unfold mul_step. rewrite N2Nat.inj_add. apply multiple_add; [exact HP| |].
    - replace (N.to_nat (16 * v)) with
        (N.to_nat v + N.to_nat v + (N.to_nat v + N.to_nat v) + (N.to_nat v + N.to_nat v + (N.to_nat v + N.to_nat v)) +
         (N.to_nat v + N.to_nat v + (N.to_nat v + N.to_nat v) + (N.to_nat v + N.to_nat v + (N.to_nat v + N.to_nat v))))%nat by lia.
      repeat apply multiple_dbl; auto.
    - apply T. rewrite L. specialize (W k). lia.
  Qed.
  Lemma window_lt bytes i : (window bytes i < 16)%N.
  Proof. unfold window. change 15%N with (N.ones 4). rewrite N.land_ones. apply N.mod_lt. discriminate. Qed.

  Lemma horner_app l1 l2 v : horner (l1 ++ l2) v = horner l2 (horner l1 v).
  Proof. apply fold_left_app. Qed.
  Definition digits2 (x : N) : list N := [N.land (N.shiftr x 4) 15; N.land (N.shiftr x 0) 15].
  Lemma horner_digits x v : (x < 256)%N -> horner (digits2 x) v = (256 * v + x)%N.
  Proof.
    intros H. unfold digits2, horner. cbn [fold_left]. change 15%N with (N.ones 4). rewrite !N.land_ones, !N.shiftr_div_pow2.
    change (2 ^ 4)%N with 16%N. change (2 ^ 0)%N with 1%N. rewrite N.div_1_r.
    assert (x / 16 < 16)%N by (apply N.div_lt_upper_bound; lia). rewrite (N.mod_small (x / 16)) by assumption.
    assert (E := N.div_mod x 16 ltac:(discriminate)). lia.
  Qed.
  Lemma horner_bytes l v : Forall (fun x => (x < 256)%N) l ->
    horner (flat_map digits2 (rev l)) v = (256 ^ N.of_nat (length l) * v + le_value l)%N.
  Proof.
    intros H. revert v. induction H as [|x l Hx H IH]; intros v; [cbn [rev flat_map length le_value]; unfold horner; cbn [fold_left]; change (256 ^ N.of_nat 0)%N with 1%N; lia|].
    cbn [rev]. rewrite flat_map_app, horner_app, IH. cbn [flat_map]. rewrite app_nil_r, horner_digits by exact Hx.
    cbn [le_value length]. rewrite Nat2N.inj_succ, N.pow_succ_r'. lia.
  Qed.
  Lemma windows_digits l : length l = 32%nat ->
    map (fun k => window l (4 * N.of_nat k)) (seq 0 64) = flat_map digits2 (rev l).
  Proof.
    intros H. do 32 (destruct l as [|? l]; [discriminate H|]). destruct l; [|discriminate H]. reflexivity.
  Qed.
  Lemma point_mul_ok p bytes : valid p -> is_bytes32 bytes ->
    valid (point_mul add dbl ident p bytes) /\
    den (point_mul add dbl ident p bytes) = ec_mul a (N.to_nat (le_value bytes)) (den p).
  Proof.
    intros V [L B]. unfold point_mul.
    assert (M := mul_steps V (seq 0 64) (v := 0) (multiple_id (den p)) (bytes := bytes) (fun k => window_lt bytes _)).
    rewrite windows_digits in M by exact L. rewrite horner_bytes in M by exact B. rewrite N.mul_0_r, N.add_0_l in M. exact M.
  Qed.

  Lemma mulx_ok P : on P -> forall x n m t r, multiple P n t -> multiple P m r ->
    multiple P (m + 2 * Pos.to_nat x * n) (mulx_loop add dbl x t r).
  Proof.
    intros HP. induction x as [x IH|x IH|]; intros n m t r T R; cbn [mulx_loop].
    - replace (m + 2 * Pos.to_nat (xI x) * n)%nat with (m + (n + n) + 2 * Pos.to_nat x * (n + n))%nat by (rewrite Pos2Nat.inj_xI; lia).
      apply IH; [now apply multiple_dbl|]. apply multiple_add; auto using multiple_dbl.
    - replace (m + 2 * Pos.to_nat (xO x) * n)%nat with (m + 2 * Pos.to_nat x * (n + n))%nat by (rewrite Pos2Nat.inj_xO; lia).
      apply IH; [now apply multiple_dbl|exact R].
    - replace (m + 2 * Pos.to_nat 1 * n)%nat with (m + (n + n))%nat by (change (Pos.to_nat 1) with 1%nat; lia).
      apply multiple_add; auto using multiple_dbl.
  Qed.
  Lemma mul_by_x_ok p : valid p -> valid (mul_by_x add dbl neg ident p) /\
    den (mul_by_x add dbl neg ident p) = ec_neg (ec_mul a (Pos.to_nat param_x) (den p)).
  Proof.
    intros V. unfold mul_by_x.
    assert (M := mulx_ok (valid_on V) (Pos.div2 param_x) (multiple_1 V) (multiple_id (den p))).
    replace (0 + 2 * Pos.to_nat (Pos.div2 param_x) * 1)%nat with (Pos.to_nat param_x) in M.
    - now apply multiple_neg.
    - rewrite Nat.mul_1_r, Nat.add_0_l. rewrite <- Pos2Nat.inj_xO. f_equal.
  Qed.
  Lemma clear_ok p : valid p -> valid (clear_cofactor add dbl neg ident p) /\
    den (clear_cofactor add dbl neg ident p) = ec_mul a (1 + Pos.to_nat param_x) (den p).
  Proof.
    intros V. unfold clear_cofactor. destruct (mul_by_x_ok V) as [V1 E1]. destruct (neg_ok V1) as [V2 E2].
    destruct (add_ok V V2) as [V3 E3]. split; [exact V3|].
    rewrite E3, E2, E1, ec_neg_neg, ec_mul_add, ec_mul_1 by auto. reflexivity.
  Qed.
End Mul.
