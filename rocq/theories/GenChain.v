(** Checking a multiple of a curve point from a list of slopes and intermediate points: no inversion is computed. *)
From Coq Require Import Field Field_theory Ring Ring_theory ZArith NArith Lia Bool List.
From Verif Require Import EcField EcSpec EcAlg EcProofs PointModel PointMulProofs MillerSpec TowerStep.
Import ListNotations.
Set Implicit Arguments.
Unset Strict Implicit.
Local Open Scope fld_scope.

Inductive chain_step (V : Type) := Step (is_add : bool) (l x y k1 k2 k3 : V).

Section Chain.
  Variable K : field.
  Add Field Kc : (fth K).
  Variable b : K.
  Hypothesis odd : odd_order_curve 0 b.
  Variables (V : Type) (rep : K -> V -> Prop).
  Variables (vadd vsub vmul : V -> V -> V) (vsq : V -> V) (veq : V -> V -> V -> bool) (vneq : V -> V -> bool).
  Hypothesis r_ex : forall v, exists x, rep x v.
  Hypothesis r_add : forall x y v w, rep x v -> rep y w -> rep (x + y) (vadd v w).
  Hypothesis r_sub : forall x y v w, rep x v -> rep y w -> rep (x - y) (vsub v w).
  Hypothesis r_mul : forall x y v w, rep x v -> rep y w -> rep (x * y) (vmul v w).
  Hypothesis r_sq : forall x v, rep x v -> rep (x * x) (vsq v).
  Hypothesis r_eq : forall x y v w k, rep x v -> rep y w -> veq v w k = true -> x = y.
  Hypothesis r_neq : forall x y v w, rep x v -> rep y w -> vneq v w = true -> x <> y.
  Variables (gx gy : V) (X Y : K).
  Hypothesis RX : rep X gx.
  Hypothesis RY : rep Y gy.
  Hypothesis ON : on_curve 0 b (Some (X, Y)).
  Definition step_ok (s : chain_step V) (x y : V) : bool :=
    let '(Step a l x' y' k1 k2 k3) := s in
    if a then
      vneq x gx && veq (vmul (vsub x gx) l) (vsub y gy) k1
      && veq x' (vsub (vsub (vsq l) x) gx) k2 && veq y' (vsub (vmul l (vsub x x')) y) k3
    else
      (let xx := vsq x in veq (vmul (vadd y y) l) (vadd (vadd xx xx) xx) k1)
      && veq x' (vsub (vsub (vsq l) x) x) k2 && veq y' (vsub (vmul l (vsub x x')) y) k3.
  Fixpoint run (ss : list (chain_step V)) (n : N) (x y : V) : option (N * V * V) :=
    match ss with
    | [] => Some (n, x, y)
    | s :: r => let '(Step a l x' y' k1 k2 k3) := s in
        if step_ok s x y then run r (if a then (n + 1)%N else (2 * n)%N) x' y' else None
    end.
  Definition at_mul (n : N) (x y : V) : Prop := exists u v, rep u x /\ rep v y /\ mulN n (Some (X, Y)) = Some (u, v).
  Lemma run_ok ss : forall n x y n' x' y', at_mul n x y -> run ss n x y = Some (n', x', y') -> at_mul n' x' y'.
  Proof.
    induction ss as [|[a l x1 y1 k1 k2 k3] r IH]; intros n x y n' x' y' A R.
    - cbn in R. injection R as <- <- <-. exact A.
    - cbn [run] in R. destruct (step_ok _ x y) eqn:S; [|discriminate]. apply (IH _ _ _ _ _ _) in R; [exact R|]. clear IH R.
      destruct A as (u & v & RU & RV & E). pose proof (mulN_on odd n ON) as O. rewrite E in O.
      destruct (r_ex l) as [L RL], (r_ex x1) as [U RU1], (r_ex y1) as [V1 RV1].
      exists U, V1. split; [exact RU1|]. split; [exact RV1|]. unfold step_ok in S. destruct a.
      + rewrite !andb_true_iff in S. destruct S as [[[S0 S1] S2] S3].
        pose proof (r_neq RU RX S0) as NE.
        pose proof (r_eq (r_mul (r_sub RU RX) RL) (r_sub RV RY) S1) as E1.
        pose proof (r_eq RU1 (r_sub (r_sub (r_sq RL) RU) RX) S2) as E2.
        pose proof (r_eq RV1 (r_sub (r_mul RL (r_sub RU RU1)) RV) S3) as E3.
        rewrite (mulN_add odd), mulN_1, E by exact ON. unfold ec_add. rewrite (feqb_false NE). unfold line_third.
        apply f_sub_neq in NE. assert (EL : (v - Y) / (u - X) = L) by (apply f_div_eq; [exact NE|rewrite <- E1; ring]).
        rewrite EL, E3, E2. reflexivity.
      + rewrite !andb_true_iff in S. destruct S as [[S1 S2] S3].
        pose proof (r_eq (r_mul (r_add RV RV) RL) (r_add (r_add (r_sq RU) (r_sq RU)) (r_sq RU)) S1) as E1.
        pose proof (r_eq RU1 (r_sub (r_sub (r_sq RL) RU) RU) S2) as E2.
        pose proof (r_eq RV1 (r_sub (r_mul RL (r_sub RU RU1)) RV) S3) as E3.
        replace (2 * n)%N with (n + n)%N by lia. rewrite (mulN_add odd), E, (ec_tangent odd) by assumption. unfold line_third.
        pose proof (y_neq odd O) as NY. assert (NE : 2 * v <> 0) by (apply f_mul_neq; [apply odd|exact NY]).
        assert (EL : 3 * (u * u) / (2 * v) = L).
        { apply f_div_eq; [exact NE|]. transitivity (u * u + u * u + u * u); [ring|]. rewrite <- E1. ring. }
        rewrite EL, E3, E2. reflexivity.
  Qed.
  Theorem run_mul ss n x y : run ss 1 gx gy = Some (n, x, y) -> at_mul n x y.
  Proof. apply run_ok. exists X, Y. split; [exact RX|]. split; [exact RY|]. apply mulN_1. Qed.
End Chain.
