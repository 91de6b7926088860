(** Fields, as the setting of the elliptic-curve modules: Coq's [field_theory] with a decidable equality. *)
From Coq Require Import Field Field_theory Ring Ring_theory Bool.
Set Implicit Arguments.
Unset Strict Implicit.

Record field := Field {
  car :> Type;
  f0 : car; f1 : car;
  fadd : car -> car -> car; fmul : car -> car -> car; fsub : car -> car -> car; fopp : car -> car;
  fdiv : car -> car -> car; finv : car -> car;
  fth : field_theory f0 f1 fadd fmul fsub fopp fdiv finv (@eq car);
  feqb : car -> car -> bool;
  feqb_spec : forall x y, feqb x y = true <-> x = y }.
Arguments f0 {_}. Arguments f1 {_}. Arguments fadd {_}. Arguments fmul {_}. Arguments fsub {_}.
Arguments fopp {_}. Arguments fdiv {_}. Arguments finv {_}. Arguments feqb {_}.

Declare Scope fld_scope.
Delimit Scope fld_scope with fld.
Infix "+" := fadd : fld_scope. Infix "*" := fmul : fld_scope. Infix "-" := fsub : fld_scope.
Infix "/" := fdiv : fld_scope. Notation "- x" := (fopp x) : fld_scope.
Notation "0" := f0 : fld_scope. Notation "1" := f1 : fld_scope.
Notation "2" := (1 + 1)%fld : fld_scope. Notation "3" := (1 + 1 + 1)%fld : fld_scope.

Section Basics.
  Variable F : field.
  Add Field fF : (fth F).
  Local Open Scope fld_scope.
  Implicit Types x y z d : F.

  Lemma f_eq_dec x y : {x = y} + {x <> y}.
  Proof.
    destruct (feqb x y) eqn:E; [left; now apply feqb_spec|right]. intros H. apply feqb_spec in H. congruence.
  Qed.
  Lemma feqb_true x : feqb x x = true. Proof. now apply feqb_spec. Qed.
  Lemma feqb_false x y : x <> y -> feqb x y = false.
  Proof. intros H. destruct (feqb x y) eqn:E; [|reflexivity]. apply feqb_spec in E. contradiction. Qed.
  Lemma feqb_case x y : (feqb x y = true /\ x = y) \/ (feqb x y = false /\ x <> y).
  Proof. destruct (f_eq_dec x y) as [E|E]; [left|right]; split; auto; [subst; apply feqb_true|now apply feqb_false]. Qed.

  Lemma f_one_zero : (1 : F) <> 0. Proof. apply (F_1_neq_0 (fth F)). Qed.
  Lemma f_mul_inv x : x <> 0 -> x * finv x = 1. Proof. intros; now field. Qed.
  Lemma f_integral x y : x * y = 0 -> x = 0 \/ y = 0.
  Proof.
    intros H. destruct (f_eq_dec x 0) as [E|E]; [now left|right].
    replace y with (finv x * (x * y)) by (now field). rewrite H. ring.
  Qed.
  Lemma f_mul_neq x y : x <> 0 -> y <> 0 -> x * y <> 0.
  Proof. intros A B H. destruct (f_integral H); contradiction. Qed.
  Lemma f_cancel z x y : z <> 0 -> z * x = z * y -> x = y.
  Proof. intros A H. replace x with (finv z * (z * x)) by (now field). rewrite H. now field. Qed.
  Lemma f_sub_zero x y : x - y = 0 -> x = y.
  Proof. intros H. replace x with ((x - y) + y) by ring. rewrite H. ring. Qed.
  Lemma f_sub_neq x y : x <> y -> x - y <> 0.
  Proof. intros A H. apply A, f_sub_zero, H. Qed.
  Lemma f_div_eq x y z : z <> 0 -> x = z * y -> x / z = y.
  Proof. intros A ->. now field. Qed.
  Lemma f_div_iff x y z : z <> 0 -> (x / z = y <-> x = z * y).
  Proof. intros A. split; [intros <-; now field|now apply f_div_eq]. Qed.
End Basics.
