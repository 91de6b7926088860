(** C48: the Element operations are the field of integers modulo a prime. *)
From Coq Require Import List ZArith Znumtheory Bool Lia Setoid Ring.
From Verif Require Import BytesModel BytesProofs CodecModel CodecProofs FieldModel.
Import ListNotations.
Open Scope Z_scope.

(** specification: an element of the field of p elements *)
Definition elt (p : Z) (x : element) : Prop := el_mod x = p /\ 0 <= el_val x < p.
(** y is the element congruent to the integer v *)
Definition rep (p : Z) (y : element) (v : Z) : Prop := elt p y /\ exists k, v = el_val y + k * p.

Lemma new_ok p v : 0 <= v < p -> new_element p v = Some (El p v).
Proof. intros H. unfold new_element, is_valid. destruct (Z.ltb_spec v p), (Z.leb_spec 0 v); try lia. reflexivity. Qed.
Lemma new_none p v : ~ 0 <= v < p -> new_element p v = None.
Proof. intros H. unfold new_element, is_valid. destruct (Z.ltb_spec v p), (Z.leb_spec 0 v); try lia; reflexivity. Qed.
Lemma new_mod p v : 0 < p -> exists y, new_element p (v mod p) = Some y /\ rep p y v.
Proof.
  intros Hp. pose proof (Z.mod_pos_bound v p Hp) as B. rewrite new_ok by lia.
  eexists; split; [reflexivity|]. split; [split; [reflexivity|exact B]|].
  exists (v / p). cbn. pose proof (Z.div_mod v p). lia.
Qed.
Lemma same p x y {A} (k : option A) : elt p x -> elt p y -> with_fields x y k = k.
Proof. intros [Hx _] [Hy _]. unfold with_fields, eq_fields. rewrite Hx, Hy, Z.eqb_refl. reflexivity. Qed.
Lemma rep_unique p x y v w : rep p x v -> rep p y w -> (exists k, v = w + k * p) -> x = y.
Proof.
  intros [[Ex Bx] [k1 E1]] [[Ey By] [k2 E2]] [k E]. destruct x as [m v1], y as [m' v2]; cbn in *. subst m m'.
  f_equal. assert (D : v1 - v2 = (k2 + k - k1) * p) by lia.
  assert (k2 + k - k1 = 0) by nia. lia.
Qed.

(** construction: an element is made exactly from an integer in [0, p) *)
Theorem C48_new_element_iff p v : (exists e, new_element p v = Some e) <-> 0 <= v < p.
Proof.
  split.
  - intros [e E]. destruct (Z_le_dec 0 v), (Z_lt_dec v p); try lia; rewrite new_none in E by lia; discriminate.
  - intros H. rewrite new_ok by exact H. eauto.
Qed.

(** ring operations: in range and congruent to the integer operation *)
Theorem C48_ring_operations p x y : 0 < p -> elt p x -> elt p y ->
  (exists r, f_add x y = Some r /\ rep p r (el_val x + el_val y)) /\
  (exists r, f_sub x y = Some r /\ rep p r (el_val x - el_val y)) /\
  (exists r, f_mul x y = Some r /\ rep p r (el_val x * el_val y)) /\
  (exists r, f_neg x = Some r /\ rep p r (- el_val x)) /\
  (exists r, f_pow x y = Some r /\ rep p r (el_val x ^ el_val y)).
Proof.
  intros Hp Hx Hy. unfold f_add, f_sub, f_mul, f_neg, f_pow, mod_exp. rewrite !(same p x y) by assumption.
  replace (el_mod x) with p by (symmetry; apply Hx).
  repeat split; apply new_mod; exact Hp.
Qed.

(** division: for a prime p, dividing by a non-zero element gives the element r with r*y = x; dividing
    by zero panics *)
Theorem C48_division p x y : prime p -> elt p x -> elt p y ->
  (el_val y <> 0 -> exists r, f_div x y = Some r /\ f_mul r y = Some x) /\
  (el_val y = 0 -> f_div x y = None) /\
  (el_val y <> 0 -> exists r, f_invert y = Some r /\ elt p r /\ f_mul r y = fone p) /\
  (el_val y = 0 -> f_invert y = None).
Proof.
  intros P Hx Hy. destruct P as [P1 P2].
  assert (Hp : 0 < p) by lia.
  unfold f_div, f_invert. rewrite (same p x y) by assumption.
  replace (el_mod x) with p by (symmetry; apply Hx).
  replace (el_mod y) with p by (symmetry; apply Hy).
  pose proof (mod_inv_spec (el_val y) p P1) as I.
  assert (Hinv : el_val y <> 0 -> exists i, (el_val y * i) mod p = 1).
  { intros N. assert (R : rel_prime (el_val y) p).
    { apply P2. destruct Hy as [_ By]. lia. }
    destruct (rel_prime_bezout _ _ R) as [u v B]. exists u.
    replace (el_val y * u) with (1 + (- v) * p) by lia. rewrite Z.mod_add by lia. apply Z.mod_small. lia. }
  assert (Hz : el_val y = 0 -> mod_inv (el_val y) p = None).
  { intros Z0. destruct (mod_inv (el_val y) p) as [i|]; [|reflexivity].
    destruct I as [_ I]. rewrite Z0 in I. rewrite Z.mul_0_l, Z.mod_0_l in I by lia. discriminate. }
  assert (Hs : el_val y <> 0 -> exists i, mod_inv (el_val y) p = Some i /\ 0 <= i < p /\ (el_val y * i) mod p = 1).
  { intros N. destruct (mod_inv (el_val y) p) as [i|]; [exists i; intuition|].
    destruct (Hinv N) as [i Hi]. exfalso. exact (I i Hi). }
  repeat split.
  - intros N. destruct (Hs N) as (i & -> & Bi & Ei).
    destruct (new_mod p (el_val x * i) Hp) as (r & Er & [Hr [k Ek]]).
    exists r. split; [exact Er|]. unfold f_mul. rewrite (same p r y) by assumption.
    replace (el_mod r) with p by (symmetry; apply Hr).
    assert (E : (el_val r * el_val y) mod p = el_val x).
    { replace (el_val r) with (el_val x * i + (- k) * p) by lia.
      replace ((el_val x * i + - k * p) * el_val y) with (el_val x * (el_val y * i) + (- k * el_val y) * p) by ring.
      rewrite Z.mod_add by lia. rewrite <- Z.mul_mod_idemp_r, Ei by lia.
      rewrite Z.mul_1_r. apply Z.mod_small. apply Hx. }
    rewrite E, new_ok by (apply Hx). destruct x; destruct Hx as [Hm _]; cbn in *. now subst.
  - intros Z0. rewrite (Hz Z0). reflexivity.
  - intros N. destruct (Hs N) as (i & -> & Bi & Ei). rewrite new_ok by exact Bi.
    eexists; split; [reflexivity|]. split; [split; [reflexivity|exact Bi]|].
    unfold f_mul. rewrite (same p _ y); [|split; [reflexivity|exact Bi]|assumption]. cbn.
    rewrite (Z.mul_comm i), Ei. reflexivity.
  - intros Z0. rewrite (Hz Z0). reflexivity.
Qed.

(** elements of different fields: every binary operation panics, and they are never equal *)
Theorem C48_other_field_panics x y : el_mod x <> el_mod y ->
  f_add x y = None /\ f_sub x y = None /\ f_mul x y = None /\ f_div x y = None /\ f_pow x y = None /\
  f_eq x y = false.
Proof.
  intros N. unfold f_add, f_sub, f_mul, f_div, f_pow, f_eq, with_fields, eq_fields.
  apply Z.eqb_neq in N. rewrite N. repeat split.
Qed.

Theorem C48_eq_iff x y : f_eq x y = true <-> x = y.
Proof.
  unfold f_eq, eq_fields. destruct x as [m v], y as [m' v']; cbn.
  destruct (Z.eqb_spec m m'); [|split; [discriminate|now intros [=]]].
  destruct (Z.eqb_spec v v'); split; intros; try discriminate; try congruence.
Qed.

(** Bytes then ElementFromBytes (and Clone) give the element back; ElementFromBytes panics exactly on
    values at least p; ReducedElementFromBytes never does *)
Theorem C48_bytes p x b : 0 < p -> elt p x -> bytes_ok b ->
  element_from_bytes p (be_bytes (el_val x)) = Some x /\ f_clone x = Some x /\
  (element_from_bytes p b = None <-> p <= of_be b) /\
  (exists r, reduced_element_from_bytes p b = Some r /\ rep p r (of_be b)).
Proof.
  intros Hp [Hm Hv] Hb. unfold f_clone, element_from_bytes, reduced_element_from_bytes. rewrite Hm.
  rewrite of_be_be_bytes by lia. pose proof (of_be_range b Hb) as R.
  assert (E : new_element p (el_val x) = Some x).
  { rewrite new_ok by exact Hv. destruct x; cbn in *; now subst. }
  repeat split; try exact E.
  - destruct (Z_lt_dec (of_be b) p); [rewrite new_ok by lia; discriminate|lia].
  - intros H. apply new_none. lia.
  - apply new_mod. exact Hp.
Qed.

(** the field laws, as the code computes them: chains of calls succeed and agree *)
Definition o2 (f : element -> element -> option element) (a b : option element) : option element :=
  match a, b with Some a, Some b => f a b | _, _ => None end.

Theorem C48_ring_laws p x y z : 0 < p -> elt p x -> elt p y -> elt p z ->
  f_add x y = f_add y x /\ f_mul x y = f_mul y x /\
  o2 f_add (f_add x y) (Some z) = o2 f_add (Some x) (f_add y z) /\
  o2 f_mul (f_mul x y) (Some z) = o2 f_mul (Some x) (f_mul y z) /\
  o2 f_mul (Some x) (f_add y z) = o2 f_add (f_mul x y) (f_mul x z) /\
  o2 f_add (Some x) (f_neg x) = fzero p /\ o2 f_add (Some x) (f_neg y) = f_sub x y /\
  o2 f_add (Some x) (fzero p) = Some x.
Proof.
  intros Hp Hx Hy Hz.
  assert (A : forall a b, elt p a -> elt p b -> f_add a b = Some (El p ((el_val a + el_val b) mod p))).
  { intros a b Ha Hb. unfold f_add. rewrite (same p a b) by assumption.
    replace (el_mod a) with p by (symmetry; apply Ha). apply new_ok. apply Z.mod_pos_bound, Hp. }
  assert (M : forall a b, elt p a -> elt p b -> f_mul a b = Some (El p ((el_val a * el_val b) mod p))).
  { intros a b Ha Hb. unfold f_mul. rewrite (same p a b) by assumption.
    replace (el_mod a) with p by (symmetry; apply Ha). apply new_ok. apply Z.mod_pos_bound, Hp. }
  assert (E : forall v, elt p (El p (v mod p))) by (intros v; split; [reflexivity|apply Z.mod_pos_bound, Hp]).
  assert (Ng : f_neg x = Some (El p ((- el_val x) mod p)) /\ f_neg y = Some (El p ((- el_val y) mod p))).
  { unfold f_neg. replace (el_mod x) with p by (symmetry; apply Hx).
    replace (el_mod y) with p by (symmetry; apply Hy).
    split; apply new_ok, Z.mod_pos_bound, Hp. }
  destruct Ng as [N1 N2]. unfold o2.
  repeat split.
  - rewrite !A by assumption. now rewrite Z.add_comm.
  - rewrite !M by assumption. now rewrite Z.mul_comm.
  - rewrite (A x y), (A y z) by assumption. rewrite !A by auto. cbn.
    rewrite Z.add_mod_idemp_l, Z.add_mod_idemp_r by lia. now rewrite Z.add_assoc.
  - rewrite (M x y), (M y z) by assumption. rewrite !M by auto. cbn.
    rewrite Z.mul_mod_idemp_l, Z.mul_mod_idemp_r by lia. now rewrite Z.mul_assoc.
  - rewrite (A y z), (M x y), (M x z) by assumption. rewrite M, A by auto. cbn.
    rewrite Z.mul_mod_idemp_r by lia. rewrite <- Z.add_mod by lia. now rewrite Z.mul_add_distr_l.
  - rewrite N1, A by auto. cbn. rewrite Z.add_mod_idemp_r by lia. rewrite Z.add_opp_diag_r.
    rewrite Z.mod_0_l by lia. unfold fzero. now rewrite new_ok by lia.
  - rewrite N2, A by auto. cbn. rewrite Z.add_mod_idemp_r by lia. unfold f_sub.
    rewrite (same p x y) by assumption. replace (el_mod x) with p by (symmetry; apply Hx).
    symmetry. apply new_ok, Z.mod_pos_bound, Hp.
  - unfold fzero. rewrite new_ok by lia. rewrite A; [|assumption|split; cbn; lia]. cbn.
    rewrite Z.add_0_r, Z.mod_small by (apply Hx). destruct x; destruct Hx as [Hm _]; cbn in *; now subst.
Qed.

Example C48_case : f_div (El 7 3) (El 7 5) = Some (El 7 2) /\ f_pow (El 7 3) (El 7 6) = Some (El 7 1)
  /\ f_div (El 7 3) (El 7 0) = None /\ f_add (El 7 3) (El 11 5) = None.
Proof. repeat split. Qed.
