(** The prime field Z/p as an instance of [field]: residues 0 <= z < p. *)
From Coq Require Import ZArith Znumtheory Lia Bool Eqdep_dec Field Field_theory Ring Ring_theory.
From Verif Require Import EcField.
Local Open Scope Z_scope.

Local Arguments Z.modulo : simpl never. Local Arguments Z.add : simpl never. Local Arguments Z.mul : simpl never. Local Arguments Z.sub : simpl never. Local Arguments Z.opp : simpl never.
Section Zp.
  Variable p : Z.
  Hypothesis pp : prime p.
  Definition zp : Type := {z : Z | (z mod p =? z) = true}.
  Lemma p_pos : 1 < p. Proof. destruct pp; assumption. Qed.
  Definition zval (x : zp) : Z := proj1_sig x.
  Lemma zmk_ok z : (z mod p mod p =? z mod p) = true. Proof. rewrite Zmod_mod. apply Z.eqb_refl. Qed.
  Definition zmk (z : Z) : zp := exist _ (z mod p) (zmk_ok z).
  Lemma zval_inj (x y : zp) : zval x = zval y -> x = y.
  Proof. destruct x as [x Hx], y as [y Hy]. cbn. intros ->. f_equal. apply UIP_dec, bool_dec. Qed.
  Lemma zval_mod x : zval x mod p = zval x. Proof. destruct x as [x Hx]. exact (proj1 (Z.eqb_eq _ _) Hx). Qed.
  Lemma zval_range x : 0 <= zval x < p.
  Proof. rewrite <- zval_mod. apply Z.mod_pos_bound. pose proof p_pos. lia. Qed.
  Lemma zval_mk z : zval (zmk z) = z mod p. Proof. reflexivity. Qed.
  Lemma zmk_val x : zmk (zval x) = x. Proof. apply zval_inj. cbn. apply zval_mod. Qed.
  Lemma zmk_eq a b : a mod p = b mod p -> zmk a = zmk b. Proof. intros H. now apply zval_inj. Qed.
  Definition zadd x y := zmk (zval x + zval y).
  Definition zmul x y := zmk (zval x * zval y).
  Definition zsub x y := zmk (zval x - zval y).
  Definition zopp x := zmk (- zval x).
  Definition zinv_z (x : Z) : Z := match euclid x p with Euclid_intro _ _ u _ d _ _ => u * d end.
  Definition zinv x := zmk (zinv_z (zval x)).
  Definition zdiv x y := zmul x (zinv y).
  Definition zeqb x y := (zval x =? zval y).
  Lemma zeqb_spec x y : zeqb x y = true <-> x = y.
  Proof. unfold zeqb. rewrite Z.eqb_eq. split; [apply zval_inj|now intros ->]. Qed.
  Lemma zinv_ok x : x <> zmk 0 -> zmul (zinv x) x = zmk 1.
  Proof.
    intros N. apply zmk_eq. cbn [zinv zval proj1_sig zmk]. rewrite Zmult_mod_idemp_l. unfold zinv_z.
    destruct (euclid (zval x) p) as [u v d E G].
    assert (R : 0 < zval x < p).
    { pose proof (zval_range x). assert (zval x <> 0); [|lia]. intros Q. apply N, zval_inj. rewrite Q. reflexivity. }
    assert (D : d = 1 \/ d = -1).
    { destruct G as [G1 G2 G3]. assert (Q := prime_divisors p pp d G2).
      destruct Q as [->|[->|[->| ->]]]; auto; exfalso.
      - apply (Z.divide_pos_le _ _ (proj1 R)) in G1. lia.
      - apply Z.divide_opp_l in G1. apply (Z.divide_pos_le _ _ (proj1 R)) in G1. lia. }
    assert (d * d = 1) by (destruct D as [-> | ->]; reflexivity).
    replace (u * d * zval x) with (1 + (- v * d) * p).
    - apply Z_mod_plus_full.
    - transitivity (d * d - v * p * d); [lia|]. replace (d * d) with ((u * zval x + v * p) * d) by (now rewrite E). ring.
  Qed.
  Ltac zt := intros; apply zmk_eq; cbn [zval zmk proj1_sig zadd zmul zsub zopp];
    rewrite ?Zplus_mod_idemp_l, ?Zplus_mod_idemp_r, ?Zmult_mod_idemp_l, ?Zmult_mod_idemp_r; f_equal; ring.
  Lemma zp_ring : ring_theory (zmk 0) (zmk 1) zadd zmul zsub zopp (@eq zp).
  Proof.
    constructor.
    - intros x. apply zval_inj. cbn. rewrite Zplus_mod_idemp_l. apply zval_mod.
    - zt.
    - intros x y z. apply zmk_eq. cbn. rewrite Zplus_mod_idemp_l, Zplus_mod_idemp_r. f_equal. ring.
    - intros x. apply zval_inj. cbn. rewrite Zmult_mod_idemp_l, Z.mul_1_l. apply zval_mod.
    - zt.
    - intros x y z. apply zmk_eq. cbn. rewrite Zmult_mod_idemp_l, Zmult_mod_idemp_r. f_equal. ring.
    - intros x y z. apply zmk_eq. cbn. rewrite Zmult_mod_idemp_l, <- Zplus_mod. f_equal. ring.
    - intros x y. apply zmk_eq. cbn. rewrite Zplus_mod_idemp_r. f_equal.
    - intros x. apply zval_inj. cbn. rewrite Zplus_mod_idemp_r, Z.add_opp_diag_r. reflexivity.
  Qed.
  Lemma zp_field_theory : field_theory (zmk 0) (zmk 1) zadd zmul zsub zopp zdiv zinv (@eq zp).
  Proof.
    constructor; [exact zp_ring| |reflexivity|exact zinv_ok].
    intros E. apply (f_equal zval) in E. cbn in E. rewrite Zmod_0_l, Z.mod_1_l in E by exact p_pos. discriminate.
  Qed.
  Definition Zp : field := Field zp_field_theory zeqb_spec.
End Zp.

Lemma prime_13 : prime 13.
Proof.
  constructor; [lia|]. intros n Hn. apply Zgcd_1_rel_prime.
  assert (n = 1 \/ n = 2 \/ n = 3 \/ n = 4 \/ n = 5 \/ n = 6 \/ n = 7 \/ n = 8 \/ n = 9 \/ n = 10 \/ n = 11 \/ n = 12) as H by lia.
  repeat (destruct H as [->|H]; [reflexivity|]). now subst.
Qed.
Definition F13 : field := Zp 13 prime_13.
Definition e13 (z : Z) : F13 := zmk 13 z.
Lemma all13 (P : F13 -> Prop) :
  P (e13 0) -> P (e13 1) -> P (e13 2) -> P (e13 3) -> P (e13 4) -> P (e13 5) -> P (e13 6) -> P (e13 7) -> P (e13 8) ->
  P (e13 9) -> P (e13 10) -> P (e13 11) -> P (e13 12) -> forall x, P x.
Proof.
  intros. assert (R := zval_range 13 prime_13 x). rewrite <- (zmk_val 13 x). fold (e13 (zval 13 x)).
  assert (E : zval 13 x = 0 \/ zval 13 x = 1 \/ zval 13 x = 2 \/ zval 13 x = 3 \/ zval 13 x = 4 \/ zval 13 x = 5 \/
    zval 13 x = 6 \/ zval 13 x = 7 \/ zval 13 x = 8 \/ zval 13 x = 9 \/ zval 13 x = 10 \/ zval 13 x = 11 \/ zval 13 x = 12) by lia.
  repeat (destruct E as [->|E]; [assumption|]). now rewrite E.
Qed.
