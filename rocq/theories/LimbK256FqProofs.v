(** * GENERATED by tools/gen_limbs.py: the translated code of crypto/core/curves/native/k256/fq/secp256k1_fq.go computes in the integers modulo
    115792089237316195423570985008687907852837564279074904382605163141518161494337. *)
From Coq Require Import ZArith Lia List Bool.
From Verif Require Import LimbBase LimbSpec LimbProofs LimbBls LimbBlsProofs LimbFiat LimbK256Fq.
Open Scope Z_scope.

Definition k256fq_m : Z := 115792089237316195423570985008687907852837564279074904382605163141518161494337.
Definition k256fq_r2 : Z := 71195301480278335217902614543643724933430614355449737089222010364394701574464.

Lemma k256fq_cmov : cmov_ok k256fq_cmovznz.
Proof.
  intros c x y Hc Hx Hy. unfold k256fq_cmovznz. cbv zeta.
  assert (c = 0 \/ c = 1) as [->| ->] by lia.
  - match goal with |- context [wnot ?m] => change m with 0 end. rewrite mask_select; auto.
  - match goal with |- context [wnot ?m] => change m with (W - 1) end. rewrite mask_select; auto.
Qed.

Lemma k256fq_mul_elim (Q : limbs4 -> Prop) a b :
  words4 a -> words4 b -> val4 b < 115792089237316195423570985008687907852837564279074904382605163141518161494337 ->
  (forall o, words4 o -> val4 o < 115792089237316195423570985008687907852837564279074904382605163141518161494337 ->
     (exists k, val4 o * W ^ 4 = val4 a * val4 b + k * 115792089237316195423570985008687907852837564279074904382605163141518161494337) -> Q o) ->
  Q (k256fq_mul a b).
Proof.
  intros Ha Hb Lb HQ.
  pose proof (mul_bound _ _ _ 115792089237316195423570985008687907852837564279074904382605163141518161494337 (val4_range a Ha) (conj (proj1 (val4_range b Hb)) Lb)) as LT.
  destruct a as [a0 a1 a2 a3], b as [b0 b1 b2 b3].
  destruct Ha as (?&?&?&?), Hb as (?&?&?&?).
  cbv delta [k256fq_mul] beta iota. cbv zeta. repeat fstep.
  fiat_red k256fq_cmov 115792089237316195423570985008687907852837564279074904382605163141518161494337 (val4 (L4 a0 a1 a2 a3) * val4 (L4 b0 b1 b2 b3)) LT HQ k k0 k1 k2.
Qed.

Lemma k256fq_square_elim (Q : limbs4 -> Prop) a :
  words4 a -> val4 a < 115792089237316195423570985008687907852837564279074904382605163141518161494337 ->
  (forall o, words4 o -> val4 o < 115792089237316195423570985008687907852837564279074904382605163141518161494337 ->
     (exists k, val4 o * W ^ 4 = val4 a * val4 a + k * 115792089237316195423570985008687907852837564279074904382605163141518161494337) -> Q o) ->
  Q (k256fq_square a).
Proof.
  intros Ha La HQ.
  pose proof (mul_bound _ _ _ 115792089237316195423570985008687907852837564279074904382605163141518161494337 (val4_range a Ha) (conj (proj1 (val4_range a Ha)) La)) as LT.
  destruct a as [a0 a1 a2 a3]. destruct Ha as (?&?&?&?).
  cbv delta [k256fq_square] beta iota. cbv zeta. repeat fstep.
  fiat_red k256fq_cmov 115792089237316195423570985008687907852837564279074904382605163141518161494337 (val4 (L4 a0 a1 a2 a3) * val4 (L4 a0 a1 a2 a3)) LT HQ k k0 k1 k2.
Qed.

Lemma k256fq_from_montgomery_elim (Q : limbs4 -> Prop) a :
  words4 a ->
  (forall o, words4 o -> val4 o < 115792089237316195423570985008687907852837564279074904382605163141518161494337 ->
     (exists k, val4 o * W ^ 4 = val4 a + k * 115792089237316195423570985008687907852837564279074904382605163141518161494337) -> Q o) ->
  Q (k256fq_from_montgomery a).
Proof.
  intros Ha HQ.
  assert (LT : val4 a < W ^ 4 * 115792089237316195423570985008687907852837564279074904382605163141518161494337) by (pose proof (val4_range a Ha); rewrite W_eq in *; lia).
  destruct a as [a0 a1 a2 a3]. destruct Ha as (?&?&?&?).
  cbv delta [k256fq_from_montgomery] beta iota. cbv zeta. repeat fstep.
  fiat_red k256fq_cmov 115792089237316195423570985008687907852837564279074904382605163141518161494337 (val4 (L4 a0 a1 a2 a3)) LT HQ k k0 k1 k2.
Qed.

Lemma k256fq_to_montgomery_elim (Q : limbs4 -> Prop) a :
  words4 a ->
  (forall o, words4 o -> val4 o < 115792089237316195423570985008687907852837564279074904382605163141518161494337 ->
     (exists k, val4 o * W ^ 4 = val4 a * 71195301480278335217902614543643724933430614355449737089222010364394701574464 + k * 115792089237316195423570985008687907852837564279074904382605163141518161494337) -> Q o) ->
  Q (k256fq_to_montgomery a).
Proof.
  intros Ha HQ.
  assert (LT : val4 a * 71195301480278335217902614543643724933430614355449737089222010364394701574464 < W ^ 4 * 115792089237316195423570985008687907852837564279074904382605163141518161494337) by (pose proof (val4_range a Ha); rewrite W_eq in *; lia).
  destruct a as [a0 a1 a2 a3]. destruct Ha as (?&?&?&?).
  cbv delta [k256fq_to_montgomery] beta iota. cbv zeta. repeat fstep.
  fiat_red k256fq_cmov 115792089237316195423570985008687907852837564279074904382605163141518161494337 (val4 (L4 a0 a1 a2 a3) * 71195301480278335217902614543643724933430614355449737089222010364394701574464) LT HQ k k0 k1 k2.
Qed.

Lemma k256fq_add_elim (Q : limbs4 -> Prop) a b :
  words4 a -> words4 b -> val4 a + val4 b < 2 * 115792089237316195423570985008687907852837564279074904382605163141518161494337 ->
  (forall o, words4 o ->
     val4 o = (if val4 a + val4 b <? 115792089237316195423570985008687907852837564279074904382605163141518161494337 then val4 a + val4 b else val4 a + val4 b - 115792089237316195423570985008687907852837564279074904382605163141518161494337) -> Q o) ->
  Q (k256fq_add a b).
Proof.
  intros Ha Hb L HQ. destruct a as [a0 a1 a2 a3], b as [b0 b1 b2 b3].
  destruct Ha as (?&?&?&?), Hb as (?&?&?&?).
  cbv delta [k256fq_add] beta iota. cbv zeta. repeat fstep.
  rewrite !k256fq_cmov by assumption. rewrite if_L4. cmov_case tt; (apply HQ; [cbn; tauto|]); clear HQ.
  all: unfold word, val4 in *; rewrite W_eq in *.
  all: match goal with |- context [?x <? ?y] => destruct (Z.ltb_spec x y) end; lia.
Qed.

Lemma k256fq_sub_elim (Q : limbs4 -> Prop) a b :
  words4 a -> words4 b -> - 115792089237316195423570985008687907852837564279074904382605163141518161494337 <= val4 a - val4 b ->
  (forall o, words4 o ->
     val4 o = (if val4 a <? val4 b then val4 a - val4 b + 115792089237316195423570985008687907852837564279074904382605163141518161494337 else val4 a - val4 b) -> Q o) ->
  Q (k256fq_sub a b).
Proof.
  intros Ha Hb L HQ. destruct a as [a0 a1 a2 a3], b as [b0 b1 b2 b3].
  destruct Ha as (?&?&?&?), Hb as (?&?&?&?).
  cbv delta [k256fq_sub] beta iota. cbv zeta. do 4 fstep.
  rewrite !k256fq_cmov by (assumption || wd). cmov_case tt;
    rewrite ?zero_and, ?ones_and by wd; repeat fstep; (apply HQ; [cbn; tauto|]); clear HQ.
  all: unfold word, val4 in *; rewrite W_eq in *.
  all: match goal with |- context [?x <? ?y] => destruct (Z.ltb_spec x y) end; lia.
Qed.

Lemma k256fq_opp_elim (Q : limbs4 -> Prop) a :
  words4 a -> val4 a < 115792089237316195423570985008687907852837564279074904382605163141518161494337 ->
  (forall o, words4 o ->
     val4 o = (if 0 <? val4 a then 115792089237316195423570985008687907852837564279074904382605163141518161494337 - val4 a else 0) -> Q o) ->
  Q (k256fq_opp a).
Proof.
  intros Ha L HQ. destruct a as [a0 a1 a2 a3].
  destruct Ha as (?&?&?&?).
  cbv delta [k256fq_opp] beta iota. cbv zeta. do 4 fstep.
  rewrite !k256fq_cmov by (assumption || wd). cmov_case tt;
    rewrite ?zero_and, ?ones_and by wd; repeat fstep; (apply HQ; [cbn; tauto|]); clear HQ.
  all: unfold word, val4 in *; rewrite W_eq in *.
  all: match goal with |- context [?x <? ?y] => destruct (Z.ltb_spec x y) end; lia.
Qed.

Lemma k256fq_select c a b : 0 <= c <= 1 -> words4 a -> words4 b ->
  k256fq_selectznz c a b = if c =? 0 then a else b.
Proof.
  destruct a as [a0 a1 a2 a3], b as [b0 b1 b2 b3]. intros Hc (?&?&?&?) (?&?&?&?).
  unfold k256fq_selectznz. cbv zeta. rewrite !k256fq_cmov by assumption. apply if_L4.
Qed.

Lemma k256fq_bytes_ok a : words4 a ->
  le_val (k256fq_to_bytes a) = val4 a /\ is_bytes (k256fq_to_bytes a) /\ length (k256fq_to_bytes a) = 32%nat.
Proof.
  destruct a as [a0 a1 a2 a3]. intros (?&?&?&?). unfold k256fq_to_bytes. cbv zeta.
  match goal with |- context [is_bytes (?x0 :: ?x1 :: ?x2 :: ?x3 :: ?x4 :: ?x5 :: ?x6 :: ?x7 :: ?y0 :: ?y1 :: ?y2 :: ?y3 :: ?y4 :: ?y5 :: ?y6 :: ?y7 ::
     ?z0 :: ?z1 :: ?z2 :: ?z3 :: ?z4 :: ?z5 :: ?z6 :: ?z7 :: ?t)] =>
    apply (limbs_bytes a0 a1 a2 a3 (x0 :: x1 :: x2 :: x3 :: x4 :: x5 :: x6 :: x7 :: nil)
      (y0 :: y1 :: y2 :: y3 :: y4 :: y5 :: y6 :: y7 :: nil) (z0 :: z1 :: z2 :: z3 :: z4 :: z5 :: z6 :: z7 :: nil) t);
    try reflexivity end.
  all: apply limb_bytes; [assumption|reflexivity..].
Qed.

Lemma k256fq_from_bytes_ok bs : is_bytes bs -> length bs = 32%nat ->
  words4 (k256fq_from_bytes bs) /\ val4 (k256fq_from_bytes bs) = le_val bs.
Proof.
  intros B L. destruct (from_bytes_shape bs L B) as (P & ? & ?).
  unfold k256fq_from_bytes. cbv zeta.
  pose proof (bytes_limb _ _ _ _ _ _ _ _ (P 0%nat ltac:(lia))) as E0.
  pose proof (bytes_limb _ _ _ _ _ _ _ _ (P 8%nat ltac:(lia))) as E1.
  pose proof (bytes_limb _ _ _ _ _ _ _ _ (P 16%nat ltac:(lia))) as E2.
  pose proof (bytes_limb _ _ _ _ _ _ _ _ (P 24%nat ltac:(lia))) as E3.
  cbn [Nat.add] in E0, E1, E2, E3. rewrite E0, E1, E2, E3. split; assumption.
Qed.
