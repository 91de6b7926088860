(** * GENERATED by tools/gen_limbs.py: the translated code of crypto/core/curves/native/pasta/fp/pasta_fp.go computes in the integers modulo
    28948022309329048855892746252171976963363056481941560715954676764349967630337. *)
From Coq Require Import ZArith Lia List Bool.
From Verif Require Import LimbBase LimbSpec LimbProofs LimbBls LimbBlsProofs LimbFiat LimbPastaFp.
Open Scope Z_scope.

Definition pastafp_m : Z := 28948022309329048855892746252171976963363056481941560715954676764349967630337.
Definition pastafp_r2 : Z := 4263855311831330276397237192126260515652039413828781833859739249380679483407.

Lemma pastafp_cmov : cmov_ok pastafp_cmovznz.
Proof.
  intros c x y Hc Hx Hy. unfold pastafp_cmovznz. cbv zeta.
  assert (c = 0 \/ c = 1) as [->| ->] by lia.
  - match goal with |- context [wnot ?m] => change m with 0 end. rewrite mask_select; auto.
  - match goal with |- context [wnot ?m] => change m with (W - 1) end. rewrite mask_select; auto.
Qed.

Lemma pastafp_mul_elim (Q : limbs4 -> Prop) a b :
  words4 a -> words4 b -> val4 b < 28948022309329048855892746252171976963363056481941560715954676764349967630337 ->
  (forall o, words4 o -> val4 o < 28948022309329048855892746252171976963363056481941560715954676764349967630337 ->
     (exists k, val4 o * W ^ 4 = val4 a * val4 b + k * 28948022309329048855892746252171976963363056481941560715954676764349967630337) -> Q o) ->
  Q (pastafp_mul a b).
Proof.
  intros Ha Hb Lb HQ.
  pose proof (mul_bound _ _ _ 28948022309329048855892746252171976963363056481941560715954676764349967630337 (val4_range a Ha) (conj (proj1 (val4_range b Hb)) Lb)) as LT.
  destruct a as [a0 a1 a2 a3], b as [b0 b1 b2 b3].
  destruct Ha as (?&?&?&?), Hb as (?&?&?&?).
  cbv delta [pastafp_mul] beta iota. cbv zeta. repeat fstep.
  fiat_red pastafp_cmov 28948022309329048855892746252171976963363056481941560715954676764349967630337 (val4 (L4 a0 a1 a2 a3) * val4 (L4 b0 b1 b2 b3)) LT HQ k k0 k1 k2.
Qed.

Lemma pastafp_square_elim (Q : limbs4 -> Prop) a :
  words4 a -> val4 a < 28948022309329048855892746252171976963363056481941560715954676764349967630337 ->
  (forall o, words4 o -> val4 o < 28948022309329048855892746252171976963363056481941560715954676764349967630337 ->
     (exists k, val4 o * W ^ 4 = val4 a * val4 a + k * 28948022309329048855892746252171976963363056481941560715954676764349967630337) -> Q o) ->
  Q (pastafp_square a).
Proof.
  intros Ha La HQ.
  pose proof (mul_bound _ _ _ 28948022309329048855892746252171976963363056481941560715954676764349967630337 (val4_range a Ha) (conj (proj1 (val4_range a Ha)) La)) as LT.
  destruct a as [a0 a1 a2 a3]. destruct Ha as (?&?&?&?).
  cbv delta [pastafp_square] beta iota. cbv zeta. repeat fstep.
  fiat_red pastafp_cmov 28948022309329048855892746252171976963363056481941560715954676764349967630337 (val4 (L4 a0 a1 a2 a3) * val4 (L4 a0 a1 a2 a3)) LT HQ k k0 k1 k2.
Qed.

Lemma pastafp_from_montgomery_elim (Q : limbs4 -> Prop) a :
  words4 a ->
  (forall o, words4 o -> val4 o < 28948022309329048855892746252171976963363056481941560715954676764349967630337 ->
     (exists k, val4 o * W ^ 4 = val4 a + k * 28948022309329048855892746252171976963363056481941560715954676764349967630337) -> Q o) ->
  Q (pastafp_from_montgomery a).
Proof.
  intros Ha HQ.
  assert (LT : val4 a < W ^ 4 * 28948022309329048855892746252171976963363056481941560715954676764349967630337) by (pose proof (val4_range a Ha); rewrite W_eq in *; lia).
  destruct a as [a0 a1 a2 a3]. destruct Ha as (?&?&?&?).
  cbv delta [pastafp_from_montgomery] beta iota. cbv zeta. repeat fstep.
  fiat_red pastafp_cmov 28948022309329048855892746252171976963363056481941560715954676764349967630337 (val4 (L4 a0 a1 a2 a3)) LT HQ k k0 k1 k2.
Qed.

Lemma pastafp_to_montgomery_elim (Q : limbs4 -> Prop) a :
  words4 a ->
  (forall o, words4 o -> val4 o < 28948022309329048855892746252171976963363056481941560715954676764349967630337 ->
     (exists k, val4 o * W ^ 4 = val4 a * 4263855311831330276397237192126260515652039413828781833859739249380679483407 + k * 28948022309329048855892746252171976963363056481941560715954676764349967630337) -> Q o) ->
  Q (pastafp_to_montgomery a).
Proof.
  intros Ha HQ.
  assert (LT : val4 a * 4263855311831330276397237192126260515652039413828781833859739249380679483407 < W ^ 4 * 28948022309329048855892746252171976963363056481941560715954676764349967630337) by (pose proof (val4_range a Ha); rewrite W_eq in *; lia).
  destruct a as [a0 a1 a2 a3]. destruct Ha as (?&?&?&?).
  cbv delta [pastafp_to_montgomery] beta iota. cbv zeta. repeat fstep.
  fiat_red pastafp_cmov 28948022309329048855892746252171976963363056481941560715954676764349967630337 (val4 (L4 a0 a1 a2 a3) * 4263855311831330276397237192126260515652039413828781833859739249380679483407) LT HQ k k0 k1 k2.
Qed.

Lemma pastafp_add_elim (Q : limbs4 -> Prop) a b :
  words4 a -> words4 b -> val4 a + val4 b < 2 * 28948022309329048855892746252171976963363056481941560715954676764349967630337 ->
  (forall o, words4 o ->
     val4 o = (if val4 a + val4 b <? 28948022309329048855892746252171976963363056481941560715954676764349967630337 then val4 a + val4 b else val4 a + val4 b - 28948022309329048855892746252171976963363056481941560715954676764349967630337) -> Q o) ->
  Q (pastafp_add a b).
Proof.
  intros Ha Hb L HQ. destruct a as [a0 a1 a2 a3], b as [b0 b1 b2 b3].
  destruct Ha as (?&?&?&?), Hb as (?&?&?&?).
  cbv delta [pastafp_add] beta iota. cbv zeta. repeat fstep.
  rewrite !pastafp_cmov by assumption. rewrite if_L4. cmov_case tt; (apply HQ; [cbn; tauto|]); clear HQ.
  all: unfold word, val4 in *; rewrite W_eq in *.
  all: match goal with |- context [?x <? ?y] => destruct (Z.ltb_spec x y) end; lia.
Qed.

Lemma pastafp_sub_elim (Q : limbs4 -> Prop) a b :
  words4 a -> words4 b -> - 28948022309329048855892746252171976963363056481941560715954676764349967630337 <= val4 a - val4 b ->
  (forall o, words4 o ->
     val4 o = (if val4 a <? val4 b then val4 a - val4 b + 28948022309329048855892746252171976963363056481941560715954676764349967630337 else val4 a - val4 b) -> Q o) ->
  Q (pastafp_sub a b).
Proof.
  intros Ha Hb L HQ. destruct a as [a0 a1 a2 a3], b as [b0 b1 b2 b3].
  destruct Ha as (?&?&?&?), Hb as (?&?&?&?).
  cbv delta [pastafp_sub] beta iota. cbv zeta. do 4 fstep.
  rewrite !pastafp_cmov by (assumption || wd). cmov_case tt;
    rewrite ?zero_and, ?ones_and by wd; repeat fstep; (apply HQ; [cbn; tauto|]); clear HQ.
  all: unfold word, val4 in *; rewrite W_eq in *.
  all: match goal with |- context [?x <? ?y] => destruct (Z.ltb_spec x y) end; lia.
Qed.

Lemma pastafp_opp_elim (Q : limbs4 -> Prop) a :
  words4 a -> val4 a < 28948022309329048855892746252171976963363056481941560715954676764349967630337 ->
  (forall o, words4 o ->
     val4 o = (if 0 <? val4 a then 28948022309329048855892746252171976963363056481941560715954676764349967630337 - val4 a else 0) -> Q o) ->
  Q (pastafp_opp a).
Proof.
  intros Ha L HQ. destruct a as [a0 a1 a2 a3].
  destruct Ha as (?&?&?&?).
  cbv delta [pastafp_opp] beta iota. cbv zeta. do 4 fstep.
  rewrite !pastafp_cmov by (assumption || wd). cmov_case tt;
    rewrite ?zero_and, ?ones_and by wd; repeat fstep; (apply HQ; [cbn; tauto|]); clear HQ.
  all: unfold word, val4 in *; rewrite W_eq in *.
  all: match goal with |- context [?x <? ?y] => destruct (Z.ltb_spec x y) end; lia.
Qed.

Lemma pastafp_select c a b : 0 <= c <= 1 -> words4 a -> words4 b ->
  pastafp_selectznz c a b = if c =? 0 then a else b.
Proof.
  destruct a as [a0 a1 a2 a3], b as [b0 b1 b2 b3]. intros Hc (?&?&?&?) (?&?&?&?).
  unfold pastafp_selectznz. cbv zeta. rewrite !pastafp_cmov by assumption. apply if_L4.
Qed.

Lemma pastafp_bytes_ok a : words4 a ->
  le_val (pastafp_to_bytes a) = val4 a /\ is_bytes (pastafp_to_bytes a) /\ length (pastafp_to_bytes a) = 32%nat.
Proof.
  destruct a as [a0 a1 a2 a3]. intros (?&?&?&?). unfold pastafp_to_bytes. cbv zeta.
  match goal with |- context [is_bytes (?x0 :: ?x1 :: ?x2 :: ?x3 :: ?x4 :: ?x5 :: ?x6 :: ?x7 :: ?y0 :: ?y1 :: ?y2 :: ?y3 :: ?y4 :: ?y5 :: ?y6 :: ?y7 ::
     ?z0 :: ?z1 :: ?z2 :: ?z3 :: ?z4 :: ?z5 :: ?z6 :: ?z7 :: ?t)] =>
    apply (limbs_bytes a0 a1 a2 a3 (x0 :: x1 :: x2 :: x3 :: x4 :: x5 :: x6 :: x7 :: nil)
      (y0 :: y1 :: y2 :: y3 :: y4 :: y5 :: y6 :: y7 :: nil) (z0 :: z1 :: z2 :: z3 :: z4 :: z5 :: z6 :: z7 :: nil) t);
    try reflexivity end.
  all: apply limb_bytes; [assumption|reflexivity..].
Qed.

Lemma pastafp_from_bytes_ok bs : is_bytes bs -> length bs = 32%nat ->
  words4 (pastafp_from_bytes bs) /\ val4 (pastafp_from_bytes bs) = le_val bs.
Proof.
  intros B L. destruct (from_bytes_shape bs L B) as (P & ? & ?).
  unfold pastafp_from_bytes. cbv zeta.
  pose proof (bytes_limb _ _ _ _ _ _ _ _ (P 0%nat ltac:(lia))) as E0.
  pose proof (bytes_limb _ _ _ _ _ _ _ _ (P 8%nat ltac:(lia))) as E1.
  pose proof (bytes_limb _ _ _ _ _ _ _ _ (P 16%nat ltac:(lia))) as E2.
  pose proof (bytes_limb _ _ _ _ _ _ _ _ (P 24%nat ltac:(lia))) as E3.
  cbn [Nat.add] in E0, E1, E2, E3. rewrite E0, E1, E2, E3. split; assumption.
Qed.
