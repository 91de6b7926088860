(** * GENERATED by tools/gen_limbs.py: the translated code of @SRC@ computes in the integers modulo
    @M@. *)
From Coq Require Import ZArith Lia List Bool.
From Verif Require Import LimbBase LimbSpec LimbProofs LimbBls LimbBlsProofs LimbFiat Limb@MOD@.
Open Scope Z_scope.

Definition @P@_m : Z := @M@.
Definition @P@_r2 : Z := @R2@.

Lemma @P@_cmov : cmov_ok @P@_cmovznz.
Proof.
  intros c x y Hc Hx Hy. unfold @P@_cmovznz. cbv zeta.
  assert (c = 0 \/ c = 1) as [->| ->] by lia.
  - match goal with |- context [wnot ?m] => change m with 0 end. rewrite mask_select; auto.
  - match goal with |- context [wnot ?m] => change m with (W - 1) end. rewrite mask_select; auto.
Qed.

Lemma @P@_mul_elim (Q : limbs4 -> Prop) a b :
  words4 a -> words4 b -> val4 b < @M@ ->
  (forall o, words4 o -> val4 o < @M@ ->
     (exists k, val4 o * W ^ 4 = val4 a * val4 b + k * @M@) -> Q o) ->
  Q (@P@_mul a b).
Proof.
  intros Ha Hb Lb HQ.
  pose proof (mul_bound _ _ _ @M@ (val4_range a Ha) (conj (proj1 (val4_range b Hb)) Lb)) as LT.
  destruct a as [a0 a1 a2 a3], b as [b0 b1 b2 b3].
  destruct Ha as (?&?&?&?), Hb as (?&?&?&?).
  cbv delta [@P@_mul] beta iota. cbv zeta. repeat fstep.
  fiat_red @P@_cmov @M@ (val4 (L4 a0 a1 a2 a3) * val4 (L4 b0 b1 b2 b3)) LT HQ k k0 k1 k2.
Qed.

Lemma @P@_square_elim (Q : limbs4 -> Prop) a :
  words4 a -> val4 a < @M@ ->
  (forall o, words4 o -> val4 o < @M@ ->
     (exists k, val4 o * W ^ 4 = val4 a * val4 a + k * @M@) -> Q o) ->
  Q (@P@_square a).
Proof.
  intros Ha La HQ.
  pose proof (mul_bound _ _ _ @M@ (val4_range a Ha) (conj (proj1 (val4_range a Ha)) La)) as LT.
  destruct a as [a0 a1 a2 a3]. destruct Ha as (?&?&?&?).
  cbv delta [@P@_square] beta iota. cbv zeta. repeat fstep.
  fiat_red @P@_cmov @M@ (val4 (L4 a0 a1 a2 a3) * val4 (L4 a0 a1 a2 a3)) LT HQ k k0 k1 k2.
Qed.

Lemma @P@_from_montgomery_elim (Q : limbs4 -> Prop) a :
  words4 a ->
  (forall o, words4 o -> val4 o < @M@ ->
     (exists k, val4 o * W ^ 4 = val4 a + k * @M@) -> Q o) ->
  Q (@P@_from_montgomery a).
Proof.
  intros Ha HQ.
  assert (LT : val4 a < W ^ 4 * @M@) by (pose proof (val4_range a Ha); rewrite W_eq in *; lia).
  destruct a as [a0 a1 a2 a3]. destruct Ha as (?&?&?&?).
  cbv delta [@P@_from_montgomery] beta iota. cbv zeta. repeat fstep.
  fiat_red @P@_cmov @M@ (val4 (L4 a0 a1 a2 a3)) LT HQ k k0 k1 k2.
Qed.

Lemma @P@_to_montgomery_elim (Q : limbs4 -> Prop) a :
  words4 a ->
  (forall o, words4 o -> val4 o < @M@ ->
     (exists k, val4 o * W ^ 4 = val4 a * @R2@ + k * @M@) -> Q o) ->
  Q (@P@_to_montgomery a).
Proof.
  intros Ha HQ.
  assert (LT : val4 a * @R2@ < W ^ 4 * @M@) by (pose proof (val4_range a Ha); rewrite W_eq in *; lia).
  destruct a as [a0 a1 a2 a3]. destruct Ha as (?&?&?&?).
  cbv delta [@P@_to_montgomery] beta iota. cbv zeta. repeat fstep.
  fiat_red @P@_cmov @M@ (val4 (L4 a0 a1 a2 a3) * @R2@) LT HQ k k0 k1 k2.
Qed.

Lemma @P@_add_elim (Q : limbs4 -> Prop) a b :
  words4 a -> words4 b -> val4 a + val4 b < 2 * @M@ ->
  (forall o, words4 o ->
     val4 o = (if val4 a + val4 b <? @M@ then val4 a + val4 b else val4 a + val4 b - @M@) -> Q o) ->
  Q (@P@_add a b).
Proof.
  intros Ha Hb L HQ. destruct a as [a0 a1 a2 a3], b as [b0 b1 b2 b3].
  destruct Ha as (?&?&?&?), Hb as (?&?&?&?).
  cbv delta [@P@_add] beta iota. cbv zeta. repeat fstep.
  rewrite !@P@_cmov by assumption. rewrite if_L4. cmov_case tt; (apply HQ; [cbn; tauto|]); clear HQ.
  all: unfold word, val4 in *; rewrite W_eq in *.
  all: match goal with |- context [?x <? ?y] => destruct (Z.ltb_spec x y) end; lia.
Qed.

Lemma @P@_sub_elim (Q : limbs4 -> Prop) a b :
  words4 a -> words4 b -> - @M@ <= val4 a - val4 b ->
  (forall o, words4 o ->
     val4 o = (if val4 a <? val4 b then val4 a - val4 b + @M@ else val4 a - val4 b) -> Q o) ->
  Q (@P@_sub a b).
Proof.
  intros Ha Hb L HQ. destruct a as [a0 a1 a2 a3], b as [b0 b1 b2 b3].
  destruct Ha as (?&?&?&?), Hb as (?&?&?&?).
  cbv delta [@P@_sub] beta iota. cbv zeta. do 4 fstep.
  rewrite !@P@_cmov by (assumption || wd). cmov_case tt;
    rewrite ?zero_and, ?ones_and by wd; repeat fstep; (apply HQ; [cbn; tauto|]); clear HQ.
  all: unfold word, val4 in *; rewrite W_eq in *.
  all: match goal with |- context [?x <? ?y] => destruct (Z.ltb_spec x y) end; lia.
Qed.

Lemma @P@_opp_elim (Q : limbs4 -> Prop) a :
  words4 a -> val4 a < @M@ ->
  (forall o, words4 o ->
     val4 o = (if 0 <? val4 a then @M@ - val4 a else 0) -> Q o) ->
  Q (@P@_opp a).
Proof.
  intros Ha L HQ. destruct a as [a0 a1 a2 a3].
  destruct Ha as (?&?&?&?).
  cbv delta [@P@_opp] beta iota. cbv zeta. do 4 fstep.
  rewrite !@P@_cmov by (assumption || wd). cmov_case tt;
    rewrite ?zero_and, ?ones_and by wd; repeat fstep; (apply HQ; [cbn; tauto|]); clear HQ.
  all: unfold word, val4 in *; rewrite W_eq in *.
  all: match goal with |- context [?x <? ?y] => destruct (Z.ltb_spec x y) end; lia.
Qed.

Lemma @P@_select c a b : 0 <= c <= 1 -> words4 a -> words4 b ->
  @P@_selectznz c a b = if c =? 0 then a else b.
Proof.
  destruct a as [a0 a1 a2 a3], b as [b0 b1 b2 b3]. intros Hc (?&?&?&?) (?&?&?&?).
  unfold @P@_selectznz. cbv zeta. rewrite !@P@_cmov by assumption. apply if_L4.
Qed.

Lemma @P@_bytes_ok a : words4 a ->
  le_val (@P@_to_bytes a) = val4 a /\ is_bytes (@P@_to_bytes a) /\ length (@P@_to_bytes a) = 32%nat.
Proof.
  destruct a as [a0 a1 a2 a3]. intros (?&?&?&?). unfold @P@_to_bytes. cbv zeta.
  match goal with |- context [is_bytes (?x0 :: ?x1 :: ?x2 :: ?x3 :: ?x4 :: ?x5 :: ?x6 :: ?x7 :: ?y0 :: ?y1 :: ?y2 :: ?y3 :: ?y4 :: ?y5 :: ?y6 :: ?y7 ::
     ?z0 :: ?z1 :: ?z2 :: ?z3 :: ?z4 :: ?z5 :: ?z6 :: ?z7 :: ?t)] =>
    apply (limbs_bytes a0 a1 a2 a3 (x0 :: x1 :: x2 :: x3 :: x4 :: x5 :: x6 :: x7 :: nil)
      (y0 :: y1 :: y2 :: y3 :: y4 :: y5 :: y6 :: y7 :: nil) (z0 :: z1 :: z2 :: z3 :: z4 :: z5 :: z6 :: z7 :: nil) t);
    try reflexivity end.
  all: apply limb_bytes; [assumption|reflexivity..].
Qed.

Lemma @P@_from_bytes_ok bs : is_bytes bs -> length bs = 32%nat ->
  words4 (@P@_from_bytes bs) /\ val4 (@P@_from_bytes bs) = le_val bs.
Proof.
  intros B L. destruct (from_bytes_shape bs L B) as (P & ? & ?).
  unfold @P@_from_bytes. cbv zeta.
  pose proof (bytes_limb _ _ _ _ _ _ _ _ (P 0%nat ltac:(lia))) as E0.
  pose proof (bytes_limb _ _ _ _ _ _ _ _ (P 8%nat ltac:(lia))) as E1.
  pose proof (bytes_limb _ _ _ _ _ _ _ _ (P 16%nat ltac:(lia))) as E2.
  pose proof (bytes_limb _ _ _ _ _ _ _ _ (P 24%nat ltac:(lia))) as E3.
  cbn [Nat.add] in E0, E1, E2, E3. rewrite E0, E1, E2, E3. split; assumption.
Qed.
