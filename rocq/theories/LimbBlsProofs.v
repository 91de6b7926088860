(** * Proofs about the translated limb code of the BLS12-381 fields. *)
From Coq Require Import ZArith Lia List Bool.
From Verif Require Import LimbBase LimbSpec LimbProofs LimbBls.
Open Scope Z_scope.

Definition fpM : Z := val6 fp_modulus.
Definition fqM : Z := val4 fq_modulus.

Lemma val4_range a : words4 a -> 0 <= val4 a < W ^ 4.
Proof.
  destruct a as [a0 a1 a2 a3]. unfold words4, val4, word. change (W ^ 4) with (W * W * W * W).
  rewrite W_eq. lia.
Qed.
Lemma val6_range a : words6 a -> 0 <= val6 a < W ^ 6.
Proof.
  destruct a as [a0 a1 a2 a3 a4 a5]. unfold words6, val6, word.
  change (W ^ 6) with (W * W * W * W * W * W).
  rewrite W_eq. lia.
Qed.

Lemma limb_split a b A B : word a -> word b -> a + W * A = b + W * B -> a = b /\ A = B.
Proof.
  unfold word. rewrite W_eq. lia.
Qed.
Lemma val4_inj a b : words4 a -> words4 b -> val4 a = val4 b -> a = b.
Proof.
  destruct a as [a0 a1 a2 a3], b as [b0 b1 b2 b3].
  intros (?&?&?&?) (?&?&?&?) E. unfold val4 in E.
  repeat (apply limb_split in E; [|assumption|assumption]; destruct E as [? E]). congruence.
Qed.
Lemma val6_inj a b : words6 a -> words6 b -> val6 a = val6 b -> a = b.
Proof.
  destruct a as [a0 a1 a2 a3 a4 a5], b as [b0 b1 b2 b3 b4 b5].
  intros (?&?&?&?&?&?) (?&?&?&?&?&?) E. unfold val6 in E.
  repeat (apply limb_split in E; [|assumption|assumption]; destruct E as [? E]). congruence.
Qed.

Ltac wd := first [assumption | apply bit_word; assumption | (split; [discriminate|reflexivity]) | (unfold word; rewrite W_eq; lia)].
Ltac step1 :=
  lazymatch goal with
  | |- ?Q (let x := ?v in @?f x) => change (Q (f v)); cbv beta
  | |- ?Q (let '(_, _) := mac _ _ _ _ in _) =>
      apply (mac_elim _ Q); [wd|wd|wd|wd|]; intros ? ? ? ? ?
  | |- ?Q (let '(_, _) := adc _ _ _ in _) =>
      apply (adc_elim _ Q); [wd|wd|wd|lia|]; intros ? ? ? ? ?
  | |- ?Q (let '(_, _) := sbb _ _ _ in _) =>
      apply (sbb_elim _ Q); [wd|wd|lia|]; intros ? ? ? ? ?
  | |- ?Q (let '(_, _) := mul64 _ _ in _) =>
      apply (mul64_elim _ Q); [wd|wd|]; intros ? ? ? ? ?
  | |- ?Q (let '(_, _) := add64 _ _ _ in _) =>
      apply (add64_elim _ Q); [wd|wd|lia|]; intros ? ? ? ? ?
  | |- ?Q (let '(_, _) := sub64 _ _ _ in _) =>
      apply (sub64_elim _ Q); [wd|wd|lia|]; intros ? ? ? ? ?
  end.

(** ** Subtraction and addition *)
Lemma fp_sub_elim (Q : limbs6 -> Prop) a b :
  words6 a -> words6 b -> - fpM <= val6 a - val6 b ->
  (forall o, words6 o -> val6 o = (if val6 a <? val6 b then val6 a - val6 b + fpM else val6 a - val6 b) -> Q o) ->
  Q (fp_sub a b).
Proof.
  destruct a as [a0 a1 a2 a3 a4 a5], b as [b0 b1 b2 b3 b4 b5].
  intros (?&?&?&?&?&?) (?&?&?&?&?&?) Hge HQ. cbv delta [fp_sub] beta iota.
  do 6 step1.
  pose proof (wneg_bit bo4 ltac:(lia)) as [[-> ->]|[-> ->]].
  all: rewrite ?wand_0, ?wand_ones by (unfold word; rewrite W_eq; cbv; intuition congruence).
  all: do 6 step1; apply HQ; [cbn; tauto|].
  all: unfold word, fpM, val6, fp_modulus in *; cbv delta [fp_modulus_0 fp_modulus_1 fp_modulus_2 fp_modulus_3 fp_modulus_4 fp_modulus_5] in *; rewrite W_eq in *.
  all: match goal with |- context [?x <? ?y] => destruct (Z.ltb_spec x y) end; lia.
Qed.

Lemma fpM_eq : fpM = 4002409555221667393417789825735904156556882819939007885332058136124031650490837864442687629129015664037894272559787.
Proof. reflexivity. Qed.

(** one Montgomery step clears the lowest word *)
Lemma mont_low r0 k m0 inv lo hi :
  word lo -> word r0 -> k = wmul r0 inv -> (m0 * inv + 1) mod W = 0 -> lo + W * hi = r0 + k * m0 + 0 -> lo = 0.
Proof.
  intros Hl Hr -> Hi E. unfold wmul in E.
  assert (D : (lo + W * hi) mod W = 0).
  { rewrite E, Z.add_0_r. rewrite Z.add_mod, Z.mul_mod_idemp_l, <- Z.add_mod by (rewrite W_eq; lia).
    replace (r0 + r0 * inv * m0) with (r0 * (m0 * inv + 1)) by ring.
    rewrite Z.mul_mod, Hi, Z.mul_0_r by (rewrite W_eq; lia). reflexivity. }
  rewrite Z.mul_comm, Z.mod_add in D by (rewrite W_eq; lia).
  rewrite Z.mod_small in D; auto.
Qed.

Lemma wmul_word x y : word (wmul x y).
Proof. unfold word, wmul. apply Z.mod_pos_bound. reflexivity. Qed.

(** give the Montgomery digit a name *)
Ltac digit :=
  lazymatch goal with
  | |- ?Q (let x := ?v in @?f x) => change (Q (f v)); cbv beta
  | _ => idtac
  end;
  lazymatch goal with
  | |- ?Q (let '(_, _) := mac ?r (wmul ?r ?i) _ _ in _) =>
      let k := fresh "k" in let K := fresh "K" in
      pose proof (wmul_word r i); remember (wmul r i) as k eqn:K
  end.

Ltac low m0 inv :=
  match goal with
  | K : ?k = wmul ?r inv, E : ?lo + W * _ = ?r + ?k * m0 + 0 |- _ =>
      assert (lo = 0) by (eapply (mont_low r k m0 inv lo); [assumption|assumption|exact K|reflexivity|exact E]);
      clear K
  end.

Lemma fp_mont_reduce_elim (Q : limbs6 -> Prop) r0 r1 r2 r3 r4 r5 r6 r7 r8 r9 r10 r11 :
  word r0 -> word r1 -> word r2 -> word r3 -> word r4 -> word r5 ->
  word r6 -> word r7 -> word r8 -> word r9 -> word r10 -> word r11 ->
  val6 (L6 r0 r1 r2 r3 r4 r5) + W ^ 6 * val6 (L6 r6 r7 r8 r9 r10 r11) < W ^ 6 * fpM ->
  (forall o, words6 o -> val6 o < fpM ->
     (exists k, val6 o * W ^ 6 = val6 (L6 r0 r1 r2 r3 r4 r5) + W ^ 6 * val6 (L6 r6 r7 r8 r9 r10 r11) + k * fpM) ->
     Q o) ->
  Q (fp_mont_reduce r0 r1 r2 r3 r4 r5 r6 r7 r8 r9 r10 r11).
Proof.
  intros ? ? ? ? ? ? ? ? ? ? ? ? Hlt HQ. cbv delta [fp_mont_reduce] beta iota.
  do 6 (digit; (do 7 step1); low fp_modulus_0 fp_inv).
  match goal with |- Q (fp_sub (L6 ?a ?b ?c ?d ?e ?f) _) =>
    match goal with E : f + W * ?o = _ |- _ =>
    assert (M : val6 (L6 a b c d e f) * W ^ 6 + W ^ 12 * o =
                val6 (L6 r0 r1 r2 r3 r4 r5) + W ^ 6 * val6 (L6 r6 r7 r8 r9 r10 r11) +
                (k + W * (k0 + W * (k1 + W * (k2 + W * (k3 + W * k4))))) * fpM);
    [|assert (o = 0)]
    end
  end.
  { clear Hlt HQ.
    repeat match goal with H : word _ |- _ => clear H end.
    repeat match goal with H : 0 <= _ <= 1 |- _ => clear H end.
    change (W ^ 6) with (W * W * W * W * W * W).
    change (W ^ 12) with (W * W * W * W * W * W * W * W * W * W * W * W).
    unfold fpM, val6, fp_modulus; cbv beta iota delta [fp_modulus_0 fp_modulus_1 fp_modulus_2 fp_modulus_3 fp_modulus_4 fp_modulus_5] in *.
    subst; rewrite W_eq in *. lia. }
  all: pose proof (val6_range (L6 k k0 k1 k2 k3 k4) ltac:(cbn; tauto)) as HK.
  all: change (k + W * (k0 + W * (k1 + W * (k2 + W * (k3 + W * k4))))) with (val6 (L6 k k0 k1 k2 k3 k4)) in M.
  all: match goal with |- context [L6 ?a ?b ?c ?d ?e ?f] => idtac | M : val6 (L6 ?a ?b ?c ?d ?e ?f) * _ + _ = _ |- _ => idtac end.
  { match type of M with val6 ?x * _ + _ * _ = _ => pose proof (val6_range x ltac:(cbn; tauto)) end.
    generalize dependent (val6 (L6 r0 r1 r2 r3 r4 r5) + W ^ 6 * val6 (L6 r6 r7 r8 r9 r10 r11)). intros T HT _ HM.
    generalize dependent (val6 (L6 k k0 k1 k2 k3 k4)). intros K HK HM.
    match type of HM with val6 ?x * _ + _ * _ = _ => generalize dependent (val6 x) end. intros R HM HR.
    rewrite fpM_eq, ?W_eq in *. lia. }
  match goal with Z : _ = 0 |- Q (fp_sub ?x _) => rewrite Z, Z.mul_0_r, Z.add_0_r in M end.
  match goal with |- Q (fp_sub ?x _) =>
    assert (HX : words6 x) by (cbn; tauto); set (X := x) in *; clearbody X end.
  assert (RX : val6 X < 2 * fpM).
  { generalize dependent (val6 (L6 r0 r1 r2 r3 r4 r5) + W ^ 6 * val6 (L6 r6 r7 r8 r9 r10 r11)). intros T HT _ HM.
    rewrite fpM_eq, ?W_eq in *. lia. }
  pose proof (val6_range X HX).
  apply fp_sub_elim; [exact HX | cbn; repeat split; discriminate || reflexivity | fold fpM; rewrite fpM_eq; lia | ].
  fold fpM. intros o Ho Vo. apply HQ; [exact Ho| |].
  - rewrite Vo. destruct (Z.ltb_spec (val6 X) fpM); lia.
  - rewrite Vo. destruct (Z.ltb_spec (val6 X) fpM).
    + exists (val6 (L6 k k0 k1 k2 k3 k4)). rewrite <- M. ring.
    + exists (val6 (L6 k k0 k1 k2 k3 k4) - W ^ 6). lia.
Qed.

(** ** Multiplication *)
Definition reduced6 (a : limbs6) : Prop := words6 a /\ val6 a < fpM.

Lemma mul_bound a b R M : 0 <= a < R -> 0 <= b < M -> a * b < R * M.
Proof. intros. apply Z.mul_lt_mono_nonneg; lia. Qed.

Lemma fp_mul_elim (Q : limbs6 -> Prop) a b :
  words6 a -> reduced6 b ->
  (forall o, reduced6 o -> (exists k, val6 o * W ^ 6 = val6 a * val6 b + k * fpM) -> Q o) ->
  Q (fp_mul a b).
Proof.
  intros Ha [Hb Lb] HQ.
  pose proof (mul_bound _ _ _ fpM (val6_range a Ha) (conj (proj1 (val6_range b Hb)) Lb)) as LT.
  destruct a as [a0 a1 a2 a3 a4 a5], b as [b0 b1 b2 b3 b4 b5].
  destruct Ha as (?&?&?&?&?&?), Hb as (?&?&?&?&?&?).
  cbv delta [fp_mul] beta iota. do 36 step1.
  match goal with |- Q (fp_mont_reduce ?r0 ?r1 ?r2 ?r3 ?r4 ?r5 ?r6 ?r7 ?r8 ?r9 ?r10 ?r11) =>
    assert (M : val6 (L6 r0 r1 r2 r3 r4 r5) + W ^ 6 * val6 (L6 r6 r7 r8 r9 r10 r11) =
                val6 (L6 a0 a1 a2 a3 a4 a5) * val6 (L6 b0 b1 b2 b3 b4 b5))
  end.
  { clear LT HQ Lb.
    repeat match goal with H : word _ |- _ => clear H end.
    repeat match goal with H : 0 <= _ <= 1 |- _ => clear H end.
    unfold val6.
    change (W ^ 6) with (W * W * W * W * W * W).
    rewrite W_eq in *. lia. }
  apply fp_mont_reduce_elim; try assumption; [rewrite M; exact LT|].
  rewrite M. intros o Ho Lo Ko. apply HQ; [split; assumption|exact Ko].
Qed.

(** ** Squaring *)
Lemma top_elim x : word x ->
  exists t l, 0 <= t <= 1 /\ 0 <= l < 2 ^ 63 /\ x = 2 ^ 63 * t + l /\ wshr x 63 = t.
Proof.
  intros H. exists (tb x), (x - 2 ^ 63 * tb x). pose proof (tb_word x H) as D.
  unfold word in H. rewrite W_eq in H. unfold wshr. fold (tb x).
  change (2 ^ 63) with 9223372036854775808 in *.
  destruct D as [[-> ?]|[-> ?]]; lia.
Qed.

Lemma shl1 t l : 0 <= t <= 1 -> 0 <= l < 2 ^ 63 -> wshl (2 ^ 63 * t + l) 1 = 2 * l.
Proof.
  intros Ht Hl. unfold wshl. rewrite Z.shiftl_mul_pow2 by lia. change (2 ^ 1) with 2.
  symmetry. apply (Z.mod_unique_pos _ W t); rewrite W_eq; change (2 ^ 63) with 9223372036854775808 in *; lia.
Qed.

Lemma or_bit l t : 0 <= l -> 0 <= t <= 1 -> wor (2 * l) t = 2 * l + t.
Proof.
  intros Hl Ht. unfold wor. assert (t = 0 \/ t = 1) as [->| ->] by lia.
  - rewrite Z.lor_0_r. lia.
  - destruct l as [|l|l]; cbn; try reflexivity; try lia.
Qed.

Ltac top x :=
  let t := fresh "t" in let l := fresh "l" in let T := fresh in let L := fresh in let E := fresh in let S := fresh in
  match goal with H : word x |- _ =>
    destruct (top_elim x H) as (t & l & T & L & E & S); rewrite ?S; clear S; rewrite E;
    rewrite ?(shl1 t l T L)
  end.

Lemma fp_square_elim (Q : limbs6 -> Prop) a :
  reduced6 a ->
  (forall o, reduced6 o -> (exists k, val6 o * W ^ 6 = val6 a * val6 a + k * fpM) -> Q o) ->
  Q (fp_square a).
Proof.
  intros [Ha La] HQ.
  pose proof (mul_bound _ _ _ fpM (val6_range a Ha) (conj (proj1 (val6_range a Ha)) La)) as LT.
  destruct a as [a0 a1 a2 a3 a4 a5].
  destruct Ha as (?&?&?&?&?&?).
  cbv delta [fp_square] beta iota. do 15 step1.
  repeat match goal with |- context [wshr ?x 63] => is_var x; top x end.
  rewrite !or_bit by lia.
  do 12 step1.
  match goal with |- Q (fp_mont_reduce ?r0 ?r1 ?r2 ?r3 ?r4 ?r5 ?r6 ?r7 ?r8 ?r9 ?r10 ?r11) =>
    match goal with E : r11 + W * ?o = _ |- _ =>
    assert (M : val6 (L6 r0 r1 r2 r3 r4 r5) + W ^ 6 * val6 (L6 r6 r7 r8 r9 r10 r11) + W ^ 12 * o =
                val6 (L6 a0 a1 a2 a3 a4 a5) * val6 (L6 a0 a1 a2 a3 a4 a5));
    [|assert (o = 0)]
    end
  end.
  { clear LT HQ La.
    repeat match goal with H : word _ |- _ => clear H end.
    repeat match goal with H : 0 <= _ <= 1 |- _ => clear H end.
    repeat match goal with H : 0 <= _ < _ |- _ => clear H end.
    unfold val6.
    change (W ^ 6) with (W * W * W * W * W * W).
    change (W ^ 12) with (W * W * W * W * W * W * W * W * W * W * W * W).
    change (2 ^ 63) with 9223372036854775808 in *.
    rewrite W_eq in *. lia. }
  { match type of M with val6 ?x + _ * val6 ?y + _ = _ =>
      pose proof (val6_range x ltac:(cbn; tauto)); pose proof (val6_range y ltac:(cbn; tauto));
      rewrite <- M in LT; clear M; generalize dependent (val6 x); generalize dependent (val6 y) end.
    clear HQ. intros Y RY X LT RX. rewrite fpM_eq, ?W_eq in *. lia. }
  match goal with Z : _ = 0 |- Q (fp_mont_reduce _ _ _ _ _ _ _ _ _ _ _ _) => rewrite Z, Z.mul_0_r, Z.add_0_r in M end.
  apply fp_mont_reduce_elim; try assumption; [rewrite M; exact LT|].
  rewrite M. intros o Ho Lo Ko. apply HQ; [split; assumption|exact Ko].
Qed.
