(** * Proofs about the translated limb code of the BLS12-381 fields: the rest of fp, and Fq. *)
From Coq Require Import ZArith Lia List Bool.
From Verif Require Import LimbBase LimbSpec LimbProofs LimbBls LimbBlsProofs LimbFiat.
Open Scope Z_scope.

Lemma fp_add_elim (Q : limbs6 -> Prop) a b :
  reduced6 a -> reduced6 b ->
  (forall o, reduced6 o ->
     val6 o = (if val6 a + val6 b <? fpM then val6 a + val6 b else val6 a + val6 b - fpM) -> Q o) ->
  Q (fp_add a b).
Proof.
  intros [Ha La] [Hb Lb] HQ.
  pose proof (val6_range a Ha). pose proof (val6_range b Hb).
  destruct a as [a0 a1 a2 a3 a4 a5], b as [b0 b1 b2 b3 b4 b5].
  destruct Ha as (?&?&?&?&?&?), Hb as (?&?&?&?&?&?).
  cbv delta [fp_add] beta iota. do 6 step1.
  match goal with |- Q (fp_sub (L6 ?a ?b ?c ?d ?e ?f) _) =>
    assert (M : val6 (L6 a b c d e f) = val6 (L6 a0 a1 a2 a3 a4 a5) + val6 (L6 b0 b1 b2 b3 b4 b5)) end.
  { clear HQ. rewrite fpM_eq in La, Lb. unfold val6, word in *. rewrite W_eq in *. lia. }
  apply fp_sub_elim; [cbn; tauto | cbn; repeat split; discriminate || reflexivity | fold fpM; lia | ].
  fold fpM. rewrite M. intros o Ho Vo.
  apply HQ; [split; [exact Ho|]|];
  rewrite Vo; match goal with |- context [?x <? ?y] => destruct (Z.ltb_spec x y) end; lia.
Qed.

Lemma or6 a0 a1 a2 a3 a4 a5 : word a0 -> word a1 -> word a2 -> word a3 -> word a4 -> word a5 ->
  let t := wor (wor (wor (wor (wor a0 a1) a2) a3) a4) a5 in
  word t /\ (t = 0 <-> val6 (L6 a0 a1 a2 a3 a4 a5) = 0).
Proof.
  intros ? ? ? ? ? ? t. split; [subst t; repeat apply lor_word; assumption|].
  subst t. rewrite !lor_zero. unfold val6, word in *. rewrite W_eq in *. lia.
Qed.
Lemma or4 a0 a1 a2 a3 : word a0 -> word a1 -> word a2 -> word a3 ->
  let t := wor (wor (wor a0 a1) a2) a3 in
  word t /\ (t = 0 <-> val4 (L4 a0 a1 a2 a3) = 0).
Proof.
  intros ? ? ? ? t. split; [subst t; repeat apply lor_word; assumption|].
  subst t. rewrite !lor_zero. unfold val4, word in *. rewrite W_eq in *. lia.
Qed.

Lemma nz_mask t : word t -> wneg (wshr (wor t (wneg t)) 63) = if t =? 0 then 0 else W - 1.
Proof. intros H. rewrite nz_top by assumption. destruct (t =? 0); reflexivity. Qed.

Lemma fp_neg_elim (Q : limbs6 -> Prop) a :
  reduced6 a ->
  (forall o, reduced6 o -> val6 o = (if 0 <? val6 a then fpM - val6 a else 0) -> Q o) ->
  Q (fp_neg a).
Proof.
  intros [Ha La] HQ.
  pose proof (val6_range a Ha).
  destruct a as [a0 a1 a2 a3 a4 a5]. destruct Ha as (?&?&?&?&?&?).
  destruct (or6 a0 a1 a2 a3 a4 a5) as [Wt Zt]; try assumption.
  cbv delta [fp_neg] beta iota. do 6 step1.
  match goal with |- context [wand ?t0 _] => idtac end.
  cbv zeta. rewrite nz_mask by assumption.
  set (t := wor (wor (wor (wor (wor a0 a1) a2) a3) a4) a5) in *. clearbody t.
  destruct (Z.eqb_spec t 0) as [E|E].
  - rewrite !wand_0. assert (V : val6 (L6 a0 a1 a2 a3 a4 a5) = 0) by tauto. rewrite V in *.
    apply HQ; [split; [cbn; repeat split; discriminate || reflexivity|reflexivity]|reflexivity].
  - rewrite !wand_ones by assumption.
    assert (V : val6 (L6 a0 a1 a2 a3 a4 a5) <> 0) by tauto.
    match goal with |- Q ?x =>
      assert (M : val6 x = fpM - val6 (L6 a0 a1 a2 a3 a4 a5)) end.
    { clear HQ. unfold fpM, fp_modulus, val6, word in *.
      cbv delta [fp_modulus_0 fp_modulus_1 fp_modulus_2 fp_modulus_3 fp_modulus_4 fp_modulus_5] in *.
      rewrite W_eq in *. lia. }
    apply HQ; [split; [cbn; tauto|lia]|].
    rewrite M. destruct (Z.ltb_spec 0 (val6 (L6 a0 a1 a2 a3 a4 a5))); lia.
Qed.

Lemma xor_mask x y m : word x -> word y -> m = 0 \/ m = W - 1 ->
  wxor x (wand (wxor x y) m) = if m =? 0 then x else y.
Proof.
  intros Hx Hy [->| ->].
  - rewrite wand_0. unfold wxor. rewrite Z.lxor_0_r. reflexivity.
  - rewrite wand_ones by (apply wxor_word; assumption). change (W - 1 =? 0) with false. cbv iota.
    unfold wxor. rewrite <- Z.lxor_assoc, Z.lxor_nilpotent, Z.lxor_0_l. reflexivity.
Qed.

Lemma fp_cmove_mask_ok a b m : words6 a -> words6 b -> m = 0 \/ m = W - 1 ->
  fp_cmove_mask a b m = if m =? 0 then a else b.
Proof.
  destruct a as [a0 a1 a2 a3 a4 a5], b as [b0 b1 b2 b3 b4 b5].
  intros (?&?&?&?&?&?) (?&?&?&?&?&?) Hm. unfold fp_cmove_mask. cbv zeta.
  rewrite !xor_mask by assumption. destruct (m =? 0); reflexivity.
Qed.
Lemma fq_select_mask_ok a b m : words4 a -> words4 b -> m = 0 \/ m = W - 1 ->
  fq_select_mask a b m = if m =? 0 then a else b.
Proof.
  destruct a as [a0 a1 a2 a3], b as [b0 b1 b2 b3].
  intros (?&?&?&?) (?&?&?&?) Hm. unfold fq_select_mask. cbv zeta.
  rewrite !xor_mask by assumption. destruct (m =? 0); reflexivity.
Qed.

(** ** The scalar field *)
Lemma fqM_eq : fqM = 52435875175126190479447740508185965837690552500527637822603658699938581184513.
Proof. reflexivity. Qed.
Definition reduced4q (a : limbs4) : Prop := words4 a /\ val4 a < fqM.

Lemma fq_sub_elim (Q : limbs4 -> Prop) a b :
  words4 a -> words4 b -> - fqM <= val4 a - val4 b ->
  (forall o, words4 o -> val4 o = (if val4 a <? val4 b then val4 a - val4 b + fqM else val4 a - val4 b) -> Q o) ->
  Q (fq_sub a b).
Proof.
  destruct a as [a0 a1 a2 a3], b as [b0 b1 b2 b3].
  intros (?&?&?&?) (?&?&?&?) Hge HQ. cbv delta [fq_sub] beta iota.
  do 4 step1.
  match goal with |- context [wneg ?b] => pose proof (wneg_bit b ltac:(lia)) as [[-> ->]|[-> ->]] end.
  all: rewrite ?wand_0, ?wand_ones by (unfold word; rewrite W_eq; cbv; intuition congruence).
  all: cbv zeta; do 4 step1; apply HQ; [cbn; tauto|].
  all: unfold word, fqM, val4, fq_modulus in *; cbv delta [fq_modulus_0 fq_modulus_1 fq_modulus_2 fq_modulus_3] in *; rewrite W_eq in *.
  all: match goal with |- context [?x <? ?y] => destruct (Z.ltb_spec x y) end; lia.
Qed.

Lemma fq_mont_reduce_elim (Q : limbs4 -> Prop) r0 r1 r2 r3 r4 r5 r6 r7 :
  word r0 -> word r1 -> word r2 -> word r3 -> word r4 -> word r5 -> word r6 -> word r7 ->
  val4 (L4 r0 r1 r2 r3) + W ^ 4 * val4 (L4 r4 r5 r6 r7) < W ^ 4 * fqM ->
  (forall o, words4 o -> val4 o < fqM ->
     (exists k, val4 o * W ^ 4 = val4 (L4 r0 r1 r2 r3) + W ^ 4 * val4 (L4 r4 r5 r6 r7) + k * fqM) ->
     Q o) ->
  Q (fq_mont_reduce r0 r1 r2 r3 r4 r5 r6 r7).
Proof.
  intros ? ? ? ? ? ? ? ? Hlt HQ. cbv delta [fq_mont_reduce] beta iota.
  do 4 (digit; (do 5 step1); low fq_modulus_0 fq_inv).
  match goal with |- Q (fq_sub (L4 ?a ?b ?c ?d) _) =>
    match goal with E : d + W * ?o = _ |- _ =>
    assert (M : val4 (L4 a b c d) * W ^ 4 + W ^ 8 * o =
                val4 (L4 r0 r1 r2 r3) + W ^ 4 * val4 (L4 r4 r5 r6 r7) +
                (k + W * (k0 + W * (k1 + W * k2))) * fqM);
    [|assert (o = 0)]
    end
  end.
  { clear Hlt HQ.
    repeat match goal with H : word _ |- _ => clear H end.
    repeat match goal with H : 0 <= _ <= 1 |- _ => clear H end.
    change (W ^ 4) with (W * W * W * W).
    change (W ^ 8) with (W * W * W * W * W * W * W * W).
    unfold fqM, val4, fq_modulus; cbv beta iota delta [fq_modulus_0 fq_modulus_1 fq_modulus_2 fq_modulus_3] in *.
    subst; rewrite W_eq in *. lia. }
  all: pose proof (val4_range (L4 k k0 k1 k2) ltac:(cbn; tauto)) as HK.
  all: change (k + W * (k0 + W * (k1 + W * k2))) with (val4 (L4 k k0 k1 k2)) in M.
  { match type of M with val4 ?x * _ + _ * _ = _ => pose proof (val4_range x ltac:(cbn; tauto)) end.
    generalize dependent (val4 (L4 r0 r1 r2 r3) + W ^ 4 * val4 (L4 r4 r5 r6 r7)). intros T HT _ HM.
    generalize dependent (val4 (L4 k k0 k1 k2)). intros K HK HM.
    match type of HM with val4 ?x * _ + _ * _ = _ => generalize dependent (val4 x) end. intros R HM HR.
    rewrite fqM_eq, ?W_eq in *. lia. }
  match goal with Z : _ = 0 |- Q (fq_sub ?x _) => rewrite Z, Z.mul_0_r, Z.add_0_r in M end.
  match goal with |- Q (fq_sub ?x _) =>
    assert (HX : words4 x) by (cbn; tauto); set (X := x) in *; clearbody X end.
  assert (RX : val4 X < 2 * fqM).
  { generalize dependent (val4 (L4 r0 r1 r2 r3) + W ^ 4 * val4 (L4 r4 r5 r6 r7)). intros T HT _ HM.
    rewrite fqM_eq, ?W_eq in *. lia. }
  pose proof (val4_range X HX).
  apply fq_sub_elim; [exact HX | cbn; repeat split; discriminate || reflexivity | fold fqM; rewrite fqM_eq; lia | ].
  fold fqM. intros o Ho Vo. apply HQ; [exact Ho| |].
  - rewrite Vo. destruct (Z.ltb_spec (val4 X) fqM); lia.
  - rewrite Vo. destruct (Z.ltb_spec (val4 X) fqM).
    + exists (val4 (L4 k k0 k1 k2)). rewrite <- M. ring.
    + exists (val4 (L4 k k0 k1 k2) - W ^ 4). lia.
Qed.

Lemma fq_mul_elim (Q : limbs4 -> Prop) a b :
  words4 a -> reduced4q b ->
  (forall o, reduced4q o -> (exists k, val4 o * W ^ 4 = val4 a * val4 b + k * fqM) -> Q o) ->
  Q (fq_mul a b).
Proof.
  intros Ha [Hb Lb] HQ.
  pose proof (mul_bound _ _ _ fqM (val4_range a Ha) (conj (proj1 (val4_range b Hb)) Lb)) as LT.
  destruct a as [a0 a1 a2 a3], b as [b0 b1 b2 b3].
  destruct Ha as (?&?&?&?), Hb as (?&?&?&?).
  cbv delta [fq_mul] beta iota. do 16 step1.
  match goal with |- Q (fq_mont_reduce ?r0 ?r1 ?r2 ?r3 ?r4 ?r5 ?r6 ?r7) =>
    assert (M : val4 (L4 r0 r1 r2 r3) + W ^ 4 * val4 (L4 r4 r5 r6 r7) =
                val4 (L4 a0 a1 a2 a3) * val4 (L4 b0 b1 b2 b3))
  end.
  { clear LT HQ Lb.
    repeat match goal with H : word _ |- _ => clear H end.
    repeat match goal with H : 0 <= _ <= 1 |- _ => clear H end.
    unfold val4. change (W ^ 4) with (W * W * W * W).
    rewrite W_eq in *. lia. }
  apply fq_mont_reduce_elim; try assumption; [rewrite M; exact LT|].
  rewrite M. intros o Ho Lo Ko. apply HQ; [split; assumption|exact Ko].
Qed.

Lemma fq_square_elim (Q : limbs4 -> Prop) a :
  reduced4q a ->
  (forall o, reduced4q o -> (exists k, val4 o * W ^ 4 = val4 a * val4 a + k * fqM) -> Q o) ->
  Q (fq_square a).
Proof.
  intros [Ha La] HQ.
  pose proof (mul_bound _ _ _ fqM (val4_range a Ha) (conj (proj1 (val4_range a Ha)) La)) as LT.
  destruct a as [a0 a1 a2 a3].
  destruct Ha as (?&?&?&?).
  cbv delta [fq_square] beta iota. do 6 step1.
  repeat match goal with |- context [wshr ?x 63] => is_var x; top x end.
  rewrite !or_bit by lia.
  cbv zeta. do 8 step1.
  match goal with |- Q (fq_mont_reduce ?r0 ?r1 ?r2 ?r3 ?r4 ?r5 ?r6 ?r7) =>
    match goal with E : r7 + W * ?o = _ |- _ =>
    assert (M : val4 (L4 r0 r1 r2 r3) + W ^ 4 * val4 (L4 r4 r5 r6 r7) + W ^ 8 * o =
                val4 (L4 a0 a1 a2 a3) * val4 (L4 a0 a1 a2 a3));
    [|assert (o = 0)]
    end
  end.
  { clear LT HQ La.
    repeat match goal with H : word _ |- _ => clear H end.
    repeat match goal with H : 0 <= _ <= 1 |- _ => clear H end.
    repeat match goal with H : 0 <= _ < _ |- _ => clear H end.
    unfold val4.
    change (W ^ 4) with (W * W * W * W).
    change (W ^ 8) with (W * W * W * W * W * W * W * W).
    change (2 ^ 63) with 9223372036854775808 in *.
    rewrite W_eq in *. lia. }
  { match type of M with val4 ?x + _ * val4 ?y + _ = _ =>
      pose proof (val4_range x ltac:(cbn; tauto)); pose proof (val4_range y ltac:(cbn; tauto));
      rewrite <- M in LT; clear M; generalize dependent (val4 x); generalize dependent (val4 y) end.
    clear HQ. intros Y RY X LT RX. rewrite fqM_eq, ?W_eq in *. lia. }
  match goal with Z : _ = 0 |- Q (fq_mont_reduce _ _ _ _ _ _ _ _) => rewrite Z, Z.mul_0_r, Z.add_0_r in M end.
  apply fq_mont_reduce_elim; try assumption; [rewrite M; exact LT|].
  rewrite M. intros o Ho Lo Ko. apply HQ; [split; assumption|exact Ko].
Qed.

Lemma fq_add_elim (Q : limbs4 -> Prop) a b :
  words4 a -> words4 b -> val4 a + val4 b < 2 * fqM ->
  (forall o, reduced4q o ->
     val4 o = (if val4 a + val4 b <? fqM then val4 a + val4 b else val4 a + val4 b - fqM) -> Q o) ->
  Q (fq_add a b).
Proof.
  intros Ha Hb L HQ.
  pose proof (val4_range a Ha). pose proof (val4_range b Hb).
  destruct a as [a0 a1 a2 a3], b as [b0 b1 b2 b3].
  destruct Ha as (?&?&?&?), Hb as (?&?&?&?).
  cbv delta [fq_add] beta iota. do 4 step1.
  match goal with |- Q (fq_sub (L4 ?a ?b ?c ?d) _) =>
    assert (M : val4 (L4 a b c d) = val4 (L4 a0 a1 a2 a3) + val4 (L4 b0 b1 b2 b3)) end.
  { clear HQ. rewrite fqM_eq in L. unfold val4, word in *. rewrite W_eq in *. lia. }
  apply fq_sub_elim; [cbn; tauto | cbn; repeat split; discriminate || reflexivity | fold fqM; lia | ].
  fold fqM. rewrite M. intros o Ho Vo.
  apply HQ; [split; [exact Ho|]|];
  rewrite Vo; match goal with |- context [?x <? ?y] => destruct (Z.ltb_spec x y) end; lia.
Qed.

(** [Neg] of the scalar field: the code masks with the difference, not with the argument *)
Lemma fq_neg_elim (Q : limbs4 -> Prop) a :
  words4 a -> val4 a <= fqM ->
  (forall o, words4 o -> val4 o = fqM - val4 a -> Q o) ->
  Q (fq_neg a).
Proof.
  intros Ha La HQ.
  pose proof (val4_range a Ha).
  destruct a as [a0 a1 a2 a3]. destruct Ha as (?&?&?&?).
  cbv delta [fq_neg] beta iota. do 4 step1.
  cbv zeta.
  match goal with |- context [L4 (wand ?x0 _) (wand ?x1 _) (wand ?x2 _) (wand ?x3 _)] =>
    destruct (or4 x0 x1 x2 x3) as [Wt Zt]; try assumption;
    assert (M : val4 (L4 x0 x1 x2 x3) = fqM - val4 (L4 a0 a1 a2 a3)) end.
  { clear HQ Wt Zt. unfold fqM, fq_modulus, val4, word in *.
      cbv delta [fq_modulus_0 fq_modulus_1 fq_modulus_2 fq_modulus_3] in *.
      rewrite W_eq in *. lia. }
  rewrite nz_mask by assumption.
  match type of Zt with ?t = 0 <-> _ => set (u := t) in *; clearbody u end.
  destruct (Z.eqb_spec u 0) as [E|E].
  - rewrite !wand_0. apply HQ; [cbn; repeat split; discriminate || reflexivity|].
    rewrite <- M. apply Zt in E. rewrite E. reflexivity.
  - rewrite !wand_ones by assumption. apply HQ; [cbn; tauto|exact M].
Qed.
