(** * Inversion and square roots of the generic field. *)
From Coq Require Import ZArith Lia List Bool Znumtheory.
From Verif Require Import LimbBase LimbSpec LimbProofs LimbBls LimbBlsProofs LimbBlsProofs2
  NativeField NativeChains NativeInstances NativeFieldProofs NativeArithProofs ZCong ZFermat
  LimbK256FpProofs LimbK256FqProofs LimbP256FpProofs LimbP256FqProofs.
Import ListNotations.
Open Scope Z_scope.

Lemma pw_cong m a b e : 0 <= e -> cong m a b -> cong m (pw a e) (pw b e).
Proof. Transparent pw. unfold pw. apply cong_pow. Qed.
Lemma pw_fermat m v : prime m -> ~ (m | v) -> cong m (pw v (m - 1)) 1.
Proof. unfold pw. apply fermat_inv. Qed.
Lemma pw_mulb a b e : 0 <= e -> pw (a * b) e = pw a e * pw b e.
Proof. unfold pw. intros. apply Z.pow_mul_l. Qed.
Lemma pw_zero e : 0 < e -> pw 0 e = 0.
Proof. unfold pw. intros. apply Z.pow_0_l. assumption. Qed.
Lemma pw_one e : 0 <= e -> pw 1 e = 1.
Proof. unfold pw. intros. apply Z.pow_1_l. assumption. Qed.
Opaque pw.

Section Chain.
  Variables (m : Z) (A : field_arith) (P : field_params).
  Hypothesis HA : arith_ok m A.
  Hypothesis HP : params_ok m P.

  Lemma rep_mul_pw x y v a b : 0 <= a -> 0 <= b -> rep m x (pw v a) -> rep m y (pw v b) ->
    rep m (fa_mul A x y) (pw v (a + b)).
  Proof. intros. rewrite pw_add by assumption. eapply rep_mul; eassumption. Qed.
  Lemma rep_sq_pw x v a : 0 <= a -> rep m x (pw v a) -> rep m (fa_square A x) (pw v (a + a)).
  Proof. intros. rewrite pw_add by assumption. eapply rep_square; eassumption. Qed.
  Lemma rep_pow2k_pw n x v a : 0 <= a -> rep m x (pw v a) -> rep m (pow2k A x n) (pw v (a * 2 ^ Z.of_nat n)).
  Proof.
    intros Ha H. eapply rep_pow2k in H; [|eassumption..].
    rewrite pw_mul in H; [exact H|exact Ha|]. apply Z.pow_nonneg. lia.
  Qed.
End Chain.

(** walk a chain: every [let] gets its exponent, computed *)
Ltac chain_step HA HP :=
  lazymatch goal with
  | |- rep ?m (let x := fa_mul ?A ?a ?b in @?f x) ?w =>
    let Ha := match goal with H : rep m a _ |- _ => H end in
    let Hb := match goal with H : rep m b _ |- _ => H end in
    let ea := lazymatch type of Ha with rep _ _ (pw _ ?e) => e end in
    let eb := lazymatch type of Hb with rep _ _ (pw _ ?e) => e end in
    let s := eval vm_compute in (ea + eb) in
    let y := fresh "y" in let H := fresh "R" in
    pose proof (rep_mul_pw m A _ HA HP a b _ ea eb ltac:(discriminate) ltac:(discriminate) Ha Hb : rep m (fa_mul A a b) (pw _ s)) as H;
    change (rep m (f (fa_mul A a b)) w);
    generalize dependent (fa_mul A a b); intros y H; cbv beta
  | |- rep ?m (let x := pow2k ?A ?a ?n in @?f x) ?w =>
    let Ha := match goal with H : rep m a _ |- _ => H end in
    let ea := lazymatch type of Ha with rep _ _ (pw _ ?e) => e end in
    let s := eval vm_compute in (ea * 2 ^ Z.of_nat n) in
    let y := fresh "y" in let H := fresh "R" in
    pose proof (rep_pow2k_pw m A _ HA HP n a _ ea ltac:(discriminate) Ha : rep m (pow2k A a n) (pw _ s)) as H;
    change (rep m (f (pow2k A a n)) w);
    generalize dependent (pow2k A a n); intros y H; cbv beta
  | |- rep ?m (let x := fa_square ?A ?a in @?f x) ?w =>
    let Ha := match goal with H : rep m a _ |- _ => H end in
    let ea := lazymatch type of Ha with rep _ _ (pw _ ?e) => e end in
    let s := eval vm_compute in (ea + ea) in
    let y := fresh "y" in let H := fresh "R" in
    pose proof (rep_sq_pw m A _ HA HP a _ ea ltac:(discriminate) Ha : rep m (fa_square A a) (pw _ s)) as H;
    change (rep m (f (fa_square A a)) w);
    generalize dependent (fa_square A a); intros y H; cbv beta
  | |- rep ?m (let x := ?a in @?f x) ?w => change (rep m (f a) w); cbv beta
  end.
Ltac chain HA HP := repeat chain_step HA HP; idtac; assumption.

Lemma k256fp_chain_ok x v : rep k256fp_m x v -> rep k256fp_m (k256fp_inv_chain k256fp_arith x) (pw v (k256fp_m - 2)).
Proof.
  intros H. rewrite <- (pw_1 v) in H. let e := eval vm_compute in (k256fp_m - 2) in change (k256fp_m - 2) with e.
  cbv delta [k256fp_inv_chain] beta. chain k256fp_arith_ok k256fp_params_ok.
Qed.
Lemma k256fq_chain_ok x v : rep k256fq_m x v -> rep k256fq_m (k256fq_inv_chain k256fq_arith x) (pw v (k256fq_m - 2)).
Proof.
  intros H. rewrite <- (pw_1 v) in H. let e := eval vm_compute in (k256fq_m - 2) in change (k256fq_m - 2) with e.
  cbv delta [k256fq_inv_chain] beta. chain k256fq_arith_ok k256fq_params_ok.
Qed.
Lemma p256fq_chain_ok x v : rep p256fq_m x v -> rep p256fq_m (p256fq_inv_chain p256fq_arith x) (pw v (p256fq_m - 2)).
Proof.
  intros H. rewrite <- (pw_1 v) in H. let e := eval vm_compute in (p256fq_m - 2) in change (p256fq_m - 2) with e.
  cbv delta [p256fq_inv_chain] beta. chain p256fq_arith_ok p256fq_params_ok.
Qed.
Lemma blsfq_chain_ok x v : rep fqM x v -> rep fqM (blsfq_inv_chain blsfq_arith x) (pw v (fqM - 2)).
Proof.
  intros H. rewrite <- (pw_1 v) in H. let e := eval vm_compute in (fqM - 2) in change (fqM - 2) with e.
  cbv delta [blsfq_inv_chain] beta. chain blsfq_arith_ok blsfq_params_ok.
Qed.

(** the P-256 base field: the two loops of its Invert *)
Lemma p256fp_inv_t_ok x v : rep p256fp_m x v -> forall n t e, 0 <= e -> rep p256fp_m t (pw v e) ->
  rep p256fp_m (p256fp_inv_t p256fp_arith x n t) (pw v (2 ^ Z.of_nat n * e + 2 ^ Z.of_nat n - 1)).
Proof.
  intros Hx. induction n as [|n IH]; intros t e He Ht.
  - cbn [p256fp_inv_t]. change (2 ^ Z.of_nat 0) with 1. replace (1 * e + 1 - 1) with e by lia. exact Ht.
  - cbn [p256fp_inv_t]. apply (rep_sq_pw _ _ _ p256fp_arith_ok p256fp_params_ok) in Ht; [|exact He].
    rewrite <- (pw_1 v) in Hx. 
    pose proof (rep_mul_pw _ _ _ p256fp_arith_ok p256fp_params_ok _ _ _ _ _ (Z.add_nonneg_nonneg _ _ He He) Z.le_0_1 Ht Hx) as H.
    rewrite pw_1 in Hx. apply IH in H; [|lia].
    rewrite Nat2Z.inj_succ, Z.pow_succ_r by lia.
    match type of H with rep _ _ (pw _ ?a) => match goal with |- rep _ _ (pw _ ?b) => replace b with a by ring end end.
    exact H.
Qed.

Definition p256fp_estep (te : Z) (e i : Z) : Z :=
  if (i =? 0) || (i =? 2) || (i =? 192) || (i =? 224) then e + e + 1
  else if (i =? 3) || (i =? 34) || (i =? 65) then e + e + te else e + e.
Lemma p256fp_inv_steps x t v te : 0 <= te -> rep p256fp_m x v -> rep p256fp_m t (pw v te) ->
  forall l r e, 0 <= e -> rep p256fp_m r (pw v e) ->
  rep p256fp_m (fold_left (p256fp_inv_step p256fp_arith x t) l r) (pw v (fold_left (p256fp_estep te) l e)).
Proof.
  intros Hte Hx Ht. rewrite <- (pw_1 v) in Hx. induction l as [|i l IH]; intros r e He Hr.
  - exact Hr.
  - cbn [fold_left]. apply IH.
    + unfold p256fp_estep. repeat match goal with |- context [if ?b then _ else _] => destruct b end; lia.
    + apply (rep_sq_pw _ _ _ p256fp_arith_ok p256fp_params_ok) in Hr; [|exact He].
      unfold p256fp_inv_step, p256fp_estep. cbv zeta.
      match goal with |- context [if ?b then _ else _] => destruct b end; [|match goal with |- context [if ?b then _ else _] => destruct b end].
      * apply (rep_mul_pw _ _ _ p256fp_arith_ok p256fp_params_ok); [lia|lia|exact Hr|exact Hx].
      * apply (rep_mul_pw _ _ _ p256fp_arith_ok p256fp_params_ok); [lia|lia|exact Hr|exact Ht].
      * exact Hr.
Qed.
Lemma p256fp_chain_ok x v : rep p256fp_m x v -> rep p256fp_m (p256fp_inv_chain p256fp_arith x) (pw v (p256fp_m - 2)).
Proof.
  intros H. unfold p256fp_inv_chain. cbv zeta.
  assert (H1 : rep p256fp_m x (pw v 1)) by (rewrite pw_1; exact H).
  pose proof (p256fp_inv_t_ok x v H 30 x 1 ltac:(lia) H1) as Ht.
  set (te := 2 ^ Z.of_nat 30 * 1 + 2 ^ Z.of_nat 30 - 1) in Ht.
  assert (Hte : 0 <= te) by (vm_compute; discriminate).
  pose proof (p256fp_inv_steps x _ v te Hte H Ht (map Z.of_nat (rev (seq 0 225))) _ te Hte Ht) as Hf.
  assert (E : fold_left (p256fp_estep te) (map Z.of_nat (rev (seq 0 225))) te = p256fp_m - 2) by (vm_compute; reflexivity).
  rewrite E in Hf. exact Hf.
Qed.

Section Roots.
  Variables (m : Z) (A : field_arith) (P : field_params).
  Hypothesis HA : arith_ok m A.
  Hypothesis HP : params_ok m P.

  Local Lemma mp : 1 < m.
  Proof. destruct (po_big _ _ HP). lia. Qed.

  Lemma rep_val_zero x v : rep m x v -> (val4 x = 0 <-> (m | v)).
  Proof.
    intros H. pose proof (rep_zero m P HP) as H0. pose proof (rep_inj m P HP _ _ _ _ H H0) as [I J].
    split.
    - intros E. destruct H as [[Wx _] _]. assert (x = L4 0 0 0 0) as ->.
      { apply val4_inj; [exact Wx| |rewrite E; reflexivity]. cbn. pose proof word0. tauto. }
      specialize (I eq_refl). unfold cong in I. rewrite Z.sub_0_r in I. exact I.
    - intros D. rewrite J; [reflexivity|]. unfold cong. rewrite Z.sub_0_r. exact D.
  Qed.

  Lemma rep_equal x y v w : rep m x v -> rep m y w ->
    (equal_helper x y = 1 /\ cong m v w) \/ (equal_helper x y = 0 /\ ~ cong m v w).
  Proof.
    intros Hx Hy. pose proof (rep_inj m P HP _ _ _ _ Hx Hy) as I.
    rewrite equal_helper_ok by (eapply rep_words; eassumption).
    destruct (Z.eqb_spec (val4 x) (val4 y)) as [E|E]; [left|right]; (split; [reflexivity|]).
    - apply I. apply val4_inj; [eapply rep_words; eassumption..|exact E].
    - intros C. apply E. apply I in C. rewrite C. reflexivity.
  Qed.

  Lemma invert_ok (chain : field_arith -> limbs4 -> limbs4) :
    (forall x v, rep m x v -> rep m (chain A x) (pw v (m - 2))) -> prime m ->
    forall out x v, words4 out -> rep m x v ->
      ((m | v) -> invert_with A chain out x = (0, out)) /\
      (~ (m | v) -> exists y w, invert_with A chain out x = (1, y) /\ rep m y w /\ cong m (v * w) 1).
  Proof.
    intros HC Pm out x v Ho Hx. pose proof (HC _ _ Hx) as Hc. unfold invert_with. cbv zeta.
    rewrite nf_is_non_zero_ok by (eapply rep_words; eassumption).
    pose proof (rep_val_zero x v Hx) as Z0.
    rewrite (ao_select _ _ HA) by (try (eapply rep_words; eassumption); try exact Ho; destruct (val4 x =? 0); lia).
    destruct (Z.eqb_spec (val4 x) 0) as [E|E]; split; intros D.
    - reflexivity.
    - exfalso. apply D. apply Z0. exact E.
    - exfalso. apply E. apply Z0. exact D.
    - exists (chain A x), (pw v (m - 2)). split; [reflexivity|]. split; [exact Hc|].
      replace (v * pw v (m - 2)) with (pw v (m - 1)); [apply pw_fermat; assumption|].
      pose proof mp. replace (m - 1) with (1 + (m - 2)) by lia. rewrite pw_add, pw_1 by lia. reflexivity.
  Qed.

  (** the shape both square roots share: a candidate, checked by squaring *)
  Lemma select_root out x v z w : words4 out -> rep m x v -> rep m z w ->
    ((exists y, cong m (y * y) v) -> cong m (w * w) v) ->
    let wasSquare := equal_helper (fa_square A z) x in
    ((exists y, cong m (y * y) v) ->
       exists r u, (wasSquare, fa_selectznz A out z wasSquare) = (1, r) /\ rep m r u /\ cong m (u * u) v) /\
    (~ (exists y, cong m (y * y) v) -> (wasSquare, fa_selectznz A out z wasSquare) = (0, out)).
  Proof.
    intros Ho Hx Hz Hc. pose proof (rep_square m A P HA HP _ _ Hz) as Hs. cbv zeta.
    destruct (rep_equal _ _ _ _ Hs Hx) as [[-> C]|[-> C]];
      rewrite (ao_select _ _ HA) by (try (eapply rep_words; eassumption); try exact Ho; lia); cbn [Z.eqb].
    - split.
      + intros _. exists z, w. split; [reflexivity|]. split; assumption.
      + intros N. exfalso. apply N. exists w. exact C.
    - split.
      + intros S. exfalso. apply C, Hc, S.
      + reflexivity.
  Qed.

  Lemma sqrt_3mod4_ok c1 : words4 c1 -> 4 * val4 c1 = m + 1 -> prime m ->
    forall out x v, words4 out -> rep m x v ->
      ((exists y, cong m (y * y) v) ->
         exists r u, sqrt_3mod4 P A c1 out x = (1, r) /\ rep m r u /\ cong m (u * u) v) /\
      (~ (exists y, cong m (y * y) v) -> sqrt_3mod4 P A c1 out x = (0, out)).
  Proof.
    intros Hc Ec Pm out x v Ho Hx. unfold sqrt_3mod4. cbv zeta.
    apply (select_root out x v _ (pw v (val4 c1)) Ho Hx (rep_pow m A P HA HP x v c1 Hc Hx)).
    intros [y Hy]. pose proof mp. pose proof (val4_range c1 Hc).
    rewrite <- pw_add by lia.
    destruct (Zdivide_dec m y) as [D|D].
    - assert (V0 : cong m v 0).
      { apply cong_sym in Hy. apply (cong_trans _ _ _ _ Hy). unfold cong. rewrite Z.sub_0_r.
        apply Z.divide_mul_l. exact D. }
      apply cong_trans with (pw 0 (val4 c1 + val4 c1)); [apply pw_cong; [lia|exact V0]|].
      rewrite pw_zero by lia. apply cong_sym. exact V0.
    - apply cong_trans with (pw (y * y) (val4 c1 + val4 c1)); [apply pw_cong; [lia|apply cong_sym; exact Hy]|].
      rewrite pw_mulb by lia. rewrite <- pw_add by lia.
      replace (val4 c1 + val4 c1 + (val4 c1 + val4 c1)) with (1 + 1 + (m - 1)) by lia.
      rewrite !pw_add, !pw_1 by lia.
      apply cong_trans with (y * y * 1); [|rewrite Z.mul_1_r; exact Hy].
      apply cong_mul; [apply cong_refl|]. apply pw_fermat; assumption.
  Qed.

  (** ** Tonelli-Shanks *)
  Lemma sq_one b : prime m -> cong m (b * b) 1 -> cong m b 1 \/ cong m b (-1).
  Proof.
    intros Pm D. unfold cong in *. replace (b * b - 1) with ((b - 1) * (b + 1)) in D by ring.
    apply prime_mult in D; [|exact Pm]. destruct D as [D|D]; [left|right]; [exact D|].
    replace (b - -1) with (b + 1) by lia. exact D.
  Qed.

  (** state before the iteration i *)
  Definition ts_inv (v : Z) (i : nat) (st : limbs4 * limbs4 * limbs4 * limbs4) : Prop :=
    let '(z, t, b, c) := st in
    exists zv tv cv, rep m z zv /\ rep m t tv /\ b = t /\ rep m c cv /\
      cong m (zv * zv) (v * tv) /\ cong m (pw tv (2 ^ Z.of_nat (i - 1))) 1 /\
      cong m (pw cv (2 ^ Z.of_nat (i - 1))) (-1).

  Lemma pw_dbl v k : pw v (2 ^ Z.of_nat (S k)) = pw v (2 ^ Z.of_nat k) * pw v (2 ^ Z.of_nat k).
  Proof.
    rewrite Nat2Z.inj_succ, Z.pow_succ_r by lia.
    replace (2 * 2 ^ Z.of_nat k) with (2 ^ Z.of_nat k + 2 ^ Z.of_nat k) by lia.
    apply pw_add; apply Z.pow_nonneg; lia.
  Qed.
  Lemma pw_sq v k : pw (v * v) (2 ^ Z.of_nat k) = pw v (2 ^ Z.of_nat (S k)).
  Proof. rewrite pw_dbl. apply pw_mulb. apply Z.pow_nonneg. lia. Qed.

  Lemma ts_step_ok v i st : prime m -> (2 <= i)%nat -> ts_inv v i st -> ts_inv v (i - 1) (ts_step P A st i).
  Proof.
    intros Pm Hi. destruct st as [[[z t] b] c].
    intros (zv & tv & cv & Hz & Ht & -> & Hc & Izt & It & Ic).
    unfold ts_step. cbv zeta.
    pose proof (rep_square_times m A P HA HP (i - 2) t tv Ht) as Hb.
    set (bb := square_times A (i - 2) t) in *.
    assert (Ei : (i - 1 = S (i - 2))%nat) by lia.
    rewrite Ei in It, Ic. rewrite pw_dbl in It, Ic.
    pose proof (sq_one _ Pm It) as Bpm.
    pose proof (rep_one m P HP) as H1.
    pose proof (rep_mul m A P HA HP _ _ _ _ Hz Hc) as Hzc.
    pose proof (rep_square m A P HA HP _ _ Hc) as Hcc.
    pose proof (rep_mul m A P HA HP _ _ _ _ Ht Hcc) as Htc.
    replace (i - 1 - 1)%nat with (i - 2)%nat by lia.
    destruct (rep_equal _ _ _ _ Hb H1) as [[-> C]|[-> C]]; cbn [Z.opp Z.add Z.pos_sub];
      rewrite !(ao_select _ _ HA) by (try (eapply rep_words; eassumption); lia); cbn [Z.eqb].
    - exists zv, tv, (cv * cv).
      replace (i - 1 - 1)%nat with (i - 2)%nat by lia.
      split; [exact Hz|]. split; [exact Ht|]. split; [reflexivity|]. split; [exact Hcc|].
      split; [exact Izt|]. split; [exact C|]. rewrite pw_mulb by (apply Z.pow_nonneg; lia). exact Ic.
    - destruct Bpm as [B|B]; [contradiction|].
      exists (zv * cv), (tv * (cv * cv)), (cv * cv).
      replace (i - 1 - 1)%nat with (i - 2)%nat by lia.
      split; [exact Hzc|]. split; [exact Htc|]. split; [reflexivity|]. split; [exact Hcc|].
      split; [|split].
      + replace (zv * cv * (zv * cv)) with ((zv * zv) * (cv * cv)) by ring.
        replace (v * (tv * (cv * cv))) with ((v * tv) * (cv * cv)) by ring.
        apply cong_mul; [exact Izt|apply cong_refl].
      + rewrite !pw_mulb by (apply Z.pow_nonneg; lia).
        change 1 with (-1 * -1). apply cong_mul; [exact B|exact Ic].
      + rewrite pw_mulb by (apply Z.pow_nonneg; lia). exact Ic.
  Qed.

  Lemma ts_loop_ok v : prime m -> forall n st, ts_inv v (S n) st ->
    ts_inv v 1 (fold_left (ts_step P A) (rev (seq 2 n)) st).
  Proof.
    intros Pm. induction n as [|n IH]; intros st H; [exact H|].
    rewrite seq_S, rev_app_distr. cbn [rev app fold_left plus].
    apply IH. replace (S n) with (S (S n) - 1)%nat by lia. apply ts_step_ok; [exact Pm|lia|exact H].
  Qed.

  (** with a zero argument every variable but c stays zero *)
  Definition ts_inv0 (st : limbs4 * limbs4 * limbs4 * limbs4) : Prop :=
    let '(z, t, b, c) := st in rep m z 0 /\ rep m t 0 /\ rep m b 0 /\ exists cv, rep m c cv.
  Lemma ts_loop0 l : forall st, ts_inv0 st -> ts_inv0 (fold_left (ts_step P A) l st).
  Proof.
    induction l as [|i l IH]; intros st H; [exact H|]. cbn [fold_left]. apply IH.
    destruct st as [[[z t] b] c]. destruct H as (Hz & Ht & Hb & cv & Hc).
    unfold ts_step. cbv zeta.
    pose proof (rep_square_times m A P HA HP (i - 2) b _ Hb) as Hs.
    pose proof (rep_one m P HP) as H1.
    pose proof (rep_mul m A P HA HP _ _ _ _ Hz Hc) as Hzc.
    pose proof (rep_square m A P HA HP _ _ Hc) as Hcc.
    pose proof (rep_mul m A P HA HP _ _ _ _ Ht Hcc) as Htc.
    rewrite Z.mul_0_l in Hzc, Htc.
    destruct (rep_equal _ _ _ _ Hs H1) as [[-> C]|[-> C]]; cbn [Z.opp Z.add Z.pos_sub];
      rewrite !(ao_select _ _ HA) by (try (eapply rep_words; eassumption); lia); cbn [Z.eqb].
    - split; [exact Hz|]. split; [exact Ht|]. split; [exact Ht|]. eexists; exact Hcc.
    - split; [exact Hzc|]. split; [exact Htc|]. split; [exact Htc|]. eexists; exact Hcc.
  Qed.

  Lemma sqrt_ts_ok s c3 c5 g : (2 <= s)%nat -> words4 c3 -> 2 ^ Z.of_nat s * (2 * val4 c3 + 1) = m - 1 ->
    rep m c5 g -> cong m (pw g (2 ^ Z.of_nat (s - 1))) (-1) -> prime m ->
    forall out x v, words4 out -> rep m x v ->
      ((exists y, cong m (y * y) v) ->
         exists r u, sqrt_ts P A s c3 c5 out x = (1, r) /\ rep m r u /\ cong m (u * u) v) /\
      (~ (exists y, cong m (y * y) v) -> sqrt_ts P A s c3 c5 out x = (0, out)).
  Proof.
    intros Hs2 Hc3 Ec Hg Ng Pm out x v Ho Hx. unfold sqrt_ts. cbv zeta.
    pose proof (val4_range c3 Hc3) as R3. pose proof mp as M1.
    pose proof (rep_pow m A P HA HP x v c3 Hc3 Hx) as Hz0.
    pose proof (rep_square m A P HA HP _ _ Hz0) as Ht0.
    pose proof (rep_mul m A P HA HP _ _ _ _ Ht0 Hx) as Ht.
    pose proof (rep_mul m A P HA HP _ _ _ _ Hz0 Hx) as Hz.
    set (z0 := nf_pow P A x c3) in *.
    set (st0 := (fa_mul A z0 x, fa_mul A (fa_square A z0) x, fa_mul A (fa_square A z0) x, c5)).
    set (e := pw v (val4 c3)) in *.
    assert (FIN : exists z t b c w, fold_left (ts_step P A) (ts_indices s) st0 = (z, t, b, c) /\ rep m z w /\
              ((exists y, cong m (y * y) v) -> cong m (w * w) v)).
    { destruct (Zdivide_dec m v) as [D|D].
      - assert (V0 : cong m v 0) by (unfold cong; rewrite Z.sub_0_r; exact D).
        assert (I0 : ts_inv0 st0).
        { unfold st0, ts_inv0.
          assert (Z' : rep m (fa_mul A z0 x) 0).
          { apply (rep_cong _ _ _ 0) in Hz; [exact Hz|]. unfold cong. rewrite Z.sub_0_r. apply Z.divide_mul_r, D. }
          assert (T' : rep m (fa_mul A (fa_square A z0) x) 0).
          { apply (rep_cong _ _ _ 0) in Ht; [exact Ht|]. unfold cong. rewrite Z.sub_0_r. apply Z.divide_mul_r, D. }
          split; [exact Z'|]. split; [exact T'|]. split; [exact T'|]. exists g. exact Hg. }
        apply (ts_loop0 (ts_indices s)) in I0.
        destruct (fold_left (ts_step P A) (ts_indices s) st0) as [[[z t] b] c].
        destruct I0 as (Z' & _). exists z, t, b, c, 0. split; [reflexivity|]. split; [exact Z'|].
        intros _. apply cong_sym. exact V0.
      - destruct (Zdivide_dec m 0) as [_|N]; [|exfalso; apply N, Z.divide_0_r].
        (* is v a square? decide through the exponent *)
        assert (IV : (exists y, cong m (y * y) v) -> ts_inv v s st0).
        { intros [y Hy]. exists (e * v), (e * e * v), g.
          assert (Y : ~ (m | y)).
          { intros Y. apply D. assert (cong m v 0) as V0.
            { apply cong_sym in Hy. apply (cong_trans _ _ _ _ Hy). unfold cong. rewrite Z.sub_0_r.
              apply Z.divide_mul_l. exact Y. }
            unfold cong in V0. rewrite Z.sub_0_r in V0. exact V0. }
          split; [exact Hz|]. split; [exact Ht|]. split; [reflexivity|]. split; [exact Hg|].
          split; [apply cong_eq; ring|]. split; [|exact Ng].
          assert (E1 : e * e * v = pw v (2 * val4 c3 + 1)).
          { unfold e. replace (2 * val4 c3 + 1) with (val4 c3 + val4 c3 + 1) by lia. rewrite !pw_add, pw_1 by lia. ring. }
          rewrite E1. rewrite pw_mul by (try apply Z.pow_nonneg; lia).
          assert (P2 : 0 <= 2 ^ Z.of_nat (s - 1)) by (apply Z.pow_nonneg; lia).
          set (N := (2 * val4 c3 + 1) * 2 ^ Z.of_nat (s - 1)) in *.
          assert (EN : N + N = m - 1).
          { unfold N. rewrite <- Ec. replace s with (S (s - 1)) at 3 by lia.
            rewrite Nat2Z.inj_succ, Z.pow_succ_r by lia. ring. }
          apply cong_trans with (pw (y * y) N); [apply pw_cong; [lia|apply cong_sym; exact Hy]|].
          rewrite pw_mulb by lia. rewrite <- pw_add by lia. rewrite EN. apply pw_fermat; assumption. }
        assert (GEN : exists z t b c w, fold_left (ts_step P A) (ts_indices s) st0 = (z, t, b, c) /\ rep m z w).
        { assert (forall l st, (exists zv tv bv cv, let '(z,t,b,c) := st in rep m z zv /\ rep m t tv /\ rep m b bv /\ rep m c cv) ->
             exists zv tv bv cv, let '(z,t,b,c) := fold_left (ts_step P A) l st in rep m z zv /\ rep m t tv /\ rep m b bv /\ rep m c cv) as K.
          { clear - HA HP. induction l as [|i l IH]; intros st H; [exact H|]. cbn [fold_left]. apply IH.
            destruct st as [[[z t] b] c]. destruct H as (zv & tv & bv & cv & Hz & Ht & Hb & Hc).
            unfold ts_step. cbv zeta.
            pose proof (rep_square_times m A P HA HP (i - 2) b _ Hb) as Hs.
            pose proof (rep_one m P HP) as H1.
            pose proof (rep_mul m A P HA HP _ _ _ _ Hz Hc) as Hzc.
            pose proof (rep_square m A P HA HP _ _ Hc) as Hcc.
            pose proof (rep_mul m A P HA HP _ _ _ _ Ht Hcc) as Htc.
            destruct (rep_equal _ _ _ _ Hs H1) as [[-> C]|[-> C]]; cbn [Z.opp Z.add Z.pos_sub];
              rewrite !(ao_select _ _ HA) by (try (eapply rep_words; eassumption); lia); cbn [Z.eqb].
            - exists zv, tv, tv, (cv * cv). tauto.
            - exists (zv * cv), (tv * (cv * cv)), (tv * (cv * cv)), (cv * cv). tauto. }
          destruct (K (ts_indices s) st0) as (zv & tv & bv & cv & K').
          { exists (e * v), (e * e * v), (e * e * v), g. unfold st0. tauto. }
          destruct (fold_left (ts_step P A) (ts_indices s) st0) as [[[z t] b] c].
          destruct K' as (Z' & _). exists z, t, b, c, zv. tauto. }
        destruct GEN as (z & t & b & c & w & EF & Rz). exists z, t, b, c, w. split; [exact EF|]. split; [exact Rz|].
        intros SQ. apply IV in SQ. replace s with (S (s - 1)) in SQ by lia.
        apply (ts_loop_ok v Pm (s - 1)) in SQ. unfold ts_indices in EF. rewrite EF in SQ.
        destruct SQ as (zv & tv & cv & Rz' & Rt & _ & _ & I1 & I2 & _).
        change (2 ^ Z.of_nat (1 - 1)) with 1 in I2. rewrite pw_1 in I2.
        assert (Ew : cong m w zv) by (apply (rep_inj m P HP z z w zv Rz Rz'); reflexivity).
        apply cong_trans with (zv * zv); [apply cong_mul; exact Ew|].
        apply (cong_trans _ _ _ _ I1). apply cong_trans with (v * 1); [|rewrite Z.mul_1_r; apply cong_refl].
        apply cong_mul; [apply cong_refl|exact I2]. }
    destruct FIN as (z & t & b & c & w & EF & Rz & SQ). fold st0. rewrite EF.
    apply (select_root out x v z w Ho Hx Rz SQ).
  Qed.
End Roots.
