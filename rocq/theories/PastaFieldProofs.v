(** * The Pasta fields: parameters, arithmetic, Sqrt and Invert. *)
From Coq Require Import ZArith Lia List Bool Znumtheory.
From Verif Require Import LimbBase LimbSpec LimbProofs LimbBls LimbBlsProofs LimbBlsProofs2 LimbFiat
  LimbPastaFp LimbPastaFq LimbPastaFpProofs LimbPastaFqProofs
  NativeField NativeInstances NativeFieldProofs NativeArithProofs NativePowProofs NativeRoots ZCong Pockl PastaField PrimePasta.
Import ListNotations.
Open Scope Z_scope.

Lemma pastafp_params_ok : params_ok pastafp_m pastafp_params.
Proof. params_tac. Qed.
Lemma pastafq_params_ok : params_ok pastafq_m pastafq_params.
Proof. params_tac. Qed.
Lemma pastafp_arith_ok : arith_ok pastafp_m pastafp_arith.
Proof. fiat_arith pastafp_m pastafp_arith pastafp_mul_elim pastafp_square_elim pastafp_from_montgomery_elim pastafp_to_montgomery_elim
  pastafp_add_elim pastafp_sub_elim pastafp_from_bytes_ok pastafp_bytes_ok pastafp_select. Qed.
Lemma pastafq_arith_ok : arith_ok pastafq_m pastafq_arith.
Proof. fiat_arith pastafq_m pastafq_arith pastafq_mul_elim pastafq_square_elim pastafq_from_montgomery_elim pastafq_to_montgomery_elim
  pastafq_add_elim pastafq_sub_elim pastafq_from_bytes_ok pastafq_bytes_ok pastafq_select. Qed.
Lemma pastafp_neg_ok x v : rep pastafp_m x v -> rep pastafp_m (fa_neg pastafp_arith x) (- v).
Proof. apply fiat_neg; [reflexivity|]. intros a Ha La. apply pastafp_opp_elim; auto. Qed.
Lemma pastafq_neg_ok x v : rep pastafq_m x v -> rep pastafq_m (fa_neg pastafq_arith x) (- v).
Proof. apply fiat_neg; [reflexivity|]. intros a Ha La. apply pastafq_opp_elim; auto. Qed.

(** ** Equality tests *)
Lemma pasta_is_zero_ok a : words4 a -> pasta_is_zero a = (val4 a =? 0).
Proof.
  intros H. pose proof (nf_is_zero_ok a H) as E. destruct a as [a0 a1 a2 a3].
  unfold nf_is_zero in E. unfold pasta_is_zero. cbv zeta in *. destruct H as (?&?&?&?).
  destruct (or4 a0 a1 a2 a3) as [Wt _]; try assumption.
  rewrite all_zero_ok in E by exact Wt.
  destruct (_ =? _) in E |- *; destruct (val4 _ =? 0); (reflexivity || discriminate E).
Qed.
Lemma pasta_equal_ok a b : words4 a -> words4 b -> pasta_equal a b = (val4 a =? val4 b).
Proof.
  intros Ha Hb. pose proof (equal_helper_ok a b Ha Hb) as E. destruct a as [a0 a1 a2 a3], b as [b0 b1 b2 b3].
  unfold equal_helper in E. unfold pasta_equal. cbv zeta in *. destruct Ha as (?&?&?&?), Hb as (?&?&?&?).
  destruct (or4 (wxor a0 b0) (wxor a1 b1) (wxor a2 b2) (wxor a3 b3)) as [Wt _]; try (apply wxor_word; assumption).
  rewrite all_zero_ok in E by exact Wt.
  destruct (_ =? 0) in E |- *; destruct (val4 _ =? _); (reflexivity || discriminate E).
Qed.
Lemma pasta_flag_eq a b : words4 a -> words4 b ->
  pasta_flag (negb (pasta_equal a b)) = - equal_helper a b + 1 /\ (if pasta_equal a b then 1 else 0) = equal_helper a b.
Proof.
  intros Ha Hb. rewrite pasta_equal_ok, equal_helper_ok by assumption. destruct (_ =? _); split; reflexivity.
Qed.

(** ** Sqrt *)
Section Sqrt.
  Variables (m : Z) (F : pasta_field).
  Let P := pf_params F.
  Let A := pf_arith F.
  Hypothesis HA : arith_ok m A.
  Hypothesis HP : params_ok m P.

  Local Lemma repw x v : rep m x v -> words4 x.
  Proof. intros [[H _] _]. exact H. Qed.

  Definition ts_reps (st : limbs4 * limbs4 * limbs4 * limbs4) : Prop :=
    let '(z, t, b, c) := st in exists vz vt vb vc, rep m z vz /\ rep m t vt /\ rep m b vb /\ rep m c vc.
  Lemma ts_step_eq st i : ts_reps st -> pasta_ts_step F st i = ts_step P A st i /\ ts_reps (ts_step P A st i).
  Proof.
    destruct st as [[[z t] b] c]. intros (vz & vt & vb & vc & Hz & Ht & Hb & Hc).
    pose proof (rep_square_times m A P HA HP (i - 2) b vb Hb) as Hb'.
    pose proof (rep_mul m A P HA HP _ _ _ _ Hz Hc) as Hzc. pose proof (rep_square m A P HA HP _ _ Hc) as Hc2.
    pose proof (rep_mul m A P HA HP _ _ _ _ Ht Hc2) as Htc. pose proof (rep_one m P HP) as H1.
    unfold pasta_ts_step, ts_step, pasta_is_one. cbv zeta. fold A P.
    destruct (pasta_flag_eq (square_times A (i - 2) b) (fp_R P)) as [E _]; [eapply repw; eassumption..|].
    rewrite E. split; [reflexivity|].
    assert (FL : 0 <= - equal_helper (square_times A (i - 2) b) (fp_R P) + 1 <= 1).
    { rewrite equal_helper_ok by (eapply repw; eassumption). destruct (_ =? _); lia. }
    rewrite !(ao_select _ _ HA) by (try (eapply repw; eassumption); exact FL).
    destruct (_ =? 0); [exists vz, vt, vt, (vc * vc)|exists (vz * vc), (vt * (vc * vc)), (vt * (vc * vc)), (vc * vc)]; tauto.
  Qed.
  Lemma ts_steps_eq l : forall st, ts_reps st ->
    fold_left (pasta_ts_step F) l st = fold_left (ts_step P A) l st /\ ts_reps (fold_left (ts_step P A) l st).
  Proof.
    induction l as [|i l IH]; intros st H; [split; [reflexivity|exact H]|].
    cbn [fold_left]. destruct (ts_step_eq st i H) as [E H']. rewrite E. apply IH, H'.
  Qed.

  Lemma pasta_sqrt_eq g x v : rep m (pf_c5 F) g -> words4 (pf_c3 F) -> rep m x v -> exists z b, pasta_sqrt F x = (z, b) /\
    forall out, words4 out -> sqrt_ts P A (pf_s F) (pf_c3 F) (pf_c5 F) out x = (if b then 1 else 0, if b then z else out).
  Proof.
    intros H5 H3 Hx. unfold pasta_sqrt, sqrt_ts, ts_indices. cbv zeta.
    pose proof (rep_pow m A P HA HP x v _ H3 Hx) as Hz0.
    pose proof (rep_square m A P HA HP _ _ Hz0) as Ht0.
    pose proof (rep_mul m A P HA HP _ _ _ _ Ht0 Hx) as Ht.
    pose proof (rep_mul m A P HA HP _ _ _ _ Hz0 Hx) as Hz.
    unfold pasta_pow, pasta_square, pasta_mul. fold A P.
    match goal with |- context [fold_left (pasta_ts_step F) ?l ?st] =>
      destruct (ts_steps_eq l st) as [E R]; [cbn; do 4 eexists; split; [exact Hz|split; [exact Ht|split; [exact Ht|exact H5]]]|] end.
    rewrite E. revert R. destruct (fold_left (ts_step P A) _ _) as [[[z t] b] c]. unfold ts_reps. intros R. destruct R as (vz & vt & vb & vc & Rz & _).
    pose proof (rep_square m A P HA HP _ _ Rz) as Rzz.
    do 2 eexists. split; [reflexivity|]. intros out Ho.
    destruct (pasta_flag_eq (fa_square A z) x) as [_ E2]; [eapply repw; eassumption..|].
    rewrite <- E2. rewrite (ao_select _ _ HA); [|exact Ho|eapply repw; exact Rz|destruct (pasta_equal _ _); lia].
    destruct (pasta_equal _ _); reflexivity.
  Qed.
End Sqrt.

(** the constants *)
Definition pastafp_root : Z := 0x2bce74deac30ebda362120830561f81aea322bf2b7bb7584bdad6fabd87ea32f.
Definition pastafq_root : Z := 0x2de6a9b8746d3f589e5c4dfd492ae26e9bb97ea3c106f049a70e2c1102b6d05f.
Lemma pastafp_c5 : rep pastafp_m (pf_c5 pastafp_field) pastafp_root /\ cong pastafp_m (pw pastafp_root (2 ^ 31)) (-1).
Proof.
  split; [apply rep_const; vm_compute; reflexivity|].
  change (2 ^ 31) with 2147483648. apply (pw_const _ (2 ^ 512 / pastafp_m) 0 512); vm_compute; reflexivity.
Qed.
Lemma pastafq_c5 : rep pastafq_m (pf_c5 pastafq_field) pastafq_root /\ cong pastafq_m (pw pastafq_root (2 ^ 31)) (-1).
Proof.
  split; [apply rep_const; vm_compute; reflexivity|].
  change (2 ^ 31) with 2147483648. apply (pw_const _ (2 ^ 512 / pastafq_m) 0 512); vm_compute; reflexivity.
Qed.

Definition pasta_sqrt_spec (m : Z) (F : pasta_field) : Prop := forall x v, rep m x v ->
  ((exists y, cong m (y * y) v) -> exists r u, pasta_sqrt F x = (r, true) /\ rep m r u /\ cong m (u * u) v) /\
  (~ (exists y, cong m (y * y) v) -> snd (pasta_sqrt F x) = false).

Lemma pasta_sqrt_ok m F g : arith_ok m (pf_arith F) -> params_ok m (pf_params F) -> prime m ->
  (2 <= pf_s F)%nat -> words4 (pf_c3 F) -> 2 ^ Z.of_nat (pf_s F) * (2 * val4 (pf_c3 F) + 1) = m - 1 ->
  rep m (pf_c5 F) g -> cong m (pw g (2 ^ Z.of_nat (pf_s F - 1))) (-1) -> pasta_sqrt_spec m F.
Proof.
  intros HA HP PM Hs W3 E3 H5 N5 x v Hx.
  destruct (pasta_sqrt_eq m F HA HP g x v H5 W3 Hx) as (z & b & E & S).
  assert (W0 : words4 (L4 0 0 0 0)) by (apply words4_consts; vm_compute; reflexivity).
  destruct (sqrt_ts_ok m _ _ HA HP (pf_s F) (pf_c3 F) (pf_c5 F) g Hs W3 E3 H5 N5 PM _ x v W0 Hx) as [T1 T2].
  specialize (S _ W0). rewrite E. split.
  - intros Q. destruct (T1 Q) as (r & u & E' & R & C). rewrite E' in S. destruct b; [|discriminate S].
    injection S as <-. exists r, u. split; [reflexivity|]. split; assumption.
  - intros Q. rewrite (T2 Q) in S. destruct b; [discriminate S|reflexivity].
Qed.
Lemma pastafp_sqrt_ok : pasta_sqrt_spec pastafp_m pastafp_field.
Proof.
  apply (pasta_sqrt_ok _ pastafp_field pastafp_root pastafp_arith_ok pastafp_params_ok pallas_p_prime);
    [cbn; lia|apply words4_consts; vm_compute; reflexivity|vm_compute; reflexivity|exact (proj1 pastafp_c5)|exact (proj2 pastafp_c5)].
Qed.
Lemma pastafq_sqrt_ok : pasta_sqrt_spec pastafq_m pastafq_field.
Proof.
  apply (pasta_sqrt_ok _ pastafq_field pastafq_root pastafq_arith_ok pastafq_params_ok pallas_q_prime);
    [cbn; lia|apply words4_consts; vm_compute; reflexivity|vm_compute; reflexivity|exact (proj1 pastafq_c5)|exact (proj2 pastafq_c5)].
Qed.

(** ** Cmp: decided at the first differing limb, by the sign of the difference as a 64-bit two's complement number *)
Definition limb_verdict (f r : Z) : Z := if f =? r then 0 else if (r - f) mod W <? 2 ^ 63 then -1 else 1.
Definition pst (v : Z) : Z * Z := if v =? 0 then (0, 0) else if v =? 1 then (1, 0) else (0, 1).

Lemma pasta_cmp_limb_ok v f r : v = 0 \/ v = 1 \/ v = -1 -> word f -> word r ->
  pasta_cmp_limb (pst v) f r = pst (if v =? 0 then limb_verdict f r else v).
Proof.
  intros Hv Hf Hr. unfold pasta_cmp_limb, limb_verdict.
  assert (B : forall x, word x -> wshr x 63 = if x <? 2 ^ 63 then 0 else 1).
  { intros x Hx. unfold wshr. rewrite Z.shiftr_div_pow2 by lia. unfold word in Hx. rewrite W_eq in Hx.
    change (2 ^ 63) with 9223372036854775808. destruct (Z.ltb_spec x 9223372036854775808).
    - apply Z.div_small. lia.
    - symmetry. apply Z.div_unique with (x - 9223372036854775808); lia. }
  assert (Wm : forall x, word (x mod W)) by (intros x; apply Z.mod_pos_bound; rewrite W_eq; lia).
  unfold wsub. rewrite !B by apply Wm.
  destruct (Z.eqb_spec f r) as [->|N].
  - rewrite Z.sub_diag, Z.mod_0_l by (rewrite W_eq; lia). change (0 <? 2 ^ 63) with true. cbv iota.
    destruct Hv as [->|[-> | ->]]; reflexivity.
  - assert (E : (f - r) mod W = W - (r - f) mod W).
    { replace (f - r) with (- (r - f)) by ring. apply Z.mod_opp_l_nz; [rewrite W_eq; lia|].
      intros Z0. apply Z.mod_divide in Z0; [|rewrite W_eq; lia]. destruct Z0 as [k Hk].
      unfold word in *. apply N. rewrite W_eq in *. lia. }
    rewrite E. pose proof (Wm (r - f)) as HW. unfold word in HW. set (d := (r - f) mod W) in *.
    rewrite W_eq in *. change (2 ^ 63) with 9223372036854775808.
    destruct (Z.ltb_spec d 9223372036854775808), (Z.ltb_spec (18446744073709551616 - d) 9223372036854775808); try lia;
      destruct Hv as [->|[-> | ->]]; reflexivity.
Qed.
Definition signed_first_limb_verdict (f r : limbs4) : Z :=
  let '(L4 f0 f1 f2 f3) := f in let '(L4 r0 r1 r2 r3) := r in
  let v := limb_verdict f3 r3 in
  let v := if v =? 0 then limb_verdict f2 r2 else v in
  let v := if v =? 0 then limb_verdict f1 r1 else v in
  if v =? 0 then limb_verdict f0 r0 else v.
Lemma limb_verdict_range f r : limb_verdict f r = 0 \/ limb_verdict f r = 1 \/ limb_verdict f r = -1.
Proof. unfold limb_verdict. destruct (_ =? _); [tauto|]. destruct (_ <? _); tauto. Qed.
Lemma pasta_cmp_ok f r : words4 f -> words4 r -> pasta_cmp f r = signed_first_limb_verdict f r.
Proof.
  destruct f as [f0 f1 f2 f3], r as [r0 r1 r2 r3]. intros (?&?&?&?) (?&?&?&?).
  unfold pasta_cmp, signed_first_limb_verdict. cbv zeta. change (0, 0) with (pst 0).
  rewrite pasta_cmp_limb_ok by (assumption || tauto). change (0 =? 0) with true. cbv iota.
  set (v3 := limb_verdict f3 r3). assert (V3 : v3 = 0 \/ v3 = 1 \/ v3 = -1) by apply limb_verdict_range.
  rewrite pasta_cmp_limb_ok by assumption. set (v2 := if v3 =? 0 then limb_verdict f2 r2 else v3).
  assert (V2 : v2 = 0 \/ v2 = 1 \/ v2 = -1) by (unfold v2; destruct (v3 =? 0); [apply limb_verdict_range|exact V3]).
  rewrite pasta_cmp_limb_ok by assumption. set (v1 := if v2 =? 0 then limb_verdict f1 r1 else v2).
  assert (V1 : v1 = 0 \/ v1 = 1 \/ v1 = -1) by (unfold v1; destruct (v2 =? 0); [apply limb_verdict_range|exact V2]).
  rewrite pasta_cmp_limb_ok by assumption. set (v0 := if v1 =? 0 then limb_verdict f0 r0 else v1).
  assert (V0 : v0 = 0 \/ v0 = 1 \/ v0 = -1) by (unfold v0; destruct (v1 =? 0); [apply limb_verdict_range|exact V1]).
  destruct V0 as [->|[-> | ->]]; reflexivity.
Qed.
