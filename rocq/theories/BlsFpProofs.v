(** * The BLS12-381 base field: its methods compute modulo the prime. *)
From Coq Require Import ZArith Lia List Bool Znumtheory.
From Verif Require Import LimbBase LimbSpec LimbProofs LimbBls LimbBlsProofs LimbBlsProofs2 LimbFiat
  NativeField NativeFieldProofs NativeArithProofs NativePowProofs ZCong BlsFp PrimeBlsP.
Import ListNotations.
Open Scope Z_scope.

Definition rep6 (x : limbs6) (v : Z) : Prop := reduced6 x /\ cong fpM (val6 x) (v * 2 ^ 384).
Lemma W6 : W ^ 6 = 2 ^ 384.
Proof. reflexivity. Qed.
Lemma fpM_pos : 1 < fpM.
Proof. reflexivity. Qed.
Lemma fpM_R n : 0 <= n -> rel_prime fpM (2 ^ n).
Proof. apply rel_prime_pow2. reflexivity. Qed.
Lemma mont6 x y k : val6 x * W ^ 6 = y + k * fpM -> cong fpM (val6 x * 2 ^ 384) y.
Proof. rewrite W6. intros E. rewrite E. apply cong_add_m. Qed.

Lemma words6_consts a b c d e f :
  ((0 <=? a) && (a <? W) && (0 <=? b) && (b <? W) && (0 <=? c) && (c <? W) && (0 <=? d) && (d <? W) && (0 <=? e) && (e <? W) && (0 <=? f) && (f <? W))%bool = true ->
  words6 (L6 a b c d e f).
Proof. cbn. unfold word. rewrite !andb_true_iff, !Z.leb_le, !Z.ltb_lt. tauto. Qed.

Lemma rep6_words x v : rep6 x v -> words6 x.
Proof. intros [[H _] _]. exact H. Qed.
Lemma rep6_represents x v : rep6 x v -> represents6 fpM x (v mod fpM).
Proof.
  pose proof fpM_pos as M. intros [[Wx Lx] D]. pose proof (val6_range x Wx).
  split; [exact Wx|]. split; [exact Lx|]. split; [apply Z.mod_pos_bound; lia|].
  rewrite <- (Z.mod_small (val6 x) fpM) by lia. apply cong_mod_eq; [lia|].
  apply (cong_trans _ _ _ _ D). apply cong_mul; [|apply cong_refl]. apply cong_sym, cong_mod. lia.
Qed.
Lemma represents_rep6 x v : represents6 fpM x v -> rep6 x v.
Proof.
  pose proof fpM_pos as M. intros (Wx & Lx & Hv & E). split; [split; assumption|]. rewrite E. apply cong_mod. lia.
Qed.
Lemma rep6_inj x y v w : rep6 x v -> rep6 y w -> (x = y <-> cong fpM v w).
Proof.
  intros [[Wx Lx] Dx] [[Wy Ly] Dy]. split.
  - intros ->. apply (cong_cancel fpM (2 ^ 384)); [apply fpM_R; lia|].
    apply (cong_trans _ _ (val6 y)); [apply cong_sym; exact Dx|exact Dy].
  - intros C. apply val6_inj; [assumption..|].
    pose proof (val6_range x Wx). pose proof (val6_range y Wy).
    apply (cong_small fpM); [lia..|]. apply (cong_trans _ _ _ _ Dx).
    apply (cong_trans _ _ (w * 2 ^ 384)); [apply cong_mul; [exact C|apply cong_refl]|apply cong_sym; exact Dy].
Qed.
Lemma rep6_mul x y v w : rep6 x v -> rep6 y w -> rep6 (fp_mul x y) (v * w).
Proof.
  intros [[Wx Lx] Dx] [Cy Dy]. apply fp_mul_elim; [exact Wx|exact Cy|]. intros o Ho [k E].
  split; [exact Ho|]. apply (cong_cancel fpM (2 ^ 384)); [apply fpM_R; lia|].
  apply mont6 in E. apply (cong_trans _ _ _ _ E).
  replace (v * w * 2 ^ 384 * 2 ^ 384) with ((v * 2 ^ 384) * (w * 2 ^ 384)) by ring. apply cong_mul; assumption.
Qed.
Lemma rep6_square x v : rep6 x v -> rep6 (fp_square x) (v * v).
Proof.
  intros [Cx Dx]. apply fp_square_elim; [exact Cx|]. intros o Ho [k E].
  split; [exact Ho|]. apply (cong_cancel fpM (2 ^ 384)); [apply fpM_R; lia|].
  apply mont6 in E. apply (cong_trans _ _ _ _ E).
  replace (v * v * 2 ^ 384 * 2 ^ 384) with ((v * 2 ^ 384) * (v * 2 ^ 384)) by ring. apply cong_mul; assumption.
Qed.
Lemma cong_if_add m b a k : cong m (if b : bool then a else a - m) k <-> cong m a k.
Proof.
  destruct b; [reflexivity|]. split; intros [q E]; [exists (q + 1)|exists (q - 1)]; lia.
Qed.
Lemma rep6_add x y v w : rep6 x v -> rep6 y w -> rep6 (fp_add x y) (v + w).
Proof.
  intros [Cx Dx] [Cy Dy]. apply fp_add_elim; [exact Cx|exact Cy|]. intros o Ho E.
  split; [exact Ho|]. rewrite E. apply cong_if_add. rewrite Z.mul_add_distr_r. apply cong_add; assumption.
Qed.
Lemma rep6_sub x y v w : rep6 x v -> rep6 y w -> rep6 (fp_sub x y) (v - w).
Proof.
  intros [[Wx Lx] Dx] [[Wy Ly] Dy]. pose proof (val6_range x Wx). pose proof (val6_range y Wy).
  apply fp_sub_elim; [exact Wx|exact Wy|lia|]. intros o Ho E.
  assert (L : val6 o < fpM) by (rewrite E; destruct (Z.ltb_spec (val6 x) (val6 y)); lia).
  split; [exact (conj Ho L)|]. rewrite E. rewrite Z.mul_sub_distr_r.
  apply (cong_trans _ _ (val6 x - val6 y)); [|apply cong_sub; assumption].
  destruct (_ <? _); [exists 1; ring|apply cong_refl].
Qed.
Lemma rep6_neg x v : rep6 x v -> rep6 (fp_neg x) (- v).
Proof.
  intros [Cx Dx]. pose proof (val6_range x (proj1 Cx)). apply fp_neg_elim; [exact Cx|]. intros o Ho E.
  split; [exact Ho|]. rewrite E. rewrite Z.mul_opp_l.
  apply (cong_trans _ _ (- val6 x)); [|apply cong_opp; exact Dx].
  destruct (Z.ltb_spec 0 (val6 x)); [exists 1; ring|]. replace (val6 x) with 0 by lia. apply cong_refl.
Qed.

(** constants *)
Lemma r_ok : words6 fp_r /\ val6 fp_r = 2 ^ 384 mod fpM.
Proof. split; [apply words6_consts; vm_compute; reflexivity|vm_compute; reflexivity]. Qed.
Lemma r2_ok : words6 fp_r2 /\ val6 fp_r2 = 2 ^ 768 mod fpM.
Proof. split; [apply words6_consts; vm_compute; reflexivity|vm_compute; reflexivity]. Qed.
Lemma r3_ok : words6 fp_r3 /\ val6 fp_r3 = 2 ^ 1152 mod fpM.
Proof. split; [apply words6_consts; vm_compute; reflexivity|vm_compute; reflexivity]. Qed.
Lemma words6_0 : words6 (L6 0 0 0 0 0 0).
Proof. apply words6_consts; vm_compute; reflexivity. Qed.
Lemma rep6_one : rep6 blsfp_one 1.
Proof.
  destruct r_ok as [Wr E]. pose proof fpM_pos. split; [split; [exact Wr|]|].
  - unfold blsfp_one. rewrite E. apply Z.mod_pos_bound. lia.
  - unfold blsfp_one. rewrite E, Z.mul_1_l. apply cong_mod. lia.
Qed.
Lemma rep6_zero : rep6 blsfp_zero 0.
Proof. split; [split; [exact words6_0|reflexivity]|apply cong_refl]. Qed.
(** multiplying any limbs by r2 or r3 *)
Lemma mul_r2 x : words6 x -> rep6 (fp_mul x fp_r2) (val6 x).
Proof.
  intros Wx. destruct r2_ok as [W2 E2]. pose proof fpM_pos.
  apply fp_mul_elim; [exact Wx|split; [exact W2|rewrite E2; apply Z.mod_pos_bound; lia]|].
  intros o Ho [k E]. split; [exact Ho|]. apply (cong_cancel fpM (2 ^ 384)); [apply fpM_R; lia|].
  apply mont6 in E. apply (cong_trans _ _ _ _ E). rewrite E2.
  replace (val6 x * 2 ^ 384 * 2 ^ 384) with (val6 x * 2 ^ 768) by (change (2 ^ 768) with (2 ^ 384 * 2 ^ 384); ring).
  apply cong_mul; [apply cong_refl|apply cong_mod; lia].
Qed.
Lemma mul_r3 x : words6 x -> rep6 (fp_mul x fp_r3) (2 ^ 384 * val6 x).
Proof.
  intros Wx. destruct r3_ok as [W2 E2]. pose proof fpM_pos.
  apply fp_mul_elim; [exact Wx|split; [exact W2|rewrite E2; apply Z.mod_pos_bound; lia]|].
  intros o Ho [k E]. split; [exact Ho|]. apply (cong_cancel fpM (2 ^ 384)); [apply fpM_R; lia|].
  apply mont6 in E. apply (cong_trans _ _ _ _ E). rewrite E2.
  replace (2 ^ 384 * val6 x * 2 ^ 384 * 2 ^ 384) with (val6 x * 2 ^ 1152) by (change (2 ^ 1152) with (2 ^ 384 * 2 ^ 384 * 2 ^ 384); ring).
  apply cong_mul; [apply cong_refl|apply cong_mod; lia].
Qed.
Lemma rep6_from x v : rep6 x v -> words6 (blsfp_from_mont x) /\ val6 (blsfp_from_mont x) = v mod fpM.
Proof.
  intros [[Wx Lx] Dx]. destruct x as [x0 x1 x2 x3 x4 x5]. destruct Wx as (w0&w1&w2&w3&w4&w5).
  pose proof word0. pose proof fpM_pos. pose proof (val6_range (L6 x0 x1 x2 x3 x4 x5) (conj w0 (conj w1 (conj w2 (conj w3 (conj w4 w5)))))).
  unfold blsfp_from_mont. change (val6 (L6 0 0 0 0 0 0)) with 0 in *.
  apply fp_mont_reduce_elim; try assumption.
  - change (val6 (L6 0 0 0 0 0 0)) with 0. assert (0 < W ^ 6) by reflexivity. nia.
  - change (val6 (L6 0 0 0 0 0 0)) with 0. intros o Ho Lo [k E]. split; [exact Ho|]. pose proof (val6_range o Ho).
    apply (cong_small fpM); [lia|apply Z.mod_pos_bound; lia|].
    apply (cong_cancel fpM (2 ^ 384)); [apply fpM_R; lia|].
    rewrite Z.mul_0_r, Z.add_0_r in E. apply mont6 in E. apply (cong_trans _ _ _ _ E). apply (cong_trans _ _ _ _ Dx).
    apply cong_mul; [|apply cong_refl]. apply cong_sym, cong_mod. lia.
Qed.

(** tests and selection *)
Lemma blsfp_is_zero_ok a : words6 a -> blsfp_is_zero a = if val6 a =? 0 then 1 else 0.
Proof.
  destruct a as [a0 a1 a2 a3 a4 a5]. intros (?&?&?&?&?&?). unfold blsfp_is_zero. cbv zeta.
  destruct (or6 a0 a1 a2 a3 a4 a5) as [Wt Zt]; try assumption. rewrite neg_or_neg1 by exact Wt.
  destruct (Z.eqb_spec (wor (wor (wor (wor (wor a0 a1) a2) a3) a4) a5) 0) as [E|E];
    destruct (Z.eqb_spec (val6 (L6 a0 a1 a2 a3 a4 a5)) 0) as [E'|E']; try reflexivity; exfalso; tauto.
Qed.
Lemma blsfp_is_non_zero_ok a : words6 a -> blsfp_is_non_zero a = if val6 a =? 0 then 0 else 1.
Proof.
  destruct a as [a0 a1 a2 a3 a4 a5]. intros (?&?&?&?&?&?). unfold blsfp_is_non_zero. cbv zeta.
  destruct (or6 a0 a1 a2 a3 a4 a5) as [Wt Zt]; try assumption. rewrite neg_or_neg1 by exact Wt.
  destruct (Z.eqb_spec (wor (wor (wor (wor (wor a0 a1) a2) a3) a4) a5) 0) as [E|E];
    destruct (Z.eqb_spec (val6 (L6 a0 a1 a2 a3 a4 a5)) 0) as [E'|E']; try reflexivity; exfalso; tauto.
Qed.
Lemma blsfp_equal_ok a b : words6 a -> words6 b -> blsfp_equal a b = if val6 a =? val6 b then 1 else 0.
Proof.
  intros Ha Hb. pose proof (val6_inj a b Ha Hb) as INJ.
  destruct a as [a0 a1 a2 a3 a4 a5], b as [b0 b1 b2 b3 b4 b5].
  destruct Ha as (?&?&?&?&?&?), Hb as (?&?&?&?&?&?). unfold blsfp_equal. cbv zeta.
  destruct (or6 (wxor a0 b0) (wxor a1 b1) (wxor a2 b2) (wxor a3 b3) (wxor a4 b4) (wxor a5 b5)) as [Wt _];
    try (apply wxor_word; assumption).
  rewrite neg_or_neg1 by exact Wt.
  destruct (Z.eqb_spec (val6 (L6 a0 a1 a2 a3 a4 a5)) (val6 (L6 b0 b1 b2 b3 b4 b5))) as [E|E].
  - injection (INJ E) as -> -> -> -> -> ->. unfold wxor. rewrite !Z.lxor_nilpotent. reflexivity.
  - destruct (Z.eqb_spec (wor (wor (wor (wor (wor (wxor a0 b0) (wxor a1 b1)) (wxor a2 b2)) (wxor a3 b3)) (wxor a4 b4)) (wxor a5 b5)) 0) as [Z0|]; [exfalso|reflexivity].
    apply E. rewrite !lor_zero in Z0. unfold wxor in Z0. rewrite !Z.lxor_eq_0_iff in Z0.
    destruct Z0 as [[[[[-> ->] ->] ->] ->] ->]. reflexivity.
Qed.
Lemma rep6_equal x y v w : rep6 x v -> rep6 y w ->
  (blsfp_equal x y = 1 /\ cong fpM v w) \/ (blsfp_equal x y = 0 /\ ~ cong fpM v w).
Proof.
  intros Hx Hy. pose proof (rep6_inj _ _ _ _ Hx Hy) as I.
  rewrite blsfp_equal_ok by (eapply rep6_words; eassumption).
  destruct (Z.eqb_spec (val6 x) (val6 y)) as [E|E]; [left|right]; (split; [reflexivity|]).
  - apply I. apply val6_inj; [eapply rep6_words; eassumption..|exact E].
  - intros C. apply E. f_equal. apply I, C.
Qed.
Lemma blsfp_cmp_ok a b : words6 a -> words6 b ->
  blsfp_cmp a b = match val6 a ?= val6 b with Lt => -1 | Eq => 0 | Gt => 1 end.
Proof.
  destruct a as [a0 a1 a2 a3 a4 a5], b as [b0 b1 b2 b3 b4 b5].
  intros (h0&h1&h2&h3&h4&h5) (g0&g1&g2&g3&g4&g5). unfold blsfp_cmp. cbv zeta.
  change (0, 0) with (cmp_state Eq).
  rewrite !cmp_limb_ok by assumption.
  unfold word in *. unfold val6. rewrite W_eq in *.
  repeat match goal with |- context [?x ?= ?y] =>
    lazymatch x with context [18446744073709551616] => fail | _ => destruct (Z.compare_spec x y) end end;
  match goal with |- _ = match ?x ?= ?y with _ => _ end => destruct (Z.compare_spec x y) end; try reflexivity; exfalso; lia.
Qed.
Lemma blsfp_cmove_ok a b c : words6 a -> words6 b -> 0 <= c <= 1 -> blsfp_cmove a b c = if c =? 0 then a else b.
Proof.
  intros Ha Hb Hc. unfold blsfp_cmove. assert (c = 0 \/ c = 1) as [->| ->] by lia.
  - rewrite fp_cmove_mask_ok by (assumption || (left; reflexivity)). reflexivity.
  - rewrite fp_cmove_mask_ok by (assumption || (right; reflexivity)). reflexivity.
Qed.
Lemma blsfp_borrow_elim x y (Q : Z -> Prop) : words6 x -> words6 y -> Q (if val6 x <? val6 y then 1 else 0) -> Q (blsfp_borrow x y).
Proof.
  destruct x as [x0 x1 x2 x3 x4 x5], y as [y0 y1 y2 y3 y4 y5].
  intros (?&?&?&?&?&?) (?&?&?&?&?&?) HQ.
  cbv delta [blsfp_borrow] beta iota.
  do 6 step1.
  match goal with |- Q ?b => replace b with (if val6 (L6 x0 x1 x2 x3 x4 x5) <? val6 (L6 y0 y1 y2 y3 y4 y5) then 1 else 0); [exact HQ|] end.
  clear HQ. unfold word, val6 in *. rewrite W_eq in *.
  match goal with |- context [?x <? ?y] => destruct (Z.ltb_spec x y) end; lia.
Qed.
Lemma blsfp_borrow_ok x y : words6 x -> words6 y -> blsfp_borrow x y = if val6 x <? val6 y then 1 else 0.
Proof. intros Hx Hy. apply (blsfp_borrow_elim x y (fun b => b = if val6 x <? val6 y then 1 else 0)); auto. Qed.

(** powers *)
Lemma rep6_pow_bit base v e j res E : word e -> 0 <= j < 64 -> 0 <= E -> rep6 base v -> rep6 res (pw v E) ->
  rep6 (blsfp_pow_bit base e res j) (pw v (2 * E + (if Z.testbit e j then 1 else 0))).
Proof.
  intros He Hj HE Hb Hr. unfold blsfp_pow_bit. rewrite to_int64_bit by assumption.
  apply rep6_square in Hr. rewrite <- pw_add in Hr by assumption.
  pose proof (rep6_mul _ _ _ _ Hr Hb) as Hm.
  rewrite blsfp_cmove_ok; [|eapply rep6_words; eassumption|eapply rep6_words; eassumption|destruct (Z.testbit e j); lia].
  destruct (Z.testbit e j).
  - replace (2 * E + 1) with (E + E + 1) by ring. rewrite pw_add, pw_1 by lia. exact Hm.
  - replace (2 * E + 0) with (E + E) by ring. exact Hr.
Qed.
Lemma rep6_pow_limb_from base v e : word e -> rep6 base v -> forall n res E, (n <= 64)%nat -> 0 <= E ->
  rep6 res (pw v E) ->
  rep6 (fold_left (blsfp_pow_bit base e) (map Z.of_nat (rev (seq 0 n))) res)
    (pw v (2 ^ Z.of_nat n * E + e mod 2 ^ Z.of_nat n)).
Proof.
  intros He Hb. induction n as [|n IH]; intros res E Hn HE Hr.
  - cbn [seq rev map fold_left]. rewrite Z.pow_0_r, Z.mod_1_r. replace (1 * E + 0) with E by ring. exact Hr.
  - rewrite seq_S, rev_app_distr. cbn [rev app map fold_left Nat.add].
    pose proof (rep6_pow_bit base v e (Z.of_nat n) res E He ltac:(lia) HE Hb Hr) as H1.
    apply IH in H1; [|lia|destruct (Z.testbit _ _); lia].
    replace (2 ^ Z.of_nat (S n) * E + e mod 2 ^ Z.of_nat (S n))
      with (2 ^ Z.of_nat n * (2 * E + (if Z.testbit e (Z.of_nat n) then 1 else 0)) + e mod 2 ^ Z.of_nat n); [exact H1|].
    rewrite Nat2Z.inj_succ, Z.pow_succ_r by lia.
    assert (P : 0 < 2 ^ Z.of_nat n) by (apply Z.pow_pos_nonneg; lia).
    rewrite (Z.mul_comm 2 (2 ^ Z.of_nat n)), Z.rem_mul_r by lia.
    pose proof (Z.testbit_spec' e (Z.of_nat n) ltac:(lia)) as T.
    replace ((e / 2 ^ Z.of_nat n) mod 2) with (if Z.testbit e (Z.of_nat n) then 1 else 0) by (rewrite <- T; destruct (Z.testbit _ _); reflexivity).
    ring.
Qed.
Lemma rep6_pow_limb base v e res E : word e -> 0 <= E -> rep6 base v -> rep6 res (pw v E) ->
  rep6 (blsfp_pow_limb base res e) (pw v (W * E + e)).
Proof.
  intros He HE Hb Hr. unfold blsfp_pow_limb, down64.
  pose proof (rep6_pow_limb_from base v e He Hb 64 res E (le_n 64) HE Hr) as H.
  change (2 ^ Z.of_nat 64) with W in H. rewrite (Z.mod_small e W) in H by exact He. exact H.
Qed.
Lemma rep6_pow base v e : words6 e -> rep6 base v -> rep6 (blsfp_pow base e) (pw v (val6 e)).
Proof.
  destruct e as [e0 e1 e2 e3 e4 e5]. intros (h0&h1&h2&h3&h4&h5) Hb. unfold blsfp_pow. cbn [fold_left].
  pose proof rep6_one as H. rewrite <- (pw_0 v) in H.
  assert (Wp : 0 < W) by (rewrite W_eq; lia).
  apply (rep6_pow_limb base v e5) in H; [|assumption|lia|assumption].
  apply (rep6_pow_limb base v e4) in H; [|assumption|unfold word in *; nia|assumption].
  apply (rep6_pow_limb base v e3) in H; [|assumption|unfold word in *; nia|assumption].
  apply (rep6_pow_limb base v e2) in H; [|assumption|unfold word in *; nia|assumption].
  apply (rep6_pow_limb base v e1) in H; [|assumption|unfold word in *; nia|assumption].
  apply (rep6_pow_limb base v e0) in H; [|assumption|unfold word in *; nia|assumption].
  replace (val6 (L6 e0 e1 e2 e3 e4 e5)) with (W * (W * (W * (W * (W * (W * 0 + e5) + e4) + e3) + e2) + e1) + e0); [exact H|].
  unfold val6. ring.
Qed.

(** bytes *)
Lemma slice_split6 (bs : list Z) : length bs = 48%nat ->
  bs = slice 0 8 bs ++ slice 8 16 bs ++ slice 16 24 bs ++ slice 24 32 bs ++ slice 32 40 bs ++ slice 40 48 bs /\
  length (slice 0 8 bs) = 8%nat /\ length (slice 8 16 bs) = 8%nat /\ length (slice 16 24 bs) = 8%nat /\
  length (slice 24 32 bs) = 8%nat /\ length (slice 32 40 bs) = 8%nat /\ length (slice 40 48 bs) = 8%nat.
Proof.
  intros L. do 48 (destruct bs as [|? bs]; [discriminate L|]). destruct bs; [|discriminate L]. repeat split; reflexivity.
Qed.
Lemma blsfp_limbs_of_bytes bs : is_bytes bs -> length bs = 48%nat ->
  let t := L6 (get_uint64 (slice 0 8 bs)) (get_uint64 (slice 8 16 bs)) (get_uint64 (slice 16 24 bs))
              (get_uint64 (slice 24 32 bs)) (get_uint64 (slice 32 40 bs)) (get_uint64 (slice 40 48 bs)) in
  words6 t /\ val6 t = le_val bs.
Proof.
  intros B L. destruct (slice_split6 bs L) as (E & L0 & L1 & L2 & L3 & L4' & L5). cbv zeta.
  change get_uint64 with le_val. rewrite E in B. unfold is_bytes in B. rewrite !Forall_app in B.
  destruct B as (B0 & B1 & B2 & B3 & B4 & B5).
  split; [cbn; split; [|split; [|split; [|split; [|split]]]]; apply bytes_word; assumption|].
  rewrite E at 7. rewrite !le_val_app, L0, L1, L2, L3, L4'. unfold val6. change (256 ^ Z.of_nat 8) with W. reflexivity.
Qed.
Lemma blsfp_put_bytes t0 t1 t2 t3 t4 t5 : words6 (L6 t0 t1 t2 t3 t4 t5) ->
  let bs := put_uint64 t0 ++ put_uint64 t1 ++ put_uint64 t2 ++ put_uint64 t3 ++ put_uint64 t4 ++ put_uint64 t5 in
  le_val bs = val6 (L6 t0 t1 t2 t3 t4 t5) /\ is_bytes bs /\ length bs = 48%nat.
Proof.
  intros (h0&h1&h2&h3&h4&h5). cbv zeta.
  destruct (put_uint64_ok t0 h0) as (E0 & B0 & L0). destruct (put_uint64_ok t1 h1) as (E1 & B1 & L1).
  destruct (put_uint64_ok t2 h2) as (E2 & B2 & L2). destruct (put_uint64_ok t3 h3) as (E3 & B3 & L3).
  destruct (put_uint64_ok t4 h4) as (E4 & B4 & L4'). destruct (put_uint64_ok t5 h5) as (E5 & B5 & L5).
  split; [|split].
  - rewrite !le_val_app, E0, E1, E2, E3, E4, E5, L0, L1, L2, L3, L4'. change (256 ^ Z.of_nat 8) with W. reflexivity.
  - unfold is_bytes. rewrite !Forall_app. tauto.
  - rewrite !app_length, L0, L1, L2, L3, L4', L5. reflexivity.
Qed.
