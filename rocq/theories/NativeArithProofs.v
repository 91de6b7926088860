(** * The five arithmetic records are correct. *)
From Coq Require Import ZArith Lia List Bool Znumtheory.
From Verif Require Import LimbBase LimbSpec LimbProofs LimbBls LimbBlsProofs LimbBlsProofs2 LimbFiat
  LimbK256Fp LimbK256Fq LimbP256Fp LimbP256Fq LimbK256FpProofs LimbK256FqProofs LimbP256FpProofs LimbP256FqProofs
  NativeField NativeChains NativeInstances NativeFieldProofs ZCong.
Import ListNotations.
Open Scope Z_scope.

Lemma words4_consts a b c d : ((0 <=? a) && (a <? W) && (0 <=? b) && (b <? W) && (0 <=? c) && (c <? W) && (0 <=? d) && (d <? W))%bool = true ->
  words4 (L4 a b c d).
Proof. cbn. unfold word. rewrite !andb_true_iff, !Z.leb_le, !Z.ltb_lt. tauto. Qed.

Ltac params_tac := constructor; cbn [fp_R fp_R2 fp_R3 fp_Modulus fp_BiModulus];
  first [ split; [apply words4_consts; vm_compute; reflexivity | vm_compute; reflexivity]
        | split; vm_compute; reflexivity | vm_compute; reflexivity ].

Lemma k256fp_params_ok : params_ok k256fp_m k256fp_params.
Proof. params_tac. Qed.
Lemma k256fq_params_ok : params_ok k256fq_m k256fq_params.
Proof. params_tac. Qed.
Lemma p256fp_params_ok : params_ok p256fp_m p256fp_params.
Proof. params_tac. Qed.
Lemma p256fq_params_ok : params_ok p256fq_m p256fq_params.
Proof. params_tac. Qed.
Lemma blsfq_params_ok : params_ok fqM blsfq_params.
Proof. params_tac. Qed.

Lemma to_uint64_bit c : 0 <= c <= 1 -> to_uint64 c = c.
Proof. intros H. unfold to_uint64. apply Z.mod_small. rewrite W_eq. lia. Qed.

Ltac fiat_arith m ar mul sq from to add sub fb tb sel :=
  constructor; unfold ar; cbn [fa_mul fa_square fa_from_mont fa_to_mont fa_add fa_sub fa_from_bytes fa_to_bytes fa_selectznz];
  [ intros a b Ha [Hb Lb]; apply mul; [exact Ha|exact Hb|exact Lb|]; intros o Ho Lo K; exact (conj (conj Ho Lo) K)
  | intros a [Ha La]; apply sq; [exact Ha|exact La|]; intros o Ho Lo K; exact (conj (conj Ho Lo) K)
  | intros a Ha; apply from; [exact Ha|]; intros o Ho Lo K; exact (conj (conj Ho Lo) K)
  | intros a Ha; apply to; [exact Ha|]; intros o Ho Lo [k K]; split; [exact (conj Ho Lo)|]; exists k;
    match type of K with _ = _ * ?r + _ => replace (2 ^ 512 mod m) with r by (vm_compute; reflexivity) end; exact K
  | intros a b [Ha La] [Hb Lb]; apply add; [exact Ha|exact Hb|unfold m in La, Lb; lia|]; intros o Ho E;
    pose proof (val4_range a Ha); pose proof (val4_range b Hb);
    match type of E with context [?x <? ?y] => destruct (Z.ltb_spec x y) end; unfold m in *;
    (split; [split; [exact Ho|rewrite E; lia]|rewrite E; first [exists 0; lia | exists (-1); lia]])
  | intros a b [Ha La] [Hb Lb]; pose proof (val4_range a Ha); pose proof (val4_range b Hb);
    apply sub; [exact Ha|exact Hb|unfold m in La, Lb; lia|]; intros o Ho E;
    match type of E with context [?x <? ?y] => destruct (Z.ltb_spec x y) end; unfold m in *;
    (split; [split; [exact Ho|rewrite E; lia]|rewrite E; first [exists 0; lia | exists 1; lia]])
  | exact fb
  | exact tb
  | intros a b c Ha Hb Hc; rewrite to_uint64_bit by exact Hc; apply sel; assumption ].

Lemma k256fp_arith_ok : arith_ok k256fp_m k256fp_arith.
Proof. fiat_arith k256fp_m k256fp_arith k256fp_mul_elim k256fp_square_elim k256fp_from_montgomery_elim k256fp_to_montgomery_elim
  k256fp_add_elim k256fp_sub_elim k256fp_from_bytes_ok k256fp_bytes_ok k256fp_select. Qed.
Lemma k256fq_arith_ok : arith_ok k256fq_m k256fq_arith.
Proof. fiat_arith k256fq_m k256fq_arith k256fq_mul_elim k256fq_square_elim k256fq_from_montgomery_elim k256fq_to_montgomery_elim
  k256fq_add_elim k256fq_sub_elim k256fq_from_bytes_ok k256fq_bytes_ok k256fq_select. Qed.
Lemma p256fp_arith_ok : arith_ok p256fp_m p256fp_arith.
Proof. fiat_arith p256fp_m p256fp_arith p256fp_mul_elim p256fp_square_elim p256fp_from_montgomery_elim p256fp_to_montgomery_elim
  p256fp_add_elim p256fp_sub_elim p256fp_from_bytes_ok p256fp_bytes_ok p256fp_select. Qed.
Lemma p256fq_arith_ok : arith_ok p256fq_m p256fq_arith.
Proof. fiat_arith p256fq_m p256fq_arith p256fq_mul_elim p256fq_square_elim p256fq_from_montgomery_elim p256fq_to_montgomery_elim
  p256fq_add_elim p256fq_sub_elim p256fq_from_bytes_ok p256fq_bytes_ok p256fq_select. Qed.

(** encoding/binary *)
Lemma get_uint64_le b : get_uint64 b = le_val b.
Proof. induction b; cbn; [reflexivity|]. rewrite IHb. reflexivity. Qed.

Lemma put_le_ok n : forall x, 0 <= x < 256 ^ Z.of_nat n ->
  le_val (put_le n x) = x /\ is_bytes (put_le n x) /\ length (put_le n x) = n.
Proof.
  induction n as [|n IH]; intros x Hx.
  - cbn in Hx |- *. repeat split; [lia|constructor].
  - rewrite Nat2Z.inj_succ, Z.pow_succ_r in Hx by lia. cbn [put_le le_val length].
    pose proof (Z.div_mod x 256 ltac:(lia)). pose proof (Z.mod_pos_bound x 256 ltac:(lia)).
    destruct (IH (x / 256)) as (E & B & L).
    { split; [apply Z.div_pos; lia|]. apply Z.div_lt_upper_bound; lia. }
    rewrite E, L. repeat split; [lia|]. constructor; [lia|exact B].
Qed.

Lemma put_uint64_ok x : word x -> le_val (put_uint64 x) = x /\ is_bytes (put_uint64 x) /\ length (put_uint64 x) = 8%nat.
Proof. intros H. apply put_le_ok. exact H. Qed.

Lemma blsfq_to_bytes_ok a : words4 a ->
  le_val (blsfq_to_bytes a) = val4 a /\ is_bytes (blsfq_to_bytes a) /\ length (blsfq_to_bytes a) = 32%nat.
Proof.
  destruct a as [a0 a1 a2 a3]. intros (h0&h1&h2&h3). unfold blsfq_to_bytes.
  destruct (put_uint64_ok a0 h0) as (E0 & B0 & L0). destruct (put_uint64_ok a1 h1) as (E1 & B1 & L1).
  destruct (put_uint64_ok a2 h2) as (E2 & B2 & L2). destruct (put_uint64_ok a3 h3) as (E3 & B3 & L3).
  rewrite !le_val_app, E0, E1, E2, E3, L0, L1, L2, !app_length, L0, L1, L2, L3.
  split; [|split; [|reflexivity]].
  - change (256 ^ Z.of_nat 8) with W. unfold val4. ring.
  - unfold is_bytes in *. rewrite !Forall_app. tauto.
Qed.

Lemma slice_split (bs : list Z) : length bs = 32%nat ->
  bs = slice 0 8 bs ++ slice 8 16 bs ++ slice 16 24 bs ++ slice 24 32 bs /\
  length (slice 0 8 bs) = 8%nat /\ length (slice 8 16 bs) = 8%nat /\
  length (slice 16 24 bs) = 8%nat /\ length (slice 24 32 bs) = 8%nat.
Proof.
  intros L. do 32 (destruct bs as [|? bs]; [discriminate L|]). destruct bs; [|discriminate L].
  cbn. tauto.
Qed.

Lemma bytes_word bs : is_bytes bs -> length bs = 8%nat -> word (le_val bs).
Proof. intros B L. pose proof (le_val_range bs B) as H. rewrite L in H. exact H. Qed.

Lemma blsfq_from_bytes_ok bs : is_bytes bs -> length bs = 32%nat ->
  words4 (blsfq_from_bytes bs) /\ val4 (blsfq_from_bytes bs) = le_val bs.
Proof.
  intros B L. destruct (slice_split bs L) as (E & L0 & L1 & L2 & L3).
  unfold blsfq_from_bytes. change get_uint64 with le_val. rewrite E in B.
  unfold is_bytes in B. rewrite !Forall_app in B. destruct B as (B0 & B1 & B2 & B3).
  split.
  - cbn [words4]. repeat split; apply bytes_word; assumption.
  - transitivity (le_val (slice 0 8 bs ++ slice 8 16 bs ++ slice 16 24 bs ++ slice 24 32 bs)); [|rewrite <- E; reflexivity]. rewrite !le_val_app, L0, L1, L2. change (256 ^ Z.of_nat 8) with W. unfold val4. change get_uint64 with le_val. ring.
Qed.

Lemma word0 : word 0.
Proof. unfold word. rewrite W_eq. lia. Qed.

Lemma blsfq_select_ok a b c : words4 a -> words4 b -> 0 <= c <= 1 ->
  blsfq_selectznz a b c = if c =? 0 then a else b.
Proof.
  intros Ha Hb Hc. unfold blsfq_selectznz. cbv zeta.
  assert (c = 0 \/ c = 1) as [->| ->] by lia.
  - rewrite fq_select_mask_ok; [reflexivity|assumption..|left; reflexivity].
  - rewrite fq_select_mask_ok; [reflexivity|assumption..|right; reflexivity].
Qed.

Lemma blsfq_arith_ok : arith_ok fqM blsfq_arith.
Proof.
  pose proof fqM_eq as M.
  constructor; cbn [blsfq_arith fa_mul fa_square fa_from_mont fa_to_mont fa_add fa_sub fa_from_bytes fa_to_bytes fa_selectznz].
  - intros a b Ha Hb. apply fq_mul_elim; [exact Ha|exact Hb|]. intros o Ho K. exact (conj Ho K).
  - intros a Ha. apply fq_square_elim; [exact Ha|]. intros o Ho K. exact (conj Ho K).
  - intros a Ha. pose proof (val4_range a Ha). destruct a as [a0 a1 a2 a3]. pose proof Ha as (h0&h1&h2&h3).
    unfold blsfq_from_mont. apply fq_mont_reduce_elim; try assumption; try exact word0.
    + change (val4 (L4 0 0 0 0)) with 0. rewrite M. change (W ^ 4) with (2 ^ 256) in *. lia.
    + intros o Ho Lo [k K]. split; [exact (conj Ho Lo)|]. exists k. rewrite K.
      change (val4 (L4 0 0 0 0)) with 0. lia.
  - intros a Ha. unfold blsfq_to_mont.
    destruct (po_R2 _ _ blsfq_params_ok) as [W2 E2].
    apply fq_mul_elim; [exact Ha| |].
    + split; [exact W2|]. rewrite E2. apply Z.mod_pos_bound. rewrite M. lia.
    + intros o Ho [k K]. split; [exact Ho|]. exists k. rewrite <- E2. exact K.
  - intros a b [Ha La] [Hb Lb]. apply fq_add_elim; [exact Ha|exact Hb|lia|].
    intros o Ho E. pose proof (val4_range a Ha). pose proof (val4_range b Hb).
    split; [exact Ho|]. rewrite E. destruct (Z.ltb_spec (val4 a + val4 b) fqM); [exists 0|exists (-1)]; lia.
  - intros a b [Ha La] [Hb Lb]. pose proof (val4_range a Ha). pose proof (val4_range b Hb).
    apply fq_sub_elim; [exact Ha|exact Hb|lia|]. intros o Ho E.
    destruct (Z.ltb_spec (val4 a) (val4 b));
      (split; [split; [exact Ho|rewrite E; lia]|rewrite E; first [exists 0; lia | exists 1; lia]]).
  - exact blsfq_from_bytes_ok.
  - exact blsfq_to_bytes_ok.
  - exact blsfq_select_ok.
Qed.

(** ** Negation, the one operation on which the packages differ *)
Lemma fiat_neg m A : 0 < m ->
  (forall a, words4 a -> val4 a < m -> words4 (fa_neg A a) /\ val4 (fa_neg A a) = if 0 <? val4 a then m - val4 a else 0) ->
  forall x v, rep m x v -> rep m (fa_neg A x) (- v).
Proof.
  intros Hm H x v [[Wx Lx] Dx]. destruct (H x Wx Lx) as [Wo E]. pose proof (val4_range x Wx).
  destruct (Z.ltb_spec 0 (val4 x)).
  - split; [split; [exact Wo|lia]|]. rewrite E.
    apply cong_trans with (- val4 x); [exists 1; lia|].
    rewrite Z.mul_opp_l. apply cong_opp. exact Dx.
  - split; [split; [exact Wo|lia]|]. rewrite E. replace (- v * 2 ^ 256) with (- (v * 2 ^ 256)) by lia.
    assert (Z0 : val4 x = 0) by lia. rewrite Z0 in Dx. apply cong_opp in Dx. exact Dx.
Qed.
Lemma k256fp_neg_ok x v : rep k256fp_m x v -> rep k256fp_m (fa_neg k256fp_arith x) (- v).
Proof. apply fiat_neg; [reflexivity|]. intros a Ha La. apply k256fp_opp_elim; auto. Qed.
Lemma k256fq_neg_ok x v : rep k256fq_m x v -> rep k256fq_m (fa_neg k256fq_arith x) (- v).
Proof. apply fiat_neg; [reflexivity|]. intros a Ha La. apply k256fq_opp_elim; auto. Qed.
Lemma p256fp_neg_ok x v : rep p256fp_m x v -> rep p256fp_m (fa_neg p256fp_arith x) (- v).
Proof. apply fiat_neg; [reflexivity|]. intros a Ha La. apply p256fp_opp_elim; auto. Qed.
Lemma p256fq_neg_ok x v : rep p256fq_m x v -> rep p256fq_m (fa_neg p256fq_arith x) (- v).
Proof. apply fiat_neg; [reflexivity|]. intros a Ha La. apply p256fq_opp_elim; auto. Qed.

Lemma blsfq_neg_ok x v : rep fqM x v -> val4 x <> 0 -> rep fqM (fa_neg blsfq_arith x) (- v).
Proof.
  intros [[Wx Lx] Dx] N. pose proof (val4_range x Wx). cbn [blsfq_arith fa_neg].
  apply fq_neg_elim; [exact Wx|lia|]. intros o Wo E.
  split; [split; [exact Wo|lia]|]. rewrite E.
  apply cong_trans with (- val4 x); [exists 1; lia|].
  rewrite Z.mul_opp_l. apply cong_opp. exact Dx.
Qed.
