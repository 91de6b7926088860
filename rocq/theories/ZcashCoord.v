(** The coordinate functions of G1 and G2 meet the hypotheses of ZcashProofs.v. *)
From Coq Require Import Field Ring ZArith NArith Lia Bool List.
From Verif Require Import EcField EcSpec EcProofs PointModel LimbBase LimbSpec LimbProofs LimbBls LimbFiat NativeField BlsFp BlsFpProofs BlsFpProps LimbField ZCong
  TowerModel TowerSpec TowerAlg TowerField TowerBls TowerInst TowerProps BlsRep ZcashModel ZcashSpec ZcashProofs.
Import ListNotations.
Local Open Scope Z_scope.

Lemma const_rv l v : represents6 bls_p l v -> rv (bls_const l) v.
Proof.
  intros R. unfold bls_const. destruct (bool_dec (reduced6 bls_p l) true) as [H|H]; [exact R|].
  exfalso. apply H. apply represents6_red; [reflexivity|reflexivity|]. exists v. exact R.
Qed.
Lemma const_raw (x : BlsFp) : bls_const (raw x) = x.
Proof. destruct (rv_ex x) as [v X]. apply (rv_eq _ _ v v); [apply const_rv, X|exact X|apply cong_refl]. Qed.
Lemma be_le bs : be_val bs = le_val (rev bs).
Proof.
  unfold be_val. rewrite <- fold_left_rev_right. induction (rev bs) as [|h r IH]; [reflexivity|]. cbn [fold_right le_val]. rewrite IH. lia.
Qed.
Lemma be_big bs : big_of_bytes bs = be_val bs.
Proof. unfold big_of_bytes, be_val. generalize 0. induction bs as [|h r IH]; intros a; [reflexivity|]. cbn [fold_left]. rewrite IH. f_equal. lia. Qed.
Lemma rev_bytes bs : is_bytes bs -> is_bytes (rev bs). Proof. apply Forall_rev. Qed.
Lemma words_zero : words6 blsfp_zero. Proof. cbn. unfold word. rewrite W_eq. lia. Qed.
Lemma rep_words x v : represents6 bls_p x v -> words6 x. Proof. intros [W _]. exact W. Qed.

(** ** Fp *)
Lemma put1 (x : BlsFp) : coord1 (fp_put x) x.
Proof.
  destruct (rv_ex x) as [v X]. destruct (C79_bytes_is_the_value _ _ X) as (B & L & E). unfold fp_put, reverse_scalar_bytes.
  split; [apply rev_bytes, B|]. split; [rewrite rev_length; exact L|]. rewrite be_le, rev_involutive, E. exact X.
Qed.
Lemma fun1 bs (x y : BlsFp) : coord1 bs x -> coord1 bs y -> x = y.
Proof. intros (_ & _ & X) (_ & _ & Y). apply (rv_eq _ _ _ _ X Y), cong_refl. Qed.
Lemma le_inj : forall n bs cs, length bs = n -> length cs = n -> is_bytes bs -> is_bytes cs -> le_val bs = le_val cs -> bs = cs.
Proof.
  induction n as [|n IH]; intros [|a bs] [|c cs] L L' B B' E; try discriminate; [reflexivity|].
  inversion B as [|? ? B0 B1]; subst. inversion B' as [|? ? B0' B1']; subst. cbn [le_val] in E.
  assert (a = c /\ le_val bs = le_val cs) as [-> E'] by lia.
  f_equal. apply IH; [now injection L|now injection L'|assumption..].
Qed.
Lemma be_inj n bs cs : length bs = n -> length cs = n -> is_bytes bs -> is_bytes cs -> be_val bs = be_val cs -> bs = cs.
Proof.
  intros L L' B B' E. rewrite !be_le in E. rewrite <- (rev_involutive bs), <- (rev_involutive cs). f_equal.
  apply (le_inj n); [rewrite rev_length; assumption|rewrite rev_length; assumption|apply rev_bytes; assumption|apply rev_bytes; assumption|exact E].
Qed.
Lemma inj1 bs cs (x : BlsFp) : coord1 bs x -> coord1 cs x -> bs = cs.
Proof. intros (B & L & X) (B' & L' & Y). apply (be_inj 48); try assumption. exact (rv_fun _ _ _ X Y). Qed.
Lemma le_nonneg bs : is_bytes bs -> 0 <= le_val bs.
Proof. induction 1 as [|a bs H _ IH]; cbn [le_val]; lia. Qed.
Lemma le_snoc bs h : le_val (bs ++ [h]) = le_val bs + 256 ^ Z.of_nat (length bs) * h.
Proof. rewrite le_val_app. cbn [le_val]. lia. Qed.
Lemma bytes1 bs (x : BlsFp) : coord1 bs x -> is_bytes bs /\ length bs = 48%nat /\ exists h r, bs = h :: r /\ 0 <= h < 32.
Proof.
  intros (B & L & X). split; [exact B|]. split; [exact L|]. destruct bs as [|h r]; [discriminate L|]. exists h, r. split; [reflexivity|].
  inversion B as [|? ? H B']; subst. split; [lia|]. pose proof (rv_range _ _ X) as R. rewrite be_le in R. cbn [rev] in R. rewrite le_snoc, rev_length in R.
  cbn [length] in L. injection L as L. rewrite L in R. pose proof (le_nonneg (rev r) (rev_bytes _ B')) as P.
  assert (C : 256 ^ Z.of_nat 47 * 32 > bls_p) by (vm_compute; reflexivity). destruct (Z_lt_le_dec h 32) as [G|G]; [exact G|exfalso].
  assert (K : 256 ^ Z.of_nat 47 * 32 <= 256 ^ Z.of_nat 47 * h) by (apply Z.mul_le_mono_nonneg_l; [vm_compute; discriminate|exact G]). lia.
Qed.
Lemma zeros_bytes n : is_bytes (repeat 0 n). Proof. apply Forall_forall. intros z Z. apply repeat_spec in Z. lia. Qed.
Lemma zero1 : coord1 (repeat 0 48) f0.
Proof. split; [apply zeros_bytes|]. split; [reflexivity|]. exact rv_0. Qed.
Lemma get1 mask bs (x : BlsFp) : is_bytes bs -> length bs = 48%nat -> (fp_get mask bs = Some x <-> coord1 (if mask : bool then low5 bs else bs) x).
Proof.
  intros B L.
  assert (GEN : forall cs, is_bytes cs -> length cs = 48%nat ->
    ((let '(v, valid) := blsfp_set_bytes blsfp_zero (rev cs) in if valid =? 1 then Some (bls_const v) else None) = Some x <-> coord1 cs x)).
  { intros cs C LC. destruct (C79_set_bytes blsfp_zero (rev cs) words_zero (rev_bytes _ C) ltac:(rewrite rev_length; exact LC)) as [A N].
    rewrite <- be_le in A, N. destruct (Z_lt_le_dec (be_val cs) bls_p) as [G|G].
    - destruct (A G) as (l & -> & R). cbn [Z.eqb Pos.eqb]. apply const_rv in R. split.
      + intros Q. injection Q as <-. split; [exact C|]. split; [exact LC|exact R].
      + intros (_ & _ & X). f_equal. apply (rv_eq _ _ _ _ R X), cong_refl.
    - rewrite (N G). cbn [Z.eqb]. split; [discriminate|]. intros (_ & _ & X). pose proof (rv_range _ _ X). lia. }
  unfold fp_get, reverse_scalar_bytes. cbv zeta. destruct mask; [|apply GEN; assumption].
  destruct bs as [|h r]; [discriminate L|]. cbn [low5]. inversion B as [|? ? H B']; subst. cbn [length] in L. injection L as L.
  assert (E : update 47 (fun b => Z.land b 31) (rev (h :: r)) = rev (h mod 32 :: r)).
  { unfold update. cbn [rev]. rewrite firstn_app, skipn_app, rev_length, L, app_nth2, rev_length, L by (rewrite rev_length; lia).
    rewrite firstn_all2, skipn_all2 by (rewrite rev_length; lia). cbn [Nat.sub nth firstn skipn app]. rewrite app_nil_r.
    change 31 with (Z.ones 5). rewrite Z.land_ones by lia. reflexivity. }
  rewrite E. apply GEN; [|cbn [length]; lia]. constructor; [|exact B']. pose proof (Z.mod_pos_bound h 32). lia.
Qed.
Lemma lex1 (y : BlsFp) : (larger1 y /\ fp_lex y = 1) \/ (~ larger1 y /\ fp_lex y = 0).
Proof.
  destruct (rv_ex y) as [v Y]. unfold fp_lex. rewrite (C79_lexicographically_largest _ _ Y). pose proof (rv_range _ _ Y) as R.
  assert (O : Z.odd bls_p = true) by reflexivity.
  assert (E : (bls_p - v) mod bls_p = if v =? 0 then 0 else bls_p - v).
  { destruct (Z.eqb_spec v 0) as [->|N]; [rewrite Z.sub_0_r; apply Z_mod_same_full|apply Z.mod_small; lia]. }
  rewrite E. clear E. destruct (Z.eqb_spec v 0) as [->|N].
  - right. split; [|reflexivity]. intros (w & W & L). pose proof (rv_fun _ _ _ Y W). lia.
  - destruct (Z.ltb_spec (bls_p - v) v) as [L|L]; [left|right]; (split; [|reflexivity]).
    + exists v. split; [exact Y|lia].
    + intros (w & W & L'). pose proof (rv_fun _ _ _ Y W). lia.
Qed.
Lemma opp1 (y : BlsFp) : y <> f0 -> (larger1 (fopp y) <-> ~ larger1 y).
Proof.
  intros N. destruct (rv_ex y) as [v Y]. pose proof (rv_opp _ _ Y) as O. pose proof (rv_range _ _ Y) as R.
  assert (V : v <> 0) by (intros ->; apply N; apply (rv_eq _ _ _ _ Y rv_0), cong_refl).
  assert (E : (- v) mod bls_p = bls_p - v) by (rewrite <- (Z.mod_small (bls_p - v) bls_p) by lia; replace (- v) with (bls_p - v + (-1) * bls_p) by ring; apply Z_mod_plus_full).
  rewrite E in O. assert (OD : 2 * v <> bls_p) by (intros Q; assert (B : Z.odd bls_p = true) by reflexivity; rewrite <- Q, Z.odd_mul in B; discriminate B).
  split.
  - intros (w & W & L) (w' & W' & L'). pose proof (rv_fun _ _ _ O W). pose proof (rv_fun _ _ _ Y W'). lia.
  - intros A. exists (bls_p - v). split; [exact O|]. destruct (Z_lt_le_dec bls_p (2 * v)) as [G|G]; [elim A; exists v; auto|lia].
Qed.
Lemma nl1 : ~ larger1 f0.
Proof. intros (w & W & L). pose proof (rv_fun _ _ _ rv_0 W) as <-. vm_compute in L. discriminate L. Qed.
Lemma sqrt1 (a : BlsFp) : ((exists y : BlsFp, fmul y y = a) -> snd (fp_sqrt a) = true /\ fmul (fst (fp_sqrt a)) (fst (fp_sqrt a)) = a) /\
  (~ (exists y : BlsFp, fmul y y = a) -> snd (fp_sqrt a) = false).
Proof.
  destruct (rv_ex a) as [v A]. destruct (C79_sqrt (raw a) (raw a) v (rep_words _ _ A) A) as [S N]. unfold fp_sqrt.
  assert (Q : (exists y : BlsFp, fmul y y = a) <-> exists y, (y * y) mod bls_p = v).
  { split.
    - intros [y E]. destruct (rv_ex y) as [w Y]. exists w. pose proof (rv_mul _ _ _ _ Y Y) as M. rewrite E in M. exact (rv_fun _ _ _ M A).
    - intros [y E]. destruct (rz_ex y) as [x X]. exists x. apply (rz_eq (rz_mul X X) (rz_of A)). rewrite <- E. apply cong_sym, cong_mod, p_pos. }
  split.
  - intros H. apply Q in H. destruct (S H) as (r & w & -> & R & E). cbn [Z.eqb Pos.eqb fst snd]. split; [reflexivity|].
    apply const_rv in R. pose proof (rv_mul _ _ _ _ R R) as M. rewrite E in M. apply (rv_eq _ _ _ _ M A), cong_refl.
  - intros H. rewrite N; [reflexivity|]. intros G. apply H, Q, G.
Qed.
Lemma cneg1_0 (y : BlsFp) : fp_cneg y 0 = y.
Proof.
  unfold fp_cneg. destruct (rv_ex y) as [v Y]. destruct (C79_cneg (raw y) (raw y) v (rep_words _ _ Y) Y) as (_ & E & _).
  rewrite E. apply const_raw.
Qed.
Lemma cneg1_1 (y : BlsFp) : fp_cneg y 1 = fopp y.
Proof.
  unfold fp_cneg. destruct (rv_ex y) as [v Y]. destruct (C79_cneg (raw y) (raw y) v (rep_words _ _ Y) Y) as (E & _).
  apply const_rv in E. apply (rv_eq _ _ _ _ E (rv_opp _ _ Y)), cong_refl.
Qed.
(** ** Fp2 *)
Lemma put2 (x : Bls2) : coord2 (fp2_put x) x.
Proof. exists (fp_put (qu_b x)), (fp_put (qu_a x)). split; [reflexivity|]. split; apply put1. Qed.
Lemma app_cut {A} (a b c d : list A) : a ++ b = c ++ d -> length a = length c -> a = c /\ b = d.
Proof.
  revert c. induction a as [|x a IH]; intros [|y c] E L; try discriminate; [split; [reflexivity|exact E]|].
  injection E as -> E. injection L as L. destruct (IH c E L) as [-> ->]. split; reflexivity.
Qed.
Lemma c_len bs (x : BlsFp) : coord1 bs x -> length bs = 48%nat. Proof. intros (_ & L & _). exact L. Qed.
Lemma c_bytes bs (x : BlsFp) : coord1 bs x -> is_bytes bs. Proof. intros (B & _). exact B. Qed.
Lemma fun2 bs (x y : Bls2) : coord2 bs x -> coord2 bs y -> x = y.
Proof.
  intros (b1 & a1 & -> & B1 & A1) (b2 & a2 & E & B2 & A2).
  destruct (app_cut _ _ _ _ E) as [<- <-]; [rewrite (c_len _ _ B1), (c_len _ _ B2); reflexivity|].
  destruct x as [xa xb], y as [ya yb]. cbn [qu_a qu_b] in *. rewrite (fun1 _ _ _ A1 A2), (fun1 _ _ _ B1 B2). reflexivity.
Qed.
Lemma inj2 bs cs (x : Bls2) : coord2 bs x -> coord2 cs x -> bs = cs.
Proof. intros (b1 & a1 & -> & B1 & A1) (b2 & a2 & -> & B2 & A2). rewrite (inj1 _ _ _ B1 B2), (inj1 _ _ _ A1 A2). reflexivity. Qed.
Lemma bytes2 bs (x : Bls2) : coord2 bs x -> is_bytes bs /\ length bs = 96%nat /\ exists h r, bs = h :: r /\ 0 <= h < 32.
Proof.
  intros (b & a & -> & B & A). destruct (bytes1 _ _ B) as (B1 & B2 & h & r & -> & H). destruct (bytes1 _ _ A) as (A1 & A2 & _).
  split; [apply Forall_app; split; assumption|]. split; [rewrite app_length, B2, A2; reflexivity|]. exists h, (r ++ a). split; [reflexivity|exact H].
Qed.
Lemma zero2 : coord2 (repeat 0 96) (f0 : Bls2).
Proof. exists (repeat 0 48), (repeat 0 48). split; [reflexivity|]. split; exact zero1. Qed.
Lemma get2 mask bs (x : Bls2) : is_bytes bs -> length bs = 96%nat -> (fp2_get mask bs = Some x <-> coord2 (if mask : bool then low5 bs else bs) x).
Proof.
  intros B L. assert (E : bs = firstn 48 bs ++ skipn 48 bs) by (rewrite firstn_skipn; reflexivity).
  assert (L1 : length (firstn 48 bs) = 48%nat) by (rewrite firstn_length; lia).
  assert (L2 : length (skipn 48 bs) = 48%nat) by (rewrite skipn_length; lia).
  assert (BB : is_bytes (firstn 48 bs) /\ is_bytes (skipn 48 bs)) by (apply Forall_app; rewrite <- E; exact B). destruct BB as [B1 B2].
  assert (S1 : slice 0 48 bs = firstn 48 bs) by reflexivity.
  assert (S2 : slice 48 96 bs = skipn 48 bs) by (unfold slice; apply firstn_all2; lia).
  unfold fp2_get. rewrite S1, S2.
  assert (LOW : (if mask then low5 bs else bs) = (if mask then low5 (firstn 48 bs) else firstn 48 bs) ++ skipn 48 bs).
  { destruct mask; [|exact E]. destruct bs as [|h r]; [discriminate L|]. apply (f_equal (fun l => (h mod 32) :: l)). exact (eq_sym (firstn_skipn 47 r)). }
  rewrite LOW. set (hd := if mask then _ else _). assert (LH : length hd = 48%nat) by (unfold hd; destruct mask, (firstn 48 bs); exact L1).
  split.
  - destruct (fp_get mask (firstn 48 bs)) as [xb|] eqn:G1; [|discriminate]. destruct (fp_get false (skipn 48 bs)) as [xa|] eqn:G2; [|discriminate].
    apply get1 in G1; [|assumption|assumption]. apply get1 in G2; [|assumption|assumption]. intros Q. injection Q as <-.
    exists hd, (skipn 48 bs). split; [reflexivity|]. split; assumption.
  - intros (b & a & Q & HB & HA). destruct (app_cut _ _ _ _ Q) as [<- <-]; [rewrite LH, (c_len _ _ HB); reflexivity|].
    apply get1 in HB; [|assumption|assumption]. apply (get1 false) in HA; [|assumption|assumption]. rewrite HB, HA. destruct x; reflexivity.
Qed.
Lemma z1 (x : BlsFp) : (x = f0 /\ fp_is_zero_int x = 1) \/ (x <> f0 /\ fp_is_zero_int x = 0).
Proof.
  destruct (rv_ex x) as [v X]. unfold fp_is_zero_int. destruct (C79_is_zero_is_one _ _ X) as [-> _]. destruct (Z.eqb_spec v 0) as [->|N]; [left|right]; (split; [|reflexivity]).
  - apply (rv_eq _ _ _ _ X rv_0), cong_refl.
  - intros ->. apply N. exact (rv_fun _ _ _ X rv_0).
Qed.
Lemma lex2 (y : Bls2) : (larger2 y /\ fp2_lex y = 1) \/ (~ larger2 y /\ fp2_lex y = 0).
Proof.
  unfold fp2_lex, larger2. destruct (lex1 (qu_b y)) as [[A ->]|[A ->]], (z1 (qu_b y)) as [[B ->]|[B ->]], (lex1 (qu_a y)) as [[C ->]|[C ->]];
    cbn [Z.lor Z.land Pos.lor Pos.land]; solve [left; split; [tauto|reflexivity]|right; split; [tauto|reflexivity]].
Qed.
Lemma opp0 (x : BlsFp) : fopp x = f0 <-> x = f0.
Proof.
  destruct (rv_ex x) as [v X]. pose proof (rv_opp _ _ X) as O. pose proof (rv_range _ _ X) as R. split; intros H.
  - rewrite H in O. pose proof (rv_fun _ _ _ rv_0 O) as E. apply (rv_eq _ _ _ _ X rv_0). apply eq_sym in E.
    assert (v = 0) as ->; [|apply cong_refl]. destruct (Z.eq_dec v 0) as [Q|Q]; [exact Q|exfalso].
    rewrite Z.mod_opp_l_nz in E; rewrite ?Z.mod_small in * by lia; lia.
  - subst x. pose proof (rv_fun _ _ _ X rv_0). subst v. apply (rv_eq _ _ _ _ O rv_0), cong_refl.
Qed.
Lemma opp2 (y : Bls2) : y <> f0 -> (larger2 (fopp y) <-> ~ larger2 y).
Proof.
  intros N. change (fopp y) with (fp2_neg y : fp2 BlsFp). unfold larger2, fp2_neg. cbv zeta. cbn [qu_a qu_b]. rewrite opp0.
  destruct (z1 (qu_b y)) as [[E _]|[E _]].
  - assert (NA : qu_a y <> f0).
    { intros Q. apply N. destruct y as [ya yb]. cbn [qu_a qu_b] in *. rewrite Q, E. reflexivity. }
    pose proof (opp1 _ NA) as O. assert (NB : ~ larger1 (fopp (qu_b y))) by (rewrite (proj2 (opp0 _) E); exact nl1). rewrite E in *. pose proof nl1. tauto.
  - pose proof (opp1 _ E). tauto.
Qed.
Lemma nl2 : ~ larger2 (f0 : Bls2).
Proof. intros [H|[_ H]]; exact (nl1 H). Qed.
Lemma sqrt2 (a : Bls2) : ((exists y : Bls2, fmul y y = a) -> snd (fp2_root a) = true /\ fmul (fst (fp2_root a) : Bls2) (fst (fp2_root a)) = a) /\
  (~ (exists y : Bls2, fmul y y = a) -> snd (fp2_root a) = false).
Proof. destruct (C94_sqrt a a) as [S N]. split; [exact S|]. intros H. unfold fp2_root. rewrite (N H). reflexivity. Qed.
Lemma cneg2_0 (y : Bls2) : fp2_cneg_int y 0 = y. Proof. reflexivity. Qed.
Lemma cneg2_1 (y : Bls2) : (fp2_cneg_int y 1 : Bls2) = fopp y. Proof. reflexivity. Qed.
