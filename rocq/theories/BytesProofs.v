From Coq Require Import List Bool ZArith Lia.
From Verif Require Import BytesModel.
Import ListNotations.
Open Scope Z_scope.

(** little-endian value *)
Fixpoint of_le (l : list Z) : Z := match l with [] => 0 | b :: l' => b + 256 * of_le l' end.

Lemma of_be_acc l : forall acc, fold_left (fun acc b => acc * 256 + b) l acc = acc * 256 ^ Z.of_nat (length l) + of_be l.
Proof.
  unfold of_be. induction l as [|b l IH]; intros acc; cbn [fold_left length].
  - cbn. lia.
  - rewrite IH, (IH (0 * 256 + b)). rewrite Nat2Z.inj_succ, Z.pow_succ_r by lia. ring.
Qed.
Lemma of_be_cons b l : of_be (b :: l) = b * 256 ^ Z.of_nat (length l) + of_be l.
Proof. unfold of_be at 1. cbn [fold_left]. rewrite of_be_acc. f_equal. Qed.
Lemma of_be_app l1 l2 : of_be (l1 ++ l2) = of_be l1 * 256 ^ Z.of_nat (length l2) + of_be l2.
Proof. unfold of_be at 1. rewrite fold_left_app. fold (of_be l1). apply of_be_acc. Qed.
Lemma of_be_rev l : of_be (rev l) = of_le l.
Proof.
  induction l as [|b l IH]; cbn [rev of_le]; [reflexivity|].
  rewrite of_be_app, IH. rewrite (of_be_cons b []). change (of_be []) with 0.
  cbn [length]. change (256 ^ Z.of_nat 1) with 256. change (256 ^ Z.of_nat 0) with 1. lia.
Qed.
Lemma of_be_repeat0 n : of_be (repeat 0 n) = 0.
Proof. induction n; cbn [repeat]; [reflexivity|]. rewrite of_be_cons, IHn. lia. Qed.
Lemma of_be_range l : bytes_ok l -> 0 <= of_be l < 256 ^ Z.of_nat (length l).
Proof.
  induction 1 as [|b l Hb Hl IH]; [cbn; lia|].
  rewrite of_be_cons. cbn [length]. rewrite Nat2Z.inj_succ, Z.pow_succ_r by lia.
  unfold byte_ok in Hb. nia.
Qed.

Lemma le_digits_ok fuel : forall x, 0 <= x -> bytes_ok (le_digits fuel x).
Proof.
  induction fuel as [|f IH]; intros x H; cbn; [constructor|].
  destruct (x =? 0); constructor.
  - unfold byte_ok. apply Z.mod_pos_bound. lia.
  - apply IH. apply Z.div_pos; lia.
Qed.
Lemma le_digits_val fuel : forall x, 0 <= x < 2 ^ Z.of_nat fuel -> of_le (le_digits fuel x) = x.
Proof.
  induction fuel as [|f IH]; intros x H.
  - cbn in *. lia.
  - cbn [le_digits]. destruct (Z.eqb_spec x 0) as [->|N]; [reflexivity|]. cbn [of_le].
    rewrite IH. { pose proof (Z.div_mod x 256). lia. }
    rewrite Nat2Z.inj_succ, Z.pow_succ_r in H by lia.
    split; [apply Z.div_pos; lia|]. apply Z.div_lt_upper_bound; [lia|].
    assert (0 < 2 ^ Z.of_nat f) by (apply Z.pow_pos_nonneg; lia). lia.
Qed.
Lemma le_digits_len fuel : forall x n, 0 <= x < 256 ^ Z.of_nat n -> (length (le_digits fuel x) <= n)%nat.
Proof.
  induction fuel as [|f IH]; intros x n H; cbn [le_digits]; [cbn; lia|].
  destruct (Z.eqb_spec x 0); [cbn; lia|].
  destruct n as [|n]; [cbn in H; lia|]. cbn [length]. apply le_n_S, IH.
  rewrite Nat2Z.inj_succ, Z.pow_succ_r in H by lia.
  split; [apply Z.div_pos; lia|apply Z.div_lt_upper_bound; lia].
Qed.
(** the most significant digit is not zero *)
Lemma le_digits_last fuel : forall x, 0 <= x < 2 ^ Z.of_nat fuel ->
  le_digits fuel x <> [] -> last (le_digits fuel x) 0 <> 0.
Proof.
  induction fuel as [|f IH]; intros x H; cbn [le_digits]; [congruence|].
  destruct (Z.eqb_spec x 0) as [->|N]; [congruence|]. intros _.
  assert (Hd : 0 <= x / 256 < 2 ^ Z.of_nat f).
  { rewrite Nat2Z.inj_succ, Z.pow_succ_r in H by lia. split; [apply Z.div_pos; lia|].
    apply Z.div_lt_upper_bound; [lia|]. assert (0 < 2 ^ Z.of_nat f) by (apply Z.pow_pos_nonneg; lia). lia. }
  specialize (IH _ Hd). pose proof (le_digits_val f _ Hd) as Hv.
  destruct (le_digits f (x / 256)) as [|d l] eqn:E.
  - cbn in *. pose proof (Z.div_mod x 256). lia.
  - change (last (x mod 256 :: d :: l) 0) with (last (d :: l) 0). apply IH. congruence.
Qed.

Lemma fuel_ok x : 0 <= x < 2 ^ Z.of_nat (S (Z.to_nat (Z.log2 x))) \/ x < 0.
Proof.
  destruct (Z.neg_nonneg_cases x) as [?|H]; [auto|left].
  rewrite Nat2Z.inj_succ, Z2Nat.id by apply Z.log2_nonneg.
  destruct (Z.eq_dec x 0) as [->|N]; [cbn; lia|].
  pose proof (Z.log2_spec x). lia.
Qed.

Lemma of_be_be_bytes_abs x : of_be (be_bytes x) = Z.abs x.
Proof.
  unfold be_bytes. rewrite of_be_rev. apply le_digits_val.
  destruct (fuel_ok (Z.abs x)); lia.
Qed.
Lemma of_be_be_bytes x : 0 <= x -> of_be (be_bytes x) = x.
Proof. intros H. rewrite of_be_be_bytes_abs. lia. Qed.
Lemma be_bytes_ok x : bytes_ok (be_bytes x).
Proof. unfold be_bytes, bytes_ok. apply Forall_rev. apply le_digits_ok. lia. Qed.
Lemma be_bytes_len x n : Z.abs x < 256 ^ Z.of_nat n <-> (length (be_bytes x) <= n)%nat.
Proof.
  split.
  - intros H. unfold be_bytes. rewrite rev_length. apply le_digits_len. lia.
  - intros H. pose proof (of_be_range _ (be_bytes_ok x)) as R. rewrite of_be_be_bytes_abs in R.
    eapply Z.lt_le_trans; [apply R|]. apply Z.pow_le_mono_r; lia.
Qed.
Lemma be_bytes_hd x : be_bytes x <> [] -> hd 0 (be_bytes x) <> 0.
Proof.
  unfold be_bytes. set (l := le_digits _ _). intros H.
  assert (Hl : l <> []) by (intros E; apply H; rewrite E; reflexivity).
  assert (L : last l 0 <> 0).
  { apply le_digits_last; [|exact Hl]. destruct (fuel_ok (Z.abs x)); lia. }
  destruct (exists_last Hl) as (l' & a & E). rewrite E in *. rewrite last_last in L.
  rewrite rev_app_distr. cbn. exact L.
Qed.
Lemma be_bytes_0 : be_bytes 0 = [].
Proof. reflexivity. Qed.

(** uniqueness: fixed-length big-endian encodings are determined by their value *)
Lemma of_be_inj l1 : forall l2, bytes_ok l1 -> bytes_ok l2 -> length l1 = length l2 ->
  of_be l1 = of_be l2 -> l1 = l2.
Proof.
  induction l1 as [|a l1 IH]; intros [|b l2] H1 H2 L E; cbn in L; try lia; [reflexivity|].
  inversion H1; subst. inversion H2; subst. injection L as L.
  rewrite !of_be_cons, L in E.
  pose proof (of_be_range l1 ltac:(assumption)) as R1. pose proof (of_be_range l2 ltac:(assumption)) as R2.
  rewrite L in R1.
  assert (P : 0 < 256 ^ Z.of_nat (length l2)) by (apply Z.pow_pos_nonneg; lia).
  assert (a = b) by nia. subst. f_equal. apply IH; auto. lia.
Qed.

Lemma fill_bytes_some n x : Z.abs x < 256 ^ Z.of_nat n ->
  exists l, fill_bytes n x = Some l /\ length l = n /\ of_be l = Z.abs x /\ bytes_ok l.
Proof.
  intros H. apply be_bytes_len in H. unfold fill_bytes.
  destruct (Nat.leb_spec (length (be_bytes x)) n); [|lia].
  eexists. split; [reflexivity|]. repeat split.
  - rewrite app_length, repeat_length. lia.
  - rewrite of_be_app, of_be_repeat0, of_be_be_bytes_abs. lia.
  - apply Forall_app. split; [|apply be_bytes_ok]. apply Forall_forall. intros b Hb.
    apply repeat_spec in Hb. subst. unfold byte_ok. lia.
Qed.
Lemma fill_bytes_none n x : 256 ^ Z.of_nat n <= Z.abs x -> fill_bytes n x = None.
Proof.
  intros H. unfold fill_bytes. destruct (Nat.leb_spec (length (be_bytes x)) n) as [L|L]; [|reflexivity].
  apply be_bytes_len in L. lia.
Qed.

(** be_bytes of a decoded string strips the leading zeros *)
Fixpoint strip0 (l : list Z) : list Z := match l with 0 :: l' => strip0 l' | _ => l end.
Lemma of_be_strip0 l : of_be (strip0 l) = of_be l.
Proof.
  induction l as [|[|p|p] l IH]; cbn [strip0]; [reflexivity| | reflexivity|reflexivity].
  rewrite IH, of_be_cons. lia.
Qed.
Lemma strip0_ok l : bytes_ok l -> bytes_ok (strip0 l).
Proof. induction 1 as [|[|p|p] l Hb Hl IH]; cbn [strip0]; [constructor|exact IH|constructor; auto|constructor; auto]. Qed.
Lemma strip0_hd l : strip0 l <> [] -> hd 0 (strip0 l) <> 0.
Proof. induction l as [|[|p|p] l IH]; cbn; [congruence|exact IH|discriminate|discriminate]. Qed.
Lemma nozero_len l : bytes_ok l -> l <> [] -> hd 0 l <> 0 -> 256 ^ (Z.of_nat (length l) - 1) <= of_be l.
Proof.
  intros H N Hd. destruct l as [|a l]; [congruence|]. cbn in Hd. inversion H; subst.
  rewrite of_be_cons. cbn [length]. replace (Z.of_nat (S (length l)) - 1) with (Z.of_nat (length l)) by lia.
  pose proof (of_be_range l ltac:(assumption)). unfold byte_ok in *. nia.
Qed.
Lemma canonical_inj l1 l2 : bytes_ok l1 -> bytes_ok l2 ->
  (l1 <> [] -> hd 0 l1 <> 0) -> (l2 <> [] -> hd 0 l2 <> 0) -> of_be l1 = of_be l2 -> l1 = l2.
Proof.
  intros H1 H2 C1 C2 E.
  assert (L : length l1 = length l2).
  { pose proof (of_be_range _ H1). pose proof (of_be_range _ H2).
    destruct l1 as [|a l1], l2 as [|b l2]; [reflexivity| | |].
    - pose proof (nozero_len _ H2 ltac:(discriminate) (C2 ltac:(discriminate))) as P.
      assert (0 < 256 ^ (Z.of_nat (length (b :: l2)) - 1)) by (apply Z.pow_pos_nonneg; cbn [length]; lia).
      change (of_be []) with 0 in E. lia.
    - pose proof (nozero_len _ H1 ltac:(discriminate) (C1 ltac:(discriminate))) as P.
      assert (0 < 256 ^ (Z.of_nat (length (a :: l1)) - 1)) by (apply Z.pow_pos_nonneg; cbn [length]; lia).
      change (of_be []) with 0 in E. lia.
    - pose proof (nozero_len _ H1 ltac:(discriminate) (C1 ltac:(discriminate))) as P1.
      pose proof (nozero_len _ H2 ltac:(discriminate) (C2 ltac:(discriminate))) as P2.
      assert (A : 256 ^ (Z.of_nat (length (a :: l1)) - 1) < 256 ^ Z.of_nat (length (b :: l2))) by lia.
      assert (B : 256 ^ (Z.of_nat (length (b :: l2)) - 1) < 256 ^ Z.of_nat (length (a :: l1))) by lia.
      apply Z.pow_lt_mono_r_iff in A; [|lia|lia]. apply Z.pow_lt_mono_r_iff in B; [|lia|lia]. lia. }
  now apply of_be_inj.
Qed.
Lemma be_bytes_of_be l : bytes_ok l -> be_bytes (of_be l) = strip0 l.
Proof.
  intros H. apply canonical_inj.
  - apply be_bytes_ok.
  - now apply strip0_ok.
  - apply be_bytes_hd.
  - apply strip0_hd.
  - rewrite of_be_be_bytes, of_be_strip0; [reflexivity|]. apply of_be_range. exact H.
Qed.
