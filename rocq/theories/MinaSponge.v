(** The Poseidon sponge. *)
From Coq Require Import ZArith NArith Lia List Bool Ring Field.
From Verif Require Import EcField EcSpec PointModel LimbSpec NativeField MinaBitsModel MinaBitsSpec MinaModel MinaSpec.
Import ListNotations.
Set Implicit Arguments.
Unset Strict Implicit.

Section Sponge.
  Variable F : field.
  Variable C : fp_codec F.
  Variable consts : permutation -> sponge_consts F.
  Add Field fS : (fth F).
  Local Open Scope fld_scope.

  Lemma sbox_power k (x : F) : sbox_exp k x = power k x.
  Proof. destruct k; cbn; ring. Qed.
  Lemma map_nth_seq {B} (g : F -> B) (l : list F) n : length l = n -> map (fun i => g (nth i l 0)) (seq 0 n) = map g l.
  Proof. intros <-. induction l as [|x l IH]; [reflexivity|]. cbn [length seq map nth]. f_equal. rewrite <- seq_shift, map_map. exact IH. Qed.
  Lemma add_vec_nth (u v : list F) n : length u = n -> length v = n -> map (fun i => nth i u 0 + nth i v 0) (seq 0 n) = add_vec u v.
  Proof.
    revert v n. induction u as [|x u IH]; intros [|y v] n <- L; try discriminate; [reflexivity|]. cbn [length seq map nth add_vec]. f_equal.
    rewrite <- seq_shift, map_map. cbn [nth]. apply IH; [reflexivity|]. cbn [length] in L. lia.
  Qed.
  Lemma add_vec_len (u v : list F) n : length u = n -> length v = n -> length (add_vec u v) = n.
  Proof. revert v n. induction u as [|x u IH]; intros [|y v] n <- L; try discriminate; [reflexivity|]. cbn [length add_vec] in *. f_equal. apply IH; [reflexivity|lia]. Qed.
  Lemma dot_nth (u v : list F) n acc : length u = n -> length v = n ->
    fold_left (fun acc col => acc + nth col v 0 * nth col u 0) (seq 0 n) acc = acc + dot u v.
  Proof.
    revert v n acc. induction u as [|x u IH]; intros [|y v] n acc <- L; try discriminate; [cbn; ring|]. cbn [length seq fold_left nth dot].
    rewrite <- seq_shift. assert (FM : forall (f : F -> nat -> F) l a, fold_left f (map S l) a = fold_left (fun a i => f a (S i)) l a).
    { clear. intros f l. induction l as [|x l IH]; intros a; [reflexivity|]. cbn [map fold_left]. apply IH. }
    rewrite FM. cbn [nth]. rewrite (IH v (length u)); [ring|reflexivity|]. cbn [length] in L. lia.
  Qed.
  Lemma mat_vec_nth (M : list (list F)) (v : list F) n m : length M = m -> Forall (fun row => length row = n) M -> length v = n ->
    map (fun row => fold_left (fun acc col => acc + nth col v 0 * nth col (nth row M []) 0) (seq 0 n) 0) (seq 0 m) = mat_vec M v.
  Proof.
    intros <- H L. induction H as [|row M R H IH]; [reflexivity|]. cbn [length seq map nth mat_vec]. rewrite (dot_nth (u := row) (v := v) (n := n)) by assumption.
    f_equal; [ring|]. rewrite <- seq_shift, map_map. exact IH.
  Qed.

  Variable T : permutation.
  Variable K : sponge_consts F.
  Hypothesis EK : consts T = K.
  Hypothesis SH : shape T K.
  Local Notation w := (sc_width K).
  Local Notation ctx st a := (Context T st a%nat).
  Lemma key_len r : (r < length (sc_keys K))%nat -> length (nth r (sc_keys K) []) = w.
  Proof. intros R. destruct (sh_keys SH) as [H _]. rewrite Forall_forall in H. apply H, nth_In, R. Qed.
  Lemma ark_is (c : context F) r st : cx_type c = T -> length st = w -> (r < length (sc_keys K))%nat -> ark consts c r st = add_vec st (nth r (sc_keys K) []).
  Proof.
    intros E L R. unfold ark, cc. rewrite E, EK. apply add_vec_nth; [exact L|apply key_len, R].
  Qed.
  Lemma mix_is (c : context F) st : cx_type c = T -> length st = w -> mds consts c (sbox consts c st) = mat_vec (sc_mds K) (map (power (sc_sbox K)) st).
  Proof.
    intros E L. unfold mds, sbox, cc. rewrite E, EK. rewrite (map_nth_seq (sbox_exp (sc_sbox K)) L). rewrite (map_ext _ _ (sbox_power (sc_sbox K))).
    destruct (sh_mds SH) as [M1 M2]. apply mat_vec_nth; [exact M1|exact M2|now rewrite map_length].
  Qed.
  Lemma mix_len st : length (mat_vec (sc_mds K) (map (power (sc_sbox K)) st)) = w.
  Proof. unfold mat_vec. rewrite map_length. apply (sh_mds SH). Qed.

  Lemma rounds_fold (f : list F -> nat -> list F) (g : list F -> list F -> list F) keys n st :
    (forall s r, length s = w -> (r < n)%nat -> f s r = g s (nth r keys []) /\ length (f s r) = w) -> (n <= length keys)%nat -> length st = w ->
    fold_left f (seq 0 n) st = fold_left g (firstn n keys) st /\ length (fold_left f (seq 0 n) st) = w.
  Proof.
    intros H LK L. induction n as [|n IH]; [split; [reflexivity|exact L]|]. destruct IH as [I1 I2]; [intros s r Ls R; apply H; [exact Ls|lia]|lia|].
    rewrite seq_S, fold_left_app. cbn [fold_left Nat.add]. destruct (H (fold_left f (seq 0 n) st) n I2 ltac:(lia)) as [H1 H2].
    split; [|exact H2]. rewrite H1, I1. assert (E : firstn (S n) keys = firstn n keys ++ [nth n keys []]).
    { clear - LK. revert keys LK. induction n as [|n IH]; intros [|k keys] L; cbn [length] in L; try lia; [reflexivity|]. cbn [firstn nth app]. f_equal. apply IH. lia. }
    rewrite E, fold_left_app. reflexivity.
  Qed.
  Lemma permute_is (c : context F) st : cx_type c = T -> length st = w -> permute_state consts c st = poseidon T K st /\ length (poseidon T K st) = w.
  Proof.
    intros E L. pose proof (proj2 (sh_keys SH)) as N.
    assert (FULL : (sc_rounds K <= length (sc_keys K))%nat -> forall st, length st = w -> let r := fold_left (fun st r => ark consts c r (mds consts c (sbox consts c st))) (seq 0 (sc_rounds K)) st in
      r = fold_left (fun st key => add_vec (mat_vec (sc_mds K) (map (power (sc_sbox K)) st)) key) (firstn (sc_rounds K) (sc_keys K)) st /\ length r = w).
    { intros B s Ls. apply rounds_fold; [|exact B|exact Ls]. intros s' r Ls' R. rewrite mix_is by assumption. rewrite ark_is; [|exact E|apply mix_len|lia].
      split; [reflexivity|]. apply add_vec_len; [apply mix_len|apply key_len; lia]. }
    assert (HALF : (sc_rounds K <= length (sc_keys K))%nat -> forall st, length st = w -> let r := fold_left (fun st r => mds consts c (sbox consts c (ark consts c r st))) (seq 0 (sc_rounds K)) st in
      r = fold_left (fun st key => mat_vec (sc_mds K) (map (power (sc_sbox K)) (add_vec st key))) (firstn (sc_rounds K) (sc_keys K)) st /\ length r = w).
    { intros B s Ls. apply rounds_fold; [|exact B|exact Ls]. intros s' r Ls' R. rewrite ark_is; [|exact E|exact Ls'|lia].
      rewrite mix_is; [|exact E|apply add_vec_len; [exact Ls'|apply key_len; lia]]. split; [reflexivity|apply mix_len]. }
    assert (LAST : (sc_rounds K < length (sc_keys K))%nat -> forall st, length st = w -> let r := ark consts c (sc_rounds K) st in
      r = add_vec st (nth (sc_rounds K) (sc_keys K) []) /\ length r = w).
    { intros B s Ls. cbv zeta. rewrite ark_is by assumption. split; [reflexivity|]. apply add_vec_len; [exact Ls|apply key_len, B]. }
    unfold permute_state, cc, poseidon. rewrite E, EK. clear EK E. destruct T; cbv zeta in *.
    - destruct (HALF ltac:(lia) st L) as [H1 H2]. rewrite H1 in H2. rewrite H1.
      destruct (LAST ltac:(lia) _ H2) as [H3 H4]. rewrite H3 in H4. rewrite H3. split; [reflexivity|exact H4].
    - destruct (FULL ltac:(lia) st L) as [H1 H2]. rewrite <- H1. split; [reflexivity|exact H2].
    - destruct (FULL ltac:(lia) st L) as [H1 H2]. rewrite <- H1. split; [reflexivity|exact H2].
  Qed.

  (** ** Absorbing *)
  Lemma absorb_block st n block : (n + length block <= sc_rate K)%nat -> length st = w ->
    fold_left (absorb consts) block (ctx st n) = ctx (firstn n st ++ add_block (skipn n st) block) (n + length block).
  Proof.
    revert st n. induction block as [|x block IH]; intros st n B L.
    - cbn [fold_left length]. rewrite Nat.add_0_r. f_equal. rewrite <- (firstn_skipn n st) at 1. f_equal. generalize (skipn n st). clear. intros l. unfold add_block.
      transitivity (map (fun i => nth i l 0) (seq 0 (length l))); [symmetry; rewrite (map_nth_seq (fun x => x) eq_refl); apply map_id|].
      apply map_ext. intros i. destruct i; cbn; ring.
    - cbn [fold_left length] in *. pose proof (sh_rate SH) as R. unfold absorb at 2. unfold cc. cbn [cx_type cx_absorbed cx_state]. rewrite EK.
      replace (n =? sc_rate K)%nat with false by (symmetry; apply Nat.eqb_neq; lia). cbn [cx_type cx_absorbed cx_state].
      set (st' := firstn n st ++ _). assert (LF : length (firstn n st) = n) by (rewrite firstn_length; lia).
      assert (LK : length (skipn n st) = (w - n)%nat) by (rewrite skipn_length; lia).
      assert (E : skipn n st = nth n st 0 :: skipn (S n) st).
      { clear - L B R. assert (H : (n < length st)%nat) by lia. clear L B R. revert st H. induction n as [|n IH]; intros [|x l] H; cbn [length] in H; try lia; [reflexivity|]. rewrite !skipn_cons. cbn [nth]. apply IH. lia. }
      assert (L' : length st' = w) by (unfold st'; rewrite app_length, LF; cbn [length]; rewrite skipn_length; lia).
      rewrite IH by (exact L' || lia). replace (n + S (length block))%nat with (S n + length block)%nat by lia. f_equal.
      assert (F1 : firstn (S n) st' = firstn n st ++ [nth n st 0 + x]).
      { unfold st'. replace (S n) with (length (firstn n st) + 1)%nat by lia. rewrite firstn_app_2. reflexivity. }
      assert (F2 : skipn (S n) st' = skipn (S n) st).
      { unfold st'. rewrite skipn_app, LF. rewrite (skipn_all2 (firstn n st)) by lia. replace (S n - n)%nat with 1%nat by lia. reflexivity. }
      rewrite F1, F2, <- app_assoc, E. f_equal. unfold add_block. cbn [length seq map nth app]. f_equal. rewrite <- seq_shift, map_map. reflexivity.
  Qed.
  Lemma add_block_len st (block : list F) : length (add_block st block) = length st.
  Proof. unfold add_block. now rewrite map_length, seq_length. Qed.
  Lemma sponge_is fuel st fields : length st = w -> (length fields <= fuel * sc_rate K + sc_rate K)%nat ->
    let c := fold_left (absorb consts) fields (ctx st 0) in
    permute_state consts c (cx_state c) = sponge (poseidon T K) (sc_rate K) fuel st fields.
  Proof.
    pose proof (sh_rate SH) as R. revert st fields. induction fuel as [|fuel IH]; intros st fields L B; cbv zeta.
    - rewrite absorb_block by (exact L || lia). cbn [sponge cx_state firstn app skipn]. apply permute_is; [reflexivity|now rewrite add_block_len].
    - cbn [sponge]. destruct (Nat.le_gt_cases (length fields) (sc_rate K)) as [H|H].
      + rewrite skipn_all2 by exact H. rewrite absorb_block by (exact L || lia). cbn [cx_state firstn app skipn]. apply permute_is; [reflexivity|now rewrite add_block_len].
      + assert (LF : length (firstn (sc_rate K) fields) = sc_rate K) by (rewrite firstn_length; lia).
        destruct (skipn (sc_rate K) fields) as [|x rest] eqn:E; [apply (f_equal (@length F)) in E; rewrite skipn_length in E; cbn in E; lia|].
        rewrite <- (firstn_skipn (sc_rate K) fields) at 1 2. rewrite fold_left_app, absorb_block by (exact L || lia). cbn [Nat.add firstn app skipn]. rewrite LF, E.
        set (st' := add_block st (firstn (sc_rate K) fields)). assert (L' : length st' = w) by (unfold st'; now rewrite add_block_len).
        destruct (permute_is (c := ctx st' (sc_rate K)) eq_refl L') as [P1 P2].
        assert (A : absorb consts (ctx st' (sc_rate K)) x = absorb consts (ctx (poseidon T K st') 0) x).
        { unfold absorb, cc. cbn [cx_type cx_absorbed cx_state]. rewrite EK, Nat.eqb_refl. replace (0 =? sc_rate K)%nat with false by (symmetry; apply Nat.eqb_neq; lia).
          unfold permute. cbn [cx_type cx_absorbed cx_state]. rewrite P1. reflexivity. }
        cbn [fold_left]. rewrite A. apply (f_equal (@length F)) in E. rewrite skipn_length in E. cbn [length] in E.
        change (fold_left (absorb consts) rest (absorb consts (ctx (poseidon T K st') 0) x)) with (fold_left (absorb consts) (x :: rest) (ctx (poseidon T K st') 0)).
        specialize (IH (poseidon T K st') (x :: rest) P2). cbv zeta in IH. cbn [length] in IH. rewrite IH by lia. reflexivity.
  Qed.
End Sponge.
