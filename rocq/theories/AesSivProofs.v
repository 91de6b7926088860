From Coq Require Import List Bool ZArith Lia.
From Verif Require Import BytesModel BytesProofs CodecModel CodecSpec CodecProofs HashSpec HashProofs AesSivModel AesSivSpec.
Import ListNotations.
Open Scope Z_scope.

(** ---- xor of strings ---- *)
Lemma strxor_length a : forall b, length a = length b -> length (strxor a b) = length a.
Proof. induction a as [|x a IH]; intros [|y b] L; cbn in *; try discriminate; auto. Qed.
Lemma strxor_comm a : forall b, strxor a b = strxor b a.
Proof. induction a as [|x a IH]; intros [|y b]; cbn; auto. rewrite IH, Z.lxor_comm. reflexivity. Qed.
Lemma strxor_assoc a : forall b c, strxor (strxor a b) c = strxor a (strxor b c).
Proof. induction a as [|x a IH]; intros [|y b] [|z c]; cbn; auto. rewrite IH, Z.lxor_assoc. reflexivity. Qed.
Lemma strxor_app a : forall b c d, length a = length b -> strxor (a ++ c) (b ++ d) = strxor a b ++ strxor c d.
Proof. induction a as [|x a IH]; intros [|y b] c d L; cbn in *; try discriminate; auto. f_equal; auto. Qed.
Lemma strxor_0_r a n : length a = n -> strxor a (repeat 0 n) = a.
Proof. revert n. induction a as [|x a IH]; intros [|n] L; cbn in *; try discriminate; auto. rewrite Z.lxor_0_r, IH; auto. Qed.
Lemma xor_onto_strxor x : forall b, length x = length b -> xor_onto x b = strxor b x.
Proof. induction x as [|a x IH]; intros [|c b] L; cbn in *; try discriminate; auto. f_equal; auto. Qed.
Lemma xor_onto_length x : forall b, length (xor_onto x b) = length b.
Proof. induction x as [|a x IH]; intros [|c b]; cbn; auto. Qed.
Lemma xor_onto_twice x : forall y b, length x = length y -> xor_onto x (xor_onto y b) = xor_onto (strxor x y) b.
Proof.
  induction x as [|a x IH]; intros [|c y] [|d b] L; cbn in *; try discriminate; auto.
  rewrite IH by lia. f_equal. rewrite Z.lxor_assoc, (Z.lxor_comm c a). reflexivity.
Qed.
Lemma firstn_strxor n : forall a b, firstn n (strxor a b) = strxor (firstn n a) (firstn n b).
Proof. induction n as [|n IH]; intros [|x a] [|y b]; cbn; auto. f_equal. apply IH. Qed.
Lemma skipn_strxor n : forall a b, length a = length b -> skipn n (strxor a b) = strxor (skipn n a) (skipn n b).
Proof. induction n as [|n IH]; intros [|x a] [|y b] L; cbn in *; try discriminate; auto. Qed.
Lemma xor_block_strxor x b : length x = 16%nat -> length b = 16%nat -> xor_block x b = strxor b x.
Proof. intros L1 L2. unfold xor_block. rewrite firstn_all2 by lia. apply xor_onto_strxor. lia. Qed.
Lemma pad_xor l : forall b m, length b = (length l + S m)%nat ->
  xor_at (length l) [128] (xor_onto l b) = strxor b (l ++ 128 :: repeat 0 m).
Proof.
  unfold xor_at. induction l as [|x l IH]; intros [|c b] m L; cbn [length] in L; try lia.
  - cbn [length xor_onto firstn skipn app strxor]. rewrite strxor_0_r by lia. reflexivity.
  - cbn [length xor_onto firstn skipn app strxor]. f_equal. apply IH. lia.
Qed.
Lemma lxor_byte a b : byte_ok a -> byte_ok b -> byte_ok (Z.lxor a b).
Proof.
  unfold byte_ok. intros Ha Hb.
  assert (N : 0 <= Z.lxor a b) by (apply Z.lxor_nonneg; lia). split; [exact N|].
  destruct (Z.eq_dec (Z.lxor a b) 0) as [->|NZ]; [lia|]. change 256 with (2 ^ 8). apply Z.log2_lt_pow2; [lia|].
  pose proof (Z.log2_lxor a b ltac:(lia) ltac:(lia)).
  assert (Z.log2 a < 8). { destruct (Z.eq_dec a 0) as [->|]; [cbn; lia|]. apply Z.log2_lt_pow2; lia. }
  assert (Z.log2 b < 8). { destruct (Z.eq_dec b 0) as [->|]; [cbn; lia|]. apply Z.log2_lt_pow2; lia. }
  lia.
Qed.
Lemma strxor_ok a : forall b, bytes_ok a -> bytes_ok b -> bytes_ok (strxor a b).
Proof.
  induction a as [|x a IH]; intros [|y b] Ha Hb; cbn; try constructor; inversion Ha; inversion Hb; subst; auto using lxor_byte.
  apply IH; auto.
Qed.

(** ---- doubling ---- *)
Lemma lxor_high h lo t k : 0 <= k -> 0 <= lo < 2 ^ k -> 0 <= t < 2 ^ k ->
  Z.lxor (h * 2 ^ k + lo) t = h * 2 ^ k + Z.lxor lo t.
Proof.
  intros Hk Hlo Ht.
  assert (D : forall u, 0 <= u < 2 ^ k -> h * 2 ^ k + u = Z.lxor (h * 2 ^ k) u).
  { intros u Hu. apply Z.add_nocarry_lxor. apply Z.bits_inj'. intros n Hn. rewrite Z.land_spec, Z.bits_0.
    destruct (Z.lt_ge_cases n k).
    - now rewrite Z.mul_pow2_bits_low by lia.
    - rewrite andb_comm. destruct (Z.eq_dec u 0) as [->|]; [now rewrite Z.bits_0|].
      rewrite Z.bits_above_log2; [reflexivity|lia|]. apply Z.lt_le_trans with k; [|lia]. apply Z.log2_lt_pow2; lia. }
  rewrite (D lo Hlo), Z.lxor_assoc, D; [reflexivity|].
  assert (N : 0 <= Z.lxor lo t) by (apply Z.lxor_nonneg; lia). split; [exact N|].
  destruct (Z.eq_dec (Z.lxor lo t) 0) as [->|NZ]; [lia|]. apply Z.log2_lt_pow2; [lia|].
  pose proof (Z.log2_lxor lo t ltac:(lia) ltac:(lia)).
  assert (L1 : Z.log2 lo < k \/ lo = 0). { destruct (Z.eq_dec lo 0) as [|]; [auto|left]. apply Z.log2_lt_pow2; lia. }
  assert (L2 : Z.log2 t < k \/ t = 0). { destruct (Z.eq_dec t 0) as [|]; [auto|left]. apply Z.log2_lt_pow2; lia. }
  destruct L1 as [L1|E1]; [|rewrite E1, Z.lxor_0_l in *; destruct L2; lia].
  destruct L2 as [L2|E2]; [lia|rewrite E2, Z.lxor_0_r in *; lia].
Qed.
Lemma shiftr7 b : byte_ok b -> Z.shiftr b 7 = b / 128 /\ 0 <= b / 128 <= 1.
Proof.
  intros H. rewrite Z.shiftr_div_pow2 by lia. split; [reflexivity|]. unfold byte_ok in H.
  split; [apply Z.div_pos; lia|]. apply Z.lt_succ_r. apply Z.div_lt_upper_bound; lia.
Qed.
Lemma lor_even_bit e b : 0 <= b <= 1 -> Z.lor (2 * e) b = 2 * e + b.
Proof.
  intros H. destruct (Z.eq_dec b 0) as [->|N]; [now rewrite Z.lor_0_r, Z.add_0_r|]. replace b with 1 by lia.
  symmetry. rewrite <- Z.lxor_lor; [apply Z.add_nocarry_lxor|]; apply Z.bits_inj'; intros n Hn;
  rewrite Z.land_spec, Z.bits_0; (destruct (Z.eq_dec n 0) as [->|];
  [now rewrite Z.testbit_even_0|rewrite (Z.bits_above_log2 1 n); [apply andb_false_r|lia|cbn; lia]]).
Qed.
Lemma mulx_loop_cons c b b' l : mulx_loop c (b :: b' :: l) = Z.lor ((b * 2) mod 256) (Z.shiftr b' 7) :: mulx_loop c (b' :: l).
Proof. reflexivity. Qed.
Lemma mulx_loop_len c l : length (mulx_loop c l) = length l.
Proof. induction l as [|b [|b' l] IH]; [reflexivity|reflexivity|]. cbn [mulx_loop length] in *. now rewrite IH. Qed.
Lemma even_mod b : exists e, (b * 2) mod 256 = 2 * e.
Proof. exists (b mod 128). rewrite (Z.mul_comm b 2). change 256 with (2 * 128). rewrite Z.mul_mod_distr_l; lia. Qed.
Lemma of_be_single b : of_be [b] = b.
Proof. rewrite of_be_cons. change (of_be []) with 0. cbn. lia. Qed.
Lemma mulx_loop_ok c l : bytes_ok l -> bytes_ok (mulx_loop c l).
Proof.
  induction l as [|b [|b' l] IH]; intros H; [constructor| |].
  - cbn [mulx_loop]. constructor; [|constructor]. apply lxor_byte; [apply Z.mod_pos_bound; lia|]. destruct (c =? 1); unfold byte_ok; lia.
  - rewrite mulx_loop_cons. inversion H as [|? ? Hb Hl]; subst. constructor; [|apply IH; exact Hl].
    inversion Hl as [|? ? Hb' _]; subst. destruct (shiftr7 _ Hb') as [-> B]. destruct (even_mod b) as [e E].
    rewrite E, lor_even_bit by lia. pose proof (Z.mod_pos_bound (b * 2) 256 ltac:(lia)). unfold byte_ok. lia.
Qed.
Lemma mulx_loop_val c l : bytes_ok l -> l <> [] ->
  of_be (mulx_loop c l) = Z.lxor ((2 * of_be l) mod 256 ^ Z.of_nat (length l)) (if c =? 1 then 135 else 0).
Proof.
  set (t := if c =? 1 then 135 else 0). assert (Ht : 0 <= t < 256) by (unfold t; destruct (c =? 1); lia).
  induction l as [|b [|b' l] IH]; intros H N; [congruence| |].
  - cbn [mulx_loop]. fold t. rewrite !of_be_single. cbn [length]. change (256 ^ Z.of_nat 1) with 256. do 2 f_equal. lia.
  - inversion H as [|? ? Hb Hl]; subst. specialize (IH Hl ltac:(discriminate)).
    rewrite mulx_loop_cons, of_be_cons, mulx_loop_len, IH. rewrite (of_be_cons b).
    set (v := of_be (b' :: l)) in *. set (n := length (b' :: l)) in *.
    assert (Hv : 0 <= v < 256 ^ Z.of_nat n) by (apply of_be_range; exact Hl).
    change (length (b :: b' :: l)) with (S n). rewrite Nat2Z.inj_succ, Z.pow_succ_r by lia.
    set (P := 256 ^ Z.of_nat n) in *. assert (HP : 256 <= P).
    { unfold P, n. cbn [length]. rewrite Nat2Z.inj_succ, Z.pow_succ_r by lia.
      pose proof (pow256_pos (length l)). lia. }
    inversion Hl as [|? ? Hb' Hl']; subst. destruct (shiftr7 _ Hb') as [-> B]. destruct (even_mod b) as [e Ee].
    rewrite Ee, lor_even_bit by lia.
    assert (TB : b' / 128 = 2 * v / P).
    { unfold v, P, n. rewrite of_be_cons. cbn [length]. rewrite Nat2Z.inj_succ, Z.pow_succ_r by lia.
      pose proof (of_be_range _ Hl') as R. set (Q := 256 ^ Z.of_nat (length l)) in *. set (w := of_be l) in *.
      apply Z.div_unique with (r := 2 * (b' * Q + w) - 256 * Q * (b' / 128)); [|ring]. left.
      pose proof (Z.div_mod b' 128 ltac:(lia)). pose proof (Z.mod_pos_bound b' 128 ltac:(lia)). nia. }
    assert (VM : (2 * (b * P + v)) mod (256 * P) = (2 * e + b' / 128) * P + (2 * v) mod P).
    { symmetry. apply Z.mod_unique with (q := (b * 2) / 256); [left|].
      - pose proof (Z.mod_pos_bound (2 * v) P ltac:(lia)). pose proof (Z.mod_pos_bound (b * 2) 256 ltac:(lia)). nia.
      - pose proof (Z.div_mod (b * 2) 256 ltac:(lia)). pose proof (Z.div_mod (2 * v) P ltac:(lia)). rewrite TB. nia. }
    rewrite VM. unfold P. rewrite <- pow2_256. rewrite lxor_high; [reflexivity|lia| |].
    + rewrite pow2_256. apply Z.mod_pos_bound. lia.
    + rewrite pow2_256. fold P. lia.
Qed.
Lemma multiply_by_x_dbl b : bytes_ok b -> length b = 16%nat -> multiply_by_x b = dbl b.
Proof.
  intros H L. apply be_n_unique.
  - apply mulx_loop_ok. exact H.
  - unfold multiply_by_x. now rewrite mulx_loop_len.
  - unfold multiply_by_x. destruct b as [|x b]; [discriminate|]. rewrite mulx_loop_val by (auto; discriminate).
    rewrite L. change (nth 0 (x :: b) 0) with x. inversion H as [|? ? Hx Hb]; subst.
    destruct (shiftr7 _ Hx) as [-> B]. pose proof (of_be_range _ H) as R. rewrite L in R.
    pose proof (of_be_range _ Hb) as Rb. injection L as L. rewrite L in Rb.
    change (256 ^ Z.of_nat 16) with (2 ^ 128) in *.
    assert (V : of_be (x :: b) = x * 2 ^ 120 + of_be b) by (rewrite of_be_cons, L; reflexivity).
    change (256 ^ Z.of_nat 15) with (2 ^ 120) in Rb.
    pose proof (Z.div_mod x 128 ltac:(lia)). pose proof (Z.mod_pos_bound x 128 ltac:(lia)).
    destruct (Z.ltb_spec (of_be (x :: b)) (2 ^ 127)).
    + destruct (Z.eqb_spec (x / 128) 1); [lia|]. rewrite Z.mod_small by lia. now rewrite Z.lxor_0_r.
    + destruct (Z.eqb_spec (x / 128) 1); [|lia]. f_equal.
      symmetry. apply Z.mod_unique with (q := 1); lia.
Qed.
Lemma dbl_len b : length (dbl b) = 16%nat. Proof. apply be_n_length. Qed.
Lemma dbl_ok b : bytes_ok (dbl b). Proof. apply be_n_ok. Qed.

Lemma app_firstn_exact {A} (a b : list A) n : length a = n -> firstn n (a ++ b) = a.
Proof. intros <-. rewrite firstn_app, Nat.sub_diag, firstn_O, app_nil_r. apply firstn_all. Qed.
Lemma app_skipn_exact {A} (a b : list A) n : length a = n -> skipn n (a ++ b) = b.
Proof. intros <-. rewrite skipn_app, Nat.sub_diag, skipn_O. rewrite skipn_all2 by lia. reflexivity. Qed.
Section P.
Variable aes : list Z -> list Z -> list Z.
Hypothesis aes_len : forall k b, length (aes k b) = 16%nat.
Hypothesis aes_ok : forall k b, bytes_ok (aes k b).
Variable key : list Z.
Hypothesis key_len : length key = 64%nat.
Let E1 := aes (firstn 32 key).
Let E2 := aes (skipn 32 key).
Let K := {| k1 := firstn 32 key; k2 := skipn 32 key; cmacK1 := sub1 E1; cmacK2 := sub2 E1 |}.

Lemma new_is_K : new_aes_siv aes key = Some K.
Proof.
  unfold new_aes_siv. rewrite key_len. cbn [Nat.eqb]. unfold K. do 2 f_equal.
  - unfold sub1. apply multiply_by_x_dbl; [apply aes_ok|apply aes_len].
  - unfold sub2, sub1. rewrite multiply_by_x_dbl; [rewrite multiply_by_x_dbl; [reflexivity|apply aes_ok|apply aes_len]| |].
    + rewrite multiply_by_x_dbl; [apply dbl_ok|apply aes_ok|apply aes_len].
    + rewrite multiply_by_x_dbl; [apply dbl_len|apply aes_ok|apply aes_len].
Qed.
Lemma sub1_len : length (sub1 E1) = 16%nat. Proof. apply dbl_len. Qed.
Lemma sub2_len : length (sub2 E1) = 16%nat. Proof. apply dbl_len. Qed.
Lemma E1_len b : length (E1 b) = 16%nat. Proof. apply aes_len. Qed.
Lemma E1_ok b : bytes_ok (E1 b). Proof. apply aes_ok. Qed.
Hint Rewrite sub1_len sub2_len E1_len dbl_len : len.

(** recursion over the message *)
Definition final (M : list Z) : list Z := if Nat.eqb (length M) 16 then strxor M (sub1 E1) else strxor (pad M) (sub2 E1).
Definition R (X M : list Z) : list Z :=
  E1 (strxor (fold_left (fun X i => E1 (strxor X (mblock M i))) (seq 0 (nblocks M - 1)) X) (mlast E1 M)).
Lemma nblocks_short M : (length M <= 16)%nat -> nblocks M = 1%nat.
Proof.
  intros H. unfold nblocks. assert ((length M + 15) / 16 < 2)%nat by (apply Nat.div_lt_upper_bound; lia). lia.
Qed.
Lemma nblocks_long M : (16 < length M)%nat -> nblocks M = S (nblocks (skipn 16 M)).
Proof.
  intros H. unfold nblocks. rewrite skipn_length.
  replace (length M + 15)%nat with (length M - 16 + 15 + 1 * 16)%nat by lia. rewrite Nat.div_add by lia.
  assert (1 <= (length M - 16 + 15) / 16)%nat by (apply Nat.div_le_lower_bound; lia). lia.
Qed.
Lemma nblocks_pos M : (1 <= nblocks M)%nat. Proof. unfold nblocks. lia. Qed.
Lemma R_short X M : (length M <= 16)%nat -> R X M = E1 (strxor X (final M)).
Proof.
  intros H. unfold R, mlast. rewrite nblocks_short by exact H. cbn [Nat.sub seq fold_left].
  unfold mblock. cbn [Nat.mul]. rewrite skipn_O, firstn_all2 by lia. reflexivity.
Qed.
Lemma mblock_S M i : mblock M (S i) = mblock (skipn 16 M) i.
Proof. unfold mblock. rewrite skipn_add. do 2 f_equal. lia. Qed.
Lemma R_long X M : (16 < length M)%nat -> R X M = R (E1 (strxor X (firstn 16 M))) (skipn 16 M).
Proof.
  intros H. unfold R. pose proof (nblocks_pos (skipn 16 M)) as NP. rewrite nblocks_long by exact H.
  replace (S (nblocks (skipn 16 M)) - 1)%nat with (S (nblocks (skipn 16 M) - 1)) by lia.
  f_equal. f_equal.
  - cbn [seq fold_left]. change (mblock M 0) with (firstn 16 (skipn 0 M)). rewrite skipn_O.
    rewrite <- seq_shift. generalize (E1 (strxor X (firstn 16 M))). generalize (seq 0 (nblocks (skipn 16 M) - 1)).
    induction l as [|i l IH]; intros Y; cbn [map fold_left]; [reflexivity|]. rewrite mblock_S. apply IH.
  - unfold mlast. rewrite nblocks_long by exact H.
    replace (S (nblocks (skipn 16 M)) - 1)%nat with (S (nblocks (skipn 16 M) - 1)) by lia. rewrite mblock_S. reflexivity.
Qed.
Lemma rfc_cmac_R M : rfc_cmac E1 M = R (repeat 0 16) M. Proof. reflexivity. Qed.

(** the model's cmac *)
Lemma cmac_loop_spec n : forall data block i, length block = 16%nat -> (16 * (i + n) <= length data)%nat ->
  cmac_loop aes K n data block (16 * i)
  = (fold_left (fun X i => E1 (strxor X (mblock data i))) (seq i n) block, 16 * (i + n))%nat.
Proof.
  induction n as [|n IH]; intros data block i Lb Ld; cbn [cmac_loop seq fold_left].
  - do 2 f_equal. lia.
  - replace (16 * i + 16)%nat with (16 * S i)%nat by lia. rewrite IH.
    + f_equal; [|lia]. f_equal. unfold enc. cbn [k1 K]. fold E1. f_equal. unfold mblock. apply xor_block_strxor; [|exact Lb].
      apply firstn_length_le. rewrite skipn_length. lia.
    + unfold enc. apply aes_len.
    + lia.
Qed.
Lemma fold_len l : forall X data, length X = 16%nat -> length (fold_left (fun X i => E1 (strxor X (mblock data i))) l X) = 16%nat.
Proof. induction l as [|i l IH]; intros X data L; cbn [fold_left]; [exact L|]. apply IH. apply E1_len. Qed.
Lemma cmac_rfc data : cmac aes K data = rfc_cmac E1 data.
Proof.
  unfold cmac. set (nb := Nat.div (length data + 15) 16).
  assert (NB : (if Nat.eqb nb 0 then 1%nat else nb) = nblocks data).
  { unfold nblocks. fold nb. destruct (Nat.eqb_spec nb 0); lia. }
  rewrite NB. set (n := nblocks data). pose proof (nblocks_pos data) as NP. fold n in NP.
  assert (B : (16 * (n - 1) <= length data)%nat /\ (length data <= 16 * n)%nat /\ (n = 1 \/ 16 * (n - 1) < length data)%nat).
  { unfold n, nblocks. fold nb. pose proof (Nat.div_mod (length data + 15) 16 ltac:(lia)).
    pose proof (Nat.mod_upper_bound (length data + 15) 16 ltac:(lia)). fold nb in H. lia. }
  pose proof (cmac_loop_spec (n - 1) data zero_block 0 ltac:(reflexivity) ltac:(lia)) as CL.
  change (16 * 0)%nat with 0%nat in CL. change (0 + (n - 1))%nat with (n - 1)%nat in CL. rewrite CL.
  set (X := fold_left _ _ _).
  assert (LX : length X = 16%nat) by (apply fold_len; reflexivity).
  unfold rfc_cmac. fold n. change (repeat 0 16) with zero_block. fold X.
  change (enc aes K) with E1. f_equal.
  unfold mlast. fold n. unfold mblock.
  replace (length data - (n - 1) * 16)%nat with (length (skipn (16 * (n - 1)) data)) by (rewrite skipn_length; lia).
  set (l := skipn (16 * (n - 1)) data).
  assert (Ll : (length l <= 16)%nat) by (unfold l; rewrite skipn_length; lia).
  rewrite firstn_all. rewrite (firstn_all2 (n := 16) l) by exact Ll.
  cbn [K cmacK1 cmacK2].
  destruct (Nat.eqb_spec (length l) 16) as [E|N].
  - rewrite xor_onto_strxor by lia. rewrite xor_block_strxor by (try apply sub1_len; rewrite strxor_length; lia).
    apply strxor_assoc.
  - rewrite (pad_xor l X (15 - length l)) by lia.
    assert (LP : length (l ++ 128 :: repeat 0 (15 - length l)) = 16%nat) by (rewrite app_length; cbn [length]; rewrite repeat_length; lia).
    rewrite xor_block_strxor; [|apply sub2_len|rewrite strxor_length; lia]. apply strxor_assoc.
Qed.

(** cmacLong *)
Lemma xorend_app A rest last : (16 <= length rest)%nat -> xorend (A ++ rest) last = A ++ xorend rest last.
Proof.
  intros H. unfold xorend. rewrite app_length.
  replace (length A + length rest - 16)%nat with (length A + (length rest - 16))%nat by lia.
  rewrite firstn_app_2, skipn_app. rewrite skipn_all2 by lia.
  replace (length A + (length rest - 16) - length A)%nat with (length rest - 16)%nat by lia.
  cbn [app]. now rewrite app_assoc.
Qed.
Definition finish (last : list Z) (p : list Z * list Z) : list Z :=
  let '(block, rest) := p in
  let remaining := length rest in
  let block := xor_at remaining (firstn (16 - remaining) last) block in
  let block :=
    if Nat.eqb remaining 0 then xor_block (cmacK1 K) block
    else let b := enc aes K block in
         let b := xor_onto rest (xor_onto (skipn (16 - remaining) last) b) in
         xor_block (cmacK2 K) (xor_at remaining [128] b) in
  enc aes K block.
Lemma cmac_long_finish data last : cmac_long aes K data last
  = finish last (cmac_long_loop aes K (length data) (firstn 16 data) (skipn 16 data)).
Proof. unfold cmac_long, finish. destruct (cmac_long_loop _ _ _ _ _). reflexivity. Qed.
Lemma finish_spec X A rest last : length X = 16%nat -> length A = 16%nat -> length last = 16%nat -> (length rest < 16)%nat ->
  finish last (strxor X A, rest) = R X (xorend (A ++ rest) last).
Proof.
  intros LX LA LL Lr. unfold finish. set (r := length rest) in *. cbn [cmacK1 cmacK2 K]. change (enc aes K) with E1.
  destruct (Nat.eqb_spec r 0) as [Z0|NZ].
  - assert (RN : rest = []) by (apply length_zero_iff_nil; exact Z0). rewrite RN, app_nil_r, Z0. unfold xor_at. rewrite firstn_O, skipn_O. cbn [app].
    rewrite firstn_all2 by lia. rewrite xor_onto_strxor by (rewrite strxor_length; lia).
    rewrite xor_block_strxor by (try apply sub1_len; rewrite !strxor_length; rewrite ?strxor_length; lia).
    unfold xorend. rewrite LA. cbn [Nat.sub]. rewrite firstn_O, skipn_O. cbn [app].
    rewrite R_short by (rewrite strxor_length; lia). f_equal. unfold final. rewrite strxor_length, LA by lia. cbn [Nat.eqb].
    now rewrite !strxor_assoc.
  - set (l1 := firstn (16 - r) last). set (l2 := skipn (16 - r) last).
    assert (L1 : length l1 = (16 - r)%nat) by (apply firstn_length_le; lia).
    assert (L2 : length l2 = r) by (unfold l2; rewrite skipn_length; lia).
    set (A' := firstn r A ++ strxor (skipn r A) l1).
    assert (LsA : length (skipn r A) = (16 - r)%nat) by (rewrite skipn_length; lia).
    assert (LfA : length (firstn r A) = r) by (apply firstn_length_le; lia).
    assert (LA' : length A' = 16%nat). { unfold A'. rewrite app_length, strxor_length by lia. lia. }
    assert (XE : xorend (A ++ rest) last = A' ++ strxor rest l2).
    { unfold xorend. rewrite app_length. fold r. replace (length A + r - 16)%nat with r by lia.
      rewrite firstn_app, skipn_app. replace (r - length A)%nat with 0%nat by lia. rewrite firstn_O, skipn_O, app_nil_r.
      unfold A'. rewrite <- app_assoc. f_equal. rewrite <- (firstn_skipn (16 - r) last). fold l1 l2.
      rewrite strxor_app by lia. reflexivity. }
    assert (B1 : xor_at r l1 (strxor X A) = strxor X A').
    { unfold xor_at. rewrite firstn_strxor, skipn_strxor by lia.
      rewrite xor_onto_strxor by (rewrite strxor_length; rewrite ?skipn_length; lia).
      unfold A'. rewrite <- (firstn_skipn r X) at 3. rewrite strxor_app by (rewrite firstn_length_le; lia).
      f_equal. apply strxor_assoc. }
    rewrite B1, XE. rewrite R_long by (rewrite app_length, strxor_length; fold r; lia).
    rewrite app_firstn_exact, app_skipn_exact by exact LA'.
    assert (LS : length (strxor rest l2) = r) by (rewrite strxor_length; fold r; lia).
    rewrite R_short by lia. f_equal. rewrite xor_onto_twice by (fold r; lia).
    set (Y := E1 (strxor X A')). assert (LY : length Y = 16%nat) by apply E1_len.
    assert (PX : xor_at r [128] (xor_onto (strxor rest l2) Y) = strxor Y (pad (strxor rest l2))).
    { unfold pad. rewrite <- (pad_xor (strxor rest l2) Y (15 - length (strxor rest l2))) by lia. now rewrite LS. }
    rewrite PX. unfold final. destruct (Nat.eqb_spec (length (strxor rest l2)) 16); [lia|].
    assert (LP : length (pad (strxor rest l2)) = 16%nat) by (unfold pad; rewrite app_length; cbn [length]; rewrite repeat_length; lia).
    rewrite xor_block_strxor; [|apply sub2_len|rewrite strxor_length; lia]. apply strxor_assoc.
Qed.
Lemma cmac_long_loop_spec fuel : forall X A rest last, length X = 16%nat -> length A = 16%nat -> length last = 16%nat ->
  (length rest < 16 + fuel)%nat ->
  finish last (cmac_long_loop aes K fuel (strxor X A) rest) = R X (xorend (A ++ rest) last).
Proof.
  induction fuel as [|f IH]; intros X A rest last LX LA LL Lf; cbn [cmac_long_loop].
  - apply finish_spec; auto; lia.
  - destruct (Nat.leb_spec 16 (length rest)) as [H|H]; [|apply finish_spec; auto; lia].
    change (enc aes K) with E1.
    assert (LF : length (firstn 16 rest) = 16%nat) by (apply firstn_length_le; lia).
    rewrite xor_block_strxor by (auto; apply E1_len).
    rewrite IH; [|apply E1_len|exact LF|exact LL|rewrite skipn_length; lia].
    rewrite firstn_skipn, xorend_app by exact H.
    assert (LE : length (xorend rest last) = length rest).
    { unfold xorend. rewrite app_length, firstn_length_le, strxor_length; rewrite ?skipn_length; lia. }
    rewrite (R_long X) by (rewrite app_length; lia).
    now rewrite app_firstn_exact, app_skipn_exact.
Qed.
Lemma cmac_long_rfc data last : (16 <= length data)%nat -> length last = 16%nat ->
  cmac_long aes K data last = rfc_cmac E1 (xorend data last).
Proof.
  intros H L. rewrite cmac_long_finish.
  assert (LF : length (firstn 16 data) = 16%nat) by (apply firstn_length_le; lia).
  pose proof (cmac_long_loop_spec (length data) (repeat 0 16) (firstn 16 data) (skipn 16 data) last eq_refl LF L ltac:(rewrite skipn_length; lia)) as P.
  rewrite strxor_comm, strxor_0_r in P by exact LF. rewrite P, firstn_skipn. reflexivity.
Qed.

Lemma rfc_cmac_len M : length (rfc_cmac E1 M) = 16%nat. Proof. apply E1_len. Qed.
Lemma rfc_cmac_ok M : bytes_ok (rfc_cmac E1 M). Proof. apply E1_ok. Qed.
Lemma s2v_rfc msg ad : s2v aes K msg ad = rfc_s2v E1 ad msg.
Proof.
  unfold s2v, rfc_s2v. rewrite !cmac_rfc. change zero_block with (repeat 0 16).
  rewrite multiply_by_x_dbl by (try apply rfc_cmac_ok; apply rfc_cmac_len).
  rewrite xor_block_strxor by (try apply rfc_cmac_len; apply dbl_len).
  set (D := strxor (dbl (rfc_cmac E1 (repeat 0 16))) (rfc_cmac E1 ad)).
  assert (LD : length D = 16%nat) by (unfold D; rewrite strxor_length; rewrite dbl_len; [reflexivity|symmetry; apply rfc_cmac_len]).
  assert (OD : bytes_ok D) by (unfold D; apply strxor_ok; [apply dbl_ok|apply rfc_cmac_ok]).
  destruct (Nat.leb_spec 16 (length msg)) as [H|H].
  - apply cmac_long_rfc; auto.
  - rewrite multiply_by_x_dbl by auto. f_equal. unfold pad.
    apply pad_xor. rewrite dbl_len. lia.
Qed.
Lemma s2v_len msg ad : length (s2v aes K msg ad) = 16%nat.
Proof. rewrite s2v_rfc. apply E1_len. Qed.
Lemma s2v_ok msg ad : bytes_ok (s2v aes K msg ad).
Proof. rewrite s2v_rfc. apply E1_ok. Qed.

(** CTR *)
Lemma flat_map_nth {A} (f : nat -> list A) d : (forall i, length (f i) = 16%nat) -> forall i m j, (j < 16 * m)%nat ->
  nth j (flat_map f (seq i m)) d = nth (j mod 16) (f (i + j / 16)%nat) d.
Proof.
  intros L i m. revert i. induction m as [|m IH]; intros i j Hj; [lia|]. cbn [seq flat_map].
  destruct (Nat.lt_ge_cases j 16).
  - rewrite app_nth1 by (rewrite L; lia). rewrite Nat.mod_small, Nat.div_small by lia. now rewrite Nat.add_0_r.
  - rewrite app_nth2 by (rewrite L; lia). rewrite L. rewrite (IH (S i) (j - 16)%nat ltac:(lia)).
    assert (J : j = ((j - 16) + 1 * 16)%nat) by lia.
    assert (J1 : (j mod 16 = (j - 16) mod 16)%nat) by (rewrite J at 1; apply Nat.mod_add; lia).
    assert (J2 : (j / 16 = (j - 16) / 16 + 1)%nat) by (rewrite J at 1; apply Nat.div_add; lia).
    rewrite J1, J2. do 2 f_equal. lia.
Qed.
Lemma flat_map_len {A} (f : nat -> list A) : (forall i, length (f i) = 16%nat) -> forall i m, length (flat_map f (seq i m)) = (16 * m)%nat.
Proof. intros L i m. revert i. induction m as [|m IH]; intros i; [reflexivity|]. cbn [seq flat_map]. rewrite app_length, IH, L. lia. Qed.
Lemma ctr_stream_len iv n : length (ctr_stream aes K iv n) = n.
Proof.
  unfold ctr_stream. apply firstn_length_le. rewrite flat_map_len by (intros; apply aes_len).
  pose proof (Nat.div_mod n 16 ltac:(lia)). pose proof (Nat.mod_upper_bound n 16 ltac:(lia)). lia.
Qed.
Lemma nth_firstn {A} (l : list A) d n j : (j < n)%nat -> nth j (firstn n l) d = nth j l d.
Proof. revert n j. induction l as [|x l IH]; intros [|n] [|j] H; cbn; try lia; auto. apply IH. lia. Qed.
Lemma ctr_stream_nth iv n j : (j < n)%nat -> nth j (ctr_stream aes K iv n) 0 = stream_byte E2 (of_be iv) j.
Proof.
  intros H. unfold ctr_stream. rewrite nth_firstn by exact H.
  rewrite (flat_map_nth (fun i => aes (k2 K) (be_n 16 ((of_be iv + Z.of_nat i) mod 2 ^ 128))) 0 (fun i => aes_len _ _) 0 (S (n / 16)) j).
  2:{ pose proof (Nat.div_mod n 16 ltac:(lia)). pose proof (Nat.mod_upper_bound n 16 ltac:(lia)). lia. }
  rewrite Nat.add_0_l. unfold stream_byte, E2. unfold K. cbn [k2]. reflexivity.
Qed.
Lemma ctr_crypt_len siv inp : length (ctr_crypt aes K siv inp) = length inp.
Proof. unfold ctr_crypt. rewrite map_length, combine_length, ctr_stream_len. lia. Qed.
Lemma xor_combine_invol s : forall l, length l = length s ->
  map (fun p => Z.lxor (fst p) (snd p)) (combine (map (fun p => Z.lxor (fst p) (snd p)) (combine l s)) s) = l.
Proof.
  induction s as [|a s IH]; intros [|b l] L; cbn in L |- *; try discriminate; auto.
  f_equal; [|apply IH; lia]. now rewrite Z.lxor_assoc, Z.lxor_nilpotent, Z.lxor_0_r.
Qed.
Lemma ctr_crypt_invol siv inp : ctr_crypt aes K siv (ctr_crypt aes K siv inp) = inp.
Proof.
  unfold ctr_crypt at 1. rewrite ctr_crypt_len. unfold ctr_crypt. apply xor_combine_invol.
  now rewrite ctr_stream_len.
Qed.
Lemma diff_acc_0 a : forall b, length a = length b -> (diff_acc a b = 0 <-> a = b).
Proof.
  induction a as [|x a IH]; intros [|y b] L; cbn in L |- *; try discriminate; [tauto|].
  rewrite Z.lor_eq_0_iff, Z.lxor_eq_0_iff, IH by lia. split; [intros [-> ->]; reflexivity|]. intros E. injection E. auto.
Qed.
Lemma siv_roundtrip pt ad : siv_decrypt aes K (siv_encrypt aes K pt ad) ad = Some pt.
Proof.
  unfold siv_decrypt, siv_encrypt. rewrite app_length, s2v_len.
  destruct (Nat.ltb_spec (16 + length (ctr_crypt aes K (s2v aes K pt ad) pt)) 16); [lia|].
  rewrite app_firstn_exact, app_skipn_exact by apply s2v_len. rewrite ctr_crypt_invol.
  replace (diff_acc _ _) with 0; [reflexivity|]. symmetry. now apply diff_acc_0.
Qed.
Lemma siv_sound ct ad pt : siv_decrypt aes K ct ad = Some pt -> ct = siv_encrypt aes K pt ad.
Proof.
  unfold siv_decrypt, siv_encrypt. destruct (Nat.ltb_spec (length ct) 16) as [|H]; [discriminate|].
  set (siv := firstn 16 ct). set (p := ctr_crypt aes K siv (skipn 16 ct)).
  assert (Ls : length siv = 16%nat) by (apply firstn_length_le; lia).
  destruct (Z.eqb_spec (diff_acc siv (s2v aes K p ad)) 0) as [E|]; [|discriminate].
  apply diff_acc_0 in E; [|rewrite Ls; symmetry; apply s2v_len].
  intros X. injection X as <-. rewrite <- E. unfold p. rewrite ctr_crypt_invol. unfold siv. now rewrite firstn_skipn.
Qed.

(** clearing the two bits *)
Lemma clearbit_split h b lo n : 0 <= n -> 0 <= lo < 2 ^ n -> 0 <= b <= 1 ->
  Z.clearbit (h * 2 ^ (n + 1) + b * 2 ^ n + lo) n = h * 2 ^ (n + 1) + lo.
Proof.
  intros Hn Hlo Hb. set (v := h * 2 ^ (n + 1) + b * 2 ^ n + lo).
  assert (P : 0 < 2 ^ n) by (apply Z.pow_pos_nonneg; lia).
  assert (V : v = (2 * h + b) * 2 ^ n + lo). { unfold v. rewrite Z.pow_add_r by lia. change (2 ^ 1) with 2. ring. }
  assert (T : Z.testbit v n = (b =? 1)).
  { rewrite Z.testbit_eqb by lia. rewrite V, Z.div_add_l, Z.div_small by lia. rewrite Z.add_0_r.
    rewrite Z.add_comm, Z.mul_comm, Z.mod_add by lia. rewrite Z.mod_small by lia. reflexivity. }
  rewrite Z.clearbit_spec'. destruct (Z.eqb_spec b 1) as [B1|B1].
  - rewrite <- Z.sub_nocarry_ldiff. { unfold v. rewrite B1. ring. }
    apply Z.bits_inj'. intros i Hi. rewrite Z.ldiff_spec, Z.bits_0, Z.pow2_bits_eqb by lia.
    destruct (Z.eqb_spec n i) as [<-|]; [rewrite T; reflexivity|reflexivity].
  - transitivity v; [|unfold v; replace b with 0 by lia; ring].
    apply Z.bits_inj'. intros i Hi. rewrite Z.ldiff_spec, Z.pow2_bits_eqb by lia.
    destruct (Z.eqb_spec n i) as [<-|]; [rewrite T; reflexivity|now rewrite andb_true_r].
Qed.
Lemma land127 x : byte_ok x -> Z.land x 127 = x - (x / 128) * 128.
Proof.
  intros H. change 127 with (Z.ones 7). rewrite Z.land_ones by lia. change (2 ^ 7) with 128.
  pose proof (Z.div_mod x 128 ltac:(lia)). lia.
Qed.
Lemma clear_iv_val V : bytes_ok V -> length V = 16%nat -> of_be (clear_iv V) = siv_counter V.
Proof.
  intros H L.
  set (a := firstn 8 V). set (x := nth 8 V 0). set (b := firstn 3 (skipn 9 V)). set (y := nth 12 V 0). set (c := skipn 13 V).
  assert (EV : V = a ++ x :: b ++ y :: c).
  { do 16 (destruct V as [|? V]; [discriminate L|]). destruct V; [|discriminate L]. reflexivity. }
  assert (EC : clear_iv V = a ++ Z.land x 127 :: b ++ Z.land y 127 :: c).
  { do 16 (destruct V as [|? V]; [discriminate L|]). destruct V; [|discriminate L]. reflexivity. }
  assert (La : length a = 8%nat) by (apply firstn_length_le; lia).
  assert (Lb : length b = 3%nat) by (apply firstn_length_le; rewrite skipn_length; lia).
  assert (Lc : length c = 3%nat) by (unfold c; rewrite skipn_length; lia).
  rewrite EC. unfold siv_counter. rewrite EV at 1.
  assert (Ob : bytes_ok b) by (apply bytes_ok_firstn, bytes_ok_skipn, H).
  assert (Oc : bytes_ok c) by (apply bytes_ok_skipn, H).
  assert (Oxy : byte_ok x /\ byte_ok y).
  { unfold bytes_ok in H. rewrite Forall_forall in H. split; apply H; apply nth_In; lia. }
  destruct Oxy as [Ox Oy].
  pose proof (of_be_range _ Ob) as Rb. pose proof (of_be_range _ Oc) as Rc. rewrite Lb in Rb. rewrite Lc in Rc.
  rewrite !of_be_app, !of_be_cons, !of_be_app, !of_be_cons. cbn [length]. rewrite !app_length. cbn [length]. rewrite Lb, Lc.
  change (256 ^ Z.of_nat (S (3 + 4))) with (2 ^ 64). change (256 ^ Z.of_nat (3 + 4)) with (2 ^ 56).
  change (256 ^ Z.of_nat 4) with (2 ^ 32). change (256 ^ Z.of_nat 3) with (2 ^ 24) in *.
  rewrite !land127 by assumption.
  pose proof (Z.div_mod x 128 ltac:(lia)) as Dx. pose proof (Z.mod_pos_bound x 128 ltac:(lia)) as Mx.
  pose proof (Z.div_mod y 128 ltac:(lia)) as Dy. pose proof (Z.mod_pos_bound y 128 ltac:(lia)) as My.
  destruct (shiftr7 _ Ox) as [_ Bx]. destruct (shiftr7 _ Oy) as [_ By].
  set (A := of_be a). set (B := of_be b) in *. set (C := of_be c) in *.
  replace (A * 2 ^ 64 + (x * 2 ^ 56 + (B * 2 ^ 32 + (y * 2 ^ 24 + C))))
    with (A * 2 ^ (63 + 1) + (x / 128) * 2 ^ 63 + ((x mod 128) * 2 ^ 56 + B * 2 ^ 32 + y * 2 ^ 24 + C)) by (change (63 + 1) with 64; lia).
  rewrite clearbit_split by lia.
  replace (A * 2 ^ (63 + 1) + ((x mod 128) * 2 ^ 56 + B * 2 ^ 32 + y * 2 ^ 24 + C))
    with ((A * 2 ^ 32 + (x mod 128) * 2 ^ 24 + B) * 2 ^ (31 + 1) + (y / 128) * 2 ^ 31 + ((y mod 128) * 2 ^ 24 + C)) by (change (31 + 1) with 32; change (63 + 1) with 64; lia).
  rewrite clearbit_split by lia. change (31 + 1) with 32. lia.
Qed.
Lemma siv_encrypt_rfc pt ad : siv_encrypt aes K pt ad = rfc_siv E1 E2 ad pt.
Proof.
  unfold siv_encrypt, rfc_siv. rewrite s2v_rfc. f_equal. set (V := rfc_s2v E1 ad pt).
  assert (LV : length V = 16%nat) by apply E1_len. assert (OV : bytes_ok V) by apply E1_ok.
  apply nth_ext with (d := 0) (d' := 0).
  - rewrite ctr_crypt_len, map_length, seq_length. reflexivity.
  - intros n Hn. rewrite ctr_crypt_len in Hn. unfold ctr_crypt.
    change 0 with ((fun p => Z.lxor (fst p) (snd p)) (0, 0)) at 1. rewrite map_nth, combine_nth by (symmetry; apply ctr_stream_len).
    cbn [fst snd]. rewrite ctr_stream_nth by exact Hn. rewrite clear_iv_val by auto.
    set (g := fun j => Z.lxor (nth j pt 0) (stream_byte E2 (siv_counter V) j)).
    rewrite (nth_indep (map g (seq 0 (length pt))) 0 (g 0%nat)) by (rewrite map_length, seq_length; exact Hn).
    rewrite map_nth, seq_nth by exact Hn. reflexivity.
Qed.
End P.
