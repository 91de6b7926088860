From Coq Require Import List Bool ZArith Lia Znumtheory.
From Verif Require Import BytesModel BytesProofs CodecModel CodecSpec.
Import ListNotations.
Open Scope Z_scope.

Lemma pow256_pos n : 0 < 256 ^ Z.of_nat n.
Proof. apply Z.pow_pos_nonneg; lia. Qed.
Lemma bytes_ok_repeat0 n : bytes_ok (repeat 0 n).
Proof. apply Forall_forall. intros b Hb. apply repeat_spec in Hb. subst. unfold byte_ok. lia. Qed.
Lemma bytes_ok_app a b : bytes_ok a -> bytes_ok b -> bytes_ok (a ++ b).
Proof. intros. apply Forall_app. auto. Qed.
Lemma bytes_ok_firstn n l : bytes_ok l -> bytes_ok (firstn n l).
Proof. intros H. apply Forall_forall. intros x Hx. unfold bytes_ok in H. rewrite Forall_forall in H. apply H. rewrite <- (firstn_skipn n l). apply in_or_app; auto. Qed.
Lemma bytes_ok_skipn n l : bytes_ok l -> bytes_ok (skipn n l).
Proof. intros H. apply Forall_forall. intros x Hx. unfold bytes_ok in H. rewrite Forall_forall in H. apply H. rewrite <- (firstn_skipn n l). apply in_or_app; auto. Qed.

Lemma i2osp_length b n : length (i2osp b n) = n.
Proof.
  unfold i2osp. destruct (Nat.ltb_spec (length (be_bytes b)) n).
  - rewrite app_length, repeat_length. lia.
  - apply firstn_length_le. lia.
Qed.
Lemma i2osp_ok b n : bytes_ok (i2osp b n).
Proof.
  unfold i2osp. destruct (Nat.ltb _ _); [apply bytes_ok_app; [apply bytes_ok_repeat0|apply be_bytes_ok]|apply bytes_ok_firstn, be_bytes_ok].
Qed.
Lemma i2osp_val b n : Z.abs b < 256 ^ Z.of_nat n -> of_be (i2osp b n) = Z.abs b.
Proof.
  intros H. apply be_bytes_len in H. unfold i2osp.
  destruct (Nat.ltb_spec (length (be_bytes b)) n).
  - rewrite of_be_app, of_be_repeat0, of_be_be_bytes_abs. lia.
  - rewrite firstn_all2 by lia. apply of_be_be_bytes_abs.
Qed.

Lemma be_n_length n x : length (be_n n x) = n.
Proof. unfold be_n. rewrite map_length, seq_length. reflexivity. Qed.
Lemma be_n_ok n x : bytes_ok (be_n n x).
Proof. unfold be_n. apply Forall_forall. intros b Hb. apply in_map_iff in Hb. destruct Hb as (k & <- & _). apply Z.mod_pos_bound. lia. Qed.
Lemma be_n_S n x : be_n (S n) x = (x / 256 ^ Z.of_nat n) mod 256 :: be_n n x.
Proof.
  unfold be_n. rewrite <- cons_seq, map_cons, <- seq_shift, map_map. f_equal.
  - do 4 f_equal. lia.
  - apply map_ext. intros k. do 4 f_equal. lia.
Qed.
Lemma be_n_val n x : of_be (be_n n x) = x mod 256 ^ Z.of_nat n.
Proof.
  induction n as [|n IH]; [cbn; now rewrite Z.mod_1_r|].
  rewrite be_n_S, of_be_cons, be_n_length, IH, Nat2Z.inj_succ, Z.pow_succ_r by lia.
  set (P := 256 ^ Z.of_nat n). assert (HP : 0 < P) by apply pow256_pos.
  rewrite (Z.mul_comm 256 P), Z.rem_mul_r by lia. ring.
Qed.
Lemma be_n_unique n l x : bytes_ok l -> length l = n -> of_be l = x -> l = be_n n x.
Proof.
  intros H L E. apply of_be_inj; auto using be_n_ok.
  - now rewrite be_n_length.
  - rewrite be_n_val. rewrite Z.mod_small; auto. pose proof (of_be_range _ H). rewrite L in *. lia.
Qed.
Lemma i2osp_be_n x n : 0 <= x < 256 ^ Z.of_nat n -> i2osp x n = be_n n x.
Proof. intros H. apply be_n_unique; [apply i2osp_ok|apply i2osp_length|]. rewrite i2osp_val; lia. Qed.

(** value of a prefix / suffix *)
Lemma of_be_firstn l n : bytes_ok l -> (n <= length l)%nat ->
  of_be (firstn n l) = of_be l / 256 ^ Z.of_nat (length l - n).
Proof.
  intros H L. rewrite <- (firstn_skipn n l) at 2. rewrite of_be_app, skipn_length.
  rewrite Z.add_comm, Z.div_add by (pose proof (pow256_pos (length l - n)); lia).
  rewrite Z.div_small; [lia|]. pose proof (of_be_range _ (bytes_ok_skipn n l H)) as R.
  rewrite skipn_length in R. exact R.
Qed.
Lemma of_be_skipn l n : bytes_ok l -> (n <= length l)%nat ->
  of_be (skipn n l) = of_be l mod 256 ^ Z.of_nat (length l - n).
Proof.
  intros H L. rewrite <- (firstn_skipn n l) at 2. rewrite of_be_app, skipn_length.
  rewrite Z.add_comm, Z.mod_add by (pose proof (pow256_pos (length l - n)); lia).
  rewrite Z.mod_small; auto. pose proof (of_be_range _ (bytes_ok_skipn n l H)) as R.
  rewrite skipn_length in R. exact R.
Qed.
Lemma i2osp_large x n : 256 ^ Z.of_nat n <= x ->
  exists k, 0 < k /\ 256 ^ Z.of_nat n <= 256 * (x / 256 ^ (k-1)) /\ of_be (i2osp x n) = x / 256 ^ k
            /\ x / 256 ^ k < 256 ^ Z.of_nat n.
Proof.
  intros H. pose proof (pow256_pos n) as PP.
  assert (L : (n < length (be_bytes x))%nat).
  { destruct (le_lt_dec (length (be_bytes x)) n) as [A|A]; [|exact A].
    apply be_bytes_len in A. lia. }
  exists (Z.of_nat (length (be_bytes x) - n)). split; [lia|].
  assert (V : of_be (i2osp x n) = x / 256 ^ Z.of_nat (length (be_bytes x) - n)).
  { unfold i2osp. destruct (Nat.ltb_spec (length (be_bytes x)) n); [lia|].
    rewrite of_be_firstn by (auto using be_bytes_ok; lia). now rewrite of_be_be_bytes_abs, Z.abs_eq by lia. }
  repeat split; [|exact V|].
  - assert (X : 256 ^ (Z.of_nat (length (be_bytes x)) - 1) <= x).
    { assert (N : be_bytes x <> []) by (destruct (be_bytes x); [cbn in L; lia|congruence]).
      pose proof (nozero_len _ (be_bytes_ok x) N (be_bytes_hd x N)) as Q.
      rewrite of_be_be_bytes_abs, Z.abs_eq in Q by lia. exact Q. }
    assert (Y : 256 ^ Z.of_nat n <= x / 256 ^ (Z.of_nat (length (be_bytes x) - n) - 1)).
    { apply Z.div_le_lower_bound; [apply Z.pow_pos_nonneg; lia|].
      rewrite <- Z.pow_add_r by lia. replace (Z.of_nat (length (be_bytes x) - n) - 1 + Z.of_nat n) with (Z.of_nat (length (be_bytes x)) - 1) by lia. exact X. }
    lia.
  - rewrite <- V. pose proof (of_be_range _ (i2osp_ok x n)) as R. rewrite i2osp_length in R. lia.
Qed.

(** ---- signatures ---- *)
Lemma copy_into_tail buf lo src : (lo + length src = length buf)%nat ->
  copy_into buf lo (length buf) src = firstn lo buf ++ src.
Proof.
  intros H. unfold copy_into. replace (Nat.min (length buf - lo) (length src)) with (length src) by lia.
  rewrite firstn_all, H, skipn_all, app_nil_r. reflexivity.
Qed.
Lemma copy_into_length buf lo hi src : (lo <= hi <= length buf)%nat -> length (copy_into buf lo hi src) = length buf.
Proof.
  intros H. unfold copy_into. rewrite !app_length, skipn_length, !firstn_length. lia.
Qed.
Lemma firstn_repeat {A} (a : A) n m : firstn n (repeat a m) = repeat a (Nat.min n m).
Proof. revert m; induction n; intros [|m]; cbn; f_equal; auto. Qed.
Lemma skipn_repeat {A} (a : A) n m : skipn n (repeat a m) = repeat a (m - n).
Proof. revert m; induction n; intros [|m]; cbn; auto. Qed.

Lemma serialize_shape v r s :
  (length (be_bytes r) <= 32)%nat -> (length (be_bytes s) <= 33)%nat ->
  serialize_sig {| sig_v := v; sig_r := r; sig_s := s |}
  = Some ((v mod 256) :: (repeat 0 (32 - length (be_bytes r)) ++ be_bytes r) ++ (repeat 0 (33 - length (be_bytes s)) ++ be_bytes s)).
Proof.
  intros Hr Hs. unfold serialize_sig. cbn [sig_v sig_r sig_s].
  destruct (Nat.leb_spec (length (be_bytes r)) 33); [|lia].
  destruct (Nat.leb_spec (length (be_bytes s)) 66); [|lia].
  f_equal. set (R := be_bytes r) in *. set (S_ := be_bytes s) in *.
  assert (A : copy_into (v mod 256 :: repeat 0 65) (33 - length R) 33 R
              = (v mod 256) :: (repeat 0 (32 - length R) ++ R) ++ repeat 0 33).
  { unfold copy_into. replace (33 - (33 - length R))%nat with (length R) by lia.
    rewrite Nat.min_id, firstn_all. replace (33 - length R + length R)%nat with 33%nat by lia.
    replace (33 - length R)%nat with (S (32 - length R)) by lia.
    cbn [firstn]. rewrite firstn_repeat. replace (Nat.min (32 - length R) 65) with (32 - length R)%nat by lia.
    change (skipn 33 (v mod 256 :: repeat 0 65)) with (skipn 32 (repeat 0 65)). rewrite skipn_repeat.
    cbn [app]. f_equal. rewrite app_assoc. f_equal. }
  rewrite A. set (B := (v mod 256) :: (repeat 0 (32 - length R) ++ R) ++ repeat 0 33).
  assert (LB : length B = 66%nat). { unfold B. cbn [length]. rewrite !app_length, !repeat_length. lia. }
  pose proof (copy_into_tail B (66 - length S_) S_) as C. rewrite LB in C. rewrite C by lia.
  unfold B. replace (66 - length S_)%nat with (S (65 - length S_)) by lia. cbn [firstn].
  rewrite firstn_app, app_length, repeat_length.
  replace (32 - length R + length R)%nat with 32%nat by lia.
  rewrite firstn_all2 by (rewrite app_length, repeat_length; lia).
  rewrite firstn_repeat. replace (Nat.min (65 - length S_ - 32) 33) with (33 - length S_)%nat by lia.
  cbn [app]. f_equal. rewrite <- app_assoc. reflexivity.
Qed.

Lemma pow2_256 n : 2 ^ (8 * Z.of_nat n) = 256 ^ Z.of_nat n.
Proof. rewrite Z.pow_mul_r by lia. reflexivity. Qed.

Lemma sig_roundtrip v r s :
  0 <= v < 256 -> 0 <= r < 2 ^ 256 -> 0 <= s < 2 ^ 264 ->
  exists b, serialize_sig {| sig_v := v; sig_r := r; sig_s := s |} = Some b
            /\ length b = 66%nat /\ bytes_ok b
            /\ deserialize_sig b = Some {| sig_v := v; sig_r := r; sig_s := s |}.
Proof.
  intros Hv Hr Hs.
  assert (Lr : (length (be_bytes r) <= 32)%nat). { apply be_bytes_len. rewrite <- pow2_256. rewrite Z.abs_eq; [apply Hr|lia]. }
  assert (Ls : (length (be_bytes s) <= 33)%nat). { apply be_bytes_len. rewrite <- pow2_256. rewrite Z.abs_eq; [apply Hs|lia]. }
  eexists. split; [apply serialize_shape; auto|].
  assert (LL : length (v mod 256 :: (repeat 0 (32 - length (be_bytes r)) ++ be_bytes r) ++ repeat 0 (33 - length (be_bytes s)) ++ be_bytes s) = 66%nat).
  { cbn [length]. rewrite !app_length, !repeat_length. lia. }
  split; [exact LL|]. split.
  { constructor; [apply Z.mod_pos_bound; lia|]. repeat apply bytes_ok_app; auto using bytes_ok_repeat0, be_bytes_ok. }
  unfold deserialize_sig. rewrite LL. cbn [Nat.eqb]. do 2 f_equal.
  - cbn [nth]. apply Z.mod_small. lia.
  - cbn [skipn]. rewrite firstn_app, app_length, repeat_length.
    replace (32 - (32 - length (be_bytes r) + length (be_bytes r)))%nat with 0%nat by lia. rewrite firstn_O, app_nil_r.
    rewrite firstn_all2 by (rewrite app_length, repeat_length; lia).
    rewrite of_be_app, of_be_repeat0, of_be_be_bytes; lia.
  - rewrite skipn_cons, skipn_app, app_length, repeat_length.
    replace (32 - (32 - length (be_bytes r) + length (be_bytes r)))%nat with 0%nat by lia. rewrite skipn_O.
    rewrite skipn_all2 by (rewrite app_length, repeat_length; lia). cbn [app].
    rewrite of_be_app, of_be_repeat0, of_be_be_bytes; lia.
Qed.

Lemma be_bytes_pad n l : bytes_ok l -> length l = n -> repeat 0 (n - length (be_bytes (of_be l))) ++ be_bytes (of_be l) = l.
Proof.
  intros H L. pose proof (of_be_range _ H) as R.
  assert (A : (length (be_bytes (of_be l)) <= n)%nat). { apply be_bytes_len. rewrite <- L. lia. }
  apply of_be_inj.
  - apply bytes_ok_app; auto using bytes_ok_repeat0, be_bytes_ok.
  - exact H.
  - rewrite app_length, repeat_length. lia.
  - rewrite of_be_app, of_be_repeat0, of_be_be_bytes; lia.
Qed.

Lemma sig_reencode b : bytes_ok b -> length b = 66%nat ->
  exists s, deserialize_sig b = Some s /\ serialize_sig s = Some b.
Proof.
  intros H L. unfold deserialize_sig. rewrite L. cbn [Nat.eqb]. eexists. split; [reflexivity|].
  destruct b as [|v t]; [discriminate|]. injection L as L. inversion H as [|? ? Hv Ht]; subst.
  change (firstn 32 (skipn 1 (v :: t))) with (firstn 32 t).
  change (skipn 33 (v :: t)) with (skipn 32 t). change (nth 0 (v :: t) 0) with v.
  assert (L1 : length (firstn 32 t) = 32%nat) by (apply firstn_length_le; lia).
  assert (L2 : length (skipn 32 t) = 33%nat) by (rewrite skipn_length; lia).
  pose proof (bytes_ok_firstn 32 t Ht) as O1. pose proof (bytes_ok_skipn 32 t Ht) as O2.
  rewrite serialize_shape.
  - rewrite (be_bytes_pad 32), (be_bytes_pad 33) by auto. rewrite firstn_skipn.
    rewrite Z.mod_small by exact Hv. reflexivity.
  - apply be_bytes_len. pose proof (of_be_range _ O1) as R. rewrite L1 in R. lia.
  - apply be_bytes_len. pose proof (of_be_range _ O2) as R. rewrite L2 in R. lia.
Qed.

(** ---- EC points ---- *)
Lemma curve_id_of c i : curve_id c = Some i -> curve_of_id i = Some c.
Proof. destruct c; cbn; intros E; try discriminate; injection E as <-; reflexivity. Qed.
Lemma curve_of_id_of i c : curve_of_id i = Some c -> curve_id c = Some i.
Proof.
  unfold curve_of_id. intros E.
  repeat match type of E with (if ?a =? ?b then _ else _) = _ => destruct (Z.eqb_spec a b); [injection E as <-; subst; reflexivity|] end.
  discriminate.
Qed.

Lemma ecpoint_roundtrip p i : curve_id (pt_curve p) = Some i ->
  0 <= pt_x p < 2 ^ 256 -> 0 <= pt_y p < 2 ^ 256 ->
  exists b, ecpoint_marshal p = Ok b /\ length b = 65%nat /\ bytes_ok b /\ ecpoint_unmarshal b = Ok p.
Proof.
  intros Hc Hx Hy. unfold ecpoint_marshal. rewrite Hc.
  destruct (fill_bytes_some 32 (pt_x p)) as (bx & Ex & Lx & Vx & Ox).
  { rewrite <- pow2_256, Z.abs_eq; [apply Hx|lia]. }
  destruct (fill_bytes_some 32 (pt_y p)) as (by_ & Ey & Ly & Vy & Oy).
  { rewrite <- pow2_256, Z.abs_eq; [apply Hy|lia]. }
  rewrite Ex, Ey. eexists. split; [reflexivity|]. split; [cbn [length]; rewrite app_length; lia|].
  split. { constructor. { destruct p as [c ? ?]; destruct c; cbn in Hc; try discriminate; injection Hc as <-; unfold byte_ok; lia. } now apply bytes_ok_app. }
  cbn [ecpoint_unmarshal]. rewrite (curve_id_of _ _ Hc).
  rewrite app_length, Lx, Ly. cbn [Nat.leb Nat.add].
  rewrite firstn_app, skipn_app, Lx, !Nat.sub_diag, firstn_O, skipn_O.
  rewrite app_nil_r, (firstn_all2 bx) by lia. rewrite (skipn_all2 bx) by lia. cbn [app].
  rewrite firstn_all2 by lia. rewrite Vx, Vy, !Z.abs_eq by lia. destruct p; reflexivity.
Qed.

Lemma ecpoint_uncompressed on c x y :
  0 <= x < 256 ^ Z.of_nat (field_size c) -> 0 <= y < 256 ^ Z.of_nat (field_size c) ->
  let p := {| pt_curve := c; pt_x := x; pt_y := y |} in
  exists b, ecpoint_bytes p = Ok b /\ length b = (2 * field_size c)%nat
            /\ point_from_bytes on c b = (if pt_valid on p then Ok p else Err).
Proof.
  intros Hx Hy p. unfold ecpoint_bytes, p. cbn [pt_curve pt_x pt_y]. set (n := field_size c) in *.
  destruct (fill_bytes_some n x) as (bx & Ex & Lx & Vx & Ox); [rewrite Z.abs_eq; lia|].
  destruct (fill_bytes_some n y) as (by_ & Ey & Ly & Vy & Oy); [rewrite Z.abs_eq; lia|].
  rewrite Ex, Ey. eexists. split; [reflexivity|]. split; [rewrite app_length; lia|].
  unfold point_from_bytes. fold n. rewrite app_length, Lx, Ly.
  replace (n + n =? n * 2)%nat with true by (symmetry; apply Nat.eqb_eq; lia).
  rewrite firstn_app, skipn_app, Lx, !Nat.sub_diag, firstn_O, skipn_O.
  rewrite app_nil_r, (firstn_all2 bx) by lia. rewrite (skipn_all2 bx) by lia. cbn [app].
  rewrite Vx, Vy, !Z.abs_eq by lia. reflexivity.
Qed.
Lemma point_from_bytes_valid on c b p : point_from_bytes on c b = Ok p ->
  length b = (2 * field_size c)%nat /\ pt_curve p = c /\ pt_valid on p = true.
Proof.
  unfold point_from_bytes. destruct (Nat.eqb_spec (length b) (field_size c * 2)); [|discriminate].
  destruct (pt_valid on _) eqn:E; [|discriminate]. intros X. injection X as <-. repeat split; auto. lia.
Qed.

(** ---- reversal ---- *)
Lemma reverse_scalar_bytes_rev b : reverse_scalar_bytes b = rev b.
Proof.
  unfold reverse_scalar_bytes. apply nth_ext with (d := 0) (d' := 0).
  - now rewrite map_length, seq_length, rev_length.
  - intros n Hn. rewrite map_length, seq_length in Hn. rewrite rev_nth by lia.
    set (f := fun i => nth (length b - 1 - i) b 0).
    rewrite (nth_indep _ 0 (f 0%nat)) by (rewrite map_length, seq_length; lia).
    rewrite map_nth, seq_nth by lia. unfold f. f_equal. lia.
Qed.

(** ---- RFC 6979 octets ---- *)
Lemma int2octets_be_n v n : 0 <= v -> int2octets v n = be_n n v.
Proof.
  intros H. apply of_be_inj.
  - unfold int2octets. repeat destruct (Nat.ltb _ _); auto using bytes_ok_app, bytes_ok_repeat0, be_bytes_ok, bytes_ok_skipn.
  - apply be_n_ok.
  - rewrite be_n_length. unfold int2octets. destruct (Nat.ltb_spec (length (be_bytes v)) n).
    + rewrite app_length, repeat_length. lia.
    + destruct (Nat.ltb_spec n (length (be_bytes v))); [rewrite skipn_length|]; lia.
  - rewrite be_n_val. unfold int2octets. destruct (Nat.ltb_spec (length (be_bytes v)) n) as [L|L].
    + rewrite of_be_app, of_be_repeat0, of_be_be_bytes by lia. rewrite Z.mod_small; [lia|].
      split; [lia|]. rewrite <- (Z.abs_eq v) by lia. apply be_bytes_len. lia.
    + destruct (Nat.ltb_spec n (length (be_bytes v))) as [L2|L2].
      * rewrite of_be_skipn by (auto using be_bytes_ok; lia). rewrite of_be_be_bytes by lia.
        do 2 f_equal. lia.
      * rewrite of_be_be_bytes by lia. rewrite Z.mod_small; [lia|].
        split; [lia|]. rewrite <- (Z.abs_eq v) by lia. apply be_bytes_len. lia.
Qed.

Lemma hash_to_int_range h N : 0 < N -> bytes_ok h -> 0 <= hash_to_int h N < 2 ^ bit_len N.
Proof.
  intros HN Hh. unfold hash_to_int.
  set (ob := bit_len N). assert (Hob : 1 <= ob). { unfold ob, bit_len. destruct (Z.eqb_spec N 0); [lia|]. pose proof (Z.log2_nonneg (Z.abs N)). lia. }
  set (oB := Z.to_nat ((ob + 7) / 8)).
  set (h' := if Nat.ltb oB (length h) then firstn oB h else h).
  assert (Ok' : bytes_ok h') by (unfold h'; destruct (Nat.ltb _ _); auto using bytes_ok_firstn).
  pose proof (of_be_range _ Ok') as R. rewrite <- pow2_256 in R.
  destruct (Z.ltb_spec 0 (Z.of_nat (length h') * 8 - ob)) as [P|P].
  - rewrite Z.shiftr_div_pow2 by lia.
    assert (Q : 0 < 2 ^ (Z.of_nat (length h') * 8 - ob)) by (apply Z.pow_pos_nonneg; lia).
    split; [apply Z.div_pos; lia|]. apply Z.div_lt_upper_bound; [lia|].
    rewrite <- Z.pow_add_r by lia. replace (Z.of_nat (length h') * 8 - ob + ob) with (8 * Z.of_nat (length h')) by lia. lia.
  - split; [lia|]. eapply Z.lt_le_trans; [apply R|]. apply Z.pow_le_mono_r; lia.
Qed.
Lemma bits2octets_spec inp N n : 0 < N -> bytes_ok inp ->
  bits2octets inp N n = be_n n (hash_to_int inp N mod N).
Proof.
  intros HN Hi. pose proof (hash_to_int_range inp N HN Hi) as R. unfold bits2octets.
  assert (B : 2 ^ bit_len N <= 2 * N).
  { unfold bit_len. destruct (Z.eqb_spec N 0); [lia|]. rewrite Z.abs_eq by lia.
    rewrite Z.pow_add_r by (try apply Z.log2_nonneg; lia). pose proof (Z.log2_spec N HN). lia. }
  destruct (Z.ltb_spec (hash_to_int inp N - N) 0).
  - rewrite Z.mod_small by lia. apply int2octets_be_n. lia.
  - rewrite int2octets_be_n by lia. f_equal.
    rewrite <- (Z.mod_small (hash_to_int inp N - N) N) by lia.
    replace (hash_to_int inp N) with (hash_to_int inp N - N + 1 * N) at 2 by lia. now rewrite Z.mod_add by lia.
Qed.

(** ---- hex ---- *)
Lemma hex_val_char d : 0 <= d < 16 -> hex_val (hex_char d) = Some d.
Proof.
  intros H. unfold hex_val, hex_char. destruct (Z.ltb_spec d 10).
  - destruct (Z.leb_spec 48 (48 + d)); [|lia]. destruct (Z.leb_spec (48 + d) 57); [|lia]. cbn [andb]. f_equal. lia.
  - destruct (Z.leb_spec 48 (87 + d)); [|lia]. destruct (Z.leb_spec (87 + d) 57); [lia|]. cbn [andb].
    destruct (Z.leb_spec 97 (87 + d)); [|lia]. destruct (Z.leb_spec (87 + d) 102); [|lia]. cbn [andb]. f_equal. lia.
Qed.
Lemma hex_string_decodes b : bytes_ok b ->
  hex_decode (bytes_to_hex_string b) = Some b /\ length (bytes_to_hex_string b) = (2 * length b)%nat.
Proof.
  induction 1 as [|v l Hv Hl [IH1 IH2]]; [split; reflexivity|].
  unfold bytes_to_hex_string in *. cbn [flat_map]. unfold byte_ok in Hv.
  assert (E : (if (1 <? length (format_byte_hex v))%nat then format_byte_hex v else 48 :: format_byte_hex v) = [hex_char (v / 16); hex_char (v mod 16)]).
  { unfold format_byte_hex. destruct (Z.ltb_spec v 16); cbn [length Nat.ltb Nat.leb]; [|reflexivity].
    rewrite Z.div_small, Z.mod_small by lia. reflexivity. }
  cbv zeta in *. rewrite E. cbn [app]. split.
  - cbn [hex_decode]. rewrite !hex_val_char.
    + rewrite IH1. do 2 f_equal. pose proof (Z.div_mod v 16). lia.
    + apply Z.mod_pos_bound. lia.
    + split; [apply Z.div_pos; lia|apply Z.div_lt_upper_bound; lia].
  - cbn [length]. rewrite IH2. lia.
Qed.

(** ---- compact signatures ---- *)
Lemma be_bytes_length_bitlen x : length (be_bytes x) = Z.to_nat ((bit_len x + 7) / 8).
Proof.
  unfold bit_len. destruct (Z.eqb_spec x 0) as [->|N]; [reflexivity|].
  set (a := Z.abs x). assert (Ha : 0 < a) by (unfold a; lia).
  pose proof (Z.log2_spec a Ha) as S1. pose proof (Z.log2_nonneg a) as S2.
  set (L := Z.log2 a) in *.
  assert (E : (L + 1 + 7) / 8 = L / 8 + 1). { replace (L + 1 + 7) with (L + 1 * 8) by lia. rewrite Z.div_add; lia. }
  rewrite E. pose proof (Z.div_mod L 8 ltac:(lia)) as DM. pose proof (Z.mod_pos_bound L 8 ltac:(lia)) as MB.
  pose proof (Z.div_pos L 8 S2 ltac:(lia)) as DP.
  set (k := L / 8) in *.
  assert (U : (length (be_bytes x) <= Z.to_nat (k + 1))%nat).
  { apply be_bytes_len. fold a. rewrite Z2Nat.id by lia.
    eapply Z.lt_le_trans; [apply S1|]. change 256 with (2 ^ 8). rewrite <- Z.pow_mul_r by lia.
    apply Z.pow_le_mono_r; lia. }
  assert (D : (Z.to_nat k < length (be_bytes x))%nat).
  { destruct (le_lt_dec (length (be_bytes x)) (Z.to_nat k)) as [A|A]; [|exact A].
    apply be_bytes_len in A. fold a in A. rewrite Z2Nat.id in A by lia.
    change 256 with (2 ^ 8) in A. rewrite <- Z.pow_mul_r in A by lia.
    assert (2 ^ (8 * k) <= 2 ^ L) by (apply Z.pow_le_mono_r; lia). lia. }
  lia.
Qed.
Lemma pad32_be_n x : 0 <= x < 2 ^ 256 -> pad32 x = be_n 32 x.
Proof.
  intros H. unfold pad32. rewrite <- be_bytes_length_bitlen.
  assert (L : (length (be_bytes x) <= 32)%nat). { apply be_bytes_len. rewrite <- pow2_256, Z.abs_eq; [apply H|lia]. }
  apply be_n_unique.
  - apply bytes_ok_app; [destruct (Nat.ltb _ _); auto using bytes_ok_repeat0; constructor|apply be_bytes_ok].
  - rewrite app_length. destruct (Nat.ltb_spec (length (be_bytes x)) 32); [rewrite repeat_length|cbn [length]]; lia.
  - rewrite of_be_app, of_be_be_bytes by lia.
    destruct (Nat.ltb _ _); [rewrite of_be_repeat0|change (of_be []) with 0]; lia.
Qed.
Lemma sign_compact_from_sound rec fuel : forall i r s pk h c out,
  sign_compact_from rec fuel i r s pk h c = Some out ->
  exists j, i <= j < i + Z.of_nat fuel /\ out = compact_candidate j r s c /\ rec out h = Some pk
    /\ forall j', i <= j' < j -> rec (compact_candidate j' r s c) h <> Some pk.
Proof.
  induction fuel as [|f IH]; intros i r s pk h c out; cbn [sign_compact_from]; [discriminate|].
  destruct (rec (compact_candidate i r s c) h) as [[x y]|] eqn:E.
  - destruct ((x =? fst pk) && (y =? snd pk)) eqn:B.
    + intros X. injection X as <-. apply andb_true_iff in B. destruct B as [B1 B2].
      apply Z.eqb_eq in B1, B2. exists i. split; [lia|]. split; [reflexivity|].
      split; [rewrite E; destruct pk; cbn in *; congruence|intros; lia].
    + intros X. destruct (IH _ _ _ _ _ _ _ X) as (j & Hj & -> & Hr & Hn). exists j.
      split; [lia|]. split; [reflexivity|]. split; [exact Hr|].
      intros j' Hj'. destruct (Z.eq_dec j' i) as [->|].
      * rewrite E. intros Q. injection Q as <-. cbn in B. now rewrite !Z.eqb_refl in B.
      * apply Hn. lia.
  - intros X. destruct (IH _ _ _ _ _ _ _ X) as (j & Hj & -> & Hr & Hn). exists j.
    split; [lia|]. split; [reflexivity|]. split; [exact Hr|].
    intros j' Hj'. destruct (Z.eq_dec j' i) as [->|]; [congruence|apply Hn; lia].
Qed.
Lemma sign_compact_from_none rec fuel : forall i r s pk h c,
  sign_compact_from rec fuel i r s pk h c = None ->
  forall j, i <= j < i + Z.of_nat fuel -> rec (compact_candidate j r s c) h <> Some pk.
Proof.
  induction fuel as [|f IH]; intros i r s pk h c H j Hj; [lia|]. cbn [sign_compact_from] in H.
  destruct (Z.eq_dec j i) as [->|].
  - destruct (rec (compact_candidate i r s c) h) as [[x y]|]; [|congruence].
    destruct ((x =? fst pk) && (y =? snd pk)) eqn:B; [discriminate|].
    intros Q. injection Q as <-. cbn in B. now rewrite !Z.eqb_refl in B.
  - apply (IH (i + 1) r s pk h c); [|lia].
    destruct (rec (compact_candidate i r s c) h) as [[x y]|]; [|exact H].
    destruct ((x =? fst pk) && (y =? snd pk)); [discriminate|exact H].
Qed.

(** ---- modular helpers ---- *)
Lemma be_bytes_abs_inj a b : be_bytes a = be_bytes b -> Z.abs a = Z.abs b.
Proof. intros E. rewrite <- (of_be_be_bytes_abs a), <- (of_be_be_bytes_abs b). now f_equal. Qed.
Lemma ct_eq_spec a b : ct_eq a b = true <-> a = b.
Proof.
  unfold ct_eq, list_eqb. split.
  - intros H. apply andb_true_iff in H. destruct H as [H1 H2]. destruct (list_eq_dec _ _ _) as [E|]; [|discriminate].
    apply be_bytes_abs_inj in E. apply Z.eqb_eq in H2. lia.
  - intros ->. destruct (list_eq_dec _ _ _); [|congruence]. cbn. apply Z.eqb_refl.
Qed.
Lemma ext_gcd_spec fuel : forall a b, 0 <= a -> 0 <= b < Z.of_nat fuel ->
  let '(u, v, d) := ext_gcd fuel a b in a * u + b * v = d /\ d = Z.gcd a b.
Proof.
  induction fuel as [|f IH]; intros a b Ha Hb; [lia|]. cbn [ext_gcd].
  destruct (Z.eqb_spec b 0) as [->|N].
  - rewrite Z.gcd_0_r, Z.abs_eq by lia. split; lia.
  - pose proof (Z.mod_pos_bound a b ltac:(lia)) as M.
    specialize (IH b (a mod b) ltac:(lia) ltac:(lia)).
    destruct (ext_gcd f b (a mod b)) as [[u v] d]. destruct IH as [E G]. split.
    + pose proof (Z.div_mod a b N). nia.
    + rewrite G. rewrite Z.gcd_comm, Z.gcd_mod by lia. apply Z.gcd_comm.
Qed.
Lemma mod_inv_spec x m : 1 < m ->
  match mod_inv x m with
  | Some y => 0 <= y < m /\ (x * y) mod m = 1
  | None => forall y, (x * y) mod m <> 1
  end.
Proof.
  intros Hm. unfold mod_inv. pose proof (Z.mod_pos_bound x m ltac:(lia)) as M.
  pose proof (ext_gcd_spec (S (Z.to_nat m)) (x mod m) m ltac:(lia) ltac:(lia)) as E.
  destruct (ext_gcd _ _ _) as [[u v] d]. destruct E as [E G].
  destruct (Z.eqb_spec d 1) as [D|D].
  - split; [apply Z.mod_pos_bound; lia|].
    rewrite Z.mul_mod_idemp_r by lia. rewrite <- Z.mul_mod_idemp_l by lia.
    replace (x mod m * u) with (1 + (- v) * m) by lia. rewrite Z.mod_add by lia. apply Z.mod_small. lia.
  - intros y Hy. apply D. rewrite G. rewrite Z.gcd_comm.
    assert (R : Z.gcd m (x mod m) = Z.gcd x m). { rewrite Z.gcd_comm, Z.gcd_mod by lia. apply Z.gcd_comm. }
    rewrite R. apply Zgcd_1_rel_prime. apply bezout_rel_prime.
    apply Bezout_intro with (u := y) (v := - ((x * y) / m)).
    pose proof (Z.div_mod (x * y) m ltac:(lia)). lia.
Qed.
