From Coq Require Import List Bool ZArith Lia.
From Verif Require Import BytesModel BytesProofs CodecModel CodecSpec CodecProofs HashModel HashSpec.
Import ListNotations.
Open Scope Z_scope.

(** ---- ByteSub ---- *)
Lemma byte_sub_step_spec b m : 1 <= b < 256 -> (m = 0 \/ m = 1) ->
  byte_sub_step b m = if (m =? 1) && (b =? 1) then (255, 1) else (b - m, 0).
Proof.
  intros Hb Hm.
  assert (K : forallb (fun b => forallb (fun m =>
     let '(x, y) := byte_sub_step b m in
     let '(x', y') := (if (m =? 1) && (b =? 1) then (255, 1) else (b - m, 0)) in (x =? x') && (y =? y')) [0;1])
     (map Z.of_nat (seq 1 255)) = true) by (vm_compute; reflexivity).
  rewrite forallb_forall in K. specialize (K b).
  assert (I : In b (map Z.of_nat (seq 1 255))).
  { apply in_map_iff. exists (Z.to_nat b). split; [lia|]. apply in_seq. lia. }
  specialize (K I). rewrite forallb_forall in K. specialize (K m).
  assert (I2 : In m [0; 1]) by (cbn; lia). specialize (K I2).
  destruct (byte_sub_step b m) as [x y].
  destruct ((m =? 1) && (b =? 1)); apply andb_true_iff in K; rewrite !Z.eqb_eq in K; destruct K as [-> ->]; reflexivity.
Qed.
Definition nz (l : list Z) : Prop := Forall (fun b => 1 <= b < 256) l.
(** how many subtractions have been performed: digits 255 - b in base 255, least significant first *)
Fixpoint sub_count (l : list Z) : Z := match l with [] => 0 | b :: l' => (255 - b) + 255 * sub_count l' end.

Lemma sub_count_range l : nz l -> 0 <= sub_count l < 255 ^ Z.of_nat (length l).
Proof.
  induction 1 as [|b l Hb Hl IH]; [cbn; lia|]. cbn [sub_count length]. rewrite Nat2Z.inj_succ, Z.pow_succ_r by lia. lia.
Qed.
Lemma byte_sub_from_0 l : nz l -> byte_sub_from l 0 = l.
Proof.
  induction 1 as [|b l Hb Hl IH]; [reflexivity|]. cbn [byte_sub_from].
  rewrite byte_sub_step_spec by auto. cbn [Z.eqb andb]. rewrite IH. f_equal. lia.
Qed.
Lemma byte_sub_spec l : nz l -> nz (byte_sub l) /\ length (byte_sub l) = length l
  /\ sub_count (byte_sub l) = (sub_count l + 1) mod 255 ^ Z.of_nat (length l).
Proof.
  unfold byte_sub. induction 1 as [|b l Hb Hl IH].
  - cbn. repeat split; constructor.
  - cbn [byte_sub_from]. rewrite byte_sub_step_spec by auto. rewrite Z.eqb_refl. cbn [andb].
    destruct (Z.eqb_spec b 1) as [->|N].
    + destruct IH as (A & B & C). repeat split.
      * constructor; [lia|exact A].
      * cbn [length]. now rewrite B.
      * cbn [sub_count length]. rewrite C, Nat2Z.inj_succ, Z.pow_succ_r by lia.
        replace (255 - 1 + 255 * sub_count l + 1) with (255 * (sub_count l + 1)) by lia.
        rewrite Z.mul_mod_distr_l; [lia| |lia]. apply Z.pow_nonzero; lia.
    + rewrite byte_sub_from_0 by exact Hl. repeat split.
      * constructor; [lia|exact Hl].
      * cbn [sub_count length]. rewrite Z.mod_small; [lia|].
        pose proof (sub_count_range (b :: l) ltac:(constructor; auto)) as R. cbn [sub_count length] in R.
        pose proof (sub_count_range l Hl) as R2. rewrite Nat2Z.inj_succ, Z.pow_succ_r in * by lia. lia.
Qed.
Lemma nz_ff : nz ff32.
Proof. unfold ff32, nz. apply Forall_forall. intros b Hb. apply repeat_spec in Hb. lia. Qed.
Lemma iter_byte_sub k : nz (Nat.iter k byte_sub ff32) /\ length (Nat.iter k byte_sub ff32) = 32%nat
  /\ sub_count (Nat.iter k byte_sub ff32) = Z.of_nat k mod 255 ^ 32.
Proof.
  induction k as [|k (A & B & C)].
  - cbn [Nat.iter nat_rect]. split; [exact nz_ff|]. split; reflexivity.
  - change (Nat.iter (S k) byte_sub ff32) with (byte_sub (Nat.iter k byte_sub ff32)).
    destruct (byte_sub_spec _ A) as (A' & B' & C'). rewrite B in *. repeat split; auto.
    rewrite C', C. rewrite Z.add_mod_idemp_l by (apply Z.pow_nonzero; lia).
    f_equal. lia.
Qed.
Lemma prefixes_distinct i j : Z.of_nat i < 255 ^ 32 -> Z.of_nat j < 255 ^ 32 ->
  Nat.iter i byte_sub ff32 = Nat.iter j byte_sub ff32 -> i = j.
Proof.
  intros Hi Hj E. destruct (iter_byte_sub i) as (_ & _ & A). destruct (iter_byte_sub j) as (_ & _ & B).
  rewrite E, B in A. rewrite !Z.mod_small in A by lia. lia.
Qed.

(** ---- iterated HKDF ---- *)
Section K.
Variable kdf : list Z -> list Z.
Hypothesis kdf_len : forall x, length (kdf x) = 32%nat.

Lemma hash_loop_app f okm vs ws :
  hash_loop kdf f okm (vs ++ ws) = hash_loop kdf (Nat.iter (length vs) byte_sub f) (hash_loop kdf f okm vs) ws.
Proof.
  revert f okm. induction vs as [|v vs IH]; intros f okm; [reflexivity|].
  cbn [app hash_loop length]. rewrite IH. f_equal.
  clear. induction (length vs) as [|n IHn]; [reflexivity|]. 
  change (Nat.iter (S n) byte_sub (byte_sub f)) with (byte_sub (Nat.iter n byte_sub (byte_sub f))).
  rewrite IHn. reflexivity.
Qed.
Lemma hash_values_snoc vs v : hash_values kdf (vs ++ [v])
  = kdf ((Nat.iter (length vs) byte_sub ff32 ++ v) ++ hash_values kdf vs).
Proof. unfold hash_values. now rewrite hash_loop_app. Qed.
Lemma hash_values_length vs : length (hash_values kdf vs) = 32%nat.
Proof.
  destruct vs as [|v vs] using rev_ind; [reflexivity|]. rewrite hash_values_snoc. apply kdf_len.
Qed.
Lemma app_inj_len {A} (a b c d : list A) : length a = length b -> a ++ c = b ++ d -> a = b /\ c = d.
Proof.
  revert b. induction a as [|x a IH]; intros [|y b] L E; cbn in *; try discriminate; auto.
  injection E as -> E. injection L as L. destruct (IH _ L E). subst. auto.
Qed.
Lemma app_inj_len_r {A} (a b c d : list A) : length c = length d -> a ++ c = b ++ d -> a = b /\ c = d.
Proof.
  intros L E. apply app_inj_len; [|exact E].
  assert (length (a ++ c) = length (b ++ d)) by now rewrite E. rewrite !app_length in H. lia.
Qed.
(** equal outputs on different value lists exhibit a collision of the KDF, or a KDF preimage of zero *)
Lemma hash_values_binding vs : forall ws,
  Z.of_nat (length vs) <= 255 ^ 32 -> Z.of_nat (length ws) <= 255 ^ 32 ->
  hash_values kdf vs = hash_values kdf ws -> vs <> ws ->
  collision kdf \/ exists x, kdf x = zero32.
Proof.
  induction vs as [|v vs IH] using rev_ind; intros ws Lv Lw E N.
  - destruct ws as [|w ws] using rev_ind; [congruence|]. right. rewrite hash_values_snoc in E. eexists. symmetry. exact E.
  - destruct ws as [|w ws _] using rev_ind.
    + right. rewrite hash_values_snoc in E. eexists. exact E.
    + rewrite !hash_values_snoc in E. rewrite !app_length in *. cbn [length] in *.
      set (a := (Nat.iter (length vs) byte_sub ff32 ++ v) ++ hash_values kdf vs) in *.
      set (b := (Nat.iter (length ws) byte_sub ff32 ++ w) ++ hash_values kdf ws) in *.
      destruct (list_eq_dec Z.eq_dec a b) as [Eab|Nab]; [|left; exists a, b; auto].
      unfold a, b in Eab. apply app_inj_len_r in Eab; [|now rewrite !hash_values_length].
      destruct Eab as [E1 E2]. apply app_inj_len in E1.
      2:{ destruct (iter_byte_sub (length vs)) as (_ & -> & _). destruct (iter_byte_sub (length ws)) as (_ & -> & _). reflexivity. }
      destruct E1 as [E3 ->]. apply (IH ws); [lia|lia|exact E2|]. intros ->. congruence.
Qed.
End K.

(** ---- ExpandMessageXmd ---- *)
Lemma xor_bytes_strxor a b : xor_bytes a b = strxor a b.
Proof. unfold xor_bytes. revert b. induction a as [|x a IH]; intros [|y b]; cbn; f_equal; auto. Qed.
Lemma be_n_0 n : be_n n 0 = repeat 0 n.
Proof. induction n as [|n IH]; [reflexivity|]. rewrite be_n_S, IH. cbn [repeat]. f_equal. Qed.
Section X.
Variable H : list Z -> list Z.
Variable hsize bsize : nat.
Hypothesis hs : (0 < hsize)%nat.
Hypothesis hlen : forall x, length (H x) = hsize.

Lemma ceil_div_bounds len : (hsize * ceil_div len hsize >= len)%nat /\ (hsize * ceil_div len hsize < len + hsize)%nat.
Proof.
  unfold ceil_div. pose proof (Nat.div_mod (len + (hsize - 1)) hsize ltac:(lia)).
  pose proof (Nat.mod_upper_bound (len + (hsize - 1)) hsize ltac:(lia)). lia.
Qed.
Lemma dst_prime_rfc DST : (length DST <= 255)%nat -> dst_prime DST = rfc_dst_prime DST.
Proof. intros L. unfold dst_prime, rfc_dst_prime. rewrite i2osp_be_n by (cbn; lia). reflexivity. Qed.
Lemma xmd_rest_blocks b0 DST n : forall k,
  (length DST <= 255)%nat -> (k + n < 255)%nat ->
  xmd_rest H b0 (rfc_block H b0 DST k) (dst_prime DST) (Z.of_nat k + 2) n
  = map (rfc_block H b0 DST) (seq (S k) n).
Proof.
  induction n as [|n IH]; intros k L1 L2; [reflexivity|]. cbn [xmd_rest seq map].
  assert (E : H (xor_bytes b0 (rfc_block H b0 DST k) ++ i2osp (Z.of_nat k + 2) 1 ++ dst_prime DST) = rfc_block H b0 DST (S k)).
  { cbn [rfc_block]. rewrite xor_bytes_strxor, i2osp_be_n, dst_prime_rfc by (cbn; lia). do 4 f_equal. lia. }
  rewrite E. f_equal. specialize (IH (S k) L1 ltac:(lia)). rewrite <- IH. f_equal; lia.
Qed.
Lemma expand_is_rfc msg DST len : (length DST <= 255)%nat -> (0 < len)%nat -> (len <= 255 * hsize)%nat -> Z.of_nat len < 65536 ->
  expand_message_xmd H hsize bsize msg DST len = Ok (rfc_expand H bsize msg DST len (ceil_div len hsize)).
Proof.
  intros L1 L2 L3 L4. unfold expand_message_xmd. pose proof (ceil_div_bounds len) as [B1 B2].
  assert (U : (ceil_div len hsize <= 255)%nat) by nia.
  destruct (Nat.ltb_spec 255 (ceil_div len hsize)); [lia|].
  destruct (ceil_div len hsize) as [|k] eqn:E; [lia|]. f_equal. unfold rfc_expand.
  assert (B0 : H (msg_prime bsize msg DST len) = rfc_b0 H bsize msg DST len).
  { unfold msg_prime, rfc_b0. rewrite dst_prime_rfc, !i2osp_be_n by (try (pose proof (pow256_pos bsize)); cbn; lia). rewrite be_n_0. reflexivity. }
  rewrite B0. f_equal. f_equal. cbn [seq map]. f_equal.
  - cbn [rfc_block]. rewrite dst_prime_rfc, i2osp_be_n by (cbn; lia). reflexivity.
  - rewrite <- (xmd_rest_blocks _ DST k 0) by lia. cbn [rfc_block]. rewrite dst_prime_rfc, i2osp_be_n by (cbn; lia). reflexivity.
Qed.
Lemma xmd_rest_len b0 prev dstp i k : Forall (fun l => length l = hsize) (xmd_rest H b0 prev dstp i k).
Proof. revert prev i. induction k as [|k IH]; intros; cbn [xmd_rest]; constructor; auto. Qed.
Lemma concat_len (ls : list (list Z)) n : Forall (fun l => length l = n) ls -> length (concat ls) = (length ls * n)%nat.
Proof. induction 1 as [|l ls Hl Hls IH]; [reflexivity|]. cbn [concat length]. rewrite app_length, IH, Hl. lia. Qed.
Lemma xmd_rest_count b0 prev dstp i k : length (xmd_rest H b0 prev dstp i k) = k.
Proof. revert prev i. induction k as [|k IH]; intros; cbn [xmd_rest length]; auto. Qed.
Lemma expand_length msg DST len out : expand_message_xmd H hsize bsize msg DST len = Ok out -> length out = len.
Proof.
  unfold expand_message_xmd. pose proof (ceil_div_bounds len) as [B1 B2]. destruct (Nat.ltb _ _); [discriminate|].
  destruct (ceil_div len hsize) as [|k] eqn:E; [discriminate|]. cbv zeta. set (bs := _ :: xmd_rest _ _ _ _ _ _). intros X. assert (EX : out = firstn len (concat bs)) by congruence. rewrite EX.
  apply firstn_length_le. rewrite (concat_len bs hsize).
  - unfold bs. cbn [length]. rewrite xmd_rest_count. lia.
  - unfold bs. constructor; [apply hlen|apply xmd_rest_len].
Qed.
Lemma expand_outcome msg DST len :
  match expand_message_xmd H hsize bsize msg DST len with
  | Ok _ => (0 < len <= 255 * hsize)%nat
  | Err => (255 * hsize < len)%nat
  | Panic => len = 0%nat
  end.
Proof.
  unfold expand_message_xmd. pose proof (ceil_div_bounds len) as [B1 B2].
  destruct (Nat.ltb_spec 255 (ceil_div len hsize)); [nia|].
  destruct (ceil_div len hsize) as [|k] eqn:E; nia.
Qed.
(** the string hashed first determines message, DST and requested length *)
Lemma msg_prime_inj m1 d1 l1 m2 d2 l2 :
  (length d1 <= 255)%nat -> (length d2 <= 255)%nat -> Z.of_nat l1 < 65536 -> Z.of_nat l2 < 65536 ->
  msg_prime bsize m1 d1 l1 = msg_prime bsize m2 d2 l2 -> m1 = m2 /\ d1 = d2 /\ l1 = l2.
Proof.
  intros L1 L2 N1 N2 E. unfold msg_prime, dst_prime in E.
  apply app_inv_head in E. rewrite !app_assoc in E.
  apply app_inj_len_r in E; [|now rewrite !i2osp_length]. destruct E as [E El].
  assert (Ld : length d1 = length d2).
  { apply (f_equal of_be) in El. rewrite !i2osp_val in El by (cbn; lia). lia. }
  apply app_inj_len_r in E; [|exact Ld]. destruct E as [E Ed].
  apply app_inj_len_r in E; [|now rewrite !i2osp_length]. destruct E as [E _].
  apply app_inj_len_r in E; [|now rewrite !i2osp_length]. destruct E as [Em E].
  apply (f_equal of_be) in E. rewrite !i2osp_val in E by (cbn; lia). repeat split; auto. lia.
Qed.
Lemma hash_to_field_spec msg DST count L p out : 0 < p ->
  hash_to_field H hsize bsize msg DST count L p = Ok out ->
  length out = count /\ Forall (fun x => 0 <= x < p) out.
Proof.
  intros Hp. unfold hash_to_field. destruct (expand_message_xmd _ _ _ _ _ _); [|discriminate|discriminate].
  intros X. injection X as <-. rewrite map_length, seq_length. split; [reflexivity|].
  apply Forall_forall. intros x Hx. apply in_map_iff in Hx. destruct Hx as (i & <- & _). apply Z.mod_pos_bound. exact Hp.
Qed.
End X.

Lemma os2ip_be_value b : os2ip b = be_value b.
Proof.
  unfold os2ip, of_be.
  assert (G : forall l a, fold_left (fun acc x => acc * 256 + x) l a = a * 256 ^ Z.of_nat (length l) + be_value l).
  { induction l as [|x l IH]; intros a; cbn [fold_left length be_value]; [cbn; lia|].
    rewrite IH, Nat2Z.inj_succ, Z.pow_succ_r by lia. nia. }
  rewrite G. lia.
Qed.
Lemma skipn_add {A} a : forall b (l : list A), skipn a (skipn b l) = skipn (b + a) l.
Proof.
  intros b. induction b as [|b IH]; intros l; [reflexivity|]. destruct l as [|x l]; [cbn; now destruct a|]. cbn [skipn Nat.add]. apply IH.
Qed.
(** ---- HMAC-DRBG ---- *)
Section D.
Variable hmac : list Z -> list Z -> list Z.
Variable hsize : nat.
Hypothesis hs : (0 < hsize)%nat.
Hypothesis hlen : forall k x, length (hmac k x) = hsize.

Lemma write_at_ok v : forall dst i, (i + length v <= length dst)%nat ->
  write_at dst i v = Some (firstn i dst ++ v ++ skipn (i + length v) dst).
Proof.
  induction v as [|b v IH]; intros dst i L; cbn [write_at length] in *.
  - rewrite Nat.add_0_r. cbn [app]. now rewrite firstn_skipn.
  - destruct (Nat.ltb_spec i (length dst)); [|lia].
    assert (Ld : length (firstn i dst ++ b :: skipn (S i) dst) = length dst).
    { rewrite app_length, firstn_length_le by lia. cbn [length]. rewrite skipn_length. lia. }
    rewrite IH by (rewrite Ld; lia). f_equal.
    rewrite firstn_app, firstn_length_le by lia. replace (S i - i)%nat with 1%nat by lia.
    rewrite firstn_all2 by (rewrite firstn_length_le; lia). cbn [firstn].
    rewrite skipn_app, firstn_length_le by lia. rewrite skipn_all2 by (rewrite firstn_length_le; lia).
    replace (S i + length v - i)%nat with (S (length v)) by lia. rewrite skipn_cons, skipn_add.
    cbn [app]. rewrite <- app_assoc. cbn [app]. do 4 f_equal. lia.
Qed.
Lemma write_at_len v : forall dst i dst', write_at dst i v = Some dst' -> length dst' = length dst /\ (v = [] \/ i + length v <= length dst)%nat.
Proof.
  induction v as [|b v IH]; intros dst i dst' E; cbn [write_at] in E.
  - injection E as <-. auto.
  - destruct (Nat.ltb_spec i (length dst)); [|discriminate].
    apply IH in E. rewrite app_length, firstn_length_le in E by lia. cbn [length] in E. rewrite skipn_length in E.
    destruct E as [E1 E2]. split; [lia|right]. cbn [length]. destruct E2 as [->|E2]; cbn [length]; lia.
Qed.
Lemma write_at_none v dst i : (length dst < i + length v)%nat -> (i < length dst)%nat -> write_at dst i v = None.
Proof.
  intros A B. destruct (write_at dst i v) eqn:E; [|reflexivity].
  apply write_at_len in E. destruct E as [_ [->|E]]; cbn [length] in *; lia.
Qed.
Lemma v_stream_S k v n : v_stream hmac k v (S n) = v_stream hmac k v n ++ v_after hmac k v (S n).
Proof. unfold v_stream. rewrite seq_S, map_app, concat_app. cbn [map concat Nat.add]. now rewrite app_nil_r. Qed.
Lemma v_stream_len k v n : length (v_stream hmac k v n) = (n * hsize)%nat.
Proof. induction n as [|n IH]; [reflexivity|]. rewrite v_stream_S, app_length, IH. cbn [v_after]. rewrite hlen. lia. Qed.

(** after n blocks have been written *)
Lemma drbg_loop_multiple k v0 q : forall fuel n dst,
  (q * hsize = length dst)%nat -> (n <= q)%nat -> (q - n <= fuel)%nat -> firstn (n * hsize) dst = v_stream hmac k v0 n ->
  drbg_loop hmac fuel k (v_after hmac k v0 n) dst (n * hsize) = Some (v_after hmac k v0 q, v_stream hmac k v0 q, (q * hsize)%nat).
Proof.
  induction fuel as [|f IH]; intros n dst Lq Ln Lf E.
  - cbn [drbg_loop]. replace n with q in * by lia. destruct (Nat.ltb_spec (q * hsize) (length dst)); [lia|].
    rewrite <- E. rewrite firstn_all2 by lia. reflexivity.
  - destruct (Nat.eq_dec n q) as [->|Nq].
    + cbn [drbg_loop]. destruct (Nat.ltb_spec (q * hsize) (length dst)); [lia|].
      rewrite <- E. rewrite firstn_all2 by lia. reflexivity.
    + cbn [drbg_loop]. destruct (Nat.ltb_spec (n * hsize) (length dst)); [|nia].
      rewrite write_at_ok by (rewrite hlen; nia).
      change (hmac k (v_after hmac k v0 n)) with (v_after hmac k v0 (S n)).
      assert (Lb : length (v_after hmac k v0 (S n)) = hsize) by (cbn; apply hlen).
      rewrite Lb. replace (n * hsize + hsize)%nat with (S n * hsize)%nat by lia.
      apply IH; [|lia|lia|].
      * rewrite !app_length, firstn_length_le, skipn_length, Lb by lia. nia.
      * rewrite E, app_assoc, <- v_stream_S.         rewrite firstn_app, v_stream_len, Nat.sub_diag, firstn_O, app_nil_r.
        apply firstn_all2. rewrite v_stream_len. lia.
Qed.
Lemma drbg_loop_other k v0 q r : (0 < r < hsize)%nat -> forall fuel n dst,
  (q * hsize + r = length dst)%nat -> (n <= q)%nat ->
  drbg_loop hmac fuel k (v_after hmac k v0 n) dst (n * hsize) = None.
Proof.
  intros Hr. induction fuel as [|f IH]; intros n dst Lq Ln; cbn [drbg_loop].
  - destruct (Nat.ltb_spec (n * hsize) (length dst)); [reflexivity|nia].
  - destruct (Nat.ltb_spec (n * hsize) (length dst)); [|nia].
    destruct (Nat.eq_dec n q) as [->|Nq].
    + rewrite write_at_none; [reflexivity| |lia]. rewrite hlen. lia.
    + rewrite write_at_ok by (rewrite hlen; nia).
      change (hmac k (v_after hmac k v0 n)) with (v_after hmac k v0 (S n)).
      assert (Lb : length (v_after hmac k v0 (S n)) = hsize) by (cbn; apply hlen).
      rewrite Lb. replace (n * hsize + hsize)%nat with (S n * hsize)%nat by lia.
      apply IH; [|lia]. rewrite !app_length, firstn_length_le, skipn_length, Lb by lia. nia.
Qed.
End D.
