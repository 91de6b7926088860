From Coq Require Import List Bool ZArith Lia.
From Verif Require Import BytesModel BytesProofs CodecModel CodecSpec CodecProofs HashModel HashSpec HashProofs.
Import ListNotations.
Open Scope Z_scope.

(** C16: starting from 32 bytes 0xFF, the prefixes seen by repeated ByteSub calls are pairwise
    different for the first 255^32 calls and never contain a zero byte *)
Theorem C16_bytesub_no_repeat i j :
  Z.of_nat i < 255 ^ 32 -> Z.of_nat j < 255 ^ 32 -> i <> j ->
  Nat.iter i byte_sub (repeat 255 32) <> Nat.iter j byte_sub (repeat 255 32).
Proof. intros A B N E. exact (N (prefixes_distinct i j A B E)). Qed.
Print Assumptions C16_bytesub_no_repeat.
Theorem C16_bytesub_bytes i :
  length (Nat.iter i byte_sub (repeat 255 32)) = 32%nat
  /\ Forall (fun b => 1 <= b <= 255) (Nat.iter i byte_sub (repeat 255 32)).
Proof.
  destruct (iter_byte_sub i) as (A & B & _). split; [exact B|].
  eapply Forall_impl; [|exact A]. cbn. intros b Hb. lia.
Qed.
Print Assumptions C16_bytesub_bytes.
Example C16_bytesub_case : byte_sub [255; 255] = [254; 255] /\ byte_sub [1; 255] = [255; 254] /\ byte_sub [1; 1] = [255; 255].
Proof. repeat split; reflexivity. Qed.

(** C17: for a hash of size h >= 1, Read into a buffer whose length is a positive multiple of h fills
    it with V_1 || V_2 || ... and leaves the (Key, V) that SP 800-90A prescribes *)
Theorem C17_read_standard_partial hmac h (Hh : (0 < h)%nat) (Hlen : forall k x, length (hmac k x) = h) d q dst :
  length dst = (q * h)%nat -> (0 < q)%nat ->
  exists d', drbg_read hmac d dst = Some ((q * h)%nat, v_stream hmac (dk d) (dv d) q, d')
    /\ (dk d', dv d') = sp_update hmac None (dk d, v_after hmac (dk d) (dv d) q) /\ dcount d' = dcount d + 1.
Proof.
  intros L Q. unfold drbg_read. destruct (length dst) as [|n] eqn:E; [nia|].
  pose proof (drbg_loop_multiple hmac h Hh Hlen (dk d) (dv d) q (S n) 0 dst) as P.
  cbn [Nat.mul v_after] in P. rewrite P by (try lia; try nia; reflexivity).
  eexists. split; [reflexivity|]. split; reflexivity.
Qed.
Print Assumptions C17_read_standard_partial.
(** missing: the other lengths. There Read panics, so the full claim is refuted: *)
Theorem C17_every_length_refuted hmac h (Hh : (0 < h)%nat) (Hlen : forall k x, length (hmac k x) = h) d dst :
  drbg_read hmac d dst = None <-> (length dst mod h <> 0)%nat.
Proof.
  set (q := (length dst / h)%nat). set (r := (length dst mod h)%nat).
  assert (DM : length dst = (q * h + r)%nat) by (pose proof (Nat.div_mod (length dst) h ltac:(lia)); unfold q, r; lia).
  assert (MB : (r < h)%nat) by (apply Nat.mod_upper_bound; lia).
  destruct (Nat.eq_dec r 0) as [Z0|NZ].
  - split; [|congruence]. intros E. exfalso. destruct q as [|q'] eqn:Eq.
    + unfold drbg_read in E. replace (length dst) with 0%nat in E by lia. discriminate.
    + destruct (C17_read_standard_partial hmac h Hh Hlen d (S q') dst) as (d' & E' & _); [lia|lia|]. congruence.
  - split; [auto|]. intros _. unfold drbg_read. destruct (length dst) as [|n] eqn:E; [nia|].
    pose proof (drbg_loop_other hmac h Hh Hlen (dk d) (dv d) q r ltac:(lia) (S n) 0 dst) as P.
    cbn [Nat.mul v_after] in P. rewrite P; [reflexivity|lia|lia].
Qed.
Print Assumptions C17_every_length_refuted.
(** seeding: NewHmacDrbg starts from K = 00.., V = 01.. and mixes entropy, nonce and personalisation
    as one concatenated string, exactly as the standard's update; so two seedings with the same
    concatenation give the same generator *)
Theorem C17_seed_concatenation hmac h e n p e' n' p' :
  e ++ n ++ p = e' ++ n' ++ p' -> drbg_new hmac h e n p = drbg_new hmac h e' n' p'.
Proof.
  intros E. unfold drbg_new, drbg_update. cbn [dk dv dcount concat]. rewrite !app_nil_r. now rewrite E.
Qed.
Print Assumptions C17_seed_concatenation.
(** the generator starts in, and is reseeded to, the standard's working state. The standard treats empty
    seed material as no data; NewHmacDrbg and Reseed always run both rounds *)
Theorem C17_seed_standard hmac h e n p :
  (dk (drbg_new hmac h e n p), dv (drbg_new hmac h e n p)) = sp_instantiate hmac h (e ++ n ++ p).
Proof. unfold drbg_new, drbg_update. cbn [dk dv dcount concat drbg_bump]. rewrite !app_nil_r. reflexivity. Qed.
Print Assumptions C17_seed_standard.
Theorem C17_reseed_standard hmac d e :
  (dk (drbg_reseed hmac d e), dv (drbg_reseed hmac d e)) = sp_update hmac (Some e) (dk d, dv d).
Proof. unfold drbg_reseed, drbg_update. cbn [dk dv dcount concat]. rewrite !app_nil_r. reflexivity. Qed.
Print Assumptions C17_reseed_standard.

(** a whole history: any interleaving of reads (of whole blocks) and reseeds on one generator, whatever
    the buffers held before, hands out exactly the standard's bytes *)
Fixpoint drbg_run hmac (d : drbg) (rs : list (request * list Z)) : option (list (list Z)) :=
  match rs with
  | [] => Some []
  | (Generate _, buf) :: rs' =>
      match drbg_read hmac d buf with
      | Some (_, out, d') => match drbg_run hmac d' rs' with Some l => Some (out :: l) | None => None end
      | None => None
      end
  | (Reseed e, _) :: rs' =>
      match drbg_run hmac (drbg_reseed hmac d e) rs' with Some l => Some ([] :: l) | None => None end
  end.
Definition whole_blocks (h : nat) (rb : request * list Z) : Prop :=
  match fst rb with Generate q => (0 < q)%nat /\ length (snd rb) = (q * h)%nat | Reseed _ => True end.
Theorem C17_history_partial hmac h (Hh : (0 < h)%nat) (Hlen : forall k x, length (hmac k x) = h) e n p rs :
  Forall (whole_blocks h) rs ->
  drbg_run hmac (drbg_new hmac h e n p) rs = Some (sp_run hmac (map fst rs) (sp_instantiate hmac h (e ++ n ++ p))).
Proof.
  rewrite <- C17_seed_standard. generalize (drbg_new hmac h e n p). intros d F. revert d.
  induction F as [|[r buf] rs R F IH]; intros d; [reflexivity|]. cbn [map fst]. destruct r as [q|x]; cbn [drbg_run sp_run sp_step].
  - destruct R as [Q L]. cbn [snd fst] in Q, L.
    destruct (C17_read_standard_partial hmac h Hh Hlen d q buf L Q) as (d' & E & S & _). rewrite E. cbn [fst snd]. rewrite <- S, IH. reflexivity.
  - rewrite <- C17_reseed_standard, IH. reflexivity.
Qed.
Print Assumptions C17_history_partial.
Example C17_history_case :
  Forall (whole_blocks 2) [(Generate 2, [9;9;9;9]); (Reseed [5], []); (Generate 1, [0;0])].
Proof. repeat constructor. Qed.
Example C17_case :
  exists d, drbg_read (fun k x => [Z.of_nat (length k + length x); 7]) {| dk := [1]; dv := [2; 3]; dcount := 1 |} [0;0;0;0] = Some (4%nat, [3;7;3;7], d)
  /\ drbg_read (fun k x => [Z.of_nat (length k + length x); 7]) {| dk := [1]; dv := [2; 3]; dcount := 1 |} [0;0;0] = None.
Proof. eexists. split; vm_compute; reflexivity. Qed.

(** C64: the iterated KDF binds the list of values: equal results for different lists exhibit a
    collision of the underlying 32-byte KDF or a preimage of 32 zero bytes *)
Theorem C64_hash_binds kdf (Hlen : forall x, length (kdf x) = 32%nat) vs ws h :
  Z.of_nat (length vs) <= 255 ^ 32 -> Z.of_nat (length ws) <= 255 ^ 32 ->
  internal_hash kdf (map Some vs) = Some h -> internal_hash kdf (map Some ws) = Some h -> vs <> ws ->
  collision kdf \/ exists x, kdf x = repeat 0 32.
Proof.
  assert (A : forall (l : list (list Z)), all_some (map Some l) = Some l) by (induction l as [|a l IH]; cbn; [|rewrite IH]; reflexivity).
  unfold internal_hash. rewrite !A. intros L1 L2 E1 E2 N. injection E1 as E1. injection E2 as E2.
  apply (hash_values_binding kdf Hlen vs ws L1 L2); congruence.
Qed.
Print Assumptions C64_hash_binds.
(** the Fiat-Shamir challenge binds the absolute values of its inputs *)
Theorem C64_fiat_shamir_binds_partial kdf (Hlen : forall x, length (kdf x) = 32%nat) xs ys h :
  Z.of_nat (length xs) <= 255 ^ 32 -> Z.of_nat (length ys) <= 255 ^ 32 ->
  fiat_shamir kdf (map Some xs) = Some h -> fiat_shamir kdf (map Some ys) = Some h ->
  map Z.abs xs <> map Z.abs ys -> collision kdf \/ exists x, kdf x = repeat 0 32.
Proof.
  assert (A : forall (l : list Z), all_some (map Some l) = Some l) by (induction l as [|a l IH]; cbn; [|rewrite IH]; reflexivity).
  unfold fiat_shamir. rewrite !A. intros L1 L2 E1 E2 N. injection E1 as E1. injection E2 as E2.
  apply (hash_values_binding kdf Hlen (map be_bytes xs) (map be_bytes ys)); rewrite ?map_length; try lia; [congruence|].
  intros E. apply N. clear - E. revert ys E. induction xs as [|x xs IH]; intros [|y ys] E; cbn in *; try discriminate; auto.
  injection E as E1 E2. f_equal; [now apply be_bytes_abs_inj|auto].
Qed.
Print Assumptions C64_fiat_shamir_binds_partial.
(** missing: signs. x and -x always give the same challenge *)
Theorem C64_fiat_shamir_binds_sign_refuted kdf x rest :
  fiat_shamir kdf (Some x :: rest) = fiat_shamir kdf (Some (- x) :: rest).
Proof.
  unfold fiat_shamir. cbn [all_some]. destruct (all_some rest); [|reflexivity].
  cbn [map]. unfold be_bytes. now rewrite Z.abs_opp.
Qed.
Print Assumptions C64_fiat_shamir_binds_sign_refuted.
Theorem C64_nil_refused kdf vs : In None vs -> internal_hash kdf vs = None.
Proof.
  intros H. unfold internal_hash. replace (all_some vs) with (@None (list (list Z))); [reflexivity|].
  induction vs as [|[v|] vs IH]; cbn in *; [contradiction| |reflexivity].
  destruct H as [H|H]; [discriminate|]. now rewrite <- IH.
Qed.
Print Assumptions C64_nil_refused.
Example C64_case : internal_hash (fun x => firstn 32 (rev x ++ repeat 0 32)) (map Some [[1;2];[3]]) <> None. Proof. discriminate. Qed.

(** C65: hash-to-field's expander is RFC 9380's expand_message_xmd for every message, DST of at most 255
    bytes and 1 <= len <= 255 * hash size; it returns exactly len bytes, an error above, and panics at 0 *)
Theorem C65_expand_is_rfc9380 H hsize bsize (Hs : (0 < hsize)%nat) (Hl : forall x, length (H x) = hsize) msg DST len :
  (length DST <= 255)%nat -> (0 < len <= 255 * hsize)%nat -> Z.of_nat len < 65536 ->
  exists ell, (hsize * (ell - 1) < len <= hsize * ell)%nat
    /\ expand_message_xmd H hsize bsize msg DST len = Ok (rfc_expand H bsize msg DST len ell).
Proof.
  intros A B C. exists (ceil_div len hsize). pose proof (ceil_div_bounds hsize Hs len) as [P Q].
  split; [|apply expand_is_rfc; auto; lia]. destruct (ceil_div len hsize) eqn:E; nia.
Qed.
Print Assumptions C65_expand_is_rfc9380.
Theorem C65_expand_outcome H hsize bsize (Hs : (0 < hsize)%nat) (Hl : forall x, length (H x) = hsize) msg DST len :
  match expand_message_xmd H hsize bsize msg DST len with
  | Ok out => length out = len /\ (0 < len <= 255 * hsize)%nat
  | Err => (255 * hsize < len)%nat
  | Panic => len = 0%nat
  end.
Proof.
  pose proof (expand_outcome H hsize bsize Hs msg DST len) as O.
  pose proof (expand_length H hsize bsize Hs Hl msg DST len) as L.
  destruct (expand_message_xmd H hsize bsize msg DST len); auto.
Qed.
Print Assumptions C65_expand_outcome.
(** domain separation of the first hash input *)
Theorem C65_first_input_injective bsize m1 d1 l1 m2 d2 l2 :
  (length d1 <= 255)%nat -> (length d2 <= 255)%nat -> Z.of_nat l1 < 65536 -> Z.of_nat l2 < 65536 ->
  msg_prime bsize m1 d1 l1 = msg_prime bsize m2 d2 l2 -> m1 = m2 /\ d1 = d2 /\ l1 = l2.
Proof. exact (msg_prime_inj 1 bsize Nat.lt_0_1 m1 d1 l1 m2 d2 l2). Qed.
Print Assumptions C65_first_input_injective.
(** without the bound on the DST it fails: a 256-byte DST is closed by the byte 1 *)
Theorem C65_long_dst_refuted : exists m1 d1 m2 d2, d1 <> d2 /\ msg_prime 4 m1 d1 32 = msg_prime 4 m2 d2 32.
Proof.
  exists [], (repeat 9 252 ++ [0; 32; 0; 7]), ([0; 32; 0] ++ repeat 9 252), [7].
  split; [intros E; apply (f_equal (@length Z)) in E; vm_compute in E; discriminate|]. vm_compute. reflexivity.
Qed.
Print Assumptions C65_long_dst_refuted.
Theorem C65_hash_to_field_range H hsize bsize msg DST count L p out : 0 < p ->
  hash_to_field H hsize bsize msg DST count L p = Ok out ->
  length out = count /\ Forall (fun x => 0 <= x < p) out.
Proof. intros A. apply hash_to_field_spec; exact A. Qed.
Print Assumptions C65_hash_to_field_range.
(** hash_to_field (RFC 9380, 5.2): the count*L uniform bytes are cut into count consecutive blocks of L bytes,
    and each is read as a big-endian integer modulo p *)
Theorem C65_hash_to_field_blocks H hsize bsize (Hs : (0 < hsize)%nat) (Hl : forall x, length (H x) = hsize)
  msg DST count L p blocks :
  length blocks = count -> Forall (fun b => length b = L) blocks ->
  expand_message_xmd H hsize bsize msg DST (count * L) = Ok (concat blocks) ->
  hash_to_field H hsize bsize msg DST count L p = Ok (map (fun b => be_value b mod p) blocks).
Proof.
  intros C F E. unfold hash_to_field. rewrite E. f_equal. subst count. clear E.
  assert (G : forall pre k, length pre = (L * k)%nat ->
     map (fun i => os2ip (firstn L (skipn (L * i) (pre ++ concat blocks))) mod p) (seq k (length blocks))
     = map (fun b => be_value b mod p) blocks).
  { induction F as [|b bs Lb F IH]; intros pre k P; [reflexivity|]. cbn [length seq map concat]. f_equal.
    - rewrite skipn_app, (skipn_all2 pre) by lia. replace (L * k - length pre)%nat with 0%nat by lia. cbn [skipn app].
      rewrite firstn_app, (firstn_all2 b) by lia. replace (L - length b)%nat with 0%nat by lia. cbn [firstn]. rewrite app_nil_r.
      now rewrite os2ip_be_value.
    - rewrite app_assoc. apply IH. rewrite app_length. nia. }
  apply (G [] 0%nat). cbn. lia.
Qed.
Print Assumptions C65_hash_to_field_blocks.
(** the blocks exist: every successful expansion is such a concatenation *)
Theorem C65_hash_to_field_total H hsize bsize (Hs : (0 < hsize)%nat) (Hl : forall x, length (H x) = hsize)
  msg DST count L p : (0 < count * L <= 255 * hsize)%nat -> exists blocks, length blocks = count /\
  Forall (fun b => length b = L) blocks /\ expand_message_xmd H hsize bsize msg DST (count * L) = Ok (concat blocks) /\
  hash_to_field H hsize bsize msg DST count L p = Ok (map (fun b => be_value b mod p) blocks).
Proof.
  intros B. pose proof (C65_expand_outcome H hsize bsize Hs Hl msg DST (count * L)) as O.
  destruct (expand_message_xmd H hsize bsize msg DST (count * L)) as [u| |] eqn:E; [|lia|lia]. destruct O as [Lu _].
  assert (G : forall c (v : list Z), length v = (c * L)%nat -> exists bs, length bs = c /\ Forall (fun b => length b = L) bs /\ v = concat bs).
  { induction c as [|c IH]; intros v Lv.
    - exists []. destruct v; [repeat split; constructor|discriminate].
    - destruct (IH (skipn L v)) as (bs & A & F & Ev); [rewrite skipn_length; nia|].
      exists (firstn L v :: bs). cbn [length concat]. rewrite A. split; [reflexivity|]. split.
      + constructor; [rewrite firstn_length; nia|exact F].
      + now rewrite <- Ev, firstn_skipn. }
  destruct (G count u Lu) as (bs & A & F & ->). exists bs. repeat (split; [assumption||reflexivity|]).
  apply (C65_hash_to_field_blocks H hsize bsize Hs Hl); assumption.
Qed.
Print Assumptions C65_hash_to_field_total.
Example C65_case : expand_message_xmd (fun x => [Z.of_nat (length x); 5]) 2 3 [1] [2] 5 = Ok [5; 5; 5; 5; 5].
Proof. vm_compute. reflexivity. Qed.

(** C66: commitments open for their own witness; two different witnesses for one commitment are a
    collision of HMAC; wrong lengths are an error *)
Theorem C66_commit_opens hmac (Hlen : forall k x, length (hmac k x) = 32%nat) msg r :
  let '(c, w) := commit hmac msg r in open_commit hmac c w = Ok true.
Proof.
  cbn. unfold open_commit. rewrite Hlen. cbn [Nat.eqb w_r w_msg]. unfold list_eqb.
  destruct (list_eq_dec _ _ _); congruence.
Qed.
Print Assumptions C66_commit_opens.
Theorem C66_open_only_committed hmac c w1 w2 :
  open_commit hmac c w1 = Ok true -> open_commit hmac c w2 = Ok true ->
  w1 = w2 \/ ((w_r w1, w_msg w1) <> (w_r w2, w_msg w2) /\ hmac (w_r w1) (w_msg w1) = hmac (w_r w2) (w_msg w2)).
Proof.
  unfold open_commit, list_eqb. destruct (Nat.eqb _ _); [|discriminate].
  destruct (list_eq_dec _ _ _) as [E1|]; [|discriminate]. destruct (list_eq_dec _ _ _) as [E2|]; [|discriminate].
  intros _ _. destruct w1 as [m1 r1], w2 as [m2 r2]. cbn in *.
  destruct (list_eq_dec Z.eq_dec m1 m2) as [->|]; [destruct (list_eq_dec Z.eq_dec r1 r2) as [->|]; [left; reflexivity|]|];
  right; split; congruence.
Qed.
Print Assumptions C66_open_only_committed.
Theorem C66_open_wrong_length hmac c w : length c <> 32%nat -> open_commit hmac c w = Err.
Proof. intros L. unfold open_commit. destruct (Nat.eqb_spec (length c) 32); congruence. Qed.
Print Assumptions C66_open_wrong_length.
Example C66_case : open_commit (fun k x => repeat (Z.of_nat (length k + length x)) 32) (repeat 3 32) {| w_msg := [1;2]; w_r := [9] |} = Ok true.
Proof. vm_compute. reflexivity. Qed.
