(** More proofs about Mina signatures, addresses and hashes. *)
From Coq Require Import ZArith NArith Lia List Bool Ring Field Znumtheory.
From Verif Require Import EcField EcSpec EcProofs PointModel PointSpec PointProofs PointMulProofs PointProps LimbSpec LimbFiat NativeField NativeArithProofs PastaProps
  MinaBitsModel MinaBitsSpec MinaBitsProofs MinaBitsProps MinaModel MinaSpec MinaProofs MinaTxnProofs MinaSponge MinaSignProofs.
Import ListNotations.
Set Implicit Arguments.
Unset Strict Implicit.
Local Open Scope Z_scope.

Definition with_memo F (t : transaction F) (m : list Z) : transaction F :=
  Txn (t_fee t) (t_fee_token t) (t_fee_payer t) (t_nonce t) (t_valid_until t) m (t_tag0 t) (t_tag1 t) (t_tag2 t) (t_source t) (t_receiver t)
    (t_token_id t) (t_amount t) (t_locked t) (t_network t).
Definition with_network F (t : transaction F) (n : Z) : transaction F :=
  Txn (t_fee t) (t_fee_token t) (t_fee_payer t) (t_nonce t) (t_valid_until t) (t_memo t) (t_tag0 t) (t_tag1 t) (t_tag2 t) (t_source t) (t_receiver t)
    (t_token_id t) (t_amount t) (t_locked t) n.

Lemma bind_ok A B (a : A) (f : A -> res B) : bind (Ok a) f = f a. Proof. reflexivity. Qed.
Section More.
  Variable F : field.
  Variable C : fp_codec F.
  Variable p : Z.
  Hypothesis CK : codec_ok C p.
  Hypothesis curve : odd_order_curve (f0 : F) (five F).
  Local Notation raw := (fc_raw C).
  Local Notation on := (on_curve (f0 : F) (five F)).
  Implicit Types t u : transaction F.

  (** ** Transactions *)
  Lemma txn_input_ok t : exists r, txn_input C t = Ok r /\ ro_holds r (txn_fields C t) (txn_bits C t).
  Proof.
    destruct (add_ro_ok CK t (C106_init 75)) as (r & E & H); [cbn; lia|]. exists r. unfold txn_input. rewrite E. split; [reflexivity|exact H].
  Qed.
  Lemma message_input_ok m : Z.of_nat (8 * length m) <= 2 ^ 32 -> exists r, message_input m = Ok r /\ ro_holds r [] (all_bits m).
  Proof.
    intros M. destruct (C106_add_bytes _ _ _ (C106_init (length m)) m M) as (r & E & H). exists r. unfold message_input. rewrite E. split; [reflexivity|exact H].
  Qed.
  Lemma memo_same m m' : (32 <= length m)%nat -> (32 <= length m')%nat -> firstn 32 m = firstn 32 m' -> Z.of_nat (length m) mod 256 = Z.of_nat (length m') mod 256 ->
    memo_bytes m = memo_bytes m'.
  Proof.
    intros L L' E E'. rewrite !memo_bytes_is, E, E'. do 3 f_equal. replace (32 - length m)%nat with 0%nat by lia. replace (32 - length m')%nat with 0%nat by lia. reflexivity.
  Qed.
  Lemma input_with_memo t m m' : memo_bytes m = memo_bytes m' -> txn_input C (with_memo t m) = txn_input C (with_memo t m').
  Proof. intros E. unfold txn_input, add_ro_input, with_memo. cbn [t_memo t_fee t_fee_token t_fee_payer t_nonce t_valid_until t_tag0 t_tag1 t_tag2 t_source t_receiver t_token_id t_amount t_locked]. rewrite E. reflexivity. Qed.
  Lemma slice_len a b (l : list Z) : (a <= b <= length l)%nat -> length (slice a b l) = (b - a)%nat.
  Proof. intros H. unfold slice. rewrite firstn_length, skipn_length. lia. Qed.
  Lemma marshal_len t : length (marshal_txn C t) = 175%nat.
  Proof.
    unfold marshal_txn. cbv zeta. do 17 (apply len175; [|lia]). apply repeat_length.
  Qed.
  Lemma unmarshal_panics input t b : unmarshal_txn C input = Ok t -> length input = 175%nat -> 118 <= b < 256 ->
    unmarshal_txn C (put 57 58 [b] input) = Panic.
  Proof.
    intros U L B. unfold unmarshal_txn in *. rewrite put_length by lia. rewrite L in *. change (175 <? 175)%nat with false in *. cbv iota in *.
    rewrite !(slice_put_other (lo := 57) (hi := 58)) by lia.
    destruct (from_compressed C (slice 16 48 input)); [|discriminate]. destruct (from_compressed C (slice 93 125 input)); [|discriminate].
    destruct (from_compressed C (slice 125 157 input)); [|discriminate]. rewrite (nth_slice (i := 57)) by (rewrite put_length; lia).
    rewrite (slice_put_same (lo := 57) (hi := 58)) by (cbn [length]; lia). cbn [nth]. cbv zeta.
    assert (P : (Z.to_nat (byte (58 + b)) <? 58)%nat || (175 <? Z.to_nat (byte (58 + b)))%nat = true); [|rewrite P; reflexivity].
    unfold byte. apply orb_true_iff. destruct (Z_lt_le_dec b 198) as [H|H].
    - right. apply Nat.ltb_lt. rewrite Z.mod_small by lia. lia.
    - left. apply Nat.ltb_lt. replace (58 + b) with (b - 198 + 1 * 256) by lia. rewrite Z.mod_add, Z.mod_small by lia. lia.
  Qed.

  (** ** Addresses *)
  Lemma or_low (b : Z) : 0 <= b < 256 -> byte (Z.shiftl b 7) = byte (Z.shiftl (bit (Z.odd b)) 7).
  Proof.
    intros B. unfold byte. rewrite !Z.shiftl_mul_pow2 by lia. change (2 ^ 7) with 128. pose proof (Zmod_odd b) as O. pose proof (Z.div_mod b 2 ltac:(lia)) as D.
    replace (b * 128) with (bit (Z.odd b) * 128 + (b / 2) * 256) by (destruct (Z.odd b); cbn [bit] in *; lia). now rewrite Z.mod_add.
  Qed.
  Variable sha : list Z -> list Z.
  Hypothesis sha_len : forall x, (4 <= length (sha x))%nat.
  Definition address_head (pk : pt F) (b35 : Z) : list Z := [0xcb; 1; 1] ++ fc_bytes C (x_of (jacobian pk)) ++ [b35].
  Definition with_checksum (head : list Z) : list Z := head ++ firstn 4 (sha (sha head)).
  Lemma put_at lo hi a b c src : length a = lo -> length b = length src -> (hi - lo = length src)%nat -> put lo hi src (a ++ b ++ c) = a ++ src ++ c.
  Proof.
    intros <- L H. unfold put. rewrite H, Nat.min_id. rewrite firstn_all.
    rewrite firstn_app, Nat.sub_diag, firstn_all, firstn_O, app_nil_r.
    replace (length a + length src)%nat with (length (a ++ b)) by (rewrite app_length; lia). rewrite (app_assoc a b c), skipn_app, skipn_all, Nat.sub_diag. reflexivity.
  Qed.
  Lemma address_is (pk : pt F) : address_bytes C sha pk = with_checksum (address_head pk (bit (Z.odd (raw (y_of (jacobian pk)))))).
  Proof.
    unfold address_bytes, with_checksum, address_head. cbv zeta. fold (ep_x pk) (ep_y pk). rewrite ep_x_is, ep_y_is.
    set (x := x_of (jacobian pk)). set (y := y_of (jacobian pk)). destruct (ck_bytes CK x) as (_ & LX & _).
    assert (F32 : firstn 32 (fc_bytes C x ++ fc_bytes C y) = fc_bytes C x) by (rewrite firstn_app, LX, Nat.sub_diag, firstn_O, app_nil_r; apply firstn_all2; lia).
    rewrite F32. assert (N32 : nth 32 (fc_bytes C x ++ fc_bytes C y) 0 = nth 0 (fc_bytes C y) 0) by (rewrite app_nth2 by lia; f_equal; lia).
    rewrite N32, (sign_bit CK). set (b := bit _). set (X := fc_bytes C x) in *. clearbody X.
    change (put 0 3 [203; 1; 1] (repeat 0 40)) with ([203; 1; 1] ++ repeat 0 32 ++ repeat 0 5).
    rewrite put_at by (rewrite ?repeat_length; (reflexivity || lia)).
    replace (put 35 36 [b] ([203; 1; 1] ++ X ++ repeat 0 5)) with ((([203; 1; 1] ++ X) ++ [b]) ++ repeat 0 4 ++ []).
    2:{ change (repeat 0 5) with ([0] ++ repeat 0 4). rewrite (app_assoc [203; 1; 1] X). rewrite (put_at (lo := 35)) by (rewrite ?app_length, ?LX; reflexivity). now rewrite app_nil_r, <- !app_assoc. }
    assert (L36 : length (([203; 1; 1] ++ X) ++ [b]) = 36%nat) by (rewrite !app_length, LX; reflexivity).
    set (H := ([203; 1; 1] ++ X) ++ [b]) in *.
    assert (E36 : firstn 36 (H ++ repeat 0 4 ++ []) = H) by (rewrite firstn_app, L36, Nat.sub_diag, firstn_O, app_nil_r; apply firstn_all2; lia).
    rewrite E36. pose proof (sha_len (sha H)). rewrite put_at by (rewrite ?repeat_length, ?firstn_length; lia).
    rewrite app_nil_r. unfold H. rewrite <- !app_assoc. reflexivity.
  Qed.
  Lemma address_parse (pk : pt F) b35 : is_key pk -> raw (x_of (jacobian pk)) < 2 ^ 254 -> 0 <= b35 < 256 -> Z.odd b35 = Z.odd (raw (y_of (jacobian pk))) ->
    exists Q, parse_address_bytes C sha (with_checksum (address_head pk b35)) = Some Q /\ jacobian Q = jacobian pk.
  Proof.
    intros [O N] R B P. destruct (jacobian pk) as [[x y]|] eqn:J; [|contradiction]. cbn [x_of y_of] in *. destruct (ck_bytes CK x) as (BX & LX & EX).
    exists (Pt x y f1). split; [|apply jac_one].
    unfold parse_address_bytes, with_checksum, address_head. rewrite J. cbn [x_of]. set (X := fc_bytes C x) in *.
    set (H := [203; 1; 1] ++ X ++ [b35]). assert (LH : length H = 36%nat) by (unfold H; rewrite !app_length, LX; reflexivity).
    pose proof (sha_len (sha H)) as SL. set (K := firstn 4 (sha (sha H))). assert (LK : length K = 4%nat) by (unfold K; rewrite firstn_length; lia).
    rewrite app_length, LH, LK. cbn [Nat.add Nat.eqb negb].
    assert (F36 : firstn 36 (H ++ K) = H) by (rewrite firstn_app, LH, Nat.sub_diag, firstn_O, app_nil_r; apply firstn_all2; lia). rewrite F36. fold K.
    assert (S36 : slice 36 40 (H ++ K) = K).
    { unfold slice. rewrite skipn_app, LH, Nat.sub_diag. rewrite (skipn_all2 H) by lia. cbn [skipn app]. apply firstn_all2. lia. }
    rewrite S36. destruct (list_eq_dec Z.eq_dec K K) as [_|Q]; [|contradiction]. cbn [negb].
    assert (N35 : nth 35 (H ++ K) 0 = b35).
    { rewrite app_nth1 by lia. unfold H. rewrite app_nth2 by (cbn; lia). cbn [length Nat.sub]. rewrite app_nth2 by lia. rewrite LX. reflexivity. }
    assert (SX : slice 3 35 (H ++ K) = X).
    { unfold H, slice. rewrite <- !app_assoc. change (skipn 3 ([203; 1; 1] ++ X ++ [b35] ++ K)) with (X ++ [b35] ++ K). change (35 - 3)%nat with 32%nat.
      rewrite firstn_app, LX, Nat.sub_diag, firstn_O, app_nil_r. apply firstn_all2. lia. }
    assert (N012 : nth 0 (H ++ K) 0 = 203 /\ nth 1 (H ++ K) 0 = 1 /\ nth 2 (H ++ K) 0 = 1) by (unfold H; repeat split; reflexivity).
    destruct N012 as (-> & -> & ->). cbn [Z.eqb Pos.eqb negb]. cbv zeta. rewrite N35, SX, or_low by exact B.
    rewrite (decode_ok CK curve (bs := X) (c := Z.odd b35) (x := x) (y := y)); [reflexivity|exact BX|exact LX|rewrite EX; lia|apply (ck_set_bytes CK), R|exact O|symmetry; exact P].
  Qed.

  (** ** Signatures *)
  Lemma signature_bytes (set_fq : list Z -> option Z) (sig : signature F) : raw (sig_r sig) < 2 ^ 254 -> 0 <= sig_s sig < 2 ^ 256 ->
    set_fq (put_le 32 (sig_s sig)) = Some (sig_s sig) ->
    marshal_signature C sig = fc_bytes C (sig_r sig) ++ put_le 32 (sig_s sig) /\ unmarshal_signature C set_fq (marshal_signature C sig) = Some sig.
  Proof.
    intros R S Q. destruct (ck_bytes CK (sig_r sig)) as (_ & LX & _).
    assert (E : marshal_signature C sig = fc_bytes C (sig_r sig) ++ put_le 32 (sig_s sig)).
    { unfold marshal_signature. change (repeat 0 64) with ([] ++ repeat 0 32 ++ repeat 0 32). rewrite put_at by (rewrite ?repeat_length; (reflexivity || lia)). cbn [app].
      rewrite <- (app_nil_r (repeat 0 32)). rewrite put_at by (rewrite ?repeat_length, ?put_le_len; (exact LX || reflexivity)). now rewrite app_nil_r. }
    split; [exact E|]. unfold unmarshal_signature. rewrite E, app_length, LX, put_le_len. cbn [Nat.add Nat.eqb negb].
    assert (S1 : slice 0 32 (fc_bytes C (sig_r sig) ++ put_le 32 (sig_s sig)) = fc_bytes C (sig_r sig)).
    { unfold slice. cbn [skipn]. change (32 - 0)%nat with 32%nat. rewrite firstn_app, LX, Nat.sub_diag, firstn_O, app_nil_r. apply firstn_all2. lia. }
    assert (S2 : slice 32 64 (fc_bytes C (sig_r sig) ++ put_le 32 (sig_s sig)) = put_le 32 (sig_s sig)).
    { unfold slice. change (64 - 32)%nat with 32%nat. rewrite skipn_app, LX, Nat.sub_diag. rewrite (skipn_all2 (fc_bytes C (sig_r sig))) by lia. cbn [app]. change (skipn 0 (put_le 32 (sig_s sig))) with (put_le 32 (sig_s sig)).
      apply firstn_all2. rewrite put_le_len. lia. }
    rewrite S1, S2, (ck_set_bytes CK R), Q. destruct sig; reflexivity.
  Qed.

  (** ** Hashes *)
  Variable consts : permutation -> sponge_consts F.
  Variable q : Z.
  Lemma hash_is T network (fields : list F) : shape T (consts T) -> known network ->
    exists c, ctx_init consts T network = Some c /\ digest C consts q (update consts c fields) =
      raw (nth 0 (sponge (poseidon T (consts T)) (sc_rate (consts T)) (length fields) (start (consts T) network) fields) f0) mod q.
  Proof.
    intros SH K. exists (Context T (start (consts T) network) 0). split.
    { unfold ctx_init, start. destruct K as [->|[->| ->]]; reflexivity. }
    assert (L : length (start (consts T) network) = sc_width (consts T)).
    { unfold start. destruct (network =? NullNet) eqn:E; [apply repeat_length|]. destruct (sh_iv SH) as [L H]. rewrite Forall_forall in H. apply H, nth_In.
      destruct K as [->|[->| ->]]; [cbn; lia..|discriminate]. }
    unfold digest, permute, update. cbn [cx_state]. pose proof (sponge_is (T := T) eq_refl SH (fuel := length fields) L (fields := fields)) as S.
    cbv zeta in S. rewrite S; [reflexivity|]. pose proof (sh_rate SH). nia.
  Qed.
End More.
Section Sig.
  Variable F : field.
  Variable C : fp_codec F.
  Variable p : Z.
  Hypothesis CK : codec_ok C p.
  Hypothesis curve : odd_order_curve (f0 : F) (five F).
  Variable gen : pt F.
  Variable consts : permutation -> sponge_consts F.
  Variable blake : list Z -> list Z.
  Variable q : Z.
  Hypothesis q_prime : prime q.
  Hypothesis q_range : q < 2 ^ 255.
  Hypothesis gen_on : on_curve (f0 : F) (five F) (jacobian gen).
  Hypothesis gen_order : times q (jacobian gen) = None.
  Hypothesis gen_key : jacobian gen <> None.
  Hypothesis SH : shape ThreeW (consts ThreeW).
  Local Notation raw := (fc_raw C).
  Local Notation G := (jacobian gen).
  Local Notation on := (on_curve (f0 : F) (five F)).
  Local Notation challenge := (MinaSpec.challenge C q (consts ThreeW)).
  Implicit Types t u : transaction F.

  Lemma sign_txn_verifies sk pk t sig : 0 <= sk < q -> known (t_network t) -> jacobian pk = times sk G ->
    sign_transaction C gen consts blake p q sk t = Ok sig -> verify_transaction C gen consts p q pk sig t = Ok tt.
  Proof.
    intros S K J. unfold sign_transaction, verify_transaction. destruct (txn_input_ok CK t) as (r & -> & H). cbn [bind].
    apply (sign_verifies CK curve q_prime q_range gen_on gen_order gen_key SH H); try assumption. rewrite (txn_bits_len C). cbn. lia.
  Qed.
  Lemma sign_msg_verifies sk pk m sig : 0 <= sk < q -> Z.of_nat (8 * length m + 773) <= 2 ^ 32 -> jacobian pk = times sk G ->
    sign_message C gen consts blake p q sk m = Ok sig -> verify_message C gen consts p q pk sig m = Ok tt.
  Proof.
    intros S M J. unfold sign_message, verify_message. destruct (@message_input_ok m) as (r & -> & H); [lia|]. cbn [bind].
    apply (sign_verifies CK curve q_prime q_range gen_on gen_order gen_key SH H); try assumption; [|right; left; reflexivity]. rewrite all_len. cbn [length]. lia.
  Qed.
  Lemma sign_txn_total sk t : 0 <= sk < q -> known (t_network t) ->
    sign_transaction C gen consts blake p q sk t = Err \/ exists sig, sign_transaction C gen consts blake p q sk t = Ok sig.
  Proof.
    intros S K. unfold sign_transaction. destruct (txn_input_ok CK t) as (r & -> & H). cbn [bind].
    assert (M : Z.of_nat (255 * length (txn_fields C t) + length (txn_bits C t) + 773) <= 2 ^ 32) by (rewrite (txn_bits_len C); cbn; lia).
    destruct (sign_is CK curve blake q_prime q_range gen_on gen_order gen_key SH H M S K) as [E|(sig & E & _)].
    - now left.
    - right. now exists sig.
  Qed.
  Lemma verify_txn_iff pk sig t : on (jacobian pk) -> 0 <= sig_s sig < q -> known (t_network t) ->
    let v := verify_transaction C gen consts p q pk sig t in
    (v = Ok tt \/ v = Err) /\ (v = Ok tt <-> jacobian pk <> None /\ sig_r sig <> f0 /\ sig_s sig <> 0 /\
      accepted C q (consts ThreeW) G (jacobian pk) sig (t_network t) (txn_fields C t) (txn_bits C t)).
  Proof.
    intros O S K. cbv zeta. unfold verify_transaction. destruct (txn_input_ok CK t) as (r & -> & H). cbn [bind].
    exact (verify_is CK curve blake q_prime q_range gen_on SH H O S K).
  Qed.
  Lemma verify_msg_iff pk sig m : on (jacobian pk) -> 0 <= sig_s sig < q -> Z.of_nat (8 * length m) <= 2 ^ 32 ->
    let v := verify_message C gen consts p q pk sig m in
    (v = Ok tt \/ v = Err) /\ (v = Ok tt <-> jacobian pk <> None /\ sig_r sig <> f0 /\ sig_s sig <> 0 /\
      accepted C q (consts ThreeW) G (jacobian pk) sig MainNet [] (all_bits m)).
  Proof.
    intros O S M. cbv zeta. unfold verify_message. destruct (message_input_ok M) as (r & -> & H). cbn [bind].
    apply (verify_is CK curve blake q_prime q_range gen_on SH H O S). right. left. reflexivity.
  Qed.
  Lemma nonce_txn sk sk' t u (pk pk' : pt F) r r' : well_formed t -> well_formed u -> txn_input C t = Ok r -> txn_input C u = Ok r' ->
    0 <= sk < q -> 0 <= sk' < q -> 0 <= t_network t < 256 -> 0 <= t_network u < 256 ->
    msg_derive_bytes C sk r pk (t_network t) = msg_derive_bytes C sk' r' pk' (t_network u) ->
    sk = sk' /\ same_body t u /\ t_network t = t_network u /\ x_of (jacobian pk) = x_of (jacobian pk') /\ y_of (jacobian pk) = y_of (jacobian pk').
  Proof.
    intros W W' E E' S S' N N' D. destruct (txn_input_ok CK t) as (r0 & E0 & H). rewrite E in E0. injection E0 as <-.
    destruct (txn_input_ok CK u) as (r0 & E0 & H'). rewrite E' in E0. injection E0 as <-.
    assert (FT : forall v : transaction F, Forall (fun f => 0 <= f < p) (txn_fields C v)) by (intros v; repeat constructor; apply (ck_range CK)).
    assert (M : Z.of_nat (255 * length (txn_fields C t) + length (txn_bits C t) + 773) <= 2 ^ 32) by (rewrite (txn_bits_len C); cbn; lia).
    assert (LB : length (txn_bits C t) = length (txn_bits C u)) by now rewrite !(txn_bits_len C).
    destruct (nonce_injective CK q_range H H' M (eq_refl _) LB (FT t) (FT u) S S' N N' D) as (X1 & X2 & X3 & X4 & X5 & X6).
    { repeat split; try assumption; apply (bits_body CK curve W W' X2 X3). }
  Qed.
  Lemma content_inj t u r r' : well_formed t -> well_formed u -> txn_input C t = Ok r -> txn_input C u = Ok r' ->
    ro_to_fields p r = ro_to_fields p r' -> same_body t u.
  Proof.
    intros W W' E E' D. destruct (txn_input_ok CK t) as (r0 & E0 & H). rewrite E in E0. injection E0 as <-.
    destruct (txn_input_ok CK u) as (r0 & E0 & H'). rewrite E' in E0. injection E0 as <-.
    pose proof (ck_p CK). destruct (C106_fields_injective p r r' _ _ _ _ ltac:(lia) H H') as [X Y]; [reflexivity|now rewrite !(txn_bits_len C)|exact D|].
    apply (bits_body CK curve W W' X Y).
  Qed.
  Lemma unknown_network pk sig t : jacobian pk <> None -> sig_r sig <> f0 -> sig_s sig <> 0 -> ~ known (t_network t) ->
    verify_transaction C gen consts p q pk sig t = Panic.
  Proof.
    intros N R S K. unfold verify_transaction. destruct (txn_input_ok CK t) as (r & -> & H). cbn [bind]. unfold finish_verify.
    destruct (is_identity pk) eqn:I; [apply is_identity_iff in I; contradiction|]. rewrite feqb_false by exact R. replace (sig_s sig =? 0) with false by (symmetry; now apply Z.eqb_neq). cbn [orb].
    unfold msg_hash. rewrite init_none by exact K. reflexivity.
  Qed.
  Lemma zero_byte_pack l m : (1 <= length m <= 30)%nat -> pack l (all_bits (m ++ [0])) = pack l (all_bits m).
  Proof.
    intros L. unfold pack. f_equal.
    assert (N : forall bs, (1 <= length bs <= 31)%nat -> groups (S (length (all_bits bs))) (all_bits bs) = [all_bits bs]).
    { intros bs K. apply one_group; [|rewrite all_len; lia]. intros Q. apply (f_equal (@length bool)) in Q. rewrite all_len in Q. cbn [length] in Q. lia. }
    rewrite !N by (rewrite ?app_length; cbn [length]; lia). cbn [map]. rewrite all_app. change (all_bits [0]) with (repeat false 8). rewrite value_zeros. reflexivity.
  Qed.
  Lemma zero_byte pk sig m : (1 <= length m <= 30)%nat -> verify_message C gen consts p q pk sig (m ++ [0]) = verify_message C gen consts p q pk sig m.
  Proof.
    intros L. unfold verify_message. destruct (@message_input_ok (m ++ [0])) as (r & -> & H); [rewrite app_length; cbn [length]; lia|].
    destruct (@message_input_ok m) as (r' & -> & H'); [lia|]. cbn [bind]. unfold finish_verify.
    rewrite (msg_hash_is CK q SH pk (sig_r sig) MainNet H), (msg_hash_is CK q SH pk (sig_r sig) MainNet H').
    unfold MinaSpec.challenge. rewrite zero_byte_pack by exact L. reflexivity.
  Qed.

  (** ** DeriveChallenge *)
  Lemma bits_of_same t u : same_body t u -> txn_fields C t = txn_fields C u /\ txn_bits C t = txn_bits C u.
  Proof.
    intros [E (J1 & J2 & J3)]. unfold txn_fields, txn_bits. rewrite J1, J2, J3. injection E as -> -> -> -> -> -> -> -> -> -> ->. split; reflexivity.
  Qed.
  Lemma derive_challenge_is bytes t (pk R : pt F) : unmarshal_txn C bytes = Ok t ->
    derive_challenge C consts p q bytes pk R =
    Ok (challenge MainNet (txn_fields C t ++ [raw (x_of (jacobian pk)); raw (y_of (jacobian pk)); raw (x_of (jacobian R))]) (txn_bits C t)).
  Proof.
    intros E. destruct (add_ro_ok CK t (C106_init 75)) as (r & E' & H); [cbn; lia|]. unfold derive_challenge. rewrite E, bind_ok. rewrite E'. change (unpanic (Some r)) with (Ok r). rewrite bind_ok.
    cbn [app] in H.
    rewrite ep_x_is, (msg_hash_is CK q SH pk (x_of (jacobian R)) MainNet H). rewrite (init_is consts (network := MainNet)) by (right; left; reflexivity). reflexivity.
  Qed.

  (** ** A signature *)
  Lemma sign_one sk m : (forall fields bits, challenge MainNet fields bits = 0) -> (forall bs, blake bs = put_le 32 1) -> 0 < sk < q ->
    x_of G <> f0 -> Z.of_nat (8 * length m + 773) <= 2 ^ 32 ->
    exists s, sign_message C gen consts blake p q sk m = Ok (Signature (x_of G) s).
  Proof.
    intros CH BL S NX M. unfold sign_message. destruct (@message_input_ok m) as (r & -> & H); [lia|]. cbn [bind]. unfold finish_sign.
    replace (sk =? 0) with false by (symmetry; apply Z.eqb_neq; lia). cbv zeta. pose proof (q_gt1 q_prime).
    destruct (derive_bytes_is C sk (get_public_key gen sk) MainNet H) as (r' & E & _ & out & O); [rewrite all_len; cbn [length]; lia|].
    unfold msg_derive. rewrite E, O. cbn [unpanic bind]. cbv zeta. rewrite BL. change (le_val (firstn 31 (put_le 32 1) ++ [Z.land (nth 31 (put_le 32 1) 0) 63])) with 1.
    rewrite Z.mod_1_l by lia. change (1 =? 0) with false. cbv iota.
    rewrite (ck_odd CK), ep_x_is, ep_y_is. assert (JR : jacobian (ep_mul gen 1) = G) by (rewrite (ep_mul_is curve) by (exact gen_on || lia); apply times_1). rewrite JR.
    rewrite (msg_hash_is CK q SH (get_public_key gen sk) (x_of G) MainNet H). rewrite (init_is consts (network := MainNet)) by (right; left; reflexivity). cbn [bind]. rewrite CH, Z.mul_0_l, Z.mod_0_l, Z.add_0_r by lia.
    rewrite feqb_false by exact NX. cbn [orb]. set (k := if Z.odd _ then _ else _). assert (K : 0 < k mod q < q).
    { unfold k. destruct (Z.odd _); rewrite ?Z.mod_mod by lia; [|rewrite Z.mod_1_l; lia]. rewrite Z.mod_opp_l_nz; rewrite ?Z.mod_1_l; lia. }
    replace (k mod q =? 0) with false by (symmetry; apply Z.eqb_neq; lia). eexists. reflexivity.
  Qed.
End Sig.
Section Zero.
  Variable F : field.
  Variable C : fp_codec F.
  Variable p q : Z.
  Hypothesis CK : codec_ok C p.
  Add Field fZe : (fth F).
  (** the constants of a permutation that forgets its input *)
  Definition zero_consts : sponge_consts F :=
    SpongeConsts 3 2 1 Quint [repeat f0 3; repeat f0 3] [repeat f0 3; repeat f0 3; repeat f0 3] [repeat f0 3; repeat f0 3].
  Lemma zero_shape : shape ThreeW zero_consts.
  Proof. constructor; cbn; repeat split; try lia; repeat constructor. Qed.
  Lemma zero_perm st : length st = 3%nat -> nth 0 (poseidon ThreeW zero_consts st) f0 = f0 /\ length (poseidon ThreeW zero_consts st) = 3%nat.
  Proof.
    intros L. destruct st as [|a [|b [|c [|]]]]; try discriminate. unfold poseidon, zero_consts. cbv zeta. cbn [sc_keys sc_rounds sc_mds sc_sbox firstn fold_left repeat add_vec map mat_vec dot nth length].
    split; [ring|reflexivity].
  Qed.
  Lemma zero_sponge fuel st fields : length st = 3%nat -> nth 0 (sponge (poseidon ThreeW zero_consts) 2 fuel st fields) f0 = f0.
  Proof.
    assert (AL : forall (s b : list F), length (add_block s b) = length s) by (intros s b; unfold add_block; now rewrite map_length, seq_length).
    revert st fields. induction fuel as [|fuel IH]; intros st fields L; [apply zero_perm; rewrite AL; exact L|]. cbn [sponge].
    destruct (skipn 2 fields); [apply zero_perm; rewrite AL; exact L|]. apply IH. apply zero_perm. rewrite AL. exact L.
  Qed.
  Lemma zero_challenge network fields bits : known network -> challenge C q zero_consts network fields bits = 0.
  Proof.
    intros K. unfold challenge, hash. change (sc_rate zero_consts) with 2%nat. rewrite zero_sponge; [rewrite (ck_zero CK); apply Zmod_0_l|].
    destruct K as [->|[->| ->]]; reflexivity.
  Qed.
End Zero.
