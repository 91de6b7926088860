(** Proofs about Mina transactions. *)
From Coq Require Import ZArith NArith Lia List Bool Ring Field.
From Verif Require Import EcField EcSpec EcProofs PointModel PointSpec PointProofs PointMulProofs PointProps LimbSpec LimbFiat NativeField NativeArithProofs PastaProps
  MinaBitsModel MinaBitsSpec MinaBitsProofs MinaBitsProps MinaModel MinaSpec MinaProofs.
Import ListNotations.
Set Implicit Arguments.
Unset Strict Implicit.
Local Open Scope Z_scope.

Lemma len175 lo hi src out : length out = 175%nat -> (lo <= hi <= 175)%nat -> length (put lo hi src out) = 175%nat.
Proof. intros L H. rewrite put_length; lia. Qed.
Lemma same175 lo hi src out : length out = 175%nat -> (lo <= hi <= 175)%nat -> length src = (hi - lo)%nat -> slice lo hi (put lo hi src out) = src.
Proof. intros L H S. apply slice_put_same; [lia|exact S]. Qed.
Lemma other175 lo hi src out a b : length out = 175%nat -> (lo <= hi <= 175)%nat -> (b <= lo \/ hi <= a)%nat -> slice a b (put lo hi src out) = slice a b out.
Proof. intros L H D. apply slice_put_other; [lia|exact D]. Qed.
(** a sequence of writes *)
Definition writes (ws : list (nat * nat * list Z)) (out : list Z) : list Z := fold_left (fun out w => put (fst (fst w)) (snd (fst w)) (snd w) out) ws out.
Definition in175 (w : nat * nat * list Z) : bool := ((fst (fst w) <=? snd (fst w))%nat && (snd (fst w) <=? 175)%nat).
Definition apart (lo hi : nat) (w : nat * nat * list Z) : bool := ((hi <=? fst (fst w))%nat || (snd (fst w) <=? lo)%nat).
Lemma in175_ok w : in175 w = true -> (fst (fst w) <= snd (fst w) <= 175)%nat.
Proof. unfold in175. rewrite andb_true_iff, !Nat.leb_le. tauto. Qed.
Lemma writes_len ws out : length out = 175%nat -> forallb in175 ws = true -> length (writes ws out) = 175%nat.
Proof.
  revert out. induction ws as [|w ws IH]; intros out L H; [exact L|]. cbn [forallb] in H. apply andb_prop in H. destruct H as [H1 H2].
  apply IH; [apply len175; [exact L|apply in175_ok, H1]|exact H2].
Qed.
Lemma writes_apart lo hi a b ws out : length out = 175%nat -> forallb in175 ws = true -> forallb (apart lo hi) ws = true -> (lo <= a)%nat -> (b <= hi)%nat ->
  slice a b (writes ws out) = slice a b out.
Proof.
  intros L H D A B. revert out L. induction ws as [|w ws IH]; intros out L; [reflexivity|]. cbn [forallb] in H, D. apply andb_prop in H. destruct H as [H1 H2].
  apply andb_prop in D. destruct D as [D1 D2]. apply in175_ok in H1. unfold writes. cbn [fold_left]. fold (writes ws (put (fst (fst w)) (snd (fst w)) (snd w) out)).
  rewrite IH; [|assumption|assumption|apply len175; assumption]. unfold apart in D1. rewrite orb_true_iff, !Nat.leb_le in D1. apply other175; [exact L|exact H1|lia].
Qed.
Lemma get_write ws1 lo hi src ws2 out : length out = 175%nat -> forallb in175 (ws1 ++ (lo, hi, src) :: ws2) = true -> forallb (apart lo hi) ws2 = true ->
  (length src <= hi - lo)%nat -> slice lo (lo + length src) (writes (ws1 ++ (lo, hi, src) :: ws2) out) = src.
Proof.
  intros L H D S. rewrite forallb_app in H. apply andb_prop in H. destruct H as [H1 H2]. cbn [forallb] in H2. apply andb_prop in H2. destruct H2 as [H2 H3].
  apply in175_ok in H2. cbn [fst snd] in H2. unfold writes. rewrite fold_left_app. cbn [fold_left fst snd]. fold (writes ws1 out).
  pose proof (writes_len L H1) as L1. fold (writes ws2 (put lo hi src (writes ws1 out))).
  rewrite (writes_apart (lo := lo) (hi := hi)); [|apply len175; assumption|assumption|assumption|lia|lia].
  rewrite put_short by exact S. apply same175; [exact L1|lia|lia].
Qed.

Lemma put_le_val n x : 0 <= x < 256 ^ Z.of_nat n -> le_val (put_le n x) = x.
Proof. intros H. apply (put_le_ok n x H). Qed.
Lemma put_le_len n x : length (put_le n x) = n.
Proof. revert x. induction n as [|n IH]; intros x; [reflexivity|]. cbn [put_le length]. now rewrite IH. Qed.
Lemma skip_zeros k n : skipn k (repeat 0 n) = repeat 0 (n - k).
Proof. revert n. induction k as [|k IH]; intros [|n]; try reflexivity. cbn [repeat skipn]. rewrite IH. reflexivity. Qed.
Lemma int_bits_len x n : length (int_bits x n) = n.
Proof. unfold int_bits. now rewrite map_length, seq_length. Qed.

Section Txn.
  Variable F : field.
  Variable C : fp_codec F.
  Variable p : Z.
  Hypothesis CK : codec_ok C p.
  Hypothesis curve : odd_order_curve (f0 : F) (five F).
  Local Notation raw := (fc_raw C).
  Implicit Types t u : transaction F.

  Lemma txn_roundtrip t : well_formed t -> 0 <= t_network t < 256 ->
    raw (x_of (jacobian (t_fee_payer t))) < 2 ^ 254 -> raw (x_of (jacobian (t_source t))) < 2 ^ 254 -> raw (x_of (jacobian (t_receiver t))) < 2 ^ 254 ->
    exists u, unmarshal_txn C (marshal_txn C t) = Ok u /\ same_body t u /\ t_network u = t_network t.
  Proof.
    intros W NW R1 R2 R3. destruct W as [W1 W2 W3 W4 [W5 W6] W7 W8 K1 K2 K3].
    destruct (key_roundtrip CK curve K1 R1) as (P1 & D1 & J1). destruct (key_roundtrip CK curve K2 R2) as (P2 & D2 & J2).
    destruct (key_roundtrip CK curve K3 R3) as (P3 & D3 & J3).
    pose proof (compressed_len CK (t_fee_payer t)) as C1. pose proof (compressed_len CK (t_source t)) as C2. pose proof (compressed_len CK (t_receiver t)) as C3.
    set (out := marshal_txn C t).
    assert (WS : out = writes [(0%nat, 8%nat, put_le 8 (t_fee t)); (8%nat, 16%nat, put_le 8 (t_fee_token t)); (16%nat, 48%nat, to_compressed C (t_fee_payer t)); (48%nat, 52%nat, put_le 4 (t_nonce t)); (52%nat, 56%nat, put_le 4 (t_valid_until t)); (56%nat, 57%nat, [1]); (57%nat, 58%nat, [byte (Z.of_nat (length (t_memo t)))]); (58%nat, 90%nat, t_memo t); (90%nat, 91%nat, [b2z (t_tag0 t)]); (91%nat, 92%nat, [b2z (t_tag1 t)]); (92%nat, 93%nat, [b2z (t_tag2 t)]); (93%nat, 125%nat, to_compressed C (t_source t)); (125%nat, 157%nat, to_compressed C (t_receiver t)); (157%nat, 165%nat, put_le 8 (t_token_id t)); (165%nat, 173%nat, put_le 8 (t_amount t)); (173%nat, 174%nat, [b2z (t_locked t)]); (174%nat, 175%nat, [byte (t_network t)])] (repeat 0 175)) by reflexivity.
    assert (LO : length out = 175%nat) by (rewrite WS; apply writes_len; [apply repeat_length|reflexivity]).
    assert (B : byte (Z.of_nat (length (t_memo t))) = Z.of_nat (length (t_memo t))) by (unfold byte; apply Z.mod_small; lia).
    assert (S0 : slice 0 8 out = put_le 8 (t_fee t)) by (rewrite WS; pose proof (get_write (ws1 := []) (lo := 0) (hi := 8) (src := put_le 8 (t_fee t)) (ws2 := [(8%nat, 16%nat, put_le 8 (t_fee_token t)); (16%nat, 48%nat, to_compressed C (t_fee_payer t)); (48%nat, 52%nat, put_le 4 (t_nonce t)); (52%nat, 56%nat, put_le 4 (t_valid_until t)); (56%nat, 57%nat, [1]); (57%nat, 58%nat, [byte (Z.of_nat (length (t_memo t)))]); (58%nat, 90%nat, t_memo t); (90%nat, 91%nat, [b2z (t_tag0 t)]); (91%nat, 92%nat, [b2z (t_tag1 t)]); (92%nat, 93%nat, [b2z (t_tag2 t)]); (93%nat, 125%nat, to_compressed C (t_source t)); (125%nat, 157%nat, to_compressed C (t_receiver t)); (157%nat, 165%nat, put_le 8 (t_token_id t)); (165%nat, 173%nat, put_le 8 (t_amount t)); (173%nat, 174%nat, [b2z (t_locked t)]); (174%nat, 175%nat, [byte (t_network t)])]) (out := repeat 0 175)) as G; cbn [app] in G; rewrite ?put_le_len, ?C1, ?C2, ?C3 in G; apply G; [apply repeat_length|reflexivity|reflexivity|cbn; lia]).
    assert (S1 : slice 8 16 out = put_le 8 (t_fee_token t)) by (rewrite WS; pose proof (get_write (ws1 := [(0%nat, 8%nat, put_le 8 (t_fee t))]) (lo := 8) (hi := 16) (src := put_le 8 (t_fee_token t)) (ws2 := [(16%nat, 48%nat, to_compressed C (t_fee_payer t)); (48%nat, 52%nat, put_le 4 (t_nonce t)); (52%nat, 56%nat, put_le 4 (t_valid_until t)); (56%nat, 57%nat, [1]); (57%nat, 58%nat, [byte (Z.of_nat (length (t_memo t)))]); (58%nat, 90%nat, t_memo t); (90%nat, 91%nat, [b2z (t_tag0 t)]); (91%nat, 92%nat, [b2z (t_tag1 t)]); (92%nat, 93%nat, [b2z (t_tag2 t)]); (93%nat, 125%nat, to_compressed C (t_source t)); (125%nat, 157%nat, to_compressed C (t_receiver t)); (157%nat, 165%nat, put_le 8 (t_token_id t)); (165%nat, 173%nat, put_le 8 (t_amount t)); (173%nat, 174%nat, [b2z (t_locked t)]); (174%nat, 175%nat, [byte (t_network t)])]) (out := repeat 0 175)) as G; cbn [app] in G; rewrite ?put_le_len, ?C1, ?C2, ?C3 in G; apply G; [apply repeat_length|reflexivity|reflexivity|cbn; lia]).
    assert (S2 : slice 16 48 out = to_compressed C (t_fee_payer t)) by (rewrite WS; pose proof (get_write (ws1 := [(0%nat, 8%nat, put_le 8 (t_fee t)); (8%nat, 16%nat, put_le 8 (t_fee_token t))]) (lo := 16) (hi := 48) (src := to_compressed C (t_fee_payer t)) (ws2 := [(48%nat, 52%nat, put_le 4 (t_nonce t)); (52%nat, 56%nat, put_le 4 (t_valid_until t)); (56%nat, 57%nat, [1]); (57%nat, 58%nat, [byte (Z.of_nat (length (t_memo t)))]); (58%nat, 90%nat, t_memo t); (90%nat, 91%nat, [b2z (t_tag0 t)]); (91%nat, 92%nat, [b2z (t_tag1 t)]); (92%nat, 93%nat, [b2z (t_tag2 t)]); (93%nat, 125%nat, to_compressed C (t_source t)); (125%nat, 157%nat, to_compressed C (t_receiver t)); (157%nat, 165%nat, put_le 8 (t_token_id t)); (165%nat, 173%nat, put_le 8 (t_amount t)); (173%nat, 174%nat, [b2z (t_locked t)]); (174%nat, 175%nat, [byte (t_network t)])]) (out := repeat 0 175)) as G; cbn [app] in G; rewrite ?put_le_len, ?C1, ?C2, ?C3 in G; apply G; [apply repeat_length|reflexivity|reflexivity|cbn; lia]).
    assert (S3 : slice 48 52 out = put_le 4 (t_nonce t)) by (rewrite WS; pose proof (get_write (ws1 := [(0%nat, 8%nat, put_le 8 (t_fee t)); (8%nat, 16%nat, put_le 8 (t_fee_token t)); (16%nat, 48%nat, to_compressed C (t_fee_payer t))]) (lo := 48) (hi := 52) (src := put_le 4 (t_nonce t)) (ws2 := [(52%nat, 56%nat, put_le 4 (t_valid_until t)); (56%nat, 57%nat, [1]); (57%nat, 58%nat, [byte (Z.of_nat (length (t_memo t)))]); (58%nat, 90%nat, t_memo t); (90%nat, 91%nat, [b2z (t_tag0 t)]); (91%nat, 92%nat, [b2z (t_tag1 t)]); (92%nat, 93%nat, [b2z (t_tag2 t)]); (93%nat, 125%nat, to_compressed C (t_source t)); (125%nat, 157%nat, to_compressed C (t_receiver t)); (157%nat, 165%nat, put_le 8 (t_token_id t)); (165%nat, 173%nat, put_le 8 (t_amount t)); (173%nat, 174%nat, [b2z (t_locked t)]); (174%nat, 175%nat, [byte (t_network t)])]) (out := repeat 0 175)) as G; cbn [app] in G; rewrite ?put_le_len, ?C1, ?C2, ?C3 in G; apply G; [apply repeat_length|reflexivity|reflexivity|cbn; lia]).
    assert (S4 : slice 52 56 out = put_le 4 (t_valid_until t)) by (rewrite WS; pose proof (get_write (ws1 := [(0%nat, 8%nat, put_le 8 (t_fee t)); (8%nat, 16%nat, put_le 8 (t_fee_token t)); (16%nat, 48%nat, to_compressed C (t_fee_payer t)); (48%nat, 52%nat, put_le 4 (t_nonce t))]) (lo := 52) (hi := 56) (src := put_le 4 (t_valid_until t)) (ws2 := [(56%nat, 57%nat, [1]); (57%nat, 58%nat, [byte (Z.of_nat (length (t_memo t)))]); (58%nat, 90%nat, t_memo t); (90%nat, 91%nat, [b2z (t_tag0 t)]); (91%nat, 92%nat, [b2z (t_tag1 t)]); (92%nat, 93%nat, [b2z (t_tag2 t)]); (93%nat, 125%nat, to_compressed C (t_source t)); (125%nat, 157%nat, to_compressed C (t_receiver t)); (157%nat, 165%nat, put_le 8 (t_token_id t)); (165%nat, 173%nat, put_le 8 (t_amount t)); (173%nat, 174%nat, [b2z (t_locked t)]); (174%nat, 175%nat, [byte (t_network t)])]) (out := repeat 0 175)) as G; cbn [app] in G; rewrite ?put_le_len, ?C1, ?C2, ?C3 in G; apply G; [apply repeat_length|reflexivity|reflexivity|cbn; lia]).
    assert (S6 : slice 57 58 out = [byte (Z.of_nat (length (t_memo t)))]) by (rewrite WS; pose proof (get_write (ws1 := [(0%nat, 8%nat, put_le 8 (t_fee t)); (8%nat, 16%nat, put_le 8 (t_fee_token t)); (16%nat, 48%nat, to_compressed C (t_fee_payer t)); (48%nat, 52%nat, put_le 4 (t_nonce t)); (52%nat, 56%nat, put_le 4 (t_valid_until t)); (56%nat, 57%nat, [1])]) (lo := 57) (hi := 58) (src := [byte (Z.of_nat (length (t_memo t)))]) (ws2 := [(58%nat, 90%nat, t_memo t); (90%nat, 91%nat, [b2z (t_tag0 t)]); (91%nat, 92%nat, [b2z (t_tag1 t)]); (92%nat, 93%nat, [b2z (t_tag2 t)]); (93%nat, 125%nat, to_compressed C (t_source t)); (125%nat, 157%nat, to_compressed C (t_receiver t)); (157%nat, 165%nat, put_le 8 (t_token_id t)); (165%nat, 173%nat, put_le 8 (t_amount t)); (173%nat, 174%nat, [b2z (t_locked t)]); (174%nat, 175%nat, [byte (t_network t)])]) (out := repeat 0 175)) as G; cbn [app] in G; rewrite ?put_le_len, ?C1, ?C2, ?C3 in G; apply G; [apply repeat_length|reflexivity|reflexivity|cbn; lia]).
    assert (S7 : slice 58 (58 + length (t_memo t)) out = t_memo t) by (rewrite WS; apply (get_write (ws1 := [(0%nat, 8%nat, put_le 8 (t_fee t)); (8%nat, 16%nat, put_le 8 (t_fee_token t)); (16%nat, 48%nat, to_compressed C (t_fee_payer t)); (48%nat, 52%nat, put_le 4 (t_nonce t)); (52%nat, 56%nat, put_le 4 (t_valid_until t)); (56%nat, 57%nat, [1]); (57%nat, 58%nat, [byte (Z.of_nat (length (t_memo t)))])]) (lo := 58) (hi := 90) (src := t_memo t) (ws2 := [(90%nat, 91%nat, [b2z (t_tag0 t)]); (91%nat, 92%nat, [b2z (t_tag1 t)]); (92%nat, 93%nat, [b2z (t_tag2 t)]); (93%nat, 125%nat, to_compressed C (t_source t)); (125%nat, 157%nat, to_compressed C (t_receiver t)); (157%nat, 165%nat, put_le 8 (t_token_id t)); (165%nat, 173%nat, put_le 8 (t_amount t)); (173%nat, 174%nat, [b2z (t_locked t)]); (174%nat, 175%nat, [byte (t_network t)])])); [apply repeat_length|reflexivity|reflexivity|lia]).
    assert (S8 : slice 90 91 out = [b2z (t_tag0 t)]) by (rewrite WS; pose proof (get_write (ws1 := [(0%nat, 8%nat, put_le 8 (t_fee t)); (8%nat, 16%nat, put_le 8 (t_fee_token t)); (16%nat, 48%nat, to_compressed C (t_fee_payer t)); (48%nat, 52%nat, put_le 4 (t_nonce t)); (52%nat, 56%nat, put_le 4 (t_valid_until t)); (56%nat, 57%nat, [1]); (57%nat, 58%nat, [byte (Z.of_nat (length (t_memo t)))]); (58%nat, 90%nat, t_memo t)]) (lo := 90) (hi := 91) (src := [b2z (t_tag0 t)]) (ws2 := [(91%nat, 92%nat, [b2z (t_tag1 t)]); (92%nat, 93%nat, [b2z (t_tag2 t)]); (93%nat, 125%nat, to_compressed C (t_source t)); (125%nat, 157%nat, to_compressed C (t_receiver t)); (157%nat, 165%nat, put_le 8 (t_token_id t)); (165%nat, 173%nat, put_le 8 (t_amount t)); (173%nat, 174%nat, [b2z (t_locked t)]); (174%nat, 175%nat, [byte (t_network t)])]) (out := repeat 0 175)) as G; cbn [app] in G; rewrite ?put_le_len, ?C1, ?C2, ?C3 in G; apply G; [apply repeat_length|reflexivity|reflexivity|cbn; lia]).
    assert (S9 : slice 91 92 out = [b2z (t_tag1 t)]) by (rewrite WS; pose proof (get_write (ws1 := [(0%nat, 8%nat, put_le 8 (t_fee t)); (8%nat, 16%nat, put_le 8 (t_fee_token t)); (16%nat, 48%nat, to_compressed C (t_fee_payer t)); (48%nat, 52%nat, put_le 4 (t_nonce t)); (52%nat, 56%nat, put_le 4 (t_valid_until t)); (56%nat, 57%nat, [1]); (57%nat, 58%nat, [byte (Z.of_nat (length (t_memo t)))]); (58%nat, 90%nat, t_memo t); (90%nat, 91%nat, [b2z (t_tag0 t)])]) (lo := 91) (hi := 92) (src := [b2z (t_tag1 t)]) (ws2 := [(92%nat, 93%nat, [b2z (t_tag2 t)]); (93%nat, 125%nat, to_compressed C (t_source t)); (125%nat, 157%nat, to_compressed C (t_receiver t)); (157%nat, 165%nat, put_le 8 (t_token_id t)); (165%nat, 173%nat, put_le 8 (t_amount t)); (173%nat, 174%nat, [b2z (t_locked t)]); (174%nat, 175%nat, [byte (t_network t)])]) (out := repeat 0 175)) as G; cbn [app] in G; rewrite ?put_le_len, ?C1, ?C2, ?C3 in G; apply G; [apply repeat_length|reflexivity|reflexivity|cbn; lia]).
    assert (S10 : slice 92 93 out = [b2z (t_tag2 t)]) by (rewrite WS; pose proof (get_write (ws1 := [(0%nat, 8%nat, put_le 8 (t_fee t)); (8%nat, 16%nat, put_le 8 (t_fee_token t)); (16%nat, 48%nat, to_compressed C (t_fee_payer t)); (48%nat, 52%nat, put_le 4 (t_nonce t)); (52%nat, 56%nat, put_le 4 (t_valid_until t)); (56%nat, 57%nat, [1]); (57%nat, 58%nat, [byte (Z.of_nat (length (t_memo t)))]); (58%nat, 90%nat, t_memo t); (90%nat, 91%nat, [b2z (t_tag0 t)]); (91%nat, 92%nat, [b2z (t_tag1 t)])]) (lo := 92) (hi := 93) (src := [b2z (t_tag2 t)]) (ws2 := [(93%nat, 125%nat, to_compressed C (t_source t)); (125%nat, 157%nat, to_compressed C (t_receiver t)); (157%nat, 165%nat, put_le 8 (t_token_id t)); (165%nat, 173%nat, put_le 8 (t_amount t)); (173%nat, 174%nat, [b2z (t_locked t)]); (174%nat, 175%nat, [byte (t_network t)])]) (out := repeat 0 175)) as G; cbn [app] in G; rewrite ?put_le_len, ?C1, ?C2, ?C3 in G; apply G; [apply repeat_length|reflexivity|reflexivity|cbn; lia]).
    assert (S11 : slice 93 125 out = to_compressed C (t_source t)) by (rewrite WS; pose proof (get_write (ws1 := [(0%nat, 8%nat, put_le 8 (t_fee t)); (8%nat, 16%nat, put_le 8 (t_fee_token t)); (16%nat, 48%nat, to_compressed C (t_fee_payer t)); (48%nat, 52%nat, put_le 4 (t_nonce t)); (52%nat, 56%nat, put_le 4 (t_valid_until t)); (56%nat, 57%nat, [1]); (57%nat, 58%nat, [byte (Z.of_nat (length (t_memo t)))]); (58%nat, 90%nat, t_memo t); (90%nat, 91%nat, [b2z (t_tag0 t)]); (91%nat, 92%nat, [b2z (t_tag1 t)]); (92%nat, 93%nat, [b2z (t_tag2 t)])]) (lo := 93) (hi := 125) (src := to_compressed C (t_source t)) (ws2 := [(125%nat, 157%nat, to_compressed C (t_receiver t)); (157%nat, 165%nat, put_le 8 (t_token_id t)); (165%nat, 173%nat, put_le 8 (t_amount t)); (173%nat, 174%nat, [b2z (t_locked t)]); (174%nat, 175%nat, [byte (t_network t)])]) (out := repeat 0 175)) as G; cbn [app] in G; rewrite ?put_le_len, ?C1, ?C2, ?C3 in G; apply G; [apply repeat_length|reflexivity|reflexivity|cbn; lia]).
    assert (S12 : slice 125 157 out = to_compressed C (t_receiver t)) by (rewrite WS; pose proof (get_write (ws1 := [(0%nat, 8%nat, put_le 8 (t_fee t)); (8%nat, 16%nat, put_le 8 (t_fee_token t)); (16%nat, 48%nat, to_compressed C (t_fee_payer t)); (48%nat, 52%nat, put_le 4 (t_nonce t)); (52%nat, 56%nat, put_le 4 (t_valid_until t)); (56%nat, 57%nat, [1]); (57%nat, 58%nat, [byte (Z.of_nat (length (t_memo t)))]); (58%nat, 90%nat, t_memo t); (90%nat, 91%nat, [b2z (t_tag0 t)]); (91%nat, 92%nat, [b2z (t_tag1 t)]); (92%nat, 93%nat, [b2z (t_tag2 t)]); (93%nat, 125%nat, to_compressed C (t_source t))]) (lo := 125) (hi := 157) (src := to_compressed C (t_receiver t)) (ws2 := [(157%nat, 165%nat, put_le 8 (t_token_id t)); (165%nat, 173%nat, put_le 8 (t_amount t)); (173%nat, 174%nat, [b2z (t_locked t)]); (174%nat, 175%nat, [byte (t_network t)])]) (out := repeat 0 175)) as G; cbn [app] in G; rewrite ?put_le_len, ?C1, ?C2, ?C3 in G; apply G; [apply repeat_length|reflexivity|reflexivity|cbn; lia]).
    assert (S13 : slice 157 165 out = put_le 8 (t_token_id t)) by (rewrite WS; pose proof (get_write (ws1 := [(0%nat, 8%nat, put_le 8 (t_fee t)); (8%nat, 16%nat, put_le 8 (t_fee_token t)); (16%nat, 48%nat, to_compressed C (t_fee_payer t)); (48%nat, 52%nat, put_le 4 (t_nonce t)); (52%nat, 56%nat, put_le 4 (t_valid_until t)); (56%nat, 57%nat, [1]); (57%nat, 58%nat, [byte (Z.of_nat (length (t_memo t)))]); (58%nat, 90%nat, t_memo t); (90%nat, 91%nat, [b2z (t_tag0 t)]); (91%nat, 92%nat, [b2z (t_tag1 t)]); (92%nat, 93%nat, [b2z (t_tag2 t)]); (93%nat, 125%nat, to_compressed C (t_source t)); (125%nat, 157%nat, to_compressed C (t_receiver t))]) (lo := 157) (hi := 165) (src := put_le 8 (t_token_id t)) (ws2 := [(165%nat, 173%nat, put_le 8 (t_amount t)); (173%nat, 174%nat, [b2z (t_locked t)]); (174%nat, 175%nat, [byte (t_network t)])]) (out := repeat 0 175)) as G; cbn [app] in G; rewrite ?put_le_len, ?C1, ?C2, ?C3 in G; apply G; [apply repeat_length|reflexivity|reflexivity|cbn; lia]).
    assert (S14 : slice 165 173 out = put_le 8 (t_amount t)) by (rewrite WS; pose proof (get_write (ws1 := [(0%nat, 8%nat, put_le 8 (t_fee t)); (8%nat, 16%nat, put_le 8 (t_fee_token t)); (16%nat, 48%nat, to_compressed C (t_fee_payer t)); (48%nat, 52%nat, put_le 4 (t_nonce t)); (52%nat, 56%nat, put_le 4 (t_valid_until t)); (56%nat, 57%nat, [1]); (57%nat, 58%nat, [byte (Z.of_nat (length (t_memo t)))]); (58%nat, 90%nat, t_memo t); (90%nat, 91%nat, [b2z (t_tag0 t)]); (91%nat, 92%nat, [b2z (t_tag1 t)]); (92%nat, 93%nat, [b2z (t_tag2 t)]); (93%nat, 125%nat, to_compressed C (t_source t)); (125%nat, 157%nat, to_compressed C (t_receiver t)); (157%nat, 165%nat, put_le 8 (t_token_id t))]) (lo := 165) (hi := 173) (src := put_le 8 (t_amount t)) (ws2 := [(173%nat, 174%nat, [b2z (t_locked t)]); (174%nat, 175%nat, [byte (t_network t)])]) (out := repeat 0 175)) as G; cbn [app] in G; rewrite ?put_le_len, ?C1, ?C2, ?C3 in G; apply G; [apply repeat_length|reflexivity|reflexivity|cbn; lia]).
    assert (S15 : slice 173 174 out = [b2z (t_locked t)]) by (rewrite WS; pose proof (get_write (ws1 := [(0%nat, 8%nat, put_le 8 (t_fee t)); (8%nat, 16%nat, put_le 8 (t_fee_token t)); (16%nat, 48%nat, to_compressed C (t_fee_payer t)); (48%nat, 52%nat, put_le 4 (t_nonce t)); (52%nat, 56%nat, put_le 4 (t_valid_until t)); (56%nat, 57%nat, [1]); (57%nat, 58%nat, [byte (Z.of_nat (length (t_memo t)))]); (58%nat, 90%nat, t_memo t); (90%nat, 91%nat, [b2z (t_tag0 t)]); (91%nat, 92%nat, [b2z (t_tag1 t)]); (92%nat, 93%nat, [b2z (t_tag2 t)]); (93%nat, 125%nat, to_compressed C (t_source t)); (125%nat, 157%nat, to_compressed C (t_receiver t)); (157%nat, 165%nat, put_le 8 (t_token_id t)); (165%nat, 173%nat, put_le 8 (t_amount t))]) (lo := 173) (hi := 174) (src := [b2z (t_locked t)]) (ws2 := [(174%nat, 175%nat, [byte (t_network t)])]) (out := repeat 0 175)) as G; cbn [app] in G; rewrite ?put_le_len, ?C1, ?C2, ?C3 in G; apply G; [apply repeat_length|reflexivity|reflexivity|cbn; lia]).
    assert (S16 : slice 174 175 out = [byte (t_network t)]) by (rewrite WS; pose proof (get_write (ws1 := [(0%nat, 8%nat, put_le 8 (t_fee t)); (8%nat, 16%nat, put_le 8 (t_fee_token t)); (16%nat, 48%nat, to_compressed C (t_fee_payer t)); (48%nat, 52%nat, put_le 4 (t_nonce t)); (52%nat, 56%nat, put_le 4 (t_valid_until t)); (56%nat, 57%nat, [1]); (57%nat, 58%nat, [byte (Z.of_nat (length (t_memo t)))]); (58%nat, 90%nat, t_memo t); (90%nat, 91%nat, [b2z (t_tag0 t)]); (91%nat, 92%nat, [b2z (t_tag1 t)]); (92%nat, 93%nat, [b2z (t_tag2 t)]); (93%nat, 125%nat, to_compressed C (t_source t)); (125%nat, 157%nat, to_compressed C (t_receiver t)); (157%nat, 165%nat, put_le 8 (t_token_id t)); (165%nat, 173%nat, put_le 8 (t_amount t)); (173%nat, 174%nat, [b2z (t_locked t)])]) (lo := 174) (hi := 175) (src := [byte (t_network t)]) (ws2 := []) (out := repeat 0 175)) as G; cbn [app] in G; rewrite ?put_le_len, ?C1, ?C2, ?C3 in G; apply G; [apply repeat_length|reflexivity|reflexivity|cbn; lia]).
    clearbody out. unfold unmarshal_txn. rewrite LO. change (175 <? 175)%nat with false. cbv iota.
    rewrite S0, S1, S2, S3, S4, S11, S12, S13, S14, D1, D2, D3.
    rewrite (nth_slice (i := 57)), (nth_slice (i := 90)), (nth_slice (i := 91)), (nth_slice (i := 92)), (nth_slice (i := 173)), (nth_slice (i := 174)) by lia.
    rewrite S6, S8, S9, S10, S15, S16, B. cbn [nth].
    assert (HI : Z.to_nat (byte (58 + Z.of_nat (length (t_memo t)))) = (58 + length (t_memo t))%nat).
    { unfold byte. rewrite Z.mod_small by lia. lia. }
    rewrite HI, S7. replace ((58 + length (t_memo t) <? 58)%nat || (175 <? 58 + length (t_memo t))%nat) with false.
    2:{ symmetry. apply orb_false_iff. split; apply Nat.ltb_ge; lia. }
    rewrite !put_le_val by (cbn; lia). eexists. split; [reflexivity|].
    assert (BZ : forall b, (b2z b =? 1) = b) by (intros []; reflexivity). rewrite !BZ.
    unfold same_body. cbn. rewrite J1, J2, J3. repeat split. unfold byte. apply Z.mod_small. exact NW.
  Qed.

  Lemma memo_bytes_is m : memo_bytes m = 1 :: Z.of_nat (length m) mod 256 :: firstn 32 m ++ repeat 0 (32 - length m).
  Proof.
    unfold memo_bytes, put. cbv zeta. change (34 - 2)%nat with 32%nat. unfold byte. set (x := Z.of_nat (length m) mod 256). clearbody x.
    set (z := repeat 0 32). change (firstn 2 (1 :: x :: z)) with [1; x]. rewrite <- skipn_skip. change (skipn (Nat.min 32 (length m)) (skipn 2 (1 :: x :: z))) with (skipn (Nat.min 32 (length m)) z).
    cbn [app]. apply (f_equal (fun l => 1 :: x :: l)). apply f_equal2.
    - destruct (Nat.le_ge_cases 32 (length m)); [rewrite Nat.min_l by assumption; reflexivity|]. rewrite Nat.min_r by assumption. rewrite (firstn_all2 (n := 32)) by assumption. apply firstn_all.
    - unfold z. rewrite skip_zeros. f_equal. lia.
  Qed.
  Lemma memo_len m : length (1 :: Z.of_nat (length m) mod 256 :: firstn 32 m ++ repeat 0 (32 - length m)) = 34%nat.
  Proof. cbn [length]. rewrite app_length, firstn_length, repeat_length. lia. Qed.
  Lemma txn_bits_len t : length (txn_bits C t) = 599%nat.
  Proof. unfold txn_bits. rewrite !app_length, all_len, memo_len, !int_bits_len. reflexivity. Qed.
  Lemma add_ro_ok t r fs l : ro_holds r fs l -> Z.of_nat (length l) + 599 <= 2 ^ 32 ->
    exists r', add_ro_input C t r = Some r' /\ ro_holds r' (fs ++ txn_fields C t) (l ++ txn_bits C t).
  Proof.
    intros H M. unfold add_ro_input, txn_bits, parity. cbv zeta. rewrite !ep_x_is, !ep_y_is, memo_bytes_is, !(ck_odd CK).
    pose proof (memo_len (t_memo t)) as ML. set (mm := 1 :: _) in *. clearbody mm.
    apply C106_add_fp with (x := raw (x_of (jacobian (t_fee_payer t)))) in H.
    apply C106_add_fp with (x := raw (x_of (jacobian (t_source t)))) in H. apply C106_add_fp with (x := raw (x_of (jacobian (t_receiver t)))) in H.
    set (r0 := ro_add_fp (ro_add_fp (ro_add_fp r _) _) _) in *. clearbody r0. rewrite <- !app_assoc in H. cbn [app] in H.
    Ltac fit := rewrite ?app_length, ?int_bits_len, ?all_len; cbn [length]; lia.
    destruct (C106_add_uint64 _ _ _ H (t_fee t)) as (r1 & -> & H1); [fit|].
    destruct (C106_add_uint64 _ _ _ H1 (t_fee_token t)) as (r2 & -> & H2); [fit|].
    destruct (C106_add_bit _ _ _ H2 (Z.odd (raw (y_of (jacobian (t_fee_payer t)))))) as (r3 & -> & H3); [fit|].
    destruct (C106_add_uint32 _ _ _ H3 (t_nonce t)) as (r4 & -> & H4); [fit|].
    destruct (C106_add_uint32 _ _ _ H4 (t_valid_until t)) as (r5 & -> & H5); [fit|].
    destruct (C106_add_bytes _ _ _ H5 mm) as (r6 & -> & H6); [rewrite ML; fit|].
    destruct (C106_add_bit _ _ _ H6 (t_tag0 t)) as (r7 & -> & H7); [rewrite !app_length, all_len, ML; fit|].
    destruct (C106_add_bit _ _ _ H7 (t_tag1 t)) as (r8 & -> & H8); [rewrite !app_length, all_len, ML; fit|].
    destruct (C106_add_bit _ _ _ H8 (t_tag2 t)) as (r9 & -> & H9); [rewrite !app_length, all_len, ML; fit|].
    destruct (C106_add_bit _ _ _ H9 (Z.odd (raw (y_of (jacobian (t_source t)))))) as (r10 & -> & H10); [rewrite !app_length, all_len, ML; fit|].
    destruct (C106_add_bit _ _ _ H10 (Z.odd (raw (y_of (jacobian (t_receiver t)))))) as (r11 & -> & H11); [rewrite !app_length, all_len, ML; fit|].
    destruct (C106_add_uint64 _ _ _ H11 (t_token_id t)) as (r12 & -> & H12); [rewrite !app_length, all_len, ML; fit|].
    destruct (C106_add_uint64 _ _ _ H12 (t_amount t)) as (r13 & -> & H13); [rewrite !app_length, all_len, ML; fit|].
    destruct (C106_add_bit _ _ _ H13 (t_locked t)) as (r14 & -> & H14); [rewrite !app_length, all_len, ML; fit|].
    exists r14. split; [reflexivity|]. rewrite <- !app_assoc in H14. exact H14.
  Qed.
  Lemma byte_bits_inj a b : 0 <= a < 256 -> 0 <= b < 256 -> byte_bits a = byte_bits b -> a = b.
  Proof. intros A B E. apply (int_bits_inj a b 8); [cbn; lia|cbn; lia|exact E]. Qed.
  Lemma all_bits_inj a b : is_bytes a -> is_bytes b -> length a = length b -> all_bits a = all_bits b -> a = b.
  Proof.
    intros A. revert b. induction A as [|x a X A IH]; intros [|y b] B L E; cbn [length] in L; try discriminate; [reflexivity|]. inversion B as [|? ? Y B']; subst.
    change (byte_bits x ++ all_bits a = byte_bits y ++ all_bits b) in E. apply app_inj_len in E; [|reflexivity]. destruct E as [E1 E2].
    f_equal; [now apply byte_bits_inj|]. apply IH; [exact B'|lia|exact E2].
  Qed.
  Lemma is_bytes_app a b : is_bytes (a ++ b) <-> is_bytes a /\ is_bytes b.
  Proof. apply Forall_app. Qed.
  Lemma memo_inj a b : is_bytes a -> is_bytes b -> (length a <= 32)%nat -> (length b <= 32)%nat ->
    all_bits (1 :: Z.of_nat (length a) mod 256 :: firstn 32 a ++ repeat 0 (32 - length a)) =
    all_bits (1 :: Z.of_nat (length b) mod 256 :: firstn 32 b ++ repeat 0 (32 - length b)) -> a = b.
  Proof.
    intros A B LA LB E. assert (RB : forall n, is_bytes (repeat 0 n)) by (induction n; [constructor|constructor; [lia|assumption]]).
    rewrite !firstn_all2 in E by assumption. rewrite !Z.mod_small in E by lia. apply all_bits_inj in E.
    - apply cons_both in E. destruct E as [_ E]. apply cons_both in E. destruct E as [E1 E2]. apply app_inj_len in E2; [tauto|lia].
    - constructor; [lia|]. constructor; [lia|]. apply is_bytes_app. split; [exact A|apply RB].
    - constructor; [lia|]. constructor; [lia|]. apply is_bytes_app. split; [exact B|apply RB].
    - cbn [length]. rewrite !app_length, !repeat_length. lia.
  Qed.
  (** a key is determined by its abscissa and the parity of its ordinate *)
  Lemma key_inj (P Q : pt F) : is_key P -> is_key Q -> raw (x_of (jacobian P)) = raw (x_of (jacobian Q)) ->
    parity C (y_of (jacobian P)) = parity C (y_of (jacobian Q)) -> jacobian P = jacobian Q.
  Proof.
    intros [O N] [O' N'] E EP. destruct (jacobian P) as [[x y]|]; [|contradiction]. destruct (jacobian Q) as [[x' y']|]; [|contradiction].
    cbn [x_of y_of] in *. apply (ck_inj CK) in E. subst x'. f_equal. f_equal. apply (same_parity CK); [|apply (y_nonzero curve O)|exact EP].
    cbn in O, O'. rewrite O, O'. reflexivity.
  Qed.
  Lemma bits_body t u : well_formed t -> well_formed u -> txn_fields C t = txn_fields C u -> txn_bits C t = txn_bits C u -> same_body t u.
  Proof.
    intros [W1 W2 W3 W4 [W5 W6] W7 W8 K1 K2 K3] [V1 V2 V3 V4 [V5 V6] V7 V8 L1 L2 L3] EF EB. unfold txn_fields in EF. unfold txn_bits in EB.
    pose proof (memo_len (t_memo t)) as MT. pose proof (memo_len (t_memo u)) as MU.
    pose proof (memo_inj W5 V5 W6 V6) as MI. set (mt := 1 :: Z.of_nat (length (t_memo t)) mod 256 :: _) in *. set (mu := 1 :: Z.of_nat (length (t_memo u)) mod 256 :: _) in *. clearbody mt mu.
    apply cons_both in EF. destruct EF as [F1 EF]. apply cons_both in EF. destruct EF as [F2 EF]. apply cons_both in EF. destruct EF as [F3 _].
    Ltac part E := apply app_inj_len in E; [|rewrite ?int_bits_len, ?all_len; (reflexivity || lia)]; let E1 := fresh "Q" in destruct E as [E1 E].
    part EB. part EB. part EB. part EB. part EB. part EB. part EB. part EB. part EB. part EB.
    apply int_bits_inj in Q; [|assumption..]. apply int_bits_inj in Q0; [|assumption..]. apply int_bits_inj in Q2; [|assumption..]. apply int_bits_inj in Q3; [|assumption..].
    apply int_bits_inj in Q7; [|assumption..]. apply int_bits_inj in Q8; [|assumption..]. apply MI in Q4.
    injection Q1 as Q1. injection Q5 as Q50 Q51 Q52. injection Q6 as Q60 Q61. injection EB as EB.
    split; [congruence|]. split; [now apply key_inj|]. split; now apply key_inj.
  Qed.
End Txn.
