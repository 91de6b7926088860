(** C60: every implementation of SumOfProducts in the repository computes the sum of the multiples. *)
From mathcomp Require Import all_ssreflect all_algebra.
From Coq Require Import BinNat NArith Nnat Lia.
From Verif Require Import ByteVec SchnorrModel BinFieldProps KosProps ScalarCodec PippengerModel.
Delimit Scope nat_scope with N.
Delimit Scope N_scope with num.
Set Implicit Arguments.
Unset Strict Implicit.
Unset Printing Implicit Defensive.
Import GRing.Theory.
Local Open Scope ring_scope.

Section C60.
  Variable V : zmodType.

  (** specification *)
  Definition sum_of_multiples (ps : seq V) (ss : seq N) : V := \sum_(i < size ps) ps`_i *+ N.to_nat (nth 0%num ss i).

  Lemma zip_sum (ps : seq V) (B : Type) (b0 : B) (f : B -> nat) (ss : seq B) : size ps = size ss ->
    \sum_(x <- zip ps ss) x.1 *+ f x.2 = \sum_(i < size ps) ps`_i *+ f (nth b0 ss i).
  Proof.
    elim: ps ss => [|p ps IH] [|s ss] //=; first by rewrite big_nil big_ord0.
    by case=> E; rewrite big_cons big_ord_recl /= IH.
  Qed.

  (** the running sum weights bucket i with i + 1 *)
  Lemma running_sum (bs : seq V) : running bs = \sum_(i < size bs) bs`_i *+ i.+1.
  Proof.
    rewrite /running.
    have G : forall cs : seq V, foldl (fun st b => (st.1 + b, st.2 + (st.1 + b))) (0, 0) (rev cs)
      = (\sum_(i < size cs) cs`_i, \sum_(i < size cs) cs`_i *+ i.+1).
      elim=> [|c cs IH]; first by rewrite !big_ord0.
      rewrite rev_cons foldl_rcons IH /= !big_ord_recl /= mulr1n; congr (_, _); first by rewrite addrC.
      have -> : \sum_(i < size cs) cs`_i *+ (bump 0 i).+1 = \sum_(i < size cs) cs`_i *+ i.+1 + \sum_(i < size cs) cs`_i.
        by rewrite -big_split; apply: eq_bigr => i _ /=; rewrite /bump /= [LHS]mulrSr.
      by rewrite addrA [RHS]addrC.
    by rewrite G.
  Qed.
  Lemma horner_sum w (ws : seq V) : horner w ws = \sum_(j < size ws) ws`_j *+ 2 ^ (w * j).
  Proof.
    rewrite /horner; elim: ws => [|p ws IH]; first by rewrite big_ord0.
    rewrite rev_cons foldl_rcons IH /= big_ord_recl /= muln0 expn0 mulr1n addrC; congr (_ + _).
    have -> : forall (x : V), iter w (fun a => a + a) x = x *+ 2 ^ w.
      move=> x; elim: (w) => [|k IHk] //=; by rewrite IHk expnS mulnC mulrnA mulr2n.
    by rewrite -sumrMnl; apply: eq_bigr => i _; rewrite -mulrnA -expnD /bump /= mulnDr muln1 addnC.
  Qed.

  (** adding a point to a bucket *)
  Lemma weighted_set (b : seq V) k (p : V) (f : nat -> nat) : (k < size b)%N ->
    \sum_(i < size b) (set_nth 0 b k (b`_k + p))`_i *+ f i = \sum_(i < size b) b`_i *+ f i + p *+ f k.
  Proof.
    move=> lt; rewrite (bigD1 (Ordinal lt)) //= [in RHS](bigD1 (Ordinal lt)) //= nth_set_nth /= eqxx mulrnDl -!addrA; congr (_ + _).
    rewrite addrC; congr (_ + _); apply: eq_bigr => i ne; rewrite nth_set_nth /=.
    by case: eqP => // e; case/eqP: ne; apply: val_inj.
  Qed.
  Lemma size_set (b : seq V) k (p : V) : (k < size b)%N -> size (set_nth 0 b k p) = size b.
  Proof. by move=> lt; rewrite size_set_nth; apply/maxn_idPr. Qed.

  Lemma index6_lt s j : (index6 s j < 64)%N.
  Proof.
    rewrite /index6 N.land_comm; apply/ltP; have := N.mod_lt (N.land (N.shiftr s (N.of_nat (6 * j)%N)) (N.ones 64)) 64 ltac:(by []).
    rewrite -[63%num]/(N.ones 6) (N.land_ones _ 6) -[N.pow 2 6]/64%num; lia.
  Qed.
  Lemma window6_sum (xs : seq (V * N)) j : window6 xs j = \sum_(x <- xs) x.1 *+ index6 x.2 j.
  Proof.
    rewrite /window6.
    have G : forall b : seq V, size b = 63%N ->
      size (foldl (fill6 j) b xs) = 63%N /\
      \sum_(i < 63) (foldl (fill6 j) b xs)`_i *+ i.+1 = \sum_(i < 63) b`_i *+ i.+1 + \sum_(x <- xs) x.1 *+ index6 x.2 j.
      elim: xs => [|[p s] xs IH] b sb /=; first by rewrite big_nil addr0.
      rewrite big_cons /=; set b' := fill6 j b (p, s).
      have [sb' Eb] : size b' = 63%N /\ \sum_(i < 63) b'`_i *+ i.+1 = \sum_(i < 63) b`_i *+ i.+1 + p *+ index6 s j.
        rewrite /b' /fill6 /=; have := index6_lt s j; case: (index6 s j) => [|k] lt /=; first by rewrite mulr0n addr0.
        have lt' : (k < size b)%N by rewrite sb.
        by rewrite size_set //; split=> //; have := weighted_set p succn lt'; rewrite sb.
      by have [-> ->] := IH _ sb'; split=> //; rewrite Eb addrA.
    have [sz E] := G (nseq 63 0) (size_nseq _ _).
    rewrite running_sum sz E big1 ?add0r // => i _; by rewrite nth_nseq if_same mul0rn.
  Qed.

  (** digits in base 2^w *)
  Lemma digits (w k : nat) (s : N) :
    (\sum_(j < k) N.to_nat (N.modulo (N.div s (N.pow 2 (N.of_nat (w * j)%N))) (N.pow 2 (N.of_nat w))) * 2 ^ (w * j))%N
    = N.to_nat (N.modulo s (N.pow 2 (N.of_nat (w * k)%N))).
  Proof.
    have pow i : N.to_nat (N.pow 2 (N.of_nat i)) = (2 ^ i)%N.
      by elim: i => [|i IH] //; rewrite expnS Nat2N.inj_succ N.pow_succ_r' N2Nat.inj_mul IH.
    elim: k => [|k IH]; first by rewrite big_ord0 muln0 N.mod_1_r.
    rewrite big_ord_recr /= IH mulnS addnC [(w + w * k)%N]addnC Nat2N.inj_add N.pow_add_r.
    rewrite N.mod_mul_r; try exact: N.pow_nonzero.
    by rewrite N2Nat.inj_add N2Nat.inj_mul plusE multE pow addnC [X in (_ + X)%N]mulnC.
  Qed.
  Lemma index6_digit s j : index6 s j = N.to_nat (N.modulo (N.div s (N.pow 2 (N.of_nat (6 * j)%N))) (N.pow 2 (N.of_nat 6))).
  Proof.
    rewrite /index6 N.land_comm -N.land_assoc -[N.land (N.ones 64) 63]/(N.ones 6) N.land_ones N.shiftr_div_pow2.
    by congr (N.to_nat (N.modulo _ _)).
  Qed.

  (** C60, window width 6 (curve.go, pallas_curve.go): scalars below 2^258, so every 256-bit scalar *)
  Lemma pippenger6 (ps : seq V) (ss : seq N) : size ps = size ss ->
    all (fun s => N.ltb s (N.pow 2 258)) ss -> horner 6 (windows6 (zip ps ss)) = sum_of_multiples ps ss.
  Proof.
    move=> sz lt; rewrite horner_sum size_mkseq /sum_of_multiples -(zip_sum 0%num (fun s => N.to_nat s)) //.
    transitivity (\sum_(j < 43) \sum_(x <- zip ps ss) x.1 *+ (index6 x.2 j * 2 ^ (6 * j))).
      apply: eq_bigr => j _; rewrite nth_mkseq // window6_sum -sumrMnl; apply: eq_bigr => x _; by rewrite mulrnA.
    rewrite exchange_big /= big_seq [RHS]big_seq; apply: eq_bigr => x xin.
    rewrite sumrMnr; congr (_ *+ _); under eq_bigr => j _ do rewrite index6_digit.
    rewrite digits -[(6 * 43)%N]/258%N N.mod_small //.
    have : x.2 \in ss by have := map_f (@snd _ _) xin; rewrite -/(unzip2 _) unzip2_zip ?sz.
    by move/(allP lt)/N.ltb_spec0.
  Qed.

  Theorem C60_sum_of_products (ps : seq V) (ss : seq N) : size ps = size ss -> ps <> [::] ->
    all (fun s => N.ltb s (N.pow 2 258)) ss -> sum_of_products_pippenger ps ss = SopPoint (sum_of_multiples ps ss).
  Proof.
    move=> sz ne lt; rewrite /sum_of_products_pippenger sz eqxx /= pippenger6 //; by case: ps ne {sz lt}.
  Qed.
  Theorem C60_pallas_sum_of_products (ps : seq V) (ss : seq N) : size ps = size ss ->
    all (fun s => N.ltb s (N.pow 2 258)) ss -> sum_of_products_pallas ps ss = SopPoint (sum_of_multiples ps ss).
  Proof. by move=> sz lt; rewrite /sum_of_products_pallas sz eqxx /= pippenger6. Qed.

  (** window width 4 (native/point.go, g1.go, g2.go): the scalars are 32 little-endian bytes *)
  Lemma index4_lt b j : (index4 b j < 16)%N.
  Proof.
    rewrite /index4; apply/ltP; set x := N.shiftr _ _; have := N.mod_lt x 16 ltac:(by []).
    rewrite -[15%num]/(N.ones 4) N.land_ones -[N.pow 2 4]/16%num; lia.
  Qed.
  Lemma window4_sum (xs : seq (V * bytes)) j : window4 xs j = \sum_(x <- xs) x.1 *+ index4 x.2 j.
  Proof.
    rewrite /window4.
    have G : forall b : seq V, size b = 16%N ->
      size (foldl (fill4 j) b xs) = 16%N /\
      \sum_(i < 16) (foldl (fill4 j) b xs)`_i *+ i = \sum_(i < 16) b`_i *+ i + \sum_(x <- xs) x.1 *+ index4 x.2 j.
      elim: xs => [|[p s] xs IH] b sb /=; first by rewrite big_nil addr0.
      rewrite big_cons /=; set b' := fill4 j b (p, s).
      have [sb' Eb] : size b' = 16%N /\ \sum_(i < 16) b'`_i *+ i = \sum_(i < 16) b`_i *+ i + p *+ index4 s j.
        rewrite /b' /fill4 /=; have := index4_lt s j; move: (index4 s j) => k lt.
        have lt' : (k < size b)%N by rewrite sb.
        by rewrite size_set //; split=> //; have := weighted_set p id lt'; rewrite sb.
      by have [-> ->] := IH _ sb'; split=> //; rewrite Eb addrA.
    have [sz E] := G (nseq 16 0) (size_nseq _ _).
    rewrite running_sum size_behead sz; move: E; rewrite big_ord_recl mulr0n add0r [X in _ = X + _]big1 => [|i _]; last first.
      by rewrite nth_nseq if_same mul0rn.
    by rewrite add0r => <-; apply: eq_bigr => i _; rewrite nth_behead.
  Qed.
  Lemma index4_digit b j : (j < 64)%N -> all is_byte b ->
    index4 b j = N.to_nat (N.modulo (N.div (n_of_le b) (N.pow 2 (N.of_nat (4 * j)%N))) (N.pow 2 (N.of_nat 4))).
  Proof.
    move=> lt B; rewrite /index4; congr N.to_nat; apply: nbit_inj => i.
    have [K1 K2] : N.land (N.of_nat (4 * j)%N) 4 = N.of_nat ((4 * j) %% 8)%N /\ ((4 * j) %% 8 + 4 <= 8)%N.
      have A : all (fun j => (N.land (N.of_nat (4 * j)%N) 4 == N.of_nat ((4 * j) %% 8)%N) && ((4 * j) %% 8 + 4 <= 8)%N) (iota 0 64) by vm_compute.
      by have /andP [/eqP] := allP A j ltac:(by rewrite mem_iota).
    rewrite K1 -[15%num]/(N.pred (N.pow 2 4)) -N.ones_equiv N.land_ones -[4%num]/(N.of_nat 4) !nbit_mod; case: (ltnP i 4) => //= i4.
    rewrite nbit_shr -N.shiftr_div_pow2 nbit_shr nbit_n_of_le // /vbit.
    have l8 : (i + (4 * j) %% 8 < 8)%N by rewrite addnC; apply: leq_trans K2; rewrite ltn_add2l.
    have -> : (i + 4 * j = (4 * j) %/ 8 * 8 + (i + (4 * j) %% 8))%N by rewrite addnCA -divn_eq.
    rewrite divnMDl // modnMDl.
    by rewrite (divn_small l8) (modn_small l8) addn0.
  Qed.

  Theorem C60_native_sum_of_products (ps : seq V) (ss : seq bytes) : size ps = size ss ->
    all (fun b => (size b == 32%N) && all is_byte b) ss ->
    sum_of_products_native ps ss = SopPoint (sum_of_multiples ps [seq n_of_le b | b <- ss]).
  Proof.
    move=> sz ok; rewrite /sum_of_products_native sz eqxx /=; congr SopPoint.
    rewrite horner_sum size_mkseq /sum_of_multiples.
    have -> : \sum_(i < size ps) ps`_i *+ N.to_nat (nth 0%num [seq n_of_le b | b <- ss] i) = \sum_(x <- zip ps ss) x.1 *+ N.to_nat (n_of_le x.2).
      rewrite (zip_sum [::] (fun b => N.to_nat (n_of_le b))) //; apply: eq_bigr => i _; by rewrite (nth_map [::]) // -sz.
    transitivity (\sum_(j < 64) \sum_(x <- zip ps ss) x.1 *+ (index4 x.2 j * 2 ^ (4 * j))).
      apply: eq_bigr => j _; rewrite nth_mkseq // window4_sum -sumrMnl; apply: eq_bigr => x _; by rewrite mulrnA.
    rewrite exchange_big /= big_seq [RHS]big_seq; apply: eq_bigr => x xin.
    have : x.2 \in ss by have := map_f (@snd _ _) xin; rewrite -/(unzip2 _) unzip2_zip ?sz.
    move/(allP ok)/andP => [/eqP s32 B].
    rewrite sumrMnr; congr (_ *+ _); under eq_bigr => j _ do rewrite index4_digit //.
    rewrite digits -[(4 * 64)%N]/256%N N.mod_small //.
    have : N.ltb (n_of_le x.2) (N.pow 2 (N.of_nat 256)); last by move/N.ltb_spec0.
    apply/nbit_ltP => i le; rewrite nbit_n_of_le // /vbit nth_default ?nbit0 // s32 leq_divRL //.
  Qed.

  (** unequal lengths: nil for bls12377, k256, p256 and bls12381 *)
  Theorem C60_unequal_lengths_nil (ps : seq V) (ss : seq N) (bs : seq bytes) :
    (size ps <> size ss -> sum_of_products_pippenger ps ss = SopNil) /\
    (size ps <> size bs -> sum_of_products_native ps bs = SopNil).
  Proof.
    by split=> /eqP ne; rewrite /sum_of_products_pippenger /sum_of_products_native ne.
  Qed.
  (** but not for pallas: the result is a Point that is not nil, with no value *)
  Theorem C60_pallas_unequal_lengths_refuted (ps : seq V) (ss : seq N) : size ps <> size ss ->
    sum_of_products_pallas ps ss <> SopNil.
  Proof. by move/eqP => ne; rewrite /sum_of_products_pallas ne. Qed.
  (** the sum of no products is the identity except for bls12377, which panics *)
  Theorem C60_empty : sum_of_products_pallas [::] [::] = SopPoint (0 : V) /\ sum_of_products_native [::] [::] = SopPoint (0 : V).
  Proof.
    split; first by rewrite C60_pallas_sum_of_products // /sum_of_multiples big_ord0.
    by rewrite C60_native_sum_of_products // /sum_of_multiples big_ord0.
  Qed.
  Theorem C60_bls12377_empty_refuted : sum_of_products_pippenger (V := V) [::] [::] = SopPanic.
  Proof. by []. Qed.
End C60.

(** with scalars of a field and points of a vector space over it, this is the usual sum of products *)
Theorem C60_field_scalars (F : fieldType) (V : lmodType F) (val : F -> N) (ps : seq V) (ss : seq F) :
  (forall x, (N.to_nat (val x))%:R = x) -> (forall x, N.lt (val x) (N.pow 2 256)) -> size ps = size ss -> ps <> [::] ->
  sum_of_products_pippenger ps [seq val s | s <- ss] = SopPoint (\sum_(i < size ps) ss`_i *: ps`_i).
Proof.
  move=> vr lt sz ne; rewrite C60_sum_of_products ?size_map //.
  - congr SopPoint; apply: eq_bigr => i _; rewrite (nth_map 0) -?sz // -scaler_nat; congr (_ *: _); exact: vr.
  - apply/allP => n /mapP [s _ ->]; apply/N.ltb_spec0; apply: N.lt_trans (lt s) _; exact: N.pow_lt_mono_r.
Qed.

(** a case: 3 * 5 + 2 * 70 in the integers, and 3 * 261 with bytes *)
Theorem C60_example : sum_of_products_pippenger [:: 3 : int; 2] [:: 5%num; 70%num] = SopPoint (155 : int)
  /\ sum_of_products_native [:: 3 : int] [:: 5%num :: 1%num :: nseq 30 0%num] = SopPoint (783 : int).
Proof.
  split.
  - rewrite C60_sum_of_products //; congr SopPoint; by rewrite /sum_of_multiples /= !big_ord_recl big_ord0 addr0.
  - rewrite C60_native_sum_of_products //; congr SopPoint; by rewrite /sum_of_multiples /= big_ord_recl big_ord0 addr0.
Qed.
