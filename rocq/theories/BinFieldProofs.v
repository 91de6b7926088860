(** binaryFieldMul is multiplication in GF(2)[X]/(X^256+X^10+X^5+X^2+1). *)
From mathcomp Require Import all_ssreflect all_algebra.
From Coq Require Import BinNat Nnat Lia.
From Verif Require Import ByteVec BinFieldModel.
Delimit Scope nat_scope with N.
Delimit Scope N_scope with num.
Set Implicit Arguments.
Unset Strict Implicit.
Unset Printing Implicit Defensive.
Import GRing.Theory.
Local Open Scope ring_scope.

Notation F2 := [fieldType of 'F_2].
Definition b2 (b : bool) : F2 := if b then 1 else 0.
Lemma F2_11 : (1 : F2) + 1 = 0. Proof. exact: val_inj. Qed.
Lemma b2_xor a b : b2 (a (+) b) = b2 a + b2 b.
Proof. by case: a; case: b; rewrite /= ?addr0 ?add0r ?F2_11. Qed.
Lemma b2_and a b : b2 (a && b) = b2 a * b2 b.
Proof. by case: a; case: b; rewrite /= ?mulr1 ?mulr0 ?mul0r. Qed.
Lemma b2_inj : injective b2.
Proof. by case; case=> // E; move/eqP: E; rewrite /b2 ?oner_eq0 // eq_sym oner_eq0. Qed.

(** the polynomial of a number *)
Definition npoly (x : N) : {poly F2} := \poly_(i < (N.to_nat (N.size x))) b2 (nbit x i).
Lemma coef_npoly x i : (npoly x)`_i = b2 (nbit x i).
Proof.
  rewrite coef_poly. case: ltnP => // L. rewrite /nbit.
  have -> : N.testbit x (N.of_nat i) = false; last by [].
  have [->|X0] := N.eq_dec x 0; first exact: N.bits_0.
  apply: N.bits_above_log2. have := N.size_log2 _ X0. move/leP: L. lia.
Qed.
Lemma npoly_xor x y : npoly (N.lxor x y) = npoly x + npoly y.
Proof. by apply/polyP => i; rewrite coefD !coef_npoly nbit_xor b2_xor. Qed.
Lemma npoly0 : npoly 0 = 0.
Proof. by apply/polyP => i; rewrite coef0 coef_npoly nbit0. Qed.
Lemma addF2 (p : {poly F2}) : p + p = 0.
Proof. by apply/polyP => i; rewrite coefD coef0 -mulr2n -mulr_natl -[2%:R]/(1 + 1 : F2) F2_11 mul0r. Qed.

Definition word (x : N) : Prop := forall i, (64 <= i)%N -> nbit x i = false.
Lemma word0 : word 0. Proof. by move=> i _; rewrite nbit0. Qed.
Lemma word_xor x y : word x -> word y -> word (N.lxor x y).
Proof. by move=> A B i L; rewrite nbit_xor A ?B. Qed.
Lemma word_shl x k : word (shl64 x k).
Proof. by move=> i L; rewrite /shl64 nbit_mod ltnNge L. Qed.
Lemma word_shr x k : word x -> word (shr x k).
Proof. by move=> A i L; rewrite /shr nbit_shr A // (leq_trans L) // leq_addr. Qed.

(** a shifted word, split into what stays and what is carried *)
Lemma shl_split x k : word x -> (k <= 64)%N ->
  npoly (shl64 x k) + 'X^64 * npoly (shr x (64 - k)) = 'X^k * npoly x.
Proof.
  move=> W Lk. apply/polyP => i. rewrite coefD !coefXnM !coef_npoly /shl64 /shr nbit_mod nbit_shl nbit_shr.
  case: (ltnP i 64) => L1 /=.
  - rewrite addr0. case: (ltnP i k) => L2 //=.
  - rewrite add0r. have -> : (i < k)%N = false by rewrite ltnNge (leq_trans Lk L1).
    congr (b2 (nbit x _)). by rewrite addnBA // subnK.
Qed.
Lemma shl0 x : word x -> shl64 x 0 = x.
Proof.
  move=> W; apply: nbit_inj => i; rewrite /shl64 nbit_mod nbit_shl subn0 leq0n /=.
  by case: ltnP => // L; rewrite W.
Qed.

(** masks *)
Lemma neg64_bit (b : bool) i : nbit (neg64 (if b then 1 else 0)%num) i = (i < 64)%N && b.
Proof.
  rewrite /neg64 nbit_mod. case: ltnP => // L; case: b; cbv iota.
  - have -> : N.sub (N.pow 2 (N.of_nat 64)) 1 = N.ones (N.of_nat 64).
    { by rewrite N.ones_equiv N.sub_1_r. }
    rewrite /nbit. apply: N.ones_spec_low. move/ltP: L. lia.
  - rewrite N.sub_0_r /nbit. apply: N.pow2_bits_false. move/ltP: L. lia.
Qed.
Lemma bit_of x k : N.land (shr x k) 1 = (if nbit x k then 1 else 0)%num.
Proof.
  apply: nbit_inj => i. rewrite nbit_and /shr nbit_shr. case: i => [|i].
  - rewrite add0n. have -> : nbit 1 0 = true by []. by case: (nbit x k).
  - have -> : nbit 1 i.+1 = false. { rewrite /nbit. apply: N.bits_above_log2. rewrite N.log2_1. lia. }
    rewrite andbF. case: (nbit x k); last by rewrite nbit0.
    symmetry. rewrite /nbit. apply: N.bits_above_log2. rewrite N.log2_1. lia.
Qed.
Lemma masked x y k : word x ->
  npoly (N.land x (neg64 (N.land (shr y k) 1))) = (b2 (nbit y k))%:P * npoly x.
Proof.
  move=> W. apply/polyP => i. rewrite coefCM !coef_npoly nbit_and bit_of neg64_bit -b2_and.
  congr b2. case: ltnP => L; first by rewrite andbC. by rewrite W // !andbF.
Qed.
Lemma word_and x y : word x -> word (N.land x y).
Proof. by move=> W i L; rewrite nbit_and W. Qed.

(** the polynomial of a list of words, least significant first *)
Fixpoint wpoly (c : seq N) : {poly F2} :=
  if c is x :: c' then npoly x + 'X^64 * wpoly c' else 0.
Definition words (c : seq N) : Prop := forall i, word (nth 0%num c i).
Lemma words_cons x c : words (x :: c) <-> word x /\ words c.
Proof.
  split=> [H|[A B]]; last by case.
  by split; [exact: (H 0%N)|move=> i; exact: (H i.+1)].
Qed.
Lemma words_nil : words [::]. Proof. by move=> i; rewrite nth_nil; exact: word0. Qed.
Lemma wpoly_set c i y : (i < size c)%N ->
  wpoly (set_nth 0%num c i y) = wpoly c + 'X^(64 * i) * (npoly y - npoly (nth 0%num c i)).
Proof.
  elim: c i => [|x c IH] [|i] //= L.
  - by rewrite muln0 expr0 mul1r [RHS]addrC addrA subrK.
  - rewrite IH // mulrDr addrA mulnS exprD mulrA //.
Qed.
Lemma wpoly_upd c i y : (i < size c)%N ->
  wpoly (upd 0%num c i (fun w => N.lxor w y)) = wpoly c + 'X^(64 * i) * npoly y.
Proof. move=> L; by rewrite /upd wpoly_set // npoly_xor [npoly _ + _]addrC addrK. Qed.
Lemma size_upd c i f : (i < size c)%N -> size (upd 0%num c i f) = size c.
Proof. by move=> L; rewrite /upd size_set_nth; apply/maxn_idPr. Qed.
Lemma words_upd c i y : words c -> word y -> words (upd 0%num c i (fun w => N.lxor w y)).
Proof.
  move=> W Y k. rewrite /upd nth_set_nth /=. case: eqP => // _. exact: word_xor.
Qed.

Definition wsum (b : seq N) (n : nat) : {poly F2} := \sum_(0 <= i < n) 'X^(64 * i) * npoly (nth 0%num b i).
Lemma wpoly_wsum b : wpoly b = wsum b (size b).
Proof.
  elim: b => [|x b IH]; first by rewrite /wsum big_nil.
  rewrite [wpoly _]/= IH /wsum [size _]/= big_nat_recl //= muln0 expr0 mul1r. congr (_ + _).
  rewrite big_distrr /=. apply: eq_bigr => i _. by rewrite mulrA -exprD -mulnS.
Qed.

Lemma add_masked_spec c b j y k : words c -> words b -> size b = 5%N -> (j + 5 <= size c)%N ->
  let c' := add_masked c b j (neg64 (N.land (shr y k) 1)) in
  [/\ wpoly c' = wpoly c + 'X^(64 * j) * ((b2 (nbit y k))%:P * wpoly b), words c' & size c' = size c].
Proof.
  move=> Wc Wb Sb L c'. rewrite /c' {c'} [wpoly b]wpoly_wsum Sb /add_masked /wsum.
  have -> : iota 0 5 = index_iota 0 5 by [].
  have : forall i, i \in index_iota 0 5 -> (j + i < size c)%N.
  { move=> i. rewrite mem_index_iota /= => Li. by apply: leq_trans L; rewrite ltn_add2l. }
  elim: (index_iota 0 5) c Wc {L} => [|i r IH] c Wc Hi.
  - by rewrite big_nil !mulr0 addr0.
  - rewrite [foldl _ _ _]/=. set c1 := upd _ _ _ _.
    have Li : (j + i < size c)%N by apply: Hi; rewrite mem_head.
    have S1 : size c1 = size c by exact: size_upd.
    have [||E W S] := IH c1.
    + apply: words_upd => //. exact: word_and.
    + move=> i' Hi'. rewrite S1. apply: Hi. by rewrite inE Hi' orbT.
    + split=> //; last by rewrite S.
      rewrite E /c1 wpoly_upd // masked // big_cons !mulrDr addrA. congr (_ + _ + _).
      rewrite mulnDr exprD -!mulrA. congr (_ * _). by rewrite mulrCA.
Qed.

Definition arow (a : seq N) (k n : nat) : {poly F2} :=
  \sum_(0 <= j < n) 'X^(64 * j) * (b2 (nbit (nth 0%num a j) k))%:P.
Lemma comb_row_spec a b c k : words c -> words b -> size b = 5%N -> size c = 8%N ->
  let c' := comb_row a b k c in
  [/\ wpoly c' = wpoly c + arow a k 4 * wpoly b, words c' & size c' = 8%N].
Proof.
  move=> Wc Wb Sb Sc c'. rewrite /c' {c'} /comb_row /arow.
  have -> : iota 0 4 = index_iota 0 4 by [].
  have : forall j, j \in index_iota 0 4 -> (j + 5 <= 8)%N.
  { move=> j. rewrite mem_index_iota => /andP [_ Lj]. by rewrite addnC (leq_add2l 5 j 3). }
  elim: (index_iota 0 4) c Wc Sc => [|j r IH] c Wc Sc Hj.
  - by rewrite big_nil mul0r addr0.
  - rewrite [foldl _ _ _]/=. set c1 := add_masked _ _ _ _.
    have [E1 W1 S1] : [/\ wpoly c1 = wpoly c + 'X^(64 * j) * ((b2 (nbit (nth 0%num a j) k))%:P * wpoly b),
                          words c1 & size c1 = size c].
    { apply: add_masked_spec => //. rewrite Sc. apply: Hj. by rewrite mem_head. }
    have [||E W S] := IH c1 W1; first by rewrite S1.
    + move=> j' Hj'. apply: Hj. by rewrite inE Hj' orbT.
    + split=> //. by rewrite E E1 big_cons mulrDl addrA mulrA.
Qed.

(** shifting the five words of b by one, when the top bit is clear *)
Lemma shift_words_spec b : words b -> size b = 5%N -> nbit (nth 0%num b 4) 63 = false ->
  [/\ wpoly (shift_words b) = 'X * wpoly b, words (shift_words b) & size (shift_words b) = 5%N]
  /\ (forall i, nbit (nth 0%num (shift_words b) 4) i.+1 = nbit (nth 0%num b 4) i && (i < 63)%N).
Proof.
  case: b => [|b0 [|b1 [|b2' [|b3 [|b4 []]]]]] // W _ T.
  have [W0 [W1 [W2 [W3 [W4 _]]]]] : word b0 /\ word b1 /\ word b2' /\ word b3 /\ word b4 /\ True.
  { by split; [exact: (W 0%N)|split; [exact: (W 1%N)|split; [exact: (W 2%N)|split; [exact: (W 3%N)|split; [exact: (W 4%N)|]]]]]. }
  have -> : shift_words [:: b0; b1; b2'; b3; b4] =
    [:: shl64 b0 1; N.lor (shl64 b1 1) (shr b0 63); N.lor (shl64 b2' 1) (shr b1 63);
        N.lor (shl64 b3 1) (shr b2' 63); N.lor (shl64 b4 1) (shr b3 63)] by [].
  have OX x y : word y -> N.lor (shl64 x 1) (shr y 63) = N.lxor (shl64 x 1) (shr y 63).
  { move=> Wy. apply: nbit_inj => i. rewrite nbit_or nbit_xor /shl64 /shr nbit_mod nbit_shl nbit_shr.
    case: i => [|i]; first by [].
    by rewrite (Wy (i.+1 + 63)%N) ?addbF ?orbF // addSn ltnS leq_addl. }
  rewrite !OX //. split; last first.
  { move=> i. rewrite [nth _ _ _]/= nbit_xor /shl64 /shr nbit_mod nbit_shl nbit_shr subn1 [i.+1.-1]/= ltnS andTb.
    by rewrite (W3 (i.+1 + 63)%N) ?addbF 1?andbC // addSn ltnS leq_addl. }
  split=> //.
  - have H x : word x -> npoly (shl64 x 1) + 'X^64 * npoly (shr x 63) = 'X * npoly x.
    { move=> Wx. have := @shl_split x 1 Wx isT. by rewrite expr1. }
    have T4 : npoly (shr b4 63) = 0.
    { apply/polyP => i. rewrite coef0 coef_npoly /shr nbit_shr. case: i => [|i]; first by rewrite add0n T.
      by rewrite W4 // addSn ltnS leq_addl. }
    rewrite [wpoly _]/= [wpoly [:: b0 ; _ ; _ ; _; _]]/= !npoly_xor !mulr0 !addr0.
    have H4 := H _ W4. rewrite T4 mulr0 addr0 in H4. rewrite H4.
    have := H _ W0. have := H _ W1. have := H _ W2. have := H _ W3.
    have step (s t b v u y : {poly F2}) : s + 'X^64 * t = 'X * b -> u + y = 'X * v ->
      s + 'X^64 * (u + t + y) = 'X * (b + 'X^64 * v).
    { move=> A B. by rewrite addrAC B mulrDr addrCA A mulrDr addrC mulrCA. }
    set s0 := npoly (shl64 b0 1). set s1 := npoly (shl64 b1 1). set s2 := npoly (shl64 b2' 1).
    set s3 := npoly (shl64 b3 1). move=> E3 E2 E1 E0.
    apply: (step _ _ _ _ _ _ E0). apply: (step _ _ _ _ _ _ E1). apply: (step _ _ _ _ _ _ E2).
    by rewrite mulrDr addrCA E3 mulrDr addrC mulrCA.
  - case=> [|[|[|[|[|i]]]]]; rewrite [nth _ _ _]/=; try (apply: word_xor); try exact: word_shl; try exact: word_shr.
    by rewrite nth_nil; exact: word0.
Qed.

Lemma wpoly_nseq0 n : wpoly (nseq n 0%num) = 0.
Proof. by elim: n => //= n ->; rewrite npoly0 mulr0 addr0. Qed.
Lemma words_nseq0 n : words (nseq n 0%num).
Proof. move=> i. rewrite nth_nseq if_same. exact: word0. Qed.
Lemma comb_spec a b n : words b -> size b = 5%N -> nth 0%num b 4 = 0%num -> (n <= 64)%N ->
  let s := foldl (comb_step a) (nseq 8 0%num, b) (iota 0 n) in
  [/\ wpoly s.1 = (\sum_(0 <= k < n) arow a k 4 * 'X^k) * wpoly b, words s.1 & size s.1 = 8%N]
  /\ [/\ wpoly s.2 = 'X^n * wpoly b, words s.2, size s.2 = 5%N &
         forall i, (n <= i)%N -> nbit (nth 0%num s.2 4) i = false].
Proof.
  move=> Wb Sb T. elim: n => [|n IH] Ln.
  - split; split=> //; rewrite [iota 0 0]/= [foldl _ _ _]/=.
    + rewrite big_nil mul0r. exact: (wpoly_nseq0 8).
    + exact: (words_nseq0 8).
    + by rewrite expr0 mul1r.
    + move=> i _. by rewrite T nbit0.
  - have [] := IH (ltnW Ln). set s := foldl _ _ _. move=> [E1 W1 S1] [E2 W2 S2 B2].
    have -> : iota 0 n.+1 = rcons (iota 0 n) n by rewrite -[n.+1]addn1 iotaD cats1 add0n.
    rewrite foldl_rcons -/s /comb_step.
    have [E1' W1' S1'] := comb_row_spec a n W1 W2 S2 S1.
    have [|[E2' W2' S2'] B2'] := shift_words_spec W2 S2; first by apply: B2; rewrite -ltnS.
    move: E1' W1' S1' E2' W2' S2' B2'.
    move: (comb_row _ _ _ _) (shift_words _) => u v E1' W1' S1' E2' W2' S2' B2'.
    split; split; rewrite -?[(u, v).1]/u -?[(u, v).2]/v; try assumption.
    + rewrite E1' E1 E2 big_nat_recr //= mulrDl. by rewrite -mulrA.
    + by rewrite E2' E2 mulrA -exprS.
    + move=> [|i] // Li. by rewrite B2' B2.
Qed.

Lemma npoly_sum x : word x -> npoly x = \sum_(0 <= k < 64) (b2 (nbit x k))%:P * 'X^k.
Proof.
  move=> W. apply/polyP => i. rewrite coef_npoly coef_sum big_mkord.
  have [L|L] := ltnP i 64.
  - rewrite (bigD1 (Ordinal L)) //= coefCM coefXn eqxx mulr1 big1 ?addr0 // => k /eqP Hk.
    rewrite coefCM coefXn. case: eqP => [E|]; last by rewrite mulr0.
    by case: Hk; apply: val_inj.
  - rewrite W // big1 // => k _. rewrite coefCM coefXn. case: eqP => [E|]; last by rewrite mulr0.
    by move: L; rewrite E leqNgt ltn_ord.
Qed.
Lemma arow_sum a : words a -> \sum_(0 <= k < 64) arow a k 4 * 'X^k = wsum a 4.
Proof.
  move=> W. rewrite /arow /wsum.
  under eq_bigr do rewrite big_distrl /=. rewrite exchange_big /=. apply: eq_bigr => j _.
  rewrite (npoly_sum (W j)) big_distrr /=. apply: eq_bigr => k _. by rewrite mulrA.
Qed.
Lemma comb_ok a b : words a -> words b -> size a = 4%N -> size b = 5%N -> nth 0%num b 4 = 0%num ->
  [/\ wpoly (comb a b) = wpoly a * wpoly b, words (comb a b) & size (comb a b) = 8%N].
Proof.
  move=> Wa Wb Sa Sb T. have [[E W S] _] := comb_spec a Wb Sb T (leqnn 64).
  rewrite /comb. move: E W S. move: (foldl _ _ _) => [u v]. rewrite -[(u, v).1]/u => E W S. split; try assumption.
  by rewrite E arow_sum // [wpoly a]wpoly_wsum Sa.
Qed.

Lemma wsum_recr c n : wsum c n.+1 = wsum c n + 'X^(64 * n) * npoly (nth 0%num c n).
Proof. by rewrite /wsum big_nat_recr. Qed.
Lemma wsum_upd c i y n : (i < n)%N ->
  wsum (upd 0%num c i (fun w => N.lxor w y)) n = wsum c n + 'X^(64 * i) * npoly y.
Proof.
  move=> L. rewrite /wsum !big_mkord (bigD1 (Ordinal L)) //= [in RHS](bigD1 (Ordinal L)) //= /upd nth_set_nth /= eqxx npoly_xor mulrDr.
  rewrite -!addrA. congr (_ + _). rewrite addrC. congr (_ + _). apply: eq_bigr => k /eqP Hk.
  rewrite nth_set_nth /=. case: eqP => // E. by case: Hk; apply: val_inj.
Qed.
Lemma wsum_upd_skip c i f n : (n <= i)%N -> wsum (upd 0%num c i f) n = wsum c n.
Proof.
  move=> L. rewrite /wsum !big_mkord. apply: eq_bigr => k _. rewrite /upd nth_set_nth /=.
  case: eqP => // E. by move: (leq_trans (ltn_ord k) L); rewrite E ltnn.
Qed.

(** the reduction polynomial *)
Definition fpoly : {poly F2} := 'X^256 + 'X^10 + 'X^5 + 'X^2 + 1.
Lemma reduce_step_ok c i : words c -> (4 <= i)%N ->
  words (reduce_step c i) /\
  exists q, wsum (reduce_step c i) i = wsum c i.+1 + q * fpoly.
Proof.
  move=> W Li. set x := nth 0%num c i. have Wx : word x by exact: W.
  have L4 : (i - 4 < i)%N by rewrite ltn_subrL (leq_trans _ Li).
  have L3 : (i - 3 < i)%N by rewrite ltn_subrL (leq_trans _ Li).
  split.
  { rewrite /reduce_step -/x. repeat (apply: words_upd; last by [|exact: word_shl|exact: word_shr]). exact: W. }
  exists ('X^(64 * (i - 4)) * npoly x).
  rewrite /reduce_step -/x !(wsum_upd _ _ L4, wsum_upd _ _ L3) wsum_recr -/x.
  have -> : ('X^(64 * (i - 3)) : {poly F2}) = 'X^(64 * (i - 4)) * 'X^64.
  { rewrite -exprD -mulnSr. do 2 f_equal. by rewrite -subSn. }
  have -> : ('X^(64 * i) : {poly F2}) = 'X^(64 * (i - 4)) * 'X^256.
  { rewrite -exprD -[256%N]/(64 * 4)%N -mulnDr subnK //. }
  set Z := 'X^(64 * (i - 4)).
  have H10 := @shl_split x 10 Wx isT. have H5 := @shl_split x 5 Wx isT. have H2 := @shl_split x 2 Wx isT.
  rewrite -[(64 - 10)%N]/54%N in H10. rewrite -[(64 - 5)%N]/59%N in H5. rewrite -[(64 - 2)%N]/62%N in H2.
  move: H10 H5 H2. rewrite /fpoly.
  move: (npoly (shl64 x 10)) (npoly (shl64 x 5)) (npoly (shl64 x 2)) (npoly (shr x 54)) (npoly (shr x 59))
        (npoly (shr x 62)) (npoly x) (wsum c i) Z.
  move: ('X^64) ('X^256) ('X^10) ('X^5) ('X^2). clear.
  move=> Y X256 X10 X5 X2 a10 a5 a2 c10 c5 c2 x w Z H10 H5 H2.
  transitivity (w + Z * ((a10 + Y * c10) + (a5 + Y * c5) + (a2 + Y * c2) + x)).
  - by rewrite !mulrDr !mulrA !addrA.
  - rewrite H10 H5 H2 -!addrA. congr (_ + _).
    rewrite [Z * x * _]mulrDr -[Z * x * X256]mulrA [x * X256]mulrC mulrA [RHS]addrA addF2 add0r.
    by rewrite !mulrDr mulr1 !mulrA ![Z * x * _]mulrAC !addrA.
Qed.

Lemma reduce_ok c : words c ->
  words (reduce c) /\ exists q, wsum (reduce c) 4 = wsum c 8 + q * fpoly.
Proof.
  move=> W. rewrite /reduce [foldl _ _ _]/=.
  have [W7 [q7 E7]] := reduce_step_ok W (isT : 4 <= 7)%N.
  have [W6 [q6 E6]] := reduce_step_ok W7 (isT : 4 <= 6)%N.
  have [W5 [q5 E5]] := reduce_step_ok W6 (isT : 4 <= 5)%N.
  have [W4 [q4 E4]] := reduce_step_ok W5 (isT : 4 <= 4)%N.
  split=> //. exists (q7 + q6 + q5 + q4). by rewrite E4 E5 E6 E7 !mulrDl !addrA.
Qed.

(** bytes to words and back *)
Lemma nth_upd (T : Type) (d : T) l i f j : nth d (upd d l i f) j = if j == i then f (nth d l i) else nth d l j.
Proof. by rewrite /upd nth_set_nth. Qed.
Lemma condense_bit n A m w t : (n <= 5)%N -> (forall i, is_byte (nth 0%num A i)) -> (m <= 32)%N ->
  nbit (nth 0%num (foldl (fun a i => upd 0%num a (i %/ 8)
          (fun w => N.lor w (shl64 (nth 0%num A i) (8 * (i %% 8))))) (nseq n 0%num) (iota 0 m)) w) t
  = [&& t < 64, 8 * w + t %/ 8 < m & nbit (nth 0%num A (8 * w + t %/ 8)) (t %% 8)]%N.
Proof.
  move=> Ln HA. elim: m => [|m IH] Lm.
  - rewrite [iota 0 0]/= [foldl _ _ _]/= nth_nseq if_same nbit0. by rewrite ltn0 andbF.
  - have -> : iota 0 m.+1 = rcons (iota 0 m) m by rewrite -[m.+1]addn1 iotaD cats1 add0n.
    rewrite foldl_rcons nth_upd.
    have IH' := IH (ltnW Lm).
    case: eqP => [E|E].
    + subst w. rewrite nbit_or IH' /shl64 nbit_mod nbit_shl.
      case: (ltnP t 64) => [Lt|//]. rewrite !andTb.
      have D := divn_eq m 8. rewrite mulnC in D.
      have [Q|[Q|Q]] : (t %/ 8 = m %% 8 \/ t %/ 8 < m %% 8 \/ m %% 8 < t %/ 8)%N.
      { case: (ltngtP (t %/ 8) (m %% 8)); by [left|right; left|right; right]. }
      * rewrite Q -D ltnn ltnSn /= .
        have D2 := divn_eq t 8. rewrite mulnC in D2. rewrite {1 2}D2 Q leq_addr addKn //.
      * have -> : (8 * (m %/ 8) + t %/ 8 < m)%N by rewrite {2}D ltn_add2l.
        have -> : (8 * (m %/ 8) + t %/ 8 < m.+1)%N by rewrite {2}D ltnS leq_add2l ltnW.
        rewrite !andTb.
        have -> : (8 * (m %% 8) <= t)%N = false; last by rewrite orbF.
        apply/negbTE. rewrite -ltnNge. rewrite mulnC -ltn_divLR //.
      * have -> : (8 * (m %/ 8) + t %/ 8 < m)%N = false.
        { apply/negbTE. rewrite -leqNgt {1}D leq_add2l ltnW //. }
        have -> : (8 * (m %/ 8) + t %/ 8 < m.+1)%N = false.
        { apply/negbTE. rewrite -leqNgt {1}D -addnS leq_add2l //. }
        rewrite /=. apply/negbTE/nandP; right. apply/negPf. apply: byte_bits => //.
        rewrite leq_subRL; last by rewrite mulnC -leq_divRL // ltnW.
        by rewrite addnC -mulnS mulnC -leq_divRL.
    + rewrite IH'. case: (ltnP t 64) => [Lt|//]. rewrite !andTb ltnS [in RHS]leq_eqVlt.
      case: eqP => // Em. case: E. rewrite -Em mulnC divnMDl // divn_small ?addn0 //.
      by rewrite ltn_divLR.
Qed.

Lemma coef_wsum c n k : words c ->
  (wsum c n)`_k = b2 ((k < 64 * n)%N && nbit (nth 0%num c (k %/ 64)) (k %% 64)).
Proof.
  move=> W. elim: n => [|n IH]; first by rewrite /wsum big_nil coef0 muln0.
  rewrite wsum_recr coefD IH coefXnM coef_npoly mulnS addnC.
  have [L|L] := ltnP k (64 * n); first by rewrite addr0 ltn_addr.
  rewrite andFb add0r. have [L2|L2] := ltnP k (64 * n + 64).
  - have E : k = (n * 64 + (k - 64 * n))%N by rewrite [(n * 64)%N]mulnC subnKC.
    have Lr : (k - 64 * n < 64)%N by rewrite ltn_subLR.
    rewrite andTb. congr b2.
    rewrite {2 3}E divnMDl // modnMDl divn_small // modn_small // addn0 //.
  - rewrite W // leq_subRL //.
Qed.
Lemma div64 k : (8 * (k %/ 64) + (k %% 64) %/ 8 = k %/ 8)%N.
Proof.
  have -> : (k %/ 64 = k %/ 8 %/ 8)%N by rewrite -divnMA.
  have -> : ((k %% 64) %/ 8 = (k %/ 8) %% 8)%N by rewrite -[64%N]/(8 * 8)%N modn_divl.
  by rewrite [RHS](divn_eq (k %/ 8) 8) mulnC.
Qed.
Lemma mod64 k : ((k %% 64) %% 8 = k %% 8)%N.
Proof. by rewrite (modn_dvdm k (isT : 8 %| 64)%N). Qed.

(** the polynomial whose coefficients are the bits of a byte vector *)
Definition vpoly (v : seq N) : {poly F2} := \poly_(i < 8 * size v) b2 (vbit v i).
Lemma nth_byte A i : all is_byte A -> is_byte (nth 0%num A i).
Proof.
  move=> H. have [L|L] := ltnP i (size A); first by apply: (allP H); rewrite mem_nth.
  by rewrite nth_default.
Qed.
Lemma condense_words n A : (n <= 5)%N -> all is_byte A -> words (condense n A).
Proof.
  move=> Ln HA w t Lt. rewrite /condense condense_bit //; last by move=> i; exact: nth_byte.
  by rewrite ltnNge Lt.
Qed.
Lemma condense_poly n m A : (4 <= m)%N -> (n <= 5)%N -> size A = 32%N -> all is_byte A ->
  wsum (condense n A) m = vpoly A.
Proof.
  move=> Lm Ln SA HA. apply/polyP => k. rewrite coef_wsum; last exact: condense_words.
  rewrite /condense condense_bit //; last by move=> i; exact: nth_byte.
  rewrite coef_poly SA div64 mod64 ltn_pmod // andTb -[(8 * 32)%N]/256%N.
  have -> : (k %/ 8 < 32)%N = (k < 256)%N by rewrite ltn_divLR.
  have [L|L] := ltnP k 256; last by rewrite !andbF.
  by rewrite (leq_trans L) // -[256%N]/(64 * 4)%N leq_mul2l.
Qed.
Lemma size_set_le (c : seq N) i y n : size c = n -> (i < n)%N -> size (set_nth 0%num c i y) = n.
Proof. by move=> S L; rewrite size_set_nth S; apply/maxn_idPr. Qed.
Lemma condense_size n A : (4 <= n)%N -> size (condense n A) = n.
Proof.
  move=> Ln. rewrite /condense.
  have : forall i, i \in iota 0 32 -> (i %/ 8 < n)%N.
  { move=> i. rewrite mem_iota add0n => /andP [_ L]. apply: leq_trans Ln. by rewrite ltn_divLR. }
  have : size (nseq n 0%num) = n by rewrite size_nseq.
  elim: (iota 0 32) (nseq n _) => [|i r IH] c Sc H //.
  rewrite [foldl _ _ _]/=. apply: IH.
  - rewrite /upd; apply: size_set_le => //. by apply: H; rewrite mem_head.
  - by move=> j Hj; apply: H; rewrite inE Hj orbT.
Qed.
Lemma expand_poly c : words c -> vpoly (expand c) = wsum c 4.
Proof.
  move=> W. apply/polyP => k. rewrite coef_wsum // coef_poly size_mkseq -[(8 * 32)%N]/(64 * 4)%N.
  case: ltnP => // L. rewrite andTb. congr b2. rewrite /vbit nth_mkseq; last by rewrite ltn_divLR.
  rewrite nbit_mod /shr nbit_shr ltn_pmod // andTb. congr (nbit (nth _ _ _) _).
  - by rewrite -divnMA.
  - have -> : (k %/ 8 %% 8 = (k %% 64) %/ 8)%N by rewrite -[64%N]/(8 * 8)%N modn_divl.
    rewrite -{1}mod64 addnC [RHS](divn_eq (k %% 64) 8) [(_ * 8)%N]mulnC //.
Qed.
Lemma size_fpoly : size fpoly = 257%N.
Proof.
  have H n (p : {poly F2}) : (size p <= n)%N -> size ('X^n + p) = n.+1.
  { move=> L. by rewrite size_addl ?size_polyXn. }
  rewrite /fpoly -!addrA H //. rewrite (@leq_trans 11) // H // (@leq_trans 6) // H // (@leq_trans 3) // H //.
  by rewrite size_poly1.
Qed.
Lemma size_vpoly v : size v = 32%N -> (size (vpoly v) <= 256)%N.
Proof. by move=> S; rewrite /vpoly S; exact: size_poly. Qed.
Lemma expand_bytes c : all is_byte (expand c).
Proof. apply/allP => b /mapP [i _ ->]. rewrite /is_byte. apply/N.ltb_lt. exact: N.mod_lt. Qed.
Lemma bfm_ok A B : size A = 32%N -> size B = 32%N -> all is_byte A -> all is_byte B ->
  vpoly (binary_field_mul A B) = (vpoly A * vpoly B) %% fpoly.
Proof.
  move=> SA SB HA HB. rewrite /binary_field_mul.
  have WA := condense_words (isT : 4 <= 5)%N HA. have WB := condense_words (isT : 5 <= 5)%N HB.
  have SCA := condense_size A (isT : 4 <= 4)%N. have SCB := condense_size B (isT : 4 <= 5)%N.
  have T : nth 0%num (condense 5 B) 4 = 0%num.
  { apply: nbit_inj => t. rewrite [RHS]nbit0 /condense condense_bit //; last by move=> i; exact: nth_byte.
    have -> : (8 * 4 + t %/ 8 < 32)%N = false by rewrite ltnNge leq_addr. by rewrite andbF. }
  have [] := comb_ok WA WB SCA SCB T.
  have EA : wpoly (condense 4 A) = vpoly A by rewrite wpoly_wsum SCA condense_poly.
  have EB : wpoly (condense 5 B) = vpoly B by rewrite wpoly_wsum SCB condense_poly.
  rewrite EA EB.
  move: (comb _ _) => c E W S. rewrite wpoly_wsum S in E.
  move: (reduce_ok W). move: (reduce c) => d [Wd [q E']]. rewrite E in E'. move: (expand_poly Wd) => X.
  have Lt : (size (wsum d 4) < size fpoly)%N.
  { rewrite -X size_fpoly ltnS. apply: size_vpoly. by rewrite size_mkseq. }
  by rewrite X -(modp_small Lt) E' modpD modp_mull addr0.
Qed.
Lemma vpoly_inj v w : size v = size w -> all is_byte v -> all is_byte w -> vpoly v = vpoly w -> v = w.
Proof.
  move=> S A B E. apply: vec_ext => // i Li. apply: b2_inj. move/polyP: E => /(_ i).
  by rewrite !coef_poly -S Li.
Qed.
