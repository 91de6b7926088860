(** Proofs about ShamirModel: Lagrange coefficients, secrecy, Feldman and Pedersen verification. *)
From mathcomp Require Import all_ssreflect all_algebra.
From Verif Require Import AlgBase Lagrange ShamirModel ShamirSpec ShamirProofs.
Set Implicit Arguments.
Unset Strict Implicit.
Unset Printing Implicit Defensive.
Import GRing.Theory.
Local Open Scope ring_scope.

Section Coeffs.
  Variable F : fieldType.

  (** the Lagrange coefficient at 0 of identifier i among ids *)
  Definition idcoeff (ids : seq nat) (i : nat) : F :=
    (\prod_(j <- ids | j != i) j%:R) / (\prod_(j <- ids | j != i) (j%:R - i%:R)).

  Lemma coeff_num_denE (ids : seq nat) i :
    coeff_num_den F ids i = (\prod_(j <- ids | j != i) j%:R, \prod_(j <- ids | j != i) (j%:R - i%:R)).
  Proof.
    rewrite /coeff_num_den.
    have H : forall s (a b : F), foldl (fun nd j => if i == j then nd
          else (nd.1 * j%:R, nd.2 * (j%:R - i%:R))) (a, b) s =
        (a * \prod_(j <- s | j != i) j%:R, b * \prod_(j <- s | j != i) (j%:R - i%:R)).
      elim=> [|j s IH] a b /=; first by rewrite !big_nil !mulr1.
      rewrite !big_cons eq_sym; case: eqP => _ /=; by rewrite IH // !mulrA.
    by rewrite H !mul1r.
  Qed.

  Lemma lagrange_coeffsE (ids outer : seq nat) (inner : nat -> seq nat) :
    uniq ids -> uniq [seq i%:R : F | i <- ids] ->
    {subset outer <= ids} -> (forall i, perm_eq (inner i) ids) ->
    lagrange_coeffs F outer inner = Ok [seq (i, idcoeff ids i) | i <- outer].
  Proof.
    move=> U0 U Hout Hin; rewrite /lagrange_coeffs.
    have H : forall s r, {subset s <= ids} ->
      foldl (fun acc i => rbind acc (fun result =>
               let nd := coeff_num_den F (inner i) i in
               if nd.2 == 0 then Err EDiv else Ok (rcons result (i, nd.1 / nd.2))))
            (Ok r) s = Ok (r ++ [seq (i, idcoeff ids i) | i <- s]).
      elim=> [|i s IH] r Hs /=; first by rewrite cats0.
      rewrite coeff_num_denE /= !(perm_big _ (Hin i)) /=.
      have -> : (\prod_(j <- ids | j != i) (j%:R - i%:R) == 0 :> F) = false.
        apply/negbTE; rewrite prodf_seq_neq0; apply/allP => j Hj; apply/implyP => Hji.
        rewrite subr_eq0; apply: contra Hji => /eqP E.
        have Hi : i \in ids by apply: Hs; rewrite inE eqxx.
        rewrite -(nth_index 0%N Hj) -(nth_index 0%N Hi).
        suff -> : index j ids = index i ids by [].
        apply/eqP; rewrite -(nth_uniq 0 _ _ U) ?size_map ?index_mem //.
        by rewrite !(nth_map 0%N) ?index_mem // !nth_index // E.
      rewrite IH ?cat_rcons // => j Hj; by apply: Hs; rewrite inE Hj orbT.
    by rewrite H.
  Qed.

  Lemma idcoeff_lag0 (ids : seq nat) k : uniq ids -> (k < size ids)%N ->
    idcoeff ids (nth 0%N ids k) = lag0 [seq i%:R : F | i <- ids] k.
  Proof.
    move=> U Hk; rewrite /idcoeff /lag0 size_map.
    have R : forall g : nat -> F, \prod_(j <- ids | j != nth 0%N ids k) g j =
             \prod_(j <- iota 0 (size ids) | j != k) g (nth 0%N ids j).
      move=> g; rewrite -[X in \prod_(j <- X | _) _](mkseq_nth 0%N) /mkseq big_map.
      rewrite big_seq_cond [in RHS]big_seq_cond; apply: eq_bigl => j.
      rewrite mem_iota /= add0n; case: ltnP => //= Hj; by rewrite nth_uniq.
    rewrite !R; congr (_ / _); rewrite big_seq_cond [in RHS]big_seq_cond; apply: eq_bigr => j;
      rewrite mem_iota /= add0n => /andP [Hj _]; by rewrite !(nth_map 0%N).
  Qed.

  Lemma idcoeff_sum (ids : seq nat) (c : seq F) : uniq ids -> uniq [seq i%:R : F | i <- ids] ->
    (size c <= size ids)%N ->
    \sum_(i <- ids) idcoeff ids i * peval c i%:R = peval c 0.
  Proof.
    move=> U0 U Hc; rewrite !pevalE -(lagrange0 U) ?size_map; last first.
      exact: leq_trans (size_Poly _) Hc.
    rewrite -{1}(mkseq_nth 0%N ids) /mkseq big_map !big_seq; apply: eq_bigr => k.
    rewrite mem_iota /= add0n => Hk.
    by rewrite idcoeff_lag0 // pevalE mulrC (nth_map 0%N).
  Qed.
End Coeffs.

Section Poly.
  Variable F : fieldType.

  (** coefficient list of a polynomial, padded to t entries *)
  Definition coefs (t : nat) (p : {poly F}) : seq F := mkseq (fun i => p`_i) t.

  Lemma peval_coefs t (p : {poly F}) x : (size p <= t)%N -> peval (coefs t p) x = p.[x].
  Proof.
    move=> Hp; rewrite pevalE; congr (_.[x]).
    apply/polyP => i; rewrite coef_Poly; case: (ltnP i t) => Hi.
      by rewrite nth_mkseq.
    by rewrite !nth_default // ?size_mkseq // (leq_trans Hp Hi).
  Qed.

  Lemma coefs_Poly t (c : seq F) : size c = t -> coefs t (Poly c) = c.
  Proof.
    move=> H; apply: (@eq_from_nth _ 0); first by rewrite size_mkseq.
    by move=> i; rewrite size_mkseq => Hi; rewrite nth_mkseq // coef_Poly.
  Qed.

  Lemma peval_add (c d : seq F) x : size c = size d ->
    peval [seq p.1 + p.2 | p <- zip c d] x = peval c x + peval d x.
  Proof.
    move=> E; rewrite /peval size_map size_zip -E minnn -big_split /=.
    apply: eq_bigr => i _.
    by rewrite (nth_map (0, 0)) ?nth_zip ?size_zip -?E ?minnn // mulrDl.
  Qed.

  (** for t-1 nodes (non-zero, distinct) and values there is exactly one polynomial of t coefficients
      with a given constant term *)
  Lemma unique_completion (xs ys : seq F) (a : F) t : (0 < t)%N -> size xs = t.-1 -> size ys = t.-1 ->
    uniq (0 :: xs) ->
    exists c, [/\ size c = t, c`_0 = a, (forall k, (k < t.-1)%N -> peval c xs`_k = ys`_k)
      & forall c', size c' = t -> c'`_0 = a ->
          (forall k, (k < t.-1)%N -> peval c' xs`_k = ys`_k) -> c' = c].
  Proof.
    move=> Ht Hx Hy U.
    set p := interp (0 :: xs) (a :: ys).
    have Hsz : size (0 :: xs : seq F) = t by rewrite /= Hx prednK.
    have Hp : (size p <= t)%N by rewrite -Hsz; exact: interp_size.
    exists (coefs t p); split; first by rewrite size_mkseq.
    - have := @interp_at _ (0 :: xs) (a :: ys) 0 U isT; rewrite -/p /= => H0.
      by rewrite nth_mkseq // -horner_coef0 H0.
    - move=> k Hk; rewrite peval_coefs //.
      have := @interp_at _ (0 :: xs) (a :: ys) k.+1 U; rewrite /= Hx ltnS => -> //.
    - move=> c' Hs H0 Hk; rewrite -(coefs_Poly Hs); congr coefs.
      have E : forall x : F, x \in (0 :: xs) -> (Poly c').[x] = p.[x].
        move=> x Hxin; rewrite -(nth_index 0 Hxin).
        have := @interp_at _ (0 :: xs) (a :: ys) (index x (0 :: xs)) U.
        rewrite index_mem Hxin -/p => -> //.
        have Hlt : (index x (0%R :: xs) < t)%N by rewrite -Hsz index_mem.
        move: Hlt; case: (index x _) => [|k] Hlt /=.
          by rewrite horner_coef0 coef_Poly.
        by rewrite -pevalE Hk // -ltnS prednK.
      apply: (poly_agree U); rewrite ?Hsz //.
      by rewrite -Hs; exact: size_Poly.
  Qed.
End Poly.

Section Feld.
  Variables (F : fieldType) (B : eqType) (enc : F -> B) (dec : B -> option F).
  Variables (V : lmodType F) (G : V).

  Lemma commit_evalE (c0 : V) cs x : commit_eval c0 cs x = ceval (c0 :: cs) x.
  Proof.
    rewrite /commit_eval /ceval.
    have H : forall (l : seq V) i r, foldl (fun st c => let i := st.1 * x in (i, st.2 + i *: c)) (i, r) l =
        (i * x ^+ size l, r + \sum_(j < size l) (i * x ^+ j.+1) *: nth 0 l j).
      elim=> [|c l IH] i r /=; first by rewrite big_ord0 expr0 mulr1 addr0.
      rewrite IH big_ord_recl /= -mulrA -exprS expr1 addrA; congr (_, _ + _).
      by apply: eq_bigr => j _; rewrite /bump /= add1n -mulrA -exprS.
    rewrite H big_ord_recl expr0 scale1r /=; congr (_ + _).
    by apply: eq_bigr => j _; rewrite mul1r.
  Qed.

  Lemma ceval_base (c : seq F) (P : V) x : ceval [seq a *: P | a <- c] x = peval c x *: P.
  Proof.
    rewrite /ceval /peval size_map scaler_suml; apply: eq_bigr => i _.
    by rewrite (nth_map 0) // scalerA mulrC.
  Qed.

  Lemma feldman_verify_iff c0 cs (s : share B) :
    feldman_verify dec G (c0 :: cs) s = Ok tt <->
    (0 < s.1)%N /\ exists v, [/\ dec s.2 = Some v, v <> 0 & v *: G = ceval (c0 :: cs) (s.1)%:R].
  Proof.
    rewrite /feldman_verify; case Ev: (validate dec s) => [[]||] /=.
    - move/validate_ok: (Ev) => [H0 [v [Hv Nv]]]; rewrite Hv commit_evalE; split.
        by case: eqP => // E _; split=> //; exists v.
      by case=> _ [v' [[<-] _ ->]]; rewrite eqxx.
    - split=> // [[H0 [v [Hv Nv _]]]].
      have /validate_ok : usable dec s by split=> //; exists v.
      by rewrite Ev.
    - split=> // [[H0 [v [Hv Nv _]]]].
      have /validate_ok : usable dec s by split=> //; exists v.
      by rewrite Ev.
  Qed.

  Lemma pedersen_verify_iff H c0 cs (s bs : share B) :
    pedersen_verify dec G H (c0 :: cs) s bs = Ok tt <->
    [/\ (0 < s.1)%N, (0 < bs.1)%N & exists v b, [/\ dec s.2 = Some v /\ v <> 0,
        dec bs.2 = Some b /\ b <> 0 & v *: G + b *: H = ceval (c0 :: cs) (s.1)%:R]].
  Proof.
    rewrite /pedersen_verify; split.
    - case Ev: (validate dec s) => [[]||] //=; case Eb: (validate dec bs) => [[]||] //=.
      move/validate_ok: Ev => [H0 [v [Hv Nv]]]; move/validate_ok: Eb => [H1 [b [Hb Nb]]].
      rewrite Hv Hb commit_evalE; case: eqP => // E _; split=> //; by exists v, b.
    - case=> H0 H1 [v [b [[Hv Nv] [Hb Nb] E]]].
      have /validate_ok -> : usable dec s by split=> //; exists v.
      have /validate_ok -> : usable dec bs by split=> //; exists b.
      by rewrite /= Hv Hb commit_evalE E eqxx.
  Qed.
End Feld.

Section LagCeval.
  Variables (F : fieldType) (V : lmodType F).

  (** interpolation at 0 of committed-polynomial points gives the first commitment *)
  Lemma lag_ceval (C : seq V) (xs : seq F) : uniq xs -> (size C <= size xs)%N ->
    \sum_(i <- iota 0 (size xs)) lag0 xs i *: ceval C xs`_i = nth 0 C 0.
  Proof.
    move=> U Hs; rewrite /ceval.
    under eq_bigr do rewrite scaler_sumr.
    rewrite exchange_big /=.
    transitivity (\sum_(j < size C) (j == 0%N :> nat)%:R *: nth 0 C j).
      apply: eq_bigr => j _.
      under eq_bigr do rewrite scalerA mulrC.
      rewrite -scaler_suml; congr (_ *: _).
      have := @lagrange0 _ xs ('X^j) U.
      rewrite size_polyXn hornerXn expr0n => <-; last by apply: leq_trans Hs; exact: ltn_ord.
      by apply: eq_bigr => i _; rewrite hornerXn.
    case: C Hs => [|c C] Hs; first by rewrite big_ord0.
    rewrite big_ord_recl /= scale1r big1 ?addr0 // => j _; by rewrite scale0r.
  Qed.
End LagCeval.

Lemma commits_map (F : fieldType) (V : lmodType F) (G : V) (c : seq F) t : size c = t ->
  [seq c`_i *: G | i <- iota 0 t] = [seq a *: G | a <- c].
Proof.
  move=> <-; apply: (@eq_from_nth _ 0); first by rewrite !size_map size_iota.
  move=> i; rewrite size_map size_iota => Hi.
  by rewrite (nth_map 0%N) ?size_iota // nth_iota // (nth_map 0).
Qed.
