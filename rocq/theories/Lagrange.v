(** Polynomial interpolation over a field: library lemmas used by the secret-sharing, DKG and
    threshold-signature proofs. Nothing here models code. *)
From mathcomp Require Import all_ssreflect all_algebra.
From Coq Require Import Ring Field.
Set Implicit Arguments.
Unset Strict Implicit.
Unset Printing Implicit Defensive.
Import GRing.Theory.
Local Open Scope ring_scope.

Section Lag.
  Variable F : fieldType.

  (** the Lagrange basis polynomial of node number i *)
  Definition lag_basis (xs : seq F) (i : nat) : {poly F} :=
    \prod_(j <- iota 0 (size xs) | j != i) ((xs`_i - xs`_j)^-1 *: ('X - (xs`_j)%:P)).

  Lemma lag_basis_size (xs : seq F) i : (i < size xs)%N -> (size (lag_basis xs i) <= size xs)%N.
  Proof.
    move=> Hi; rewrite /lag_basis.
    have H : forall s : seq nat, (size (\prod_(j <- s | j != i)
        ((xs`_i - xs`_j)^-1 *: ('X - (xs`_j)%:P)))%R <= (count (fun j => j != i) s).+1)%N.
      elim=> [|a s IH]; first by rewrite big_nil size_poly1.
      rewrite big_cons /=; case: ifP => Ha /=; last by [].
      apply: leq_trans (size_mul_leq _ _) _.
      have : (size ((xs`_i - xs`_a)^-1 *: ('X - (xs`_a)%:P)) <= 2)%N.
        by apply: leq_trans (size_scale_leq _ _) _; rewrite size_XsubC.
      move=> H2; rewrite add1n -subn1 leq_subLR.
      have -> : (1 + (count (fun j => j != i) s).+2 = 2 + (count (fun j => j != i) s).+1)%N by [].
      exact: leq_add H2 IH.
    apply: leq_trans (H _) _.
    have := count_predC (pred1 i) (iota 0 (size xs)).
    rewrite size_iota -[X in (X + _)%N]/(count_mem i (iota 0 (size xs))).
    rewrite count_uniq_mem ?iota_uniq // mem_iota /= add0n Hi add1n => E.
    by rewrite -{}[X in (_ <= X)%N]E; apply: eq_leq; congr _.+1; apply: eq_count.
  Qed.

  Lemma lag_basis_same (xs : seq F) i : uniq xs -> (i < size xs)%N -> (lag_basis xs i).[xs`_i] = 1.
  Proof.
    move=> U Hi; rewrite /lag_basis horner_prod big_seq_cond big1 // => j.
    rewrite mem_iota /= add0n => /andP [Hj Hij].
    rewrite hornerZ hornerXsubC mulVf // subr_eq0 nth_uniq //; by rewrite eq_sym.
  Qed.

  Lemma lag_basis_other (xs : seq F) i k : (i < size xs)%N -> (k < size xs)%N -> k != i ->
    (lag_basis xs i).[xs`_k] = 0.
  Proof.
    move=> Hi Hk Hki; rewrite /lag_basis horner_prod.
    have Hm : k \in iota 0 (size xs) by rewrite mem_iota.
    rewrite (big_rem k) //= Hki hornerZ hornerXsubC subrr mulr0 mul0r //.
  Qed.

  (** the interpolating polynomial of the points (xs_i, ys_i) *)
  Definition interp (xs ys : seq F) : {poly F} :=
    \sum_(i <- iota 0 (size xs)) ys`_i *: lag_basis xs i.

  Lemma interp_size xs ys : (size (interp xs ys) <= size xs)%N.
  Proof.
    rewrite /interp big_seq; elim/big_rec: _ => [|i p]; first by rewrite size_poly0.
    rewrite mem_iota /= add0n => Hi IH.
    apply: leq_trans (size_add _ _) _; rewrite geq_max IH andbT.
    by apply: leq_trans (size_scale_leq _ _) (lag_basis_size Hi).
  Qed.

  Lemma interp_at (xs ys : seq F) k : uniq xs -> (k < size xs)%N -> (interp xs ys).[xs`_k] = ys`_k.
  Proof.
    move=> U Hk; rewrite /interp horner_sum.
    have Hm : k \in iota 0 (size xs) by rewrite mem_iota.
    rewrite (big_rem k) //= hornerZ lag_basis_same // mulr1.
    rewrite big_seq big1 ?addr0 // => i.
    rewrite mem_rem_uniq ?iota_uniq // !inE mem_iota /= add0n => /andP [Hik Hi].
    by rewrite hornerZ lag_basis_other ?mulr0 // eq_sym.
  Qed.

  (** two polynomials of at most m coefficients that agree on m distinct nodes are equal *)
  Lemma poly_agree (xs : seq F) (p q : {poly F}) : uniq xs ->
    (size p <= size xs)%N -> (size q <= size xs)%N ->
    (forall x, x \in xs -> p.[x] = q.[x]) -> p = q.
  Proof.
    move=> U Hp Hq E; apply/eqP; rewrite -subr_eq0; apply: contraT => N0.
    have : (size xs < size (p - q)%R)%N.
      apply: max_poly_roots => //; apply/allP => x Hx.
      by rewrite rootE hornerD hornerN E // subrr.
    rewrite ltnNge; case/negP; apply: leq_trans (size_add _ _) _.
    by rewrite geq_max size_opp Hp Hq.
  Qed.

  Lemma interp_unique (xs : seq F) (p : {poly F}) : uniq xs -> (size p <= size xs)%N ->
    interp xs [seq p.[x] | x <- xs] = p.
  Proof.
    move=> U Hp; apply: (poly_agree U) => //; first exact: interp_size.
    move=> x Hx; rewrite -(nth_index 0 Hx).
    rewrite interp_at ?index_mem // (nth_map 0) ?index_mem //.
  Qed.

  (** Lagrange coefficient at 0 of node number i: prod_{j<>i} xj/(xj - xi) *)
  Definition lag0 (xs : seq F) (i : nat) : F :=
    (\prod_(j <- iota 0 (size xs) | j != i) xs`_j) /
    (\prod_(j <- iota 0 (size xs) | j != i) (xs`_j - xs`_i)).

  Lemma lag_basis0 (xs : seq F) i : (lag_basis xs i).[0] = lag0 xs i.
  Proof.
    rewrite /lag_basis /lag0 horner_prod -prodf_div; apply: eq_bigr => j _.
    rewrite hornerZ hornerXsubC sub0r mulrC -[xs`_j - xs`_i]opprB invrN mulrN mulNr //.
  Qed.

  Lemma interp0 (xs ys : seq F) :
    (interp xs ys).[0] = \sum_(i <- iota 0 (size xs)) ys`_i * lag0 xs i.
  Proof. by rewrite /interp horner_sum; apply: eq_bigr => i _; rewrite hornerZ lag_basis0. Qed.

  (** interpolation at 0 of the values of a polynomial recovers the constant coefficient *)
  Lemma lagrange0 (xs : seq F) (p : {poly F}) : uniq xs -> (size p <= size xs)%N ->
    \sum_(i <- iota 0 (size xs)) p.[xs`_i] * lag0 xs i = p.[0].
  Proof.
    move=> U Hp; rewrite -[in RHS](interp_unique U Hp) interp0.
    rewrite !big_seq; apply: eq_bigr => i; rewrite mem_iota /= add0n => Hi.
    by rewrite (nth_map 0).
  Qed.

  (** the same with the values in a module *)
  Lemma lagrange0_scale (V : lmodType F) (G : V) (xs : seq F) (p : {poly F}) :
    uniq xs -> (size p <= size xs)%N ->
    \sum_(i <- iota 0 (size xs)) lag0 xs i *: (p.[xs`_i] *: G) = p.[0] *: G.
  Proof.
    move=> U Hp; rewrite -(lagrange0 U Hp) scaler_suml; apply: eq_bigr => i _.
    by rewrite scalerA mulrC.
  Qed.

  Lemma lag0_den (xs : seq F) i : uniq xs -> (i < size xs)%N ->
    \prod_(j <- iota 0 (size xs) | j != i) (xs`_j - xs`_i) != 0.
  Proof.
    move=> U Hi; rewrite prodf_seq_neq0; apply/allP => j.
    rewrite mem_iota /= add0n => Hj; apply/implyP => Hji.
    by rewrite subr_eq0 nth_uniq.
  Qed.
End Lag.
