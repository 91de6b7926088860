(** C56: the inner product argument of crypto/bulletproof is complete, for every power-of-two length. *)
From mathcomp Require Import all_ssreflect all_algebra.
From Coq Require Import BinNat NArith Nnat Lia String Ring.
From Verif Require Import AlgBase VRing ByteVec SchnorrModel SimplestOtModel BpModel BbsPokProps BpProofs.
Delimit Scope nat_scope with N.
Delimit Scope N_scope with num.
Set Implicit Arguments.
Unset Strict Implicit.
Unset Printing Implicit Defensive.
Import GRing.Theory.
Local Open Scope ring_scope.

(** the power-of-two test *)
Lemma power_of_two_spec n : (0 < n)%N -> reflect (exists k, n = (2 ^ k)%N) (is_power_of_two n).
Proof.
  case: n => // n _; have pow k : N.of_nat (2 ^ k)%N = (2 ^ N.of_nat k)%num.
    by elim: k => [|k IH] //; rewrite expnS Nat2N.inj_succ N.pow_succ_r' Nat2N.inj_mul IH.
  apply: (iffP eqP) => [|[k E]].
  - move=> L; set i := N.of_nat n.+1 in L; have ip : (0 < i)%num by rewrite /i; lia.
    exists (N.to_nat (N.log2 i)); have [lo hi] := N.log2_spec i ip.
    apply: Nat2N.inj; rewrite pow N2Nat.id -/i.
    case: (N.eq_dec i (2 ^ N.log2 i)) => // ne.
    have e : N.of_nat n = (i - 1)%num by rewrite /i; lia.
    have lg : N.log2 (N.of_nat n) = N.log2 i by apply: N.log2_unique; rewrite ?e; lia.
    have nz : N.of_nat n <> 0%num by move=> z; apply: ne; have -> : i = 1%num by lia.
    have := N.land_spec i (N.of_nat n) (N.log2 i).
    by rewrite L N.bits_0 N.bit_log2; [rewrite -lg N.bit_log2 | lia].
  - have -> : N.of_nat n = N.ones (N.of_nat k).
      rewrite N.ones_equiv -pow -E; lia.
    by rewrite E pow N.land_ones N.mod_same //; apply: N.pow_nonzero.
Qed.

Section C56.
  Variables (F : fieldType) (V : lmodType F).
  Variables (enc : V -> bytes) (wide : bytes -> option F) (ext : transcript -> bytes).
  Add Ring tvring3 : (tv_ring V).

  (** specification: the commitment to two vectors and their inner product, with the first generators of G and H *)
  Definition ip_commitment (G H : seq V) (a b : seq F) (u : V) : V :=
    \sum_(i < size a) a`_i *: G`_i + \sum_(i < size a) b`_i *: H`_i + (\sum_(i < size a) a`_i * b`_i) *: u.

  Lemma vdot_take (G : seq V) (a : seq F) n : size a = n -> (n <= size G)%N -> vdot (take n G) a = \sum_(i < n) a`_i *: G`_i.
  Proof.
    move=> sa le; rewrite (@vdot_nth _ _ _ _ n) ?size_takel //.
    by apply: eq_bigr => i _; rewrite nth_take.
  Qed.
  Lemma commitment_vdot (G H : seq V) (a b : seq F) (u : V) : size b = size a -> (size a <= size G)%N -> (size a <= size H)%N ->
    ip_commitment G H a b u = vdot (take (size a) G) a + vdot (take (size a) H) b + dot a b *: u.
  Proof. by move=> sb le le'; rewrite !vdot_take // (@dot_nth _ a b (size a)). Qed.

  (** what a successful Prove says about its input *)
  Lemma prove_inv (G H : seq V) (a b : seq F) (u : V) t pf : prove enc wide ext G H a b u t = Ok pf ->
    [/\ exists k, size a = (2 ^ k)%N, size b = size a, size G = size H, (size a <= size G)%N &
        prove_rec enc wide ext (size a) a b [::] [::] (take (size a) G) (take (size a) H) u t = Ok pf].
  Proof.
    rewrite /prove; case: ifP => // /negbFE p2; case: eqP => //= sGH; rewrite /inner_product.
    case: eqP => //= sab; case: ltnP => //= sa; case: ltnP => //= le; rewrite -sab.
    move=> E; have [_ _ E1] := rbind_ok E; have [_ _ E2] := rbind_ok E1.
    by split=> //; apply/power_of_two_spec.
  Qed.

  (** C56: the verifier's answer on an honest proof, against any commitment P, is whether P is the commitment to the
      vectors. The length is below 2^63, as for every Go slice. *)
  Theorem C56_honest_proof_verifies (G H : seq V) (a b : seq F) (u P : V) (t : transcript) (pf : ipp V) :
    prove enc wide ext G H a b u t = Ok pf -> (size a < 2 ^ 63)%N ->
    verify enc wide ext G H P u pf t = Ok (P == ip_commitment G H a b u).
  Proof.
    move=> E lt; have [[k Ek] sb sGH le E2] := prove_inv E.
    have sT (s : seq V) : (size a <= size s)%N -> size (take (size a) s) = (2 ^ k)%N by move=> l; rewrite size_takel.
    have k63 : (k < 63)%N by move: lt; rewrite Ek ltn_exp2l.
    have leH : (size a <= size H)%N by rewrite -sGH.
    have [Ls [Rs [t' [xs [EL ER [sL sR sx] Exs [nz Eq]]]]]] :=
      prove_rec_ok Ek (etrans sb Ek) (sT _ le) (sT _ leH) E2.
    rewrite /= in EL ER.
    have Ex : getxs enc wide ext t (ip_L pf) (ip_R pf) = Ok (t', xs) by rewrite EL ER.
    rewrite (verify_eq P u sGH _ _ _ Ex nz) ?EL ?ER ?sL ?sR ?sx -?Ek //.
    rewrite Eq (commitment_vdot u sb le leH) eq_sym; congr Ok.
    by rewrite (inj_eq (addIr _)).
  Qed.

  (** Prove succeeds whenever the lengths fit and the hash yields usable challenges *)
  Theorem C56_prover_succeeds (G H : seq V) (a b : seq F) (u : V) (t : transcript) k :
    usable_challenges wide ext -> size a = (2 ^ k)%N -> size b = size a -> size G = size H -> (size a <= size G)%N ->
    exists pf, prove enc wide ext G H a b u t = Ok pf.
  Proof.
    move=> U sa sb sGH le; have s0 : (0 < size a)%N by rewrite sa expn_gt0.
    have p2 : is_power_of_two (size a) by apply/power_of_two_spec => //; exists k.
    have leH : (size a <= size H)%N by rewrite -sGH.
    rewrite /prove p2 /= sGH eqxx /= (@inner_product_ok _ _ _ (size a)) //= -sGH ltnNge le /=.
    rewrite sb !(@msm_ok _ _ _ _ (size a)) ?size_takel //=.
    apply: (@prove_rec_total _ _ _ _ _ k) => //; rewrite ?size_takel ?sb -?sa //.
    by rewrite sa; apply: ltnW; exact: ltn_expl.
  Qed.

  Theorem C56_complete (G H : seq V) (a b : seq F) (u : V) (t : transcript) k :
    usable_challenges wide ext -> (k < 63)%N -> size a = (2 ^ k)%N -> size b = size a -> size G = size H -> (size a <= size G)%N ->
    exists2 pf, prove enc wide ext G H a b u t = Ok pf &
      verify enc wide ext G H (ip_commitment G H a b u) u pf t = Ok true.
  Proof.
    move=> U k63 sa sb sGH le; have [pf E] := C56_prover_succeeds u t U sa sb sGH le; exists pf => //.
    by rewrite (C56_honest_proof_verifies _ E) ?eqxx // sa ltn_exp2l.
  Qed.

  (** the commitment computed by getP is that one *)
  Theorem C56_commitment (G H : seq V) (a b : seq F) (u P : V) : get_p G H a b u = Ok P -> P = ip_commitment G H a b u.
  Proof.
    rewrite /get_p; case: ifP => // _; case: eqP => //= sGH; rewrite /inner_product.
    case: eqP => //= sab; case: ltnP => //= sa; case: ltnP => //= le; rewrite -sab.
    have leH : (size a <= size H)%N by rewrite -sGH.
    rewrite !(@msm_ok _ _ _ _ (size a)) ?size_takel //= => -[<-].
    by rewrite commitment_vdot // foldl_dot add0r.
  Qed.

  (** refusals of the prover *)
  Theorem C56_prover_refuses (G H : seq V) (a b : seq F) (u : V) (t : transcript) :
    (forall k, size a <> (2 ^ k)%N) \/ size b <> size a \/ size G <> size H \/ (size G < size a)%N ->
    exists e, prove enc wide ext G H a b u t = Err e.
  Proof.
    rewrite /prove => bad; case: ifP => [_|/negbFE p2]; first by eexists.
    case: eqP => //= sGH; last by eexists.
    rewrite /inner_product; case: eqP => //= sab; last by eexists.
    case: ltnP => //= s0; first by eexists.
    case: ltnP => //= le; first by eexists.
    case: bad => [bad|[bad|[bad|bad]]] //; exfalso.
    - by have /power_of_two_spec := p2; case=> // k; exact: bad.
    - exact: bad.
    - by move: le; rewrite leqNgt bad.
  Qed.

  (** the acceptance equation for an arbitrary proof: with the challenges xs of the transcript, entry i of the generators
      is weighted with the product of xs_j or its inverse, by bit j of i counted from the top *)
  Definition weight (xs : seq F) (i : nat) : F :=
    \prod_(j < size xs) (if odd (i %/ 2 ^ (size xs - j.+1))%N then xs`_j else xs`_j^-1).
  Lemma s_of_weight xs i : (i < 2 ^ size xs)%N -> (s_of xs)`_i = weight xs i.
  Proof.
    elim: xs i => [|x xs IH] i lt; rewrite /weight; first by rewrite big_ord0 /=; case: i lt.
    rewrite nth_s_of // big_ord_recl /= subSS subn0; congr (_ * _).
    have P : (0 < 2 ^ size xs)%N by rewrite expn_gt0.
    rewrite IH ?ltn_mod // /weight; apply: eq_bigr => j _ /=.
    have -> : odd (i %% 2 ^ size xs %/ 2 ^ (size xs - j.+1))%N = odd (i %/ 2 ^ (size xs - j.+1))%N; last by [].
    have D : (2 ^ size xs = 2 ^ j.+1 * 2 ^ (size xs - j.+1))%N by rewrite -expnD subnKC.
    have -> : (i %/ 2 ^ (size xs - j.+1) = i %/ 2 ^ size xs * 2 ^ j * 2 + i %% 2 ^ size xs %/ 2 ^ (size xs - j.+1))%N.
      by rewrite -divnMDl ?expn_gt0 // -[(_ * 2)%N]mulnA -expnSr -mulnA -D -divn_eq.
    by rewrite oddD oddM andbF.
  Qed.

  (** the challenges of the rounds: each is drawn from the transcript extended with the encodings of L and R *)
  Fixpoint round_challenges (t : transcript) (Ls Rs : seq V) (xs : seq F) : Prop :=
    match Ls, Rs, xs with
    | [::], [::], [::] => True
    | L :: Ls', R :: Rs', x :: xs' =>
        let t' := t ++ [:: TAppend "addRecursiveL"%string (enc L); TAppend "addRecursiveR"%string (enc R); TExtract "getx"%string 64] in
        wide (ext t') = Some x /\ round_challenges t' Ls' Rs' xs'
    | _, _, _ => False
    end.
  Lemma round_challenges_getxs t Ls Rs xs : round_challenges t Ls Rs xs -> exists t', getxs enc wide ext t Ls Rs = Ok (t', xs).
  Proof.
    elim: Ls Rs xs t => [|L Ls IH] [|R Rs] [|x xs] t //=; first by move=> _; exists t.
    rewrite /ipp_calcx /challenge rcons_cat /= => -[-> /IH [t' E]] /=; rewrite E /=; by exists t'.
  Qed.

  Theorem C56_verify_equation (G H : seq V) (P u : V) (p : ipp V) (t : transcript) (xs : seq F) :
    let k := size (ip_L p) in
    size G = size H -> (k < 63)%N -> size (ip_R p) = k -> (2 ^ k <= size G)%N ->
    round_challenges t (ip_L p) (ip_R p) xs -> (forall x, x \in xs -> x != 0) ->
    verify enc wide ext G H P u p t
    = Ok (ip_a p *: (\sum_(i < 2 ^ k) weight xs i *: G`_i) + ip_b p *: (\sum_(i < 2 ^ k) (weight xs i)^-1 *: H`_i) + (ip_a p * ip_b p) *: u
          == P + \sum_(j < k) ((xs`_j * xs`_j) *: (ip_L p)`_j + (xs`_j * xs`_j)^-1 *: (ip_R p)`_j)).
  Proof.
    move=> k sGH k63 sR le Ec nz'; have [t' Ex] := round_challenges_getxs Ec.
    have nz : all (fun x => x != 0) xs by apply/allP.
    have sx : size xs = k.
      rewrite /k; clear -Ex sR; move: Ex sR; rewrite /k.
      elim: (ip_L p) (ip_R p) t t' xs => [|L Ls IH] [|R Rs] t t' xs //=; first by case=> _ <-.
      move=> E [sR]; have [[t1 x] _ E1] := rbind_ok E; have [[t2 ys] E3 [_ <-]] := rbind_ok E1.
      by rewrite /= (IH _ _ _ _ E3 sR).
    rewrite (verify_eq P u sGH k63 (esym sR) le Ex nz sx); congr Ok; congr (_ == _ + _).
    - have leH : (2 ^ k <= size H)%N by rewrite -sGH.
      rewrite /lhs_of sx (@vdot_nth _ _ _ _ (2 ^ k)%N) ?size_takel // ?size_s_of ?sx //.
      rewrite (@vdot_nth _ _ _ _ (2 ^ k)%N) ?size_takel // ?size_map ?size_s_of ?sx //.
      congr (_ *: _ + _ *: _ + _); apply: eq_bigr => i _; rewrite ?(nth_map 0) ?size_s_of ?sx // nth_take // s_of_weight ?sx //.
    - rewrite /k in sx sR *; clear -sx sR; move: sx sR.
      elim: (ip_L p) (ip_R p) xs => [|L Ls IH] [|R Rs] [|x xs] //=; first by rewrite big_ord0.
      by move=> [sx] [sR]; rewrite big_ord_recl /= (IH _ _ sx sR).
  Qed.
End C56.

(** a case: length 2 over the rationals, with challenges all 2 *)
Section C56_example.
  Let F := [fieldType of rat].
  Let enc (v : F^o) : bytes := [::].
  Let wide (b : bytes) : option F := Some 2%:R.
  Let ext (t : transcript) : bytes := [::].
  Lemma C56_example_usable : usable_challenges wide ext.
  Proof. by move=> t l; exists 2%:R. Qed.
  Theorem C56_example : exists2 pf,
    @prove F [lmodType F of F^o] enc wide ext [:: 1; 2%:R; 3%:R] [:: 5%:R; 7%:R; 11%:R] [:: 3%:R; 4%:R] [:: 1; 2%:R] 1 [::] = Ok pf &
    verify enc wide ext [:: 1; 2%:R; 3%:R] [:: 5%:R; 7%:R; 11%:R]
      (ip_commitment [:: 1; 2%:R; 3%:R] [:: 5%:R; 7%:R; 11%:R] [:: 3%:R; 4%:R] [:: 1; 2%:R] (1 : F^o)) 1 pf [::] = Ok true.
  Proof. by apply: (@C56_complete _ _ enc wide ext _ _ _ _ _ _ 1 C56_example_usable). Qed.
End C56_example.
