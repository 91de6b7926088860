(** C59: batched range proofs of crypto/bulletproof. *)
From mathcomp Require Import all_ssreflect all_algebra.
From Coq Require Import BinNat NArith Nnat Lia String Ring.
From Verif Require Import AlgBase VRing ByteVec SchnorrModel SimplestOtModel KosProps ScalarCodec BpModel BpProofs BpRangeProofs BpRangeSpec BpRangeProps.
Delimit Scope nat_scope with N.
Delimit Scope N_scope with num.
Set Implicit Arguments.
Unset Strict Implicit.
Unset Printing Implicit Defensive.
Import GRing.Theory.
Local Open Scope ring_scope.

Lemma blocks (R : zmodType) n m (f : nat -> R) :
  \sum_(i < n * m) f i = \sum_(j < m) \sum_(i < n) f (j * n + i)%N.
Proof.
  elim: m => [|m IH]; first by rewrite muln0 !big_ord0.
  rewrite mulnS addnC -(big_mkord xpredT) (@big_cat_nat _ _ _ (n * m)) ?leq_addr //= big_mkord IH big_ord_recr /=; congr (_ + _).
  rewrite -{1}[(n * m)%N]addn0 addnC big_addn addKn big_mkord; apply: eq_bigr => i _.
  by rewrite [(m * n)%N]mulnC addnC.
Qed.
Lemma mkseq_blocks (A : Type) (f : nat -> A) n m : mkseq f (n * m.+1) = mkseq f (n * m) ++ mkseq (fun i => f (m * n + i)%N) n.
Proof.
  rewrite /mkseq mulnS addnC iotaD map_cat add0n; congr (_ ++ _).
  by rewrite mulnC -{1}[(m * n)%N]addn0 iotaDl -map_comp.
Qed.

Lemma iota_last s k : iota s k.+1 = iota s k ++ [:: (s + k)%N].
Proof. by rewrite -[in LHS]addn1 iotaD. Qed.

Section Batch.
  Variables (F : fieldType) (V : lmodType F).
  Variables (enc : V -> bytes) (wide : bytes -> option F) (ext : transcript -> bytes).
  Variables (sbytes : F -> bytes) (setbytes : bytes -> option F) (val : F -> N).
  Hypothesis IS : int_scalars sbytes setbytes val.
  Add Ring tvring6 : (tv_ring V).
  Notation prove := (batch_prove enc wide ext sbytes setbytes val).
  Notation verify := (verify_batched enc wide ext).

  Section Some.
    Variables (G H : seq V) (vs gs : seq F) (n : nat) (pg : range_gens V) (rnd : range_rnd F).
    Let m := size vs.
    Let nm := (n * m)%N.
    Hypothesis sG : (nm <= size G)%N.
    Hypothesis sH : (nm <= size H)%N.
    Hypothesis sgs : size gs = m.
    Hypothesis n0 : (0 < n)%N.
    Hypothesis m1 : (1 < m)%N.
    Let n1 : (1 < nm)%N. Proof. by apply: leq_trans m1 _; rewrite /nm leq_pmull. Qed.
    Let a := fun j => (nbit (n_of_le (sbytes vs`_(j %/ n)%N)) (j %% n))%:R : F.
    Let Q := fun z i => 2%:R ^+ (i %% n)%N * z ^+ (i %/ n).+2 : F.
    Let sv := fun z => \sum_(j < m) z ^+ j.+2 * vs`_j : F.
    Let gm := fun z => \sum_(j < m) z ^+ j.+2 * gs`_j : F.
    Let dl := fun y z => (z - z * z) * (\sum_(i < nm) y ^+ i) - \sum_(j < m) z ^+ j.+3 * (\sum_(i < n) 2%:R ^+ i) : F.

    Lemma divb j i : (i < n)%N -> ((j * n + i) %/ n = j)%N /\ ((j * n + i) %% n = i)%N.
    Proof. by move=> lt; rewrite divnMDl // modnMDl divn_small // modn_small // addn0. Qed.

    Lemma get_aL_batched_eq : (n <= 256)%N -> get_aL_batched sbytes setbytes vs n = Ok (mkseq a nm).
    Proof.
      move=> n256.
      have G1 k (ws : seq F) : (forall j, (j < size ws)%N -> ws`_j = vs`_(k + j)) ->
        get_aL_batched sbytes setbytes ws n = Ok [seq a i | i <- iota (k * n) (n * size ws)].
        elim: ws k => [|w ws IH] k E /=; first by rewrite muln0.
        rewrite (get_aL_eq IS) //= (IH k.+1) => [|j lt]; last by rewrite addSnnS -E.
        rewrite /= mulnS iotaD map_cat mulSn [(n + k * n)%N]addnC; congr Ok; congr (_ ++ _).
        rewrite -{1}[(k * n)%N]addn0 iotaDl -map_comp; apply/eq_in_map => i; rewrite mem_iota add0n => /andP [_ lt] /=.
        by rewrite /a; have [-> ->] := divb k lt; rewrite -[w]/((w :: ws)`_0) E // addn0.
      by rewrite (G1 0%N) // mul0n.
    Qed.
    Lemma sum_term_eq z : sum_term z n m = Ok (mkseq (Q z) nm).
    Proof.
      rewrite /sum_term get2n_mk //=; congr Ok.
      suff -> : foldl (fun st _ => (st.1 * z, st.2 ++ scale_scalars (st.1 * z) (mkseq (fun i => 2%:R ^+ i) n))) (z, [::]) (iota 0 m)
        = (z ^+ m.+1, mkseq (Q z) nm) by [].
      rewrite /nm; elim: (m) => [|k IH]; first by rewrite muln0 expr1.
      rewrite iota_last foldl_cat IH /= mkseq_blocks -exprSr; congr (_, _ ++ _); rewrite scale_mk.
      apply/eq_in_map => i; rewrite mem_iota add0n => /andP [_ lt]; rewrite /Q; by have [-> ->] := divb k lt.
    Qed.
    Lemma delta_b_ok y z : delta_yz_batched y z n m = Ok (dl y z).
    Proof.
      rewrite /delta_yz_batched getkn_mk //= get1n_mk inner_mk ?(ltnW n1) //= get2n_mk //= get1n_mk inner_mk //=; congr Ok.
      rewrite /dl; congr (_ * _ - _); first by apply: eq_bigr => i _; rewrite mul1r.
      have -> : \sum_(i < n) 1 * 2%:R ^+ i = \sum_(i < n) 2%:R ^+ i :> F by apply: eq_bigr => i _; rewrite mul1r.
      move: (\sum_(i < n) _) => d.
      suff -> : foldl (fun st _ => (st.1 * z, st.2 + st.1 * z * d)) (z * z, 0) (iota 1 m)
        = (z ^+ m.+2, \sum_(j < m) z ^+ j.+3 * d) by [].
      elim: (m) => [|k IH]; first by rewrite big_ord0 expr2.
      by rewrite iota_last foldl_cat IH /= big_ord_recr -exprSr.
    Qed.
    Lemma sumv_ok z : rbind (getkn z m) (fun zm => Ok (foldl (fun acc x => acc + x.1 * x.2) 0 (zip (scale_scalars (z * z) zm) vs))) = Ok (sv z) :> res bp_err F.
    Proof.
      rewrite getkn_mk //= scale_mk; congr Ok.
      have -> (s : seq (F * F)) : foldl (fun acc x => acc + x.1 * x.2) 0 s = \sum_(x <- s) x.1 * x.2.
        by elim/last_ind: s => [|s x IH]; rewrite ?big_nil // foldl_rcons -cats1 big_cat big_seq1 /= -IH.
      rewrite -/(dot _ _) (@dot_nth _ _ _ m) ?size_mkseq //; apply: eq_bigr => j _; rewrite nth_mkseq //.
      by congr (_ * _); rewrite -expr2 -exprD addn2.
    Qed.
    Lemma gam_ok z : (foldl (fun st ga => (st.1 * z, st.2 + st.1 * z * ga)) (z, 0) (take m gs)).2 = gm z.
    Proof.
      have -> : take m gs = gs by rewrite -sgs take_size.
      rewrite /gm -sgs; suff -> : foldl (fun st ga => (st.1 * z, st.2 + st.1 * z * ga)) (z, 0) gs
        = (z ^+ (size gs).+1, \sum_(j < size gs) z ^+ j.+2 * gs`_j) by [].
      elim/last_ind: gs => [|s x IH]; first by rewrite big_ord0 expr1.
      rewrite foldl_rcons IH /= size_rcons big_ord_recr /= -exprSr nth_rcons ltnn eqxx; congr (_, _ + _).
      by apply: eq_bigr => j _; rewrite nth_rcons ltn_ord.
    Qed.
    Lemma phmu_b_ok h' A S x y z mu : size h' = nm ->
      get_phmu_batched (take nm G) h' (rg_h pg) A S x y z mu n m = Ok (cphmu (take nm G) pg nm Q h' A S x y z mu).
    Proof.
      move=> sh; rewrite /get_phmu_batched get2n_mk //=.
      have L k : (k <= m)%N -> foldl (fun (r : res bp_err (F * V)) j => rbind r (fun st =>
             rbind (msm (take n (drop (j * n) h')) (scale_scalars (st.1 * z) (mkseq (fun i => 2%:R ^+ i) n))) (fun el => Ok (st.1 * z, st.2 + el))))
             (Ok (z, 0)) (iota 0 k) = Ok (z ^+ k.+1, \sum_(j < k) \sum_(i < n) Q z (j * n + i)%N *: h'`_(j * n + i)).
        elim: k => [|k IH] le; first by rewrite big_ord0 expr1.
        rewrite iota_last foldl_cat IH 1?ltnW //= add0n scale_mk.
        have sz : size (take n (drop (k * n) h')) = n.
          rewrite size_takel // size_drop sh /nm leq_subRL; last by rewrite mulnC leq_pmul2l // ltnW.
          by rewrite addnC -mulSn mulnC leq_pmul2l.
        rewrite (msm_mk _ sz) /= big_ord_recr /= -exprSr; congr (Ok (_, _ + _)).
        by apply: eq_bigr => i _; rewrite nth_take // nth_drop /Q; have [-> ->] := divb k (ltn_ord i).
      rewrite L //= getkn_mk //= scale_mk (msm_mk _ sh) /= get1n_mk scale_mk msm_mk ?size_takel //= /cphmu; congr Ok.
      congr (_ + _ + _ - _); first by apply: eq_bigr => i _; rewrite mul1r.
      by rewrite -(blocks n m (fun i => Q z i *: h'`_i)) -big_split; apply: eq_bigr => i _ /=; rewrite -scalerDl addrC.
    Qed.

    Definition commitments : seq V := [seq get_capV x.1 x.2 (rg_g pg) (rg_h pg) | x <- zip vs gs].

    Lemma batch_prove_eq t : (n <= 256)%N -> all (fun v => check_range val v n) vs ->
      prove G H vs gs n pg rnd t
      = prove_core enc wide ext (take nm G) (take nm H) pg rnd nm (mkseq a nm) commitments
           (fun z => sum_term z n m)
           (fun z => rbind (getkn z m) (fun zm => Ok (foldl (fun acc x => acc + x.1 * x.2) 0 (zip (scale_scalars (z * z) zm) vs))))
           (fun z => Ok (foldl (fun st ga => let ze := st.1 * z in (ze, st.2 + ze * ga)) (z, 0) (take m gs)).2)
           (fun y z => delta_yz_batched y z n m)
           (fun h' A S x y z mu => get_phmu_batched (take nm G) h' (rg_h pg) A S x y z mu n m) t.
    Proof.
      move=> n256 inr; rewrite /batch_prove -/m -/nm ltnNge sG /= inr /= get_aL_batched_eq //=.
      by rewrite /capVs sgs ltnn.
    Qed.

    Lemma batch_ct0 y z : ct0 nm a Q y z = \sum_(j < m) z ^+ j.+2 * encoded sbytes vs`_j n + dl y z.
    Proof.
      rewrite (ct0_bits V) => [|i _]; last exact: bit_sq.
      rewrite /dl (blocks n m (fun i => a i * Q z i)) (blocks n m (Q z)); congr (_ + (_ - _)).
      - apply: eq_bigr => j _; rewrite /encoded -low_bits mulr_sumr; apply: eq_bigr => i _.
        by rewrite /a /Q; have [-> ->] := divb j (ltn_ord i); rewrite mulrA mulrC.
      - rewrite mulr_sumr; apply: eq_bigr => j _; rewrite !mulr_sumr; apply: eq_bigr => i _.
        by rewrite /Q; have [-> ->] := divb j (ltn_ord i); rewrite [z ^+ j.+3]exprS -[RHS]mulrA; congr (_ * _); exact: mulrC.
    Qed.

    Lemma batch_verdict k p t : nm = (2 ^ k)%N -> (k < 63)%N -> (n <= 256)%N -> prove G H vs gs n pg rnd t = Ok p ->
      exists z w t1 t2 t3 t4, [/\ challenge wide ext t1 "getz"%string = Ok (t2, z), challenge wide ext t3 "getw"%string = Ok (t4, w) &
        verify G H p commitments pg n t
        = Ok ((w * \sum_(j < m) z ^+ j.+2 * (vs`_j - encoded sbytes vs`_j n)) *: rg_u pg == 0)].
    Proof.
      move=> En k63 n256 E.
      have inr : all (fun v => check_range val v n) vs.
        by move: E; rewrite /batch_prove; case: ifP => // _; case: ifP => // /negbFE.
      move: E; rewrite batch_prove_eq // => E.
      set VV := fun z => \sum_(j < m) z ^+ j.+2 *: commitments`_j.
      have sC : size commitments = m by rewrite size_map size_zip sgs minnn.
      have HVV z : VV z = sv z *: rg_g pg + gm z *: rg_h pg.
        rewrite /VV /sv /gm !scaler_suml -big_split; apply: eq_bigr => j _ /=.
        rewrite (nth_map (0, 0)) ?size_zip ?sgs ?minnn // nth_zip ?sgs //= /get_capV addrC.
        by move: vs`_j gs`_j (z ^+ _) (rg_g pg) (rg_h pg) => ? ? ? p1 p2; vpsi V; ring.
      have sTG : size (take nm G) = nm by rewrite size_takel.
      have sTH : size (take nm H) = nm by rewrite size_takel.
      have Hg z : Ok (foldl (fun st ga => (st.1 * z, st.2 + st.1 * z * ga)) (z, 0) (take m gs)).2 = Ok (gm z) :> res bp_err F by rewrite gam_ok.
      have Hc d x z : check_that_batched p commitments (rg_g pg) (rg_h pg) d x z m
        = Ok (rp_that p *: rg_g pg + rp_taux p *: rg_h pg == VV z + d *: rg_g pg + x *: rp_T1 p + (x * x) *: rp_T2 p).
        rewrite /check_that_batched getkn_mk //= scale_mk msm_mk //=; congr Ok; congr (_ == _ + _ + _ + _).
        by apply: eq_bigr => j _; congr (_ *: _); rewrite -expr2 -exprD addn2.
      have [y [z [w [t1 [t2 [t3 [Eyz Ew y0 Ev]]]]]]] := core_verify sTG sTH n1 sum_term_eq sumv_ok Hg delta_b_ok phmu_b_ok HVV En k63 Hc E.
      move: Eyz; rewrite /calc_yz; set tt := t ++ _ => Eyz.
      have [[t4 y'] _ /= Eyz1] := rbind_ok Eyz; have [[t5 z'] Ez [_ _ ez]] := rbind_ok Eyz1; rewrite /= in ez; subst z'.
      exists z, w, t4, t5, t2, t3; split=> //.
      rewrite /verify_batched sC -/nm ltnNge sG /= Ev batch_ct0 -subr_eq0 /sv; congr Ok; congr (_ == 0).
      have -> : \sum_(j < m) z ^+ j.+2 * (vs`_j - encoded sbytes vs`_j n)
        = \sum_(j < m) z ^+ j.+2 * vs`_j - \sum_(j < m) z ^+ j.+2 * encoded sbytes vs`_j n.
        by rewrite -sumrB; apply: eq_bigr => j _; rewrite mulrBr.
      by move: (dl y z) (\sum_(j < m) _) (\sum_(j < m) _) (rg_u pg) => d e e' u; vpsi V; ring.
    Qed.

    Lemma batch_total k t : usable_challenges wide ext -> nm = (2 ^ k)%N -> (n <= 256)%N ->
      all (fun v => check_range val v n) vs -> exists p, prove G H vs gs n pg rnd t = Ok p.
    Proof.
      move=> U En n256 inr; rewrite batch_prove_eq //.
      have sTG : size (take nm G) = nm by rewrite size_takel.
      have sTH : size (take nm H) = nm by rewrite size_takel.
      have Hg z : Ok (foldl (fun st ga => (st.1 * z, st.2 + st.1 * z * ga)) (z, 0) (take m gs)).2 = Ok (gm z) :> res bp_err F by rewrite gam_ok.
      exact: (core_total enc rnd a commitments sTG sTH n1 sum_term_eq sumv_ok Hg delta_b_ok phmu_b_ok t U En).
    Qed.
  End Some.

  Lemma check_range_spec v n : check_range val v n <-> (val v <= 2 ^ N.of_nat n)%num.
  Proof. by rewrite /check_range N.shiftl_1_l; case: N.ltb_spec0; split=> //; lia. Qed.

  (** C59: n * m a power of two, at least two values, all below 2^n; the commitments are gamma h + v g *)
  Theorem C59_batch_verifies (G H : seq V) (vs gs : seq F) (n k : nat) (pg : range_gens V) (rnd : range_rnd F) (t : transcript) :
    let m := size vs in
    little_endian sbytes val -> usable_challenges wide ext ->
    (n * m)%N = (2 ^ k)%N -> (k < 63)%N -> (0 < n <= 256)%N -> (1 < m)%N -> size gs = m ->
    (n * m <= size G)%N -> (n * m <= size H)%N -> (forall v, v \in vs -> (val v < 2 ^ N.of_nat n)%num) ->
    exists2 p, prove G H vs gs n pg rnd t = Ok p &
      verify G H p [seq x.2 *: rg_h pg + x.1 *: rg_g pg | x <- zip vs gs] pg n t = Ok true.
  Proof.
    move=> m LE U En k63 /andP [n0 n256] m1 sgs sG sH inr.
    have [|p E] := batch_total pg rnd sG sH sgs n0 m1 t U En n256.
      by apply/allP => v vin; apply/check_range_spec; have := inr v vin; lia.
    exists p => //; have [z [w [? [? [? [? [_ _ Ev]]]]]]] := batch_verdict sG sH sgs n0 m1 En k63 n256 E.
    rewrite -/(commitments vs gs pg) Ev big1 ?mulr0 ?scale0r ?eqxx // => j _.
    by rewrite (encoded_little IS LE) ?subrr ?mulr0 //; apply: inr; apply: mem_nth.
  Qed.
  Theorem C59_any_batch_proof_verifies (G H : seq V) (vs gs : seq F) (n k : nat) (pg : range_gens V) (rnd : range_rnd F) (t : transcript) p :
    let m := size vs in
    little_endian sbytes val -> (n * m)%N = (2 ^ k)%N -> (k < 63)%N -> (0 < n <= 256)%N -> (1 < m)%N -> size gs = m ->
    (n * m <= size G)%N -> (n * m <= size H)%N -> (forall v, v \in vs -> (val v < 2 ^ N.of_nat n)%num) ->
    prove G H vs gs n pg rnd t = Ok p ->
    verify G H p [seq x.2 *: rg_h pg + x.1 *: rg_g pg | x <- zip vs gs] pg n t = Ok true.
  Proof.
    move=> m LE En k63 /andP [n0 n256] m1 sgs sG sH inr E.
    have [z [w [? [? [? [? [_ _ Ev]]]]]]] := batch_verdict sG sH sgs n0 m1 En k63 n256 E.
    rewrite -/(commitments vs gs pg) Ev big1 ?mulr0 ?scale0r ?eqxx // => j _.
    by rewrite (encoded_little IS LE) ?subrr ?mulr0 //; apply: inr; apply: mem_nth.
  Qed.

  (** with big-endian scalars the honest batch of one nonzero value in range and zeros is rejected *)
  Theorem C59_big_endian_refuted (G H : seq V) (v : F) (gs : seq F) (n m k : nat) (pg : range_gens V) (rnd : range_rnd F) (t : transcript) :
    let vs := v :: nseq m 0 in
    big_endian sbytes val -> usable_challenges wide ext -> rg_u pg != 0 ->
    (n * m.+1)%N = (2 ^ k)%N -> (k < 63)%N -> (0 < n <= 128)%N -> (0 < m)%N -> size gs = m.+1 ->
    (n * m.+1 <= size G)%N -> (n * m.+1 <= size H)%N -> (0 < val v < 2 ^ N.of_nat n)%num ->
    exists2 p, prove G H vs gs n pg rnd t = Ok p &
      verify G H p [seq x.2 *: rg_h pg + x.1 *: rg_g pg | x <- zip vs gs] pg n t = Ok false.
  Proof.
    move=> vs BE U u0 En k63 /andP [n0 n128] m1 sgs sG sH [P L]; have n256 : (n <= 256)%N by exact: leq_trans n128 _.
    have sv : size vs = m.+1 by rewrite /= size_nseq.
    have m1' : (1 < size vs)%N by rewrite sv.
    have En' : (n * size vs = 2 ^ k)%N by rewrite sv.
    have sG' : (n * size vs <= size G)%N by rewrite sv.
    have sH' : (n * size vs <= size H)%N by rewrite sv.
    have sgs' : size gs = size vs by rewrite sv.
    have lt0 : (val 0 < 2 ^ N.of_nat n)%num by rewrite (is_zero IS); have := N.pow_nonzero 2 (N.of_nat n); lia.
    have [|p E] := batch_total pg rnd sG' sH' sgs' n0 m1' t U En' n256.
      rewrite /= (_ : check_range val v n) ?all_nseq; last by apply/check_range_spec; lia.
      by apply/orP; right; apply/check_range_spec; lia.
    exists p => //; have [z [w [ta [tb [tc [td [Ez Ew Ev]]]]]]] := batch_verdict sG' sH' sgs' n0 m1' En' k63 n256 E.
    have nz t' l t'' x : challenge wide ext t' l = Ok (t'', x) -> x != 0.
      by have [x' -> x0] := U t' l => -[_ <-].
    rewrite -/(commitments vs gs pg) Ev; congr Ok; apply/negbTE; rewrite scaler_eq0 negb_or u0 andbT.
    rewrite mulf_neq0 ?(nz _ _ _ _ Ew) // /vs /= big_ord_recl big1 => [|j _].
    - rewrite addr0 mulf_neq0 ?expf_neq0 ?(nz _ _ _ _ Ez) //= (encoded_big IS) // subr0; apply/eqP => e.
      by move: P; rewrite e (is_zero IS).
    - by rewrite /= nth_nseq if_same (encoded_big IS) // subrr mulr0.
  Qed.

  (** a batch of one value panics: the powers of z are set at index 0 and 1 (helpers.go:173-181) *)
  Theorem C59_single_panics (G H : seq V) (v gamma : F) (n : nat) (pg : range_gens V) (rnd : range_rnd F) (t : transcript) :
    usable_challenges wide ext -> (1 < n <= 256)%N -> (n <= size G)%N -> (n <= size H)%N -> (val v <= 2 ^ N.of_nat n)%num ->
    prove G H [:: v] [:: gamma] n pg rnd t = Panic.
  Proof.
    move=> U /andP [n1 n256] sG sH L; have n0 := ltnW n1; rewrite /batch_prove muln1 ltnNge sG /= (introT (idP) (_ : check_range val v n)) /=; last first.
      by apply/check_range_spec.
    rewrite (get_aL_eq IS) //= cats0.
    rewrite /prove_core get1n_mk sub_mk /= !msm_mk ?size_takel //= /calc_yz.
    set t1 := t ++ _; have [y -> y0] := U t1 "gety"%string; rewrite /=.
    have [z -> z0] := U (rcons t1 (TExtract "gety" 64)) "getz"%string; rewrite /=.
    rewrite scale_mk sub_mk /= /sum_term get2n_mk //= scale_mk add_mk /= getkn_mk //= !mul_mk /= add_mk /= !inner_mk //= /calc_x.
    set t2 := _ ++ [:: _; _]; have [x -> x0] := U t2 "getx"%string; rewrite /= !scale_mk !add_mk //=.
  Qed.
End Batch.

(** a case: the values 3 and 2, two bits each, over 'F_11 *)
Section BatchExample.
  Let F := [fieldType of 'F_11].
  Let V := [lmodType F of F^o].
  Let enc (v : V) : bytes := [::].
  Let wide (b : bytes) : option F := Some 2%:R.
  Let ext (t : transcript) : bytes := [::].
  Let G : seq V := [:: 1; 2%:R; 3%:R; 5%:R].
  Let H : seq V := [:: 4%:R; 5%:R; 6%:R; 7%:R].
  Let pg : range_gens V := RGens (1 : V) 7%:R 9%:R.
  Let rnd : range_rnd F := RRnd 1 2%:R 3%:R 4%:R (fun i => i%:R) (fun i => (i * i)%:R).
  Let U : usable_challenges wide ext. Proof. by move=> t l; exists 2%:R. Qed.
  Theorem C59_example : exists2 p,
    batch_prove enc wide ext (@fp_bytes_le 11) (@fp_setbytes_le 11) (@fp_val 11) G H [:: 3%:R; 2%:R] [:: 5%:R; 1] 2 pg rnd [::] = Ok p &
    verify_batched enc wide ext G H p [seq x.2 *: rg_h pg + x.1 *: rg_g pg | x <- zip [:: 3%:R; 2%:R : F] [:: 5%:R; 1]] pg 2 [::] = Ok true.
  Proof.
    have L11 : N.le (N.of_nat 11) (N.pow 2 256) by [].
    have [IS LE] := fp_int_scalars_le (isT : prime 11) L11.
    apply: (@C59_batch_verifies F V enc wide ext _ _ _ IS G H [:: 3%:R; 2%:R] [:: 5%:R; 1] 2 2 pg rnd [::] LE U) => //.
    by move=> v; rewrite !inE => /orP [] /eqP ->.
  Qed.
End BatchExample.
