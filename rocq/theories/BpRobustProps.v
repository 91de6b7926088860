(** C69: the bulletproof verifiers on malformed proofs. *)
From mathcomp Require Import all_ssreflect all_algebra.
From Coq Require Import BinNat NArith Nnat Lia String Ring.
From Verif Require Import AlgBase VRing ByteVec SchnorrModel SimplestOtModel KosProps ScalarCodec BpModel BpProofs BpRangeProofs BpRangeSpec BpRangeProps.
Delimit Scope nat_scope with N.
Delimit Scope N_scope with num.
Set Implicit Arguments.
Unset Strict Implicit.
Unset Printing Implicit Defensive.
Import GRing.Theory.
Local Open Scope ring_scope.

Section C69.
  Variables (F : fieldType) (V : lmodType F).
  Variables (enc : V -> bytes) (wide : bytes -> option F) (ext : transcript -> bytes).

  Lemma getxs_total t (Ls Rs : seq V) : size Ls = size Rs ->
    (exists t' xs, getxs enc wide ext t Ls Rs = Ok (t', xs) /\ size xs = size Ls) \/ exists e, getxs enc wide ext t Ls Rs = Err e.
  Proof.
    elim: Ls Rs t => [|L Ls IH] [|R Rs] t //=; first by left; exists t, [::].
    case=> sz; rewrite /ipp_calcx /challenge; case: (wide _) => [x|] /=; last by right; eexists.
    case: (IH Rs (rcons (t ++ [:: TAppend "addRecursiveL" (enc L); TAppend "addRecursiveR" (enc R)]) (TExtract "getx" 64)) sz).
    - by case=> [t' [xs [-> sx]]]; left; exists t', (x :: xs); rewrite /= sx.
    - by case=> e ->; right; exists e.
  Qed.

  (** the inner product verifier answers on every proof with fewer than 63 rounds *)
  Theorem C69_ipp_verifier_answers_partial (G H : seq V) (P u : V) (p : ipp V) (t : transcript) :
    (size (ip_L p) < 63)%N -> verify enc wide ext G H P u p t <> Panic.
  Proof.
    move=> k63; case: (size (ip_L p) =P size (ip_R p)) => [sLR|ne]; last by rewrite /verify; case: eqP.
    case: (size G =P size H) => [sGH|ne]; last by rewrite /verify sLR eqxx; case: eqP.
    case: (leqP (2 ^ size (ip_L p)) (size G)) => [le|gt]; last first.
      by rewrite /verify sLR eqxx sGH eqxx /= shift1_ok -?sLR //= -sGH gt.
    case: (getxs_total t sLR) => [[t' [xs [Ex sx]]]|[e Ex]].
    - case: (boolP (all (fun x => x != 0) xs)) => nz; first by rewrite (verify_eq P u sGH k63 sLR le Ex nz sx).
      rewrite /verify sLR eqxx sGH eqxx /= shift1_ok -?sLR //= -sGH ltnNge le /= Ex /=.
      by rewrite gets_new_zero ?expn_gt0.
    - by rewrite /verify sLR eqxx sGH eqxx /= shift1_ok -?sLR //= -sGH ltnNge le /= Ex.
  Qed.

  (** with 63 or more rounds it panics: 1 << 63 is negative and 1 << 64 is 0 (ipp_verifier.go:43) *)
  Theorem C69_ipp_many_rounds_refuted (G H : seq V) (P u : V) (p : ipp V) (t : transcript) :
    size G = size H -> size (ip_L p) = size (ip_R p) -> (63 <= size (ip_L p))%N -> verify enc wide ext G H P u p t = Panic.
  Proof. by move=> sGH sLR k; rewrite /verify sLR eqxx sGH eqxx /= /shift1 -sLR k. Qed.

  (** the range proof verifier does not compare the number of rounds with n: an honest proof whose inner product proof is
      replaced by one with another number of rounds makes it panic (ipp_verifier.go:74-98) *)
  Variables (sbytes : F -> bytes) (setbytes : bytes -> option F) (val : F -> N).
  Hypothesis IS : int_scalars sbytes setbytes val.
  Add Ring tvring7 : (tv_ring V).
  Theorem C69_range_verifier_panics_refuted (G H : seq V) (v gamma : F) (n k : nat) (pg : range_gens V) (rnd : range_rnd F) (t : transcript) p :
    n = (2 ^ k)%N -> (1 < n <= 256)%N -> (n <= size G)%N -> (n <= size H)%N ->
    range_prove enc wide ext sbytes setbytes val G H v gamma n pg rnd t = Ok p ->
    range_verify enc wide ext G H
      (RangeProof (rp_A p) (rp_S p) (rp_T1 p) (rp_T2 p) (rp_taux p) (rp_mu p) (rp_that p) (Ipp 0 0 [::] [::]))
      (get_capV v gamma (rg_g pg) (rg_h pg)) pg n t = Panic.
  Proof.
    move=> En /andP [n1 n256] sG sH E; have n0 := ltnW n1.
    have inr : ~ (2 ^ N.of_nat n < val v)%num.
      by move=> L; move: E; rewrite /range_prove ltnNge sG /=; case: N.ltb_spec0.
    move: E; rewrite (range_prove_eq enc wide ext IS) //.
    have sTG : size (take n G) = n by rewrite size_takel.
    have sTH : size (take n H) = n by rewrite size_takel.
    have Hq z : rbind (get2n F n) (fun tn => Ok (scale_scalars (z * z) tn)) = Ok (mkseq (fun i => 2%:R ^+ i * (z * z)) n) by rewrite get2n_mk //= scale_mk.
    rewrite (prove_core_eq enc wide ext rnd _ _ sTG sTH n1 Hq (fun z => erefl (Ok (v * (z * z)))) (fun z => erefl (Ok (z * z * gamma)))
      (delta_ok n1) (phmu_ok pg sG n1)) => E.
    have [[t1 [y z]] Eyz /= E1] := rbind_ok E; have [[t2 x] Ex /= E2] := rbind_ok E1.
    move: E2; case: eqP => // /eqP y0 E2; have [[t3 w] Ew /= E3] := rbind_ok E2; have [ip Ei [Ep]] := rbind_ok E3.
    rewrite /range_verify ltnNge sG /= /verify_core -Ep /= Eyz /= Ex /= Ew /= (delta_ok n1) /= /check_that /=.
    set lhs := _ + _; set rhs := _ + _ + _ + _; have -> : lhs = rhs.
      rewrite /lhs /rhs /cthat /ctaux /cT1 /cT2 /get_capV.
      by move: (ct1 _ _ _ _ _ _) (ct2 _ _ _) (_ - _) => *; vpsi V; ring.
    rewrite eqxx /= (get_h'_mk sTH) //= (phmu_ok pg sG n1) ?size_mkseq //= /verify_from_range /= /get_lhs /= /invert oner_eq0 /= /msm /=.
    by rewrite sTG; case: (n) n1 => [|[|]].
  Qed.
End C69.
