(** Proofs about the range proofs: evaluation of the prover and the verifier on vectors given by their entries. *)
From mathcomp Require Import all_ssreflect all_algebra.
From Coq Require Import BinNat String Ring.
From Verif Require Import AlgBase VRing ByteVec SchnorrModel SimplestOtModel BpModel BbsPokProps BpProofs.
Delimit Scope nat_scope with N.
Delimit Scope N_scope with num.
Set Implicit Arguments.
Unset Strict Implicit.
Unset Printing Implicit Defensive.
Import GRing.Theory.
Local Open Scope ring_scope.

Section Mk.
  Variables (F : fieldType) (V : lmodType F).

  Lemma zip_mk (A B C : Type) (f : A * B -> C) (s : nat -> A) (t : nat -> B) n :
    [seq f x | x <- zip (mkseq s n) (mkseq t n)] = mkseq (fun i => f (s i, t i)) n.
  Proof.
    rewrite /mkseq; elim: n 0%N => [|n IH] j //=; congr (_ :: _); exact: IH.
  Qed.
  Lemma sub_mk (f e : nat -> F) n : sub_scalars (mkseq f n) (mkseq e n) = Ok (mkseq (fun i => f i - e i) n).
  Proof. by rewrite (@sub_scalars_ok _ _ _ n) ?size_mkseq // zip_mk. Qed.
  Lemma add_mk (f e : nat -> F) n : add_scalars (mkseq f n) (mkseq e n) = Ok (mkseq (fun i => f i + e i) n).
  Proof. by rewrite (@add_scalars_ok _ _ _ n) ?size_mkseq // zip_mk. Qed.
  Lemma mul_mk (f e : nat -> F) n : mul_scalars (mkseq f n) (mkseq e n) = Ok (mkseq (fun i => f i * e i) n).
  Proof. by rewrite (@mul_scalars_ok _ _ _ n) ?size_mkseq // zip_mk. Qed.
  Lemma scale_mk x (f : nat -> F) n : scale_scalars x (mkseq f n) = mkseq (fun i => f i * x) n.
  Proof. by rewrite /scale_scalars /mkseq -map_comp. Qed.
  Lemma get1n_mk n : get1n F n = mkseq (fun=> 1) n.
  Proof. by rewrite /get1n /mkseq; elim: n 0%N => [|n IH] j //=; congr (_ :: _). Qed.
  Lemma getkn_mk (k : F) n : (1 < n)%N -> getkn k n = Ok (mkseq (fun i => k ^+ i) n).
  Proof. by move=> n1; rewrite /getkn ltnNge n1. Qed.
  Lemma get2n_mk n : (0 < n)%N -> get2n F n = Ok (mkseq (fun i => 2%:R ^+ i) n).
  Proof.
    move=> n1; rewrite /get2n ltnNge n1 /=; congr Ok; apply: eq_map => i.
    by elim: i => [|i IH] //=; rewrite IH exprS -mulr2n mulr_natl.
  Qed.
  Lemma inner_mk (f e : nat -> F) n : (0 < n)%N -> inner_product (mkseq f n) (mkseq e n) = Ok (\sum_(i < n) f i * e i).
  Proof.
    move=> n0; rewrite (@inner_product_ok _ _ _ n) ?size_mkseq // (@dot_nth _ _ _ n) ?size_mkseq //; congr Ok.
    by apply: eq_bigr => i _; rewrite !nth_mkseq.
  Qed.
  Lemma vdot_mk (g : seq V) (f : nat -> F) n : size g = n -> vdot g (mkseq f n) = \sum_(i < n) f i *: g`_i.
  Proof.
    move=> sg; rewrite (@vdot_nth _ _ _ _ n) ?size_mkseq //.
    by apply: eq_bigr => i _; rewrite !nth_mkseq.
  Qed.
  Lemma msm_mk (g : seq V) (f : nat -> F) n : size g = n -> msm g (mkseq f n) = Ok (\sum_(i < n) f i *: g`_i).
  Proof. by move=> sg; rewrite (@msm_ok _ _ _ _ n) ?size_mkseq // vdot_mk. Qed.
  Lemma get_h'_mk (h : seq V) y n : size h = n -> (1 < n)%N -> y != 0 ->
    get_h' h y = Ok (mkseq (fun i => (y^-1) ^+ i *: h`_i) n).
  Proof.
    move=> sh n1 y0; rewrite /get_h' (negbTE y0) sh getkn_mk //=; congr Ok.
    by rewrite -{1}(mkseq_nth 0 h) sh zip_mk.
  Qed.
End Mk.

Section Core.
  Variables (F : fieldType) (V : lmodType F).
  Variables (enc : V -> bytes) (wide : bytes -> option F) (ext : transcript -> bytes).
  Add Ring tvring4 : (tv_ring V).
  Variables (g h : seq V) (pg : range_gens V) (rnd : range_rnd F) (nn : nat) (a : nat -> F) (Vs : seq V).
  Variables (Q : F -> nat -> F) (sv gm : F -> F) (dl : F -> F -> F).
  Hypothesis sg : size g = nn.
  Hypothesis sh : size h = nn.
  Hypothesis n1 : (1 < nn)%N.

  Definition cA : V := rr_alpha rnd *: rg_h pg + \sum_(i < nn) a i *: g`_i + \sum_(i < nn) (a i - 1) *: h`_i.
  Definition cS : V := rr_rho rnd *: rg_h pg + \sum_(i < nn) rr_sL rnd i *: g`_i + \sum_(i < nn) rr_sR rnd i *: h`_i.
  (** the polynomials l(X) = l0 + l1 X and r(X) = r0 + r1 X *)
  Definition cl0 (z : F) i : F := a i - z.
  Definition cr0 (y z : F) i : F := y ^+ i * (a i - 1 + z) + Q z i.
  Definition cr1 (y : F) i : F := y ^+ i * rr_sR rnd i.
  Definition ct0 (y z : F) : F := \sum_(i < nn) cl0 z i * cr0 y z i.
  Definition ct1 (y z : F) : F := \sum_(i < nn) rr_sL rnd i * cr0 y z i + \sum_(i < nn) cr1 y i * cl0 z i.
  Definition ct2 (y : F) : F := \sum_(i < nn) rr_sL rnd i * cr1 y i.
  Definition cT1 (y z : F) : V := ct1 y z *: rg_g pg + rr_tau1 rnd *: rg_h pg.
  Definition cT2 (y : F) : V := ct2 y *: rg_g pg + rr_tau2 rnd *: rg_h pg.
  Definition cl (x z : F) i : F := cl0 z i + rr_sL rnd i * x.
  Definition cr (x y z : F) i : F := cr0 y z i + cr1 y i * x.
  Definition cthat (x y z : F) : F := sv z + dl y z + ct1 y z * x + ct2 y * (x * x).
  Definition ctaux (x z : F) : F := rr_tau2 rnd * (x * x) + rr_tau1 rnd * x + gm z.
  Definition cmu (x : F) : F := rr_alpha rnd + rr_rho rnd * x.
  Definition ch' (y : F) : seq V := mkseq (fun i => (y^-1) ^+ i *: h`_i) nn.
  (** the commitment the inner product argument is run on *)
  Definition cphmu (h' : seq V) (A S : V) (x y z mu : F) : V :=
    A + x *: S + \sum_(i < nn) (- z) *: g`_i + \sum_(i < nn) (y ^+ i * z + Q z i) *: h'`_i - mu *: rg_h pg.

  Variables (q : F -> res bp_err (seq F)) (sumv gam : F -> res bp_err F) (delta : F -> F -> res bp_err F).
  Variable phmu : seq V -> V -> V -> F -> F -> F -> F -> res bp_err V.
  Hypothesis Hq : forall z, q z = Ok (mkseq (Q z) nn).
  Hypothesis Hsv : forall z, sumv z = Ok (sv z).
  Hypothesis Hgm : forall z, gam z = Ok (gm z).
  Hypothesis Hdl : forall y z, delta y z = Ok (dl y z).
  Hypothesis Hph : forall h' A S x y z mu, size h' = nn -> phmu h' A S x y z mu = Ok (cphmu h' A S x y z mu).

  Lemma prove_core_eq t :
    prove_core enc wide ext g h pg rnd nn (mkseq a nn) Vs q sumv gam delta phmu t
    = rbind (calc_yz enc wide ext Vs cA cS t) (fun tyz => let y := tyz.2.1 in let z := tyz.2.2 in
      rbind (calc_x enc wide ext (cT1 y z) (cT2 y) tyz.1) (fun tx => let x := tx.2 in
      if y == 0 then Err BpInverse else
      rbind (challenge wide ext tx.1 "getw"%string) (fun tw =>
      rbind (range_to_ipp enc wide ext g (ch' y) (mkseq (cl x z) nn) (mkseq (cr x y z) nn) (tw.2 *: rg_u pg) tw.1) (fun ip =>
      Ok (RangeProof cA cS (cT1 y z) (cT2 y) (ctaux x z) (cmu x) (cthat x y z) ip))))).
  Proof.
    have n0 : (0 < nn)%N := ltnW n1.
    rewrite /prove_core get1n_mk sub_mk /=.
    rewrite !(msm_mk _ sg) /= !(msm_mk _ sh) /= -/cA -/cS.
    case: (calc_yz _ _ _ _ _ _ _) => [[t1 [y z]]| |] //=.
    rewrite scale_mk sub_mk /= Hq /= add_mk /= getkn_mk //= !mul_mk /= add_mk /= !inner_mk //=.
    have E0 : \sum_(i < nn) rr_sL rnd i * (y ^+ i * (a i - 1 + 1 * z) + Q z i) = \sum_(i < nn) rr_sL rnd i * cr0 y z i.
      by apply: eq_bigr => i _; rewrite mul1r.
    have E1 : \sum_(i < nn) y ^+ i * rr_sR rnd i * (a i - 1 * z) = \sum_(i < nn) cr1 y i * cl0 z i.
      by apply: eq_bigr => i _; rewrite mul1r.
    rewrite E0 E1 -/(ct1 y z) -/(ct2 y) -/(cT1 y z) -/(cT2 y).
    case: (calc_x _ _ _ _ _ _) => [[t2 x]| |] //=.
    rewrite !scale_mk !add_mk /= Hsv /= Hdl /= Hgm /=.
    case: (boolP (y == 0)) => [/eqP ->|y0].
      by rewrite /get_h' eqxx sh ltnNge n1.
    rewrite (get_h'_mk sh) //= -/(ch' y) Hph ?size_mkseq //=.
    have -> : mkseq (fun i => a i - 1 * z + rr_sL rnd i * x) nn = mkseq (cl x z) nn by apply: eq_map => i; rewrite /cl /cl0 mul1r.
    have -> : mkseq (fun i => y ^+ i * (a i - 1 + 1 * z) + Q z i + y ^+ i * rr_sR rnd i * x) nn = mkseq (cr x y z) nn.
      by apply: eq_map => i; rewrite /cr /cr0 mul1r.
    by [].
  Qed.

  (** l and r against the generators *)
  Lemma phmu_identity x y z : y != 0 ->
    cphmu (ch' y) cA cS x y z (cmu x)
    = \sum_(i < nn) cl x z i *: g`_i + \sum_(i < nn) cr x y z i *: (ch' y)`_i.
  Proof.
    move=> y0; rewrite /cphmu /cA /cS /cmu.
    have S1 (f : nat -> F) : \sum_(i < nn) f i *: (ch' y)`_i = \sum_(i < nn) (f i * y^-1 ^+ i) *: h`_i.
      by apply: eq_bigr => i _; rewrite nth_mkseq // scalerA.
    rewrite (S1 (fun i => y ^+ i * z + Q z i)) (S1 (cr x y z)).
    have -> : \sum_(i < nn) cl x z i *: g`_i
      = \sum_(i < nn) a i *: g`_i + x *: (\sum_(i < nn) rr_sL rnd i *: g`_i) + \sum_(i < nn) (- z) *: g`_i.
      rewrite scaler_sumr -!big_split; apply: eq_bigr => i _ /=; rewrite /cl /cl0.
      move: (a i) (rr_sL rnd i) (g`_i) => p r s; vpsi V; ring.
    have -> : \sum_(i < nn) (cr x y z i * y^-1 ^+ i) *: h`_i
      = \sum_(i < nn) (a i - 1) *: h`_i + x *: (\sum_(i < nn) rr_sR rnd i *: h`_i)
        + \sum_(i < nn) ((y ^+ i * z + Q z i) * y^-1 ^+ i) *: h`_i.
      rewrite scaler_sumr -!big_split; apply: eq_bigr => i _ /=; rewrite /cr /cr0 /cr1.
      have yy : y ^+ i * y^-1 ^+ i = 1 by rewrite -exprMn divff // expr1n.
      move: (y ^+ i) (y^-1 ^+ i) yy => c d cd; move: (a i) (rr_sR rnd i) (h`_i) (Q z i) => p r s w0.
      have -> : (c * (p - 1 + z) + w0 + c * r * x) * d = c * d * (p - 1) + c * d * (x * r) + (c * z + w0) * d by vphi V; ring.
      by rewrite cd !mul1r !scalerDl !scalerA.
    move: (\sum_(i < nn) a i *: g`_i) (\sum_(i < nn) rr_sL rnd i *: g`_i) (\sum_(i < nn) (- z) *: g`_i) (\sum_(i < nn) (a i - 1) *: h`_i)
      (\sum_(i < nn) rr_sR rnd i *: h`_i) (\sum_(i < nn) ((y ^+ i * z + Q z i) * y^-1 ^+ i) *: h`_i) (rg_h pg) => v1 v2 v3 v4 v5 v6 v7.
    vpsi V; ring.
  Qed.
  Lemma inner_identity x y z :
    \sum_(i < nn) cl x z i * cr x y z i = ct0 y z + ct1 y z * x + ct2 y * (x * x).
  Proof.
    rewrite /ct0 /ct1 /ct2 mulrDl !mulr_suml -!big_split; apply: eq_bigr => i _ /=.
    rewrite /cl /cr; move: (cl0 z i) (cr0 y z i) (cr1 y i) (rr_sL rnd i) => p r s u; vphi V; ring.
  Qed.

  (** the verifier on an honest proof *)
  Variables (VV : F -> V).
  Hypothesis HVV : forall z, VV z = sv z *: rg_g pg + gm z *: rg_h pg.
  Lemma core_verify k p t (check : F -> F -> F -> res bp_err bool) : nn = (2 ^ k)%N -> (k < 63)%N ->
    (forall d x z, check d x z = Ok (rp_that p *: rg_g pg + rp_taux p *: rg_h pg == VV z + d *: rg_g pg + x *: rp_T1 p + (x * x) *: rp_T2 p)) ->
    prove_core enc wide ext g h pg rnd nn (mkseq a nn) Vs q sumv gam delta phmu t = Ok p ->
    exists y z w t1 t2 t3, [/\ calc_yz enc wide ext Vs cA cS t = Ok (t1, (y, z)), challenge wide ext t2 "getw"%string = Ok (t3, w), y != 0 &
      verify_core enc wide ext g h pg p Vs check delta (fun h' x y z => phmu h' (rp_A p) (rp_S p) x y z (rp_mu p)) t
      = Ok ((sv z + dl y z) *: (w *: rg_u pg) == ct0 y z *: (w *: rg_u pg))].
  Proof.
    move=> En k63 Hc; rewrite prove_core_eq => E.
    have [[t1 [y z]] Eyz /= E1] := rbind_ok E; have [[t2 x] Ex /= E2] := rbind_ok E1.
    move: E2; case: eqP => // /eqP y0 E2; have [[t3 w] Ew /= E3] := rbind_ok E2; have [ip Ei [Ep]] := rbind_ok E3.
    exists y, z, w, t1, t2, t3; split=> //.
    have sk (f : nat -> F) : size (mkseq f nn) = (2 ^ k)%N by rewrite size_mkseq.
    have skh : size (ch' y) = (2 ^ k)%N by rewrite size_mkseq.
    have [Ls [Rs [t' [xs [EL ER [sL sR sx] Exs [nz Eq]]]]]] := prove_rec_ok (sk _) (sk _) (etrans sg En) skh Ei.
    rewrite /= in EL ER.
    rewrite /verify_core -Ep /= Eyz /= Ex /= Ew /= Hdl /= Hc -Ep /=.
    have -> : cthat x y z *: rg_g pg + ctaux x z *: rg_h pg
      == VV z + dl y z *: rg_g pg + x *: cT1 y z + (x * x) *: cT2 y.
      apply/eqP; rewrite HVV /cthat /ctaux /cT1 /cT2.
      move: (ct1 y z) (ct2 y) (sv z) (dl y z) (gm z) => ? ? ? ? ?; vpsi V; ring.
    rewrite /= (get_h'_mk sh) //= -/(ch' y) Hph ?size_mkseq //=.
    have Ex' : getxs enc wide ext t3 (ip_L ip) (ip_R ip) = Ok (t', xs) by rewrite EL ER.
    rewrite (verify_from_range_eq _ _ _ _ _ _ _ Ex' nz) ?EL ?ER ?sL ?sR // -?En //.
    rewrite Eq (inj_eq (addIr _)) phmu_identity // !vdot_mk ?size_mkseq // (@dot_nth _ _ _ nn) ?size_mkseq //.
    have -> : \sum_(i < nn) (mkseq (cl x z) nn)`_i * (mkseq (cr x y z) nn)`_i = \sum_(i < nn) cl x z i * cr x y z i.
      by apply: eq_bigr => i _; rewrite !nth_mkseq.
    rewrite inner_identity (inj_eq (addrI _)) /cthat [X in Ok X]eq_sym; congr Ok.
    rewrite -[LHS]subr_eq0 -[RHS]subr_eq0; congr (_ == 0).
    move: (ct0 y z) (ct1 y z) (ct2 y) (sv z) (dl y z) => ? ? ? ? ?; vpsi V; ring.
  Qed.

  Lemma core_total k t : usable_challenges wide ext -> nn = (2 ^ k)%N ->
    exists p, prove_core enc wide ext g h pg rnd nn (mkseq a nn) Vs q sumv gam delta phmu t = Ok p.
  Proof.
    move=> U En; rewrite prove_core_eq /calc_yz.
    set t1 := t ++ _; have [y -> y0] := U t1 "gety"%string; rewrite /=.
    have [z -> z0] := U (rcons t1 (TExtract "gety" 64)) "getz"%string; rewrite /= /calc_x.
    set t2 := _ ++ [:: _; _]; have [x -> x0] := U t2 "getx"%string; rewrite /= (negbTE y0).
    have [w -> w0] := U (rcons t2 (TExtract "getx" 64)) "getw"%string; rewrite /=.
    set u := w *: _; set t3 := rcons _ _; rewrite /range_to_ipp size_mkseq.
    have [|||||ip ->] := @prove_rec_total _ _ enc wide ext k nn (mkseq (cl x z) nn) (mkseq (cr x y z) nn) [::] [::] g (ch' y) u t3 U.
    - by rewrite En ltnW // ltn_expl.
    - by rewrite size_mkseq.
    - by rewrite size_mkseq.
    - by rewrite sg.
    - by rewrite size_mkseq.
    - by eexists.
  Qed.

  (** the constant coefficient for a vector of bits *)
  Lemma ct0_bits y z : (forall i, (i < nn)%N -> a i * (a i - 1) = 0) ->
    ct0 y z = \sum_(i < nn) a i * Q z i + ((z - z * z) * (\sum_(i < nn) y ^+ i) - z * (\sum_(i < nn) Q z i)).
  Proof.
    move=> B; rewrite /ct0 !mulr_sumr -sumrN -!big_split; apply: eq_bigr => i _ /=; rewrite /cl0 /cr0.
    have := B i (ltn_ord i); move: (a i) (y ^+ i) (Q z i) => p c s B0.
    apply/eqP; rewrite -subr_eq0 -(mulr0 c) -B0; apply/eqP; vphi V; ring.
  Qed.
End Core.
