(** Lemmas about the accumulator model. *)
From mathcomp Require Import all_ssreflect all_algebra.
From Verif Require Import AlgBase ShamirSpec PairingBase AccumulatorModel.
Set Implicit Arguments.
Unset Strict Implicit.
Unset Printing Implicit Defensive.
Import GRing.Theory.
Local Open Scope ring_scope.

Section Poly.
  Variable F : fieldType.
  Implicit Types (p q : seq F) (x k : F).

  Lemma peval_nil x : peval [::] x = 0 :> F.
  Proof. by rewrite /peval big_ord0. Qed.
  Lemma peval_cons a p x : peval (a :: p) x = a + x * peval p x.
  Proof.
    rewrite /peval /= big_ord_recl expr0 mulr1 mulr_sumr; congr (_ + _).
    by apply: eq_bigr => i _; rewrite /= exprS mulrCA.
  Qed.
  Lemma peval_padd p q x : peval (padd p q) x = peval p x + peval q x.
  Proof.
    elim: p q => [|a p IH] [|b q] /=; rewrite ?peval_nil ?add0r ?addr0 //.
    by rewrite !peval_cons IH mulrDr addrACA.
  Qed.
  Lemma peval_opp q x : peval [seq - b | b <- q] x = - peval q x.
  Proof. by elim: q => [|b q IH] /=; rewrite ?peval_nil ?oppr0 // !peval_cons IH opprD mulrN. Qed.
  Lemma peval_psub p q x : peval (psub p q) x = peval p x - peval q x.
  Proof.
    elim: p q => [|a p IH] [|b q].
    - by rewrite /= peval_nil subr0.
    - by rewrite peval_nil sub0r -peval_opp.
    - by rewrite peval_nil subr0.
    by rewrite /= !peval_cons IH mulrBr opprD addrACA.
  Qed.
  Lemma peval_pscale p k x : peval (pscale p k) x = peval p x * k.
  Proof. by elim: p => [|b q IH] /=; rewrite ?peval_nil ?mul0r // !peval_cons IH mulrDl mulrA. Qed.

  Lemma peval_set p i v x : (i < size p)%N -> peval (set_nth 0 p i (p`_i + v)) x = peval p x + v * x ^+ i.
  Proof.
    elim: p i => [|a p IH] [|i] //= Hi; rewrite !peval_cons; first by rewrite expr0 mulr1 addrAC.
    by rewrite IH // mulrDr addrA exprS mulrCA.
  Qed.

  Lemma pmul_fold p q x (l : seq (nat * nat)) prod :
    all (fun ij => (ij.1 + ij.2 < size prod)%N) l ->
    let r := foldl (fun prod ij =>
        set_nth 0 prod (ij.1 + ij.2)%N (prod`_(ij.1 + ij.2) + p`_(ij.1) * q`_(ij.2))) prod l in
    size r = size prod /\
    peval r x = peval prod x + \sum_(ij <- l) p`_(ij.1) * q`_(ij.2) * x ^+ (ij.1 + ij.2).
  Proof.
    elim: l prod => [|ij l IH] prod /=; first by rewrite big_nil addr0.
    case/andP=> Hi Hl; set p' := set_nth _ _ _ _.
    have Hs : size p' = size prod by rewrite size_set_nth; apply/maxn_idPr.
    have [|-> ->] := IH p'; first by rewrite Hs.
    by rewrite Hs big_cons /p' peval_set // addrA.
  Qed.

  Lemma peval_pmul p q x : (0 < size p)%N -> (0 < size q)%N ->
    size (pmul p q) = (size p + size q).-1 /\ peval (pmul p q) x = peval p x * peval q x.
  Proof.
    move=> Hp Hq; rewrite /pmul.
    have [|-> ->] := @pmul_fold p q x [seq (i, j) | i <- iota 0 (size p), j <- iota 0 (size q)]
       (nseq (size p + size q).-1 0).
      apply/allP => ij /allpairsP [[i j] /= [Hi Hj ->]] /=; move: Hi Hj; rewrite !mem_iota !add0n size_nseq /=.
      by case: (size p) Hp => // m _; case: (size q) Hq => // n _; rewrite !ltnS addnS; exact: leq_add.
    rewrite size_nseq; split=> //.
    have -> : peval (nseq (size p + size q).-1 0) x = 0 :> F.
      by rewrite /peval big1 // => i _; rewrite nth_nseq; case: ifP; rewrite mul0r.
    rewrite add0r big_allpairs /peval /=.
    rewrite -(big_mkord xpredT (fun i => p`_i * x ^+ i)) mulr_suml /index_iota subn0.
    apply: eq_bigr => i _; rewrite mulr_sumr -(big_mkord xpredT (fun j => p`_i * x ^+ i * (q`_j * x ^+ j))).
    by rewrite /index_iota subn0; apply: eq_bigr => j _; rewrite exprD mulrACA.
  Qed.

  Lemma roots_polyE (ys : seq F) x :
    (0 < size (roots_poly ys))%N /\ peval (roots_poly ys) x = \prod_(y <- ys) (y - x).
  Proof.
    rewrite /roots_poly.
    have H : forall (p : seq F), (0 < size p)%N ->
       (0 < size (foldl (fun poly y => pmul poly [:: y; (- 1)%R]) p ys))%N /\
       peval (foldl (fun poly y => pmul poly [:: y; - 1]) p ys) x = peval p x * \prod_(y <- ys) (y - x).
      elim: ys => [|y ys IH] p Hp /=; first by rewrite big_nil mulr1.
      have [|Hs He] := @peval_pmul p [:: y; - 1] x Hp; first by [].
      have [|H1 ->] := IH (pmul p [:: y; - 1]); first by rewrite Hs addnS; case: (size p) Hp.
      split=> //; rewrite He big_cons mulrA !peval_cons peval_nil; congr (_ * _ * _).
      by rewrite mulr0 addr0 mulrN1.
    have [//|H1 ->] := H [:: 1].
    by split=> //; rewrite peval_cons peval_nil mulr0 addr0 mul1r.
  Qed.

  Lemma batch_additionsE (sk : F) l : batch_additions sk l = \prod_(y <- l) (y + sk).
  Proof.
    rewrite /batch_additions -[RHS]mul1r.
    suff H : forall m, foldl (fun mul y : F => mul * (y + sk)) m l = m * \prod_(y <- l) (y + sk) by exact: H.
    elim: l => [|y l IH] m /=; first by rewrite big_nil mulr1.
    by rewrite IH big_cons mulrA.
  Qed.

  Lemma prodf (l : seq F) : foldl (fun x t : F => x * t) 1 l = \prod_(t <- l) t.
  Proof.
    rewrite -[RHS]mul1r.
    suff H : forall m, foldl (fun x t : F => x * t) m l = m * \prod_(t <- l) t by exact: H.
    elim: l => [|y l IH] m /=; first by rewrite big_nil mulr1.
    by rewrite IH big_cons mulrA.
  Qed.

  Lemma drop_cons (l : seq F) s : (s < size l)%N -> drop s l = l`_s :: drop s.+1 l.
  Proof. by move=> Hs; rewrite (drop_nth 0). Qed.
  Lemma take_rcons (l : seq F) s : (s < size l)%N -> take s.+1 l = rcons (take s l) l`_s.
  Proof. by move=> Hs; rewrite (take_nth 0). Qed.

  (** (x + alpha) vA(x) = prod (A + alpha) - prod (A - x) *)
  Lemma vAE (sk x : F) adds :
    (x + sk) * peval (vA_loop sk adds) x = \prod_(y <- adds) (y + sk) - \prod_(y <- adds) (y - x).
  Proof.
    have H : forall ks (acc : seq F), all (fun s => s < size adds)%N ks ->
      peval (foldl (fun vA s => let c := if s == 0%N then 1 else batch_additions sk (take s adds) in
             padd vA (pscale (roots_poly (drop s.+1 adds)) c)) acc ks) x
      = peval acc x + \sum_(s <- ks) (\prod_(y <- drop s.+1 adds) (y - x)) * \prod_(y <- take s adds) (y + sk).
      elim=> [|s ks IH] acc /=; first by rewrite big_nil addr0.
      case/andP=> _ Ha; rewrite IH // peval_padd peval_pscale big_cons addrA.
      have [_ ->] := roots_polyE (drop s.+1 adds) x; congr (_ + _ * _ + _).
      by case: eqP => [->|_]; rewrite ?take0 ?big_nil // batch_additionsE.
    rewrite /vA_loop H; last by apply/allP => i; rewrite mem_iota.
    rewrite peval_nil add0r mulr_sumr.
    pose f s := (\prod_(y <- take s adds) (y + sk)) * \prod_(y <- drop s adds) (y - x).
    transitivity (\sum_(0 <= s < size adds) (f s.+1 - f s)); last first.
      rewrite telescope_sumr // /f take_size drop_size take0 drop0 !big_nil mulr1 mul1r //.
    rewrite /index_iota subn0 !big_seq; apply: eq_bigr => s; rewrite mem_iota add0n /= => Hs.
    rewrite /f (drop_cons Hs) (take_rcons Hs) -cats1 big_cat big_seq1 big_cons /=.
    set P := \prod_(_ <- take _ _) _; set Q := \prod_(_ <- drop _ _) _.
    have -> : x + sk = (adds`_s + sk) - (adds`_s - x) by rewrite opprB [RHS]addrC addrA addrNK.
    rewrite [Q * P]mulrC mulrBl; congr (_ - _); last by rewrite mulrCA.
    by rewrite mulrA [in RHS](mulrC P).
  Qed.

  Lemma prod_nz (sk : F) l s : \prod_(y <- l) (y + sk) != 0 -> \prod_(y <- take s l) (y + sk) != 0.
  Proof.
    by rewrite -{1}(cat_take_drop s l) big_cat /= mulf_eq0 negb_or => /andP [].
  Qed.

  (** (x + alpha) vD(x) = 1 - prod (D - x) / prod (D + alpha) *)
  Lemma vDE (sk x : F) dels : \prod_(y <- dels) (y + sk) != 0 ->
    exists vD, vD_loop sk dels = Ok vD /\
      (x + sk) * peval vD x = 1 - (\prod_(y <- dels) (y - x)) / \prod_(y <- dels) (y + sk).
  Proof.
    move=> N.
    have H : forall ks (acc : seq F), exists vD,
      foldl (fun acc s => rbind acc (fun vD =>
             rbind (batch_deletions sk (take s.+1 dels)) (fun c =>
             Ok (padd vD (pscale (roots_poly (take s dels)) c))))) (Ok acc) ks = Ok vD /\
      peval vD x = peval acc x +
         \sum_(s <- ks) (\prod_(y <- take s dels) (y - x)) / \prod_(y <- take s.+1 dels) (y + sk).
      elim=> [|s ks IH] acc /=; first by exists acc; rewrite big_nil addr0.
      rewrite /batch_deletions /invert batch_additionsE (negbTE (prod_nz _ N)) /=.
      have [vD [E1 E2]] := IH (padd acc (pscale (roots_poly (take s dels)) (\prod_(y <- take s.+1 dels) (y + sk))^-1)).
      exists vD; rewrite E1 E2; split=> //; rewrite big_cons peval_padd peval_pscale addrA.
      by have [_ ->] := roots_polyE (take s dels) x.
    have [vD [E Ev]] := H (iota 0 (size dels)) [::]; exists vD; split=> //.
    rewrite Ev peval_nil add0r mulr_sumr.
    pose f s := (\prod_(y <- take s dels) (y - x)) / \prod_(y <- take s dels) (y + sk).
    transitivity (\sum_(0 <= s < size dels) - (f s.+1 - f s)); last first.
      by rewrite sumrN telescope_sumr // /f take_size take0 !big_nil invr1 mulr1 opprB.
    rewrite /index_iota subn0 !big_seq; apply: eq_bigr => s; rewrite mem_iota add0n /= => Hs.
    have N1 := prod_nz s.+1 N; rewrite /f; move: N1; rewrite (take_rcons Hs) -cats1 !big_cat !big_seq1 /=.
    set P := \prod_(_ <- take _ _) (_ + sk); set Q := \prod_(_ <- take _ _) (_ - x).
    rewrite mulf_eq0 negb_or => /andP [N1 N2]; rewrite opprB.
    have -> : x + sk = (dels`_s + sk) - (dels`_s - x) by rewrite opprB [RHS]addrC addrA addrNK.
    rewrite mulrBl invfM; congr (_ - _); last by rewrite mulrA [Q * _]mulrC.
    by rewrite mulrCA [P^-1 * _]mulrC mulVKf.
  Qed.

  (** the published polynomial *)
  Lemma create_coefficientsE (sk x : F) adds dels : \prod_(y <- dels) (y + sk) != 0 ->
    exists els, create_coefficients sk adds dels = Ok els /\
      (x + sk) * peval els x =
        (\prod_(y <- adds) (y + sk)) * (\prod_(y <- dels) (y - x)) / (\prod_(y <- dels) (y + sk))
        - \prod_(y <- adds) (y - x).
  Proof.
    move=> N; have [vD [E Ev]] := vDE x N; rewrite /create_coefficients E /=.
    eexists; split; first reflexivity.
    rewrite peval_psub peval_pscale mulrBr vAE mulrA Ev batch_additionsE mulrBl mul1r.
    by rewrite opprB [LHS]addrC addrA addrNK [_ / _ * _]mulrC mulrA.
  Qed.
End Poly.

Section Points.
  Variables (F : fieldType) (V : lmodType F).
  Implicit Types (p q : seq V) (x k : F).

  Lemma ceval_nil x : ceval ([::] : seq V) x = 0.
  Proof. by rewrite /ceval big_ord0. Qed.
  Lemma ceval_cons c p x : ceval (c :: p) x = c + x *: ceval p x.
  Proof.
    rewrite /ceval /= big_ord_recl expr0 scale1r scaler_sumr; congr (_ + _).
    by apply: eq_bigr => i _; rewrite /= scalerA -exprS.
  Qed.
  Lemma pp_evalE p x : p <> [::] -> pp_eval p x = Ok (ceval p x).
  Proof.
    case: p => [|c0 cs] //= _; congr Ok.
    suff H : forall (k : F) (r : V),
      (foldl (fun st c => (st.1 * x, st.2 + st.1 *: c)) (k, r) cs).2 = r + k *: ceval cs x.
      by rewrite H ceval_cons.
    elim: cs => [|c cs IH] k r /=; first by rewrite ceval_nil scaler0 addr0.
    by rewrite IH ceval_cons scalerDr scalerA addrA.
  Qed.
  Lemma ceval_add0 p x : ceval [seq c + 0 | c <- p] x = ceval p x.
  Proof. by elim: p => [|c p IH] //=; rewrite !ceval_cons IH addr0. Qed.
  Lemma ceval_pp_add p q x : ceval (pp_add p q) x = ceval p x + ceval q x.
  Proof.
    elim: p q => [|a p IH] [|b q].
    - by rewrite /= ceval_nil addr0.
    - by rewrite /pp_add ceval_add0 ceval_nil add0r.
    - by rewrite /pp_add ceval_add0 ceval_nil addr0.
    by rewrite /= !ceval_cons IH scalerDr addr0 addrACA.
  Qed.
  Lemma ceval_pp_mul p k x : ceval (pp_mul p k) x = k *: ceval p x.
  Proof.
    elim: p => [|c p IH]; rewrite /= ?ceval_nil ?scaler0 // !ceval_cons IH scalerDr.
    by rewrite !scalerA mulrC.
  Qed.
  Lemma size_pp_add p q : size (pp_add p q) = maxn (size p) (size q).
  Proof.
    elim: p q => [|a p IH] [|b q] //=; rewrite ?size_map ?max0n //.
    by rewrite IH maxnSS.
  Qed.
  Lemma ceval_scaled (els : seq F) (v : V) x : ceval [seq c *: v | c <- els] x = peval els x *: v.
  Proof.
    elim: els => [|c els IH] /=; first by rewrite ceval_nil peval_nil scale0r.
    by rewrite ceval_cons peval_cons IH scalerDl scalerA.
  Qed.
  Lemma dadE (vs : seq F) y : dad (Some vs) y = Ok (\prod_(v <- vs) (v - y)).
  Proof.
    rewrite /dad; congr Ok; case: vs => [|a [|b vs]] /=; first by rewrite big_nil.
      by rewrite big_cons big_nil mulr1.
    suff H : forall m, foldl (fun r v : F => r * (v - y)) m vs = m * \prod_(v <- vs) (v - y).
      by rewrite H !big_cons mul1r mulrA.
    elim: vs => [|c vs IH] m /=; first by rewrite big_nil mulr1.
    by rewrite IH big_cons mulrA.
  Qed.
End Points.
