From mathcomp Require Import all_ssreflect all_algebra.
From Verif Require Import AlgBase Lagrange ShamirModel ShamirSpec ShamirProofs ShamirProofs2
  SharingV1Model SharingV1Spec.
Set Implicit Arguments.
Unset Strict Implicit.
Unset Printing Implicit Defensive.
Import GRing.Theory.
Local Open Scope ring_scope.

Lemma setb_rcons bs b : setb (rcons bs b) = (setb bs * 256 + b)%N.
Proof. by rewrite /setb foldl_rcons. Qed.

Lemma setb_value bs : setb bs = be_value bs.
Proof.
  elim/last_ind: bs => [|bs b IH]; first by rewrite /be_value big_ord0.
  rewrite setb_rcons IH /be_value size_rcons big_ord_recr /= nth_rcons ltnn eqxx subnn expn0 muln1.
  congr (_ + _)%N; rewrite big_distrl /=; apply: eq_bigr => i _.
  rewrite nth_rcons ltn_ord -mulnA -expnSr; congr (_ * 256 ^ _)%N.
  by rewrite subSS subnSK.
Qed.

Lemma getb_fuel_setb f n : (n <= f)%N -> setb (getb_fuel f n) = n.
Proof.
  elim: f n => [|f IH] n; first by rewrite leqn0 => /eqP ->.
  move=> H /=; case: eqP => [-> //|/eqP N].
  rewrite setb_rcons IH; first by rewrite -divn_eq.
  have : (n %/ 256 < n)%N by rewrite ltn_Pdiv // lt0n.
  move=> L; rewrite -ltnS; exact: leq_trans L H.
Qed.

Lemma setb_getb n : setb (getb n) = n.
Proof. exact: getb_fuel_setb. Qed.

Lemma getb_fuel_enough f n : (n <= f)%N -> getb_fuel f n = getb n.
Proof.
  rewrite /getb; elim/ltn_ind: n f => n IH f H.
  case: f H => [|f] H; first by move: H; rewrite leqn0 => /eqP ->.
  case: n IH H => [|n] IH H //=.
  have L : ((n.+1 %/ 256)%N < n.+1)%N by rewrite ltn_Pdiv.
  rewrite IH //; last by rewrite -ltnS; exact: leq_trans L H.
  by rewrite [in RHS]IH // -ltnS.
Qed.

Lemma getb_rcons n : (0 < n)%N -> getb n = rcons (getb (n %/ 256)%N) (n %% 256)%N.
Proof.
  case: n => // n _; rewrite {1}/getb [LHS]/= getb_fuel_enough // -ltnS.
  by rewrite ltn_Pdiv.
Qed.

Lemma setb_strip bs : setb (strip bs) = setb bs.
Proof. by elim: bs => [|[|b] bs IH] //=; rewrite IH. Qed.

Lemma strip_idem_cons bs b : strip bs = bs -> bs <> [::] -> strip (rcons bs b) = rcons bs b.
Proof.
  case: bs => [|[|c] bs] //= E _; exfalso.
  have : (size (strip bs) <= size bs)%N by elim: bs {E} => [|[|c] bs IH] //=; exact: leqW.
  by rewrite E /= ltnn.
Qed.

Lemma strip_strip bs : strip (strip bs) = strip bs.
Proof. by elim: bs => [|[|b] bs IH]. Qed.

Lemma strip_rcons bs b : strip (rcons bs b) = if strip bs is [::] then strip [:: b] else rcons (strip bs) b.
Proof. elim: bs => [|[|c] bs IH] //=. Qed.

(** big.Int.Bytes of SetBytes drops the leading zeros *)
Lemma getb_setb bs : is_bytes bs -> getb (setb bs) = strip bs.
Proof.
  elim/last_ind: bs => [|bs b IH] //= H.
  have Hb : (b < 256)%N by apply: H; rewrite mem_rcons mem_head.
  have Hbs : is_bytes bs by move=> x Hx; apply: H; rewrite mem_rcons inE Hx orbT.
  rewrite setb_rcons strip_rcons -(IH Hbs).
  case E : (setb bs) => [|m].
    rewrite mul0n add0n; case: b Hb {H} => [|b] Hb //=.
    by rewrite getb_rcons // divn_small // modn_small.
  rewrite getb_rcons; last by rewrite ltn_addr.
  rewrite divnMDl // divn_small // addn0 modnMDl modn_small //.
  have : getb m.+1 <> [::] by rewrite getb_rcons //; case: (getb _).
  by case: (getb m.+1).
Qed.

Section V.
  Variable p : nat.
  Hypothesis Hp : prime p.
  Local Notation F := ('F_p).

  Lemma elem_ok n : (n < p)%N -> elem p n = Ok (n%:R).
  Proof. by rewrite /elem => ->. Qed.

  Lemma elem_inj (i j : nat) : (i < p)%N -> (j < p)%N -> (i%:R = j%:R :> F) -> i = j.
  Proof.
    move=> Hi Hj /(congr1 (@nat_of_ord _)); by rewrite !val_Fp_nat // !modn_small.
  Qed.

  Lemma elem_val (x : F) : (nat_of_ord x < p)%N.
  Proof. by have := ltn_ord x; rewrite [X in (_ < X)%N](Fp_cast Hp). Qed.

  Lemma elem_back (x : F) : elem p (setb (getb (nat_of_ord x))) = Ok x.
  Proof.
    rewrite setb_getb elem_ok ?elem_val //; congr Ok; apply: val_inj => /=.
    by rewrite [LHS]val_Fp_nat // modn_small // elem_val.
  Qed.

  Lemma natr_val n : (n < p)%N -> nat_of_ord (n%:R : F) = n.
  Proof. by move=> H; rewrite val_Fp_nat // modn_small. Qed.

  Lemma share_add_ok (s o : share1 p) : s.1 = o.1 -> share_add s o = Ok (s.1, s.2 + o.2).
  Proof. by move=> E; rewrite /share_add; case: eqP => // _; rewrite elem_back. Qed.

  Lemma deal_loop_ok (poly : seq F) ks : all (fun i => i.+1 < p)%N ks ->
    deal_loop poly ks = Ok [seq (i.+1, peval poly (i.+1)%:R) | i <- ks].
  Proof.
    elim: ks => [|i ks IH] //= /andP [Hi Hs].
    by rewrite elem_ok //= IH //= evaluateE.
  Qed.

  Lemma deal_loop_inv (poly : seq F) ks l : deal_loop poly ks = Ok l -> all (fun i => i.+1 < p)%N ks.
  Proof.
    elim: ks l => [|i ks IH] l //=; rewrite /elem; case: ltnP => //= Hi.
    by case E: (deal_loop _ _) => [r||] //= _; apply: (IH _ E).
  Qed.

  Lemma get_shares1_ok s secret (rnd : seq F) r : get_shares1 s secret rnd = Ok r ->
    [/\ secret <> [::], (setb secret < p)%N, (0 < sh_lim s -> sh_lim s < p)%N,
        r.2 = poly_init (setb secret)%:R (sh_thr s) rnd &
        r.1 = [seq (i.+1, peval r.2 (i.+1)%:R) | i <- iota 0 (sh_lim s)]].
  Proof.
    rewrite /get_shares1; case: eqP => // /eqP N; case: ltnP => //= Hlt.
    rewrite elem_ok //=; case E: (deal_loop _ _) => [l||] //= [<-] /=.
    have Ha := deal_loop_inv E; move: E; rewrite deal_loop_ok // => -[<-].
    split=> //; first by case: (secret) N.
    case: (sh_lim s) Ha => // m /allP Ha _.
    by apply: Ha; rewrite mem_iota /= add0n.
  Qed.

  Lemma basis1_ok (xs : seq F) thr i : size xs = thr -> (i < thr)%N -> uniq xs ->
    basis1 xs thr i = Ok (lag0 xs i).
  Proof.
    move=> Hs Hi U; rewrite /basis1 /lag0 -prodf_div Hs.
    have H : forall js (b : F), all (fun j => j < thr)%N js ->
       foldl (fun acc j => rbind acc (fun basis =>
             if i == j then Ok basis
             else let denom := xs`_j - xs`_i in
                  if denom == 0 then Err VCoord else Ok (basis * (xs`_j / denom))))
          (Ok b) js = Ok (b * \prod_(j <- js | j != i) (xs`_j / (xs`_j - xs`_i))).
      elim=> [|j js IH] b /=; first by rewrite big_nil mulr1.
      case/andP=> Hj Hjs; rewrite big_cons eq_sym; case: eqP => [->|/eqP N] /=; first by rewrite IH.
      by rewrite subr_eq0 nth_uniq ?Hs // (negbTE N) IH // -!mulrA.
    rewrite H ?mul1r //; by apply/allP => j; rewrite mem_iota.
  Qed.

  Lemma interpolate1_ok s (xs ys : seq F) : size xs = sh_thr s -> size ys = sh_thr s -> uniq xs ->
    interpolate1 s xs ys = Ok (\sum_(i <- iota 0 (size xs)) ys`_i * lag0 xs i).
  Proof.
    move=> Hx Hy U; rewrite /interpolate1 Hx Hy ltnn /=.
    have H : forall ks (r : F), all (fun i => i < sh_thr s)%N ks ->
      foldl (fun acc i => rbind acc (fun result =>
                  rbind (basis1 xs (sh_thr s) i) (fun b => Ok (result + ys`_i * b))))
               (Ok r) ks = Ok (r + \sum_(i <- ks) ys`_i * lag0 xs i).
      elim=> [|i ks IH] r /=; first by rewrite big_nil addr0.
      by case/andP=> Hi His; rewrite basis1_ok //= IH // big_cons addrA.
    rewrite H ?add0r //; by apply/allP => j; rewrite mem_iota.
  Qed.

  Lemma collect1_ok lim (l : seq (share1 p)) : (lim < p)%N ->
    (forall sh, sh \in l -> (0 < sh.1 <= lim)%N) ->
    collect1 lim l = Ok ([seq (sh.1)%:R | sh <- l], unzip2 l).
  Proof.
    move=> HL; elim: l => [|sh l IH] //= H.
    have /andP [H0 H1] := H _ (mem_head _ _).
    rewrite ltnNge H1 ltnS leqNgt H0 /= elem_ok ?(leq_ltn_trans H1) //= IH //= => s Hs.
    by apply: H; rewrite inE Hs orbT.
  Qed.

  Lemma collect1_inv lim (l : seq (share1 p)) q : collect1 lim l = Ok q ->
    (forall sh, sh \in l -> (0 < sh.1 <= lim)%N) /\ q = ([seq (sh.1)%:R | sh <- l], unzip2 l).
  Proof.
    elim: l q => [|sh l IH] q //=; first by case=> <-.
    case: ltnP => //= H1; case: ltnP => //= H0; rewrite /elem; case: ltnP => //= _.
    case E: (collect1 lim l) => [q'||] //= [<-]; case: (IH _ E) => Ha ->; split=> //.
    by move=> s; rewrite inE => /orP [/eqP ->|/Ha //]; rewrite H0 H1.
  Qed.

  Lemma uniq_natr (ids : seq nat) lim : (lim < p)%N -> all (fun i => i <= lim)%N ids -> uniq ids ->
    uniq [seq i%:R : F | i <- ids].
  Proof.
    move=> HL /allP Ha U; rewrite map_inj_in_uniq // => i j /Ha Hi /Ha Hj.
    by apply: elem_inj; apply: leq_ltn_trans HL.
  Qed.

  (** Combine on shares whose first t lie on a polynomial of at most t coefficients *)
  Lemma combine1_poly t n (c : seq F) (chosen : seq (share1 p)) :
    (n < p)%N -> size c = t -> (0 < t)%N -> (t <= size chosen)%N ->
    uniq (unzip1 (take t chosen)) ->
    (forall sh, sh \in take t chosen -> (0 < sh.1 <= n)%N /\ sh.2 = peval c (sh.1)%:R) ->
    combine1 (Shamir t n) chosen = Ok (getb (nat_of_ord (c`_0))).
  Proof.
    move=> Hn Hc Ht Hs U H; rewrite /combine1 /= ltnNge Hs /=.
    set l := take t chosen in U H *.
    have Hl : size l = t by rewrite size_takel.
    rewrite collect1_ok //=; last by move=> sh /H [].
    have Ux : uniq [seq (sh.1)%:R : F | sh <- l].
      rewrite (map_comp (fun i : nat => i%:R) fst); apply: uniq_natr Hn _ U.
      by apply/allP => i /mapP [sh /H [/andP [_ Hi] _] ->].
    rewrite interpolate1_ok ?size_map //=; congr (Ok (getb (nat_of_ord _))).
    have := @lagrange0 _ [seq (sh.1)%:R : F | sh <- l] (Poly c) Ux.
    rewrite size_map Hl -Hc size_Poly => /(_ isT).
    rewrite horner_coef0 coef_Poly => <-.
    rewrite !big_seq; apply: eq_bigr => i; rewrite mem_iota /= add0n Hc => Hi; congr (_ * _).
    have Hi' : (i < size l)%N by rewrite Hl.
    case: (l) Hi' H => // sh0 l' Hi' H; rewrite !(nth_map sh0) //.
    by have [_ ->] := H _ (mem_nth sh0 Hi'); rewrite pevalE.
  Qed.

  Lemma collect1_range lim (l : seq (share1 p)) : (forall sh, sh \in l -> (0 < sh.1 <= lim)%N) ->
    (exists q, collect1 lim l = Ok q) \/ collect1 lim l = Panic.
  Proof.
    elim: l => [|sh l IH] H /=; first by left; eexists.
    have /andP [H0 H1] := H _ (mem_head _ _).
    rewrite ltnNge H1 ltnS leqNgt H0 /= /elem; case: ltnP => _ /=; last by right.
    have [|[q ->]|->] := IH; try by [right|left; eexists].
    by move=> s Hs; apply: H; rewrite inE Hs orbT.
  Qed.

  (** a node equal to another among the first t: the basis computation of the first such node fails *)
  Lemma basis1_fail (xs : seq F) thr i j : size xs = thr -> (i < thr)%N -> (j < thr)%N -> i <> j ->
    xs`_i = xs`_j -> basis1 xs thr i = Err VCoord.
  Proof.
    move=> Hs Hi Hj N E; rewrite /basis1.
    set f := (fun acc k => _).
    have Stuck : forall js, foldl f (Err VCoord) js = Err VCoord by elim.
    have Hf : forall b k, (exists b', f (Ok b) k = Ok b') \/ f (Ok b) k = Err VCoord.
      by move=> b k; rewrite /f /=; case: ifP => _; [left; eexists | case: ifP => _; [right | left; eexists]].
    have Hj' : forall b, f (Ok b) j = Err VCoord.
      by move=> b; rewrite /f /=; case: eqP => // _; rewrite E subrr eqxx.
    have H : forall js b, j \in js -> foldl f (Ok b) js = Err VCoord.
      elim=> [|k js IH] b //; rewrite inE -[foldl f (Ok b) _]/(foldl f (f (Ok b) k) js).
      case: (j =P k) => [<- _|Njk]; first by rewrite Hj' Stuck.
      rewrite orFb => Hk.
      by case: (Hf b k) => [[b' ->]|->]; [exact: IH | rewrite Stuck].
    by apply: H; rewrite mem_iota.
  Qed.
End V.
