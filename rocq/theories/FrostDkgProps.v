(** C28, C29: theorems about crypto/dkg/frost. *)
From mathcomp Require Import all_ssreflect all_algebra.
From Verif Require Import AlgBase Lagrange ShamirModel ShamirSpec ShamirProofs ShamirProofs2
  FrostDkgModel FrostDkgSpec FrostDkgProofs.
Set Implicit Arguments.
Unset Strict Implicit.
Unset Printing Implicit Defensive.
Import GRing.Theory.
Local Open Scope ring_scope.
Local Arguments poly_init : simpl never.
Local Arguments feldman_verify : simpl never.
Local Arguments feldman_split : simpl never.
Local Arguments round1 : simpl never.
Local Arguments round2 : simpl never.

Section Props.
  Variables (F : fieldType) (B : eqType) (enc : F -> B) (dec : B -> option F).
  Hypothesis HF : big_field F.
  Hypothesis Hdec : forall x, dec (enc x) = Some x.
  Variables (V : lmodType F) (G : V) (H : nat -> nat -> V -> V -> F).

  (** Participant i of 1..n is created with the other identifiers (any order), runs Round1 with its own
      secret (given, or sampled), and every message is delivered unaltered: the map of broadcasts handed
      to i's Round2 contains every other participant's broadcast (and possibly i's own), in any order,
      and the map of shares contains, under j, what j's Round1 returned under i. *)
  Record honest_run (t n ctx : nat) (d0 d1 : nat -> dkg B V) (secret : nat -> option B)
    (sampled : nat -> F) (rnd : nat -> seq F) (ki : nat -> F) (bmsg : nat -> bcast1 V)
    (out ins : nat -> seq (nat * share B)) (bc : nat -> seq (nat * bcast1 V)) : Prop := HonestRun {
    hr_new : forall i, (0 < i <= n)%N -> exists others, perm_eq others [seq j <- iota 1 n | j != i] /\
        new_dkg B V i t ctx false others = Ok (d0 i);
    hr_rnd : forall i, (0 < i <= n)%N -> size (rnd i) = t.-1;
    hr_r1 : forall i, (0 < i <= n)%N ->
        round1 enc dec G H (d0 i) (secret i) (sampled i) (rnd i) (ki i) = Ok (d1 i, bmsg i, out i);
    hr_bc_keys : forall i, (0 < i <= n)%N -> uniq (unzip1 (bc i)) /\
        forall j, (0 < j <= n)%N -> j <> i -> j \in unzip1 (bc i);
    hr_bc : forall i, (0 < i <= n)%N -> forall j b, List.In (j, b) (bc i) -> (0 < j <= n)%N /\ b = bmsg j;
    hr_ins : forall i, (0 < i <= n)%N ->
        uniq (unzip1 (ins i)) /\ unzip1 (ins i) =i [seq j <- iota 1 n | j != i];
    hr_ins_val : forall i, (0 < i <= n)%N -> forall j s, List.In (j, s) (ins i) -> List.In (i, s) (out j) }.

  Section Run.
    Variables (t n ctx : nat) (d0 d1 : nat -> dkg B V) (secret : nat -> option B)
      (sampled : nat -> F) (rnd : nat -> seq F) (ki : nat -> F) (bmsg : nat -> bcast1 V)
      (out ins : nat -> seq (nat * share B)) (bc : nat -> seq (nat * bcast1 V)).
    Hypothesis R : honest_run t n ctx d0 d1 secret sampled rnd ki bmsg out ins bc.

    Let sec j := r1_secret dec (secret j) (sampled j).
    Let pol j := sec j :: rnd j.

    Lemma run_new i : (0 < i <= n)%N -> [/\ (2 <= t)%N, (t <= n)%N, (n <= 255)%N &
      exists o, perm_eq o [seq j <- iota 1 n | j != i] /\ d0 i = Dkg 1 i (Shamir t n) o ctx [::] [::] 0 0 0].
    Proof.
      move=> Hi; have [o [Hp /new_dkg_inv [H1 H2 H3 E]]] := hr_new R Hi.
      have Hs : (size o).+1 = n.
        have Hii : i \in iota 1 n by rewrite mem_iota add1n ltnS; case/andP: Hi => -> ->.
        rewrite (perm_size Hp) -(rem_filter i (iota_uniq 1 n)) size_rem // size_iota prednK //.
        by case/andP: Hi => Hi0 Hi1; exact: leq_trans Hi0 Hi1.
      rewrite Hs in H2 H3 E; split=> //; exists o; split=> //.
      by rewrite E undup_id // (perm_uniq Hp) filter_uniq // iota_uniq.
    Qed.

    Lemma run_r1 i : (0 < i <= n)%N ->
      let ver := [seq a *: G | a <- pol i] in
      let ci := H (i %% 256)%N ctx (sec i *: G) (ki i *: G) in
      [/\ sec i <> 0, size (pol i) = t,
          exists o, d1 i = Dkg 2 i (Shamir t n) o ctx ver
                   [seq (j.+1, enc (peval (pol i) j.+1%:R)) | j <- iota 0 n] 0 0 0,
          bmsg i = Bcast1 ver (sec i * ci + ki i) ci &
          forall j s, List.In (j, s) (out i) -> (0 < j <= n)%N /\ s = (j, enc (peval (pol i) j%:R))].
    Proof.
      move=> Hi ver ci; have [Ht Htn Hn [o [_ E0]]] := run_new Hi.
      have := round1_inv (hr_r1 R Hi); rewrite E0 /= -/(sec i).
      have Hr := hr_rnd R Hi.
      have Hsz : size (pol i) = t by rewrite /= Hr prednK // (leq_trans _ Ht).
      rewrite (poly_init_full _ Hr) -/(pol i) (commits_map _ Hsz) -/ver /=.
      have Esh : [seq (i0.+1, enc (evaluate (pol i) i0.+1%:R)) | i0 <- iota 0 n] =
                 [seq (j.+1, enc (peval (pol i) j.+1%:R)) | j <- iota 0 n].
        by apply: eq_map => j; rewrite evaluateE.
      rewrite Esh => [[Ns _ Ed Eb Es]]; split=> //; first by exists o.
      move=> j s Hin; have [_ /(_ _ _ Hin) [Hj Ho]] := send_shares_inv Es.
      have Hjn : (j.-1 < n)%N by have := onth_some Ho; rewrite size_map size_iota.
      rewrite onth_map_iota // in Ho; case: Ho => <-; rewrite prednK // in Hjn *.
      by rewrite Hj Hjn.
    Qed.

    Lemma run_lookup i j : (0 < i <= n)%N -> (0 < j <= n)%N -> j <> i ->
      lookup (ins i) j = Some (i, enc (peval (pol j) i%:R)).
    Proof.
      move=> Hi Hj N; have [U K] := hr_ins R Hi.
      have : j \in unzip1 (ins i).
        rewrite K mem_filter (introN eqP N) mem_iota add1n ltnS.
        by case/andP: Hj => -> ->.
      have : uniq (unzip1 (ins i)) by [].
      have Hv := hr_ins_val R Hi.
      elim: (ins i) Hv => [|[j' s] l IH] //= Hv /andP [_ U'].
      rewrite inE; case: eqP => [E|_] /= Hin.
        rewrite -E in Hv; have := Hv _ _ (or_introl erefl) => Ho.
        by have [_ _ _ _ /(_ _ _ Ho) [_ ->]] := run_r1 Hj.
      by apply: IH => // j0 s0 H0; apply: Hv; right.
    Qed.

    Lemma run_sum (A : zmodType) (f : nat -> A) i : (0 < i <= n)%N ->
      f i + \sum_(e <- bc i | e.1 != i) f e.1 = \sum_(j <- iota 1 n) f j.
    Proof.
      move=> Hi; have [U K] := hr_bc_keys R Hi.
      rewrite -(big_map fst (fun j => j != i) f) -/(unzip1 (bc i)) -big_filter.
      have Hii : i \in iota 1 n by rewrite mem_iota add1n ltnS; case/andP: Hi => -> ->.
      rewrite (big_rem i Hii) /=; congr (_ + _); apply: perm_big.
      apply: uniq_perm; [by rewrite filter_uniq|by rewrite rem_uniq // iota_uniq|].
      move=> j; rewrite mem_filter mem_rem_uniq ?iota_uniq // inE; case: eqP => //= N.
      rewrite mem_iota add1n ltnS; apply/idP/idP => [/unzip1_In [b Hin]|Hj]; last exact: K.
      by have [] := hr_bc R Hi Hin.
    Qed.

    Lemma run_r2 i d2 : (0 < i <= n)%N -> round2 dec G H (d1 i) (Some (bc i)) (Some (ins i)) = Ok d2 ->
      [/\ dp_sk d2 = \sum_(j <- iota 1 n) peval (pol j) i%:R,
          dp_vk d2 = (\sum_(j <- iota 1 n) sec j) *: G & dp_vkshare d2 = dp_sk d2 *: G].
    Proof.
      move=> Hi; have [_ Hsz [o Ed] _ _] := run_r1 Hi.
      have [Ht Htn Hn _] := run_new Hi.
      move/round2_inv => [bcl [p2pl [own [sk0 [[<-] [<-] [_ _ _ [Hi0 Ho] Eown] _ [sk [Esk ->]]]]]]] /=.
      rewrite Ed /= in Hi0 Ho Eown Esk *; split=> //.
      - rewrite (sk_loop_val Esk) /= -(run_sum (fun j => peval (pol j) i%:R) Hi); congr (_ + _).
          move: Ho; rewrite onth_map_iota; last by rewrite prednK //; case/andP: Hi.
          by case=> E; move: Eown; rewrite -E /= Hdec prednK //; case=> ->.
        have Hb := hr_bc R Hi.
        elim: (bc i) Hb => [|[j b] l IH] Hb; rewrite ?big_nil // !big_cons /=.
        rewrite IH; last by move=> j' b' Hin; apply: Hb; right.
        case: eqP => //= N; congr (_ + _).
        have [Hj _] := Hb j b (or_introl erefl).
        by rewrite (run_lookup Hi Hj N) /= Hdec.
      - rewrite vk_loop_val /= scaler_suml -(run_sum (fun j => sec j *: G) Hi); congr (_ + _).
        have Hb := hr_bc R Hi.
        elim: (bc i) Hb => [|[j b] l IH] Hb; rewrite ?big_nil // !big_cons /=.
        rewrite IH; last by move=> j' b' Hin; apply: Hb; right.
        case: eqP => //= N; congr (_ + _).
        have [Hj ->] := Hb j b (or_introl erefl).
        by have [_ _ _ -> _] := run_r1 Hj.
    Qed.

    (** C28: whenever the participants' Round2 calls succeed there is one polynomial of degree < t such
        that everybody's verification key is its value at 0 times the generator, and participant i's
        secret share is its value at i, with the matching verification share *)
    Theorem C28_dkg_agreement (d2 : nat -> dkg B V) :
      (forall i, (0 < i <= n)%N -> round2 dec G H (d1 i) (Some (bc i)) (Some (ins i)) = Ok (d2 i)) ->
      exists c : seq F, size c = t /\ c`_0 = \sum_(j <- iota 1 n) r1_secret dec (secret j) (sampled j) /\
        forall i, (0 < i <= n)%N ->
          [/\ dp_vk (d2 i) = c`_0 *: G, dp_sk (d2 i) = peval c i%:R & dp_vkshare (d2 i) = dp_sk (d2 i) *: G].
    Proof.
      move=> Hr2.
      case: (posnP n) => [En|Hn].
        exists (mkseq (fun=> 0) t); rewrite size_mkseq En; split=> //; split; last by case.
        by rewrite big_nil; case: (t) => [|t'] //.
      have Ht : (0 < t)%N by have [] := @run_new 1%N; rewrite ?Hn // => Ht _ _ _; apply: leq_trans Ht.
      set p := \sum_(j <- iota 1 n) Poly (pol j).
      have Hsz : forall j, j \in iota 1 n -> size (pol j) = t.
        move=> j; rewrite mem_iota add1n ltnS => Hj; by have [] := run_r1 Hj.
      have Hp : (size p <= t)%N.
        rewrite /p big_seq; apply: (big_ind (fun q : {poly F} => (size q <= t)%N)).
        - by rewrite size_poly0.
        - by move=> x y Hx Hy; apply: leq_trans (size_add _ _) _; rewrite geq_max Hx.
        - by move=> j Hj; rewrite -(Hsz j Hj); exact: size_Poly.
      have E0 : (coefs t p)`_0 = \sum_(j <- iota 1 n) sec j.
        by rewrite nth_mkseq // /p coef_sum; apply: eq_bigr => j _; rewrite coef_Poly.
      exists (coefs t p); rewrite size_mkseq; split=> //; split=> // i Hi.
      have [Esk Evk Evs] := run_r2 Hi (Hr2 i Hi); split=> //; first by rewrite E0.
      rewrite Esk peval_coefs // /p horner_sum; by apply: eq_bigr => j _; rewrite pevalE.
    Qed.

    (** C28: combining the secret shares of any t or more participants gives the discrete logarithm of
        the key; the linear combination with Lagrange coefficients does so even for shares equal to 0 *)
    Theorem C28_dkg_shares_combine (d2 : nat -> dkg B V) (ids : seq nat) :
      (forall i, (0 < i <= n)%N -> round2 dec G H (d1 i) (Some (bc i)) (Some (ins i)) = Ok (d2 i)) ->
      uniq ids -> {subset ids <= iota 1 n} -> (t <= size ids)%N ->
      (exists w : nat -> F, recovers ids w) /\
      exists x : F, (forall i, (0 < i <= n)%N -> dp_vk (d2 i) = x *: G) /\
        (forall w, recovers ids w -> \sum_(i <- ids) w i * dp_sk (d2 i) = x) /\
        ((forall i, i \in ids -> dp_sk (d2 i) <> 0) ->
         combine dec (Shamir t n) [seq (i, enc (dp_sk (d2 i))) | i <- ids] = Ok x).
    Proof.
      move=> Hr2 U Hsub Hl.
      have [c [Hc [_ Hall]]] := C28_dkg_agreement Hr2.
      have Hall' i : i \in ids -> (0 < i <= n)%N.
        by move/Hsub; rewrite mem_iota add1n ltnS.
      have Ht0 : (0 < size ids)%N -> (0 < t <= 255)%N /\ (n <= 255)%N.
        case: (ids) Hall' => [|i l] //= Hi _.
        have [Ht Htn Hn _] := run_new (Hi i (mem_head _ _)).
        by rewrite (leq_trans Htn Hn) Hn (leq_trans _ Ht).
      case: (posnP (size ids)) => [Z|Hpos].
        move: Hl; rewrite Z leqn0 => /eqP Zt.
        have -> : ids = [::] by apply/eqP; rewrite -size_eq0 Z.
        split.
          by exists (fun=> 0) => c0; rewrite leqn0 size_eq0 => /eqP ->; rewrite big_nil /peval big_ord0.
        exists 0; split.
          move=> i Hi; have [-> _ _] := Hall i Hi.
          by rewrite nth_default // Hc Zt.
        split=> [w _|_]; first by rewrite big_nil.
        by rewrite /combine /= Zt.
      have [/andP [Ht Ht255] Hn] := Ht0 Hpos.
      have Un : uniq [seq i%:R : F | i <- ids].
        apply: natr_uniq => //; apply/allP => i /Hall' /andP [_ Hi].
        by rewrite ltnS; exact: leq_trans Hi Hn.
      split.
        by exists (idcoeff F ids) => c0 Hc0; exact: idcoeff_sum.
      exists c`_0.
      have Ep0 : peval c 0 = c`_0 by case: (c) => [|a c0]; rewrite ?peval0 // /peval big_ord0.
      split; first by move=> i /Hall [].
      split.
        move=> w Hw; rewrite -Ep0 -Hw ?Hc // big_seq [in RHS]big_seq; apply: eq_bigr => i /Hall' /Hall [_ -> _] //.
      move=> Nz.
      set l := [seq _ | i <- ids].
      have El1 : unzip1 l = ids by rewrite /unzip1 -map_comp -[RHS]map_id; apply: eq_map.
      have [||||Ux ->] := @combine_run F B dec (Shamir t n) l HF; rewrite ?ltnS ?size_map ?El1 //=.
        move=> sh /mapP [i Hi ->] /=; split; last by case/andP: (Hall' i Hi).
        split; first by case/andP: (Hall' i Hi).
        by exists (dp_sk (d2 i)); rewrite Hdec; split=> //; exact: Nz.
      congr Ok; rewrite -Ep0 !pevalE.
      rewrite -(lagrange0 (xs := [seq (sh.1)%:R : F | sh <- l]) (p := Poly c)) //; last first.
        by rewrite !size_map; apply: leq_trans (size_Poly _) _; rewrite Hc.
      rewrite !size_map !big_seq; apply: eq_bigr => k; rewrite mem_iota /= add0n => Hk.
      congr (_ * _).
      rewrite /l -!map_comp !(nth_map 0%N) //= Hdec -pevalE.
      by have [_ -> _] := Hall _ (Hall' _ (mem_nth 0%N Hk)).
    Qed.

    (** C28: and Round2 does succeed for every participant, unless one of the messages contains a zero:
        a zero challenge, an identity commitment, or a share of value zero *)
    Theorem C28_honest_round2_succeeds i : (0 < i <= n)%N ->
      (forall j, (0 < j <= n)%N -> b_c (bmsg j) <> 0 /\ 0 \notin b_ver (bmsg j)) ->
      (forall j s, List.In (j, s) (ins i) -> s.2 <> enc 0) ->
      exists d2, round2 dec G H (d1 i) (Some (bc i)) (Some (ins i)) = Ok d2.
    Proof.
      move=> Hi Nz Ns.
      have [_ Hsz [o Ed] _ _] := run_r1 Hi; have [Ht Htn Hn _] := run_new Hi.
      have [Ub Kb] := hr_bc_keys R Hi; have [Ui Ki] := hr_ins R Hi.
      have Hii : i \in iota 1 n by rewrite mem_iota add1n ltnS; case/andP: Hi => -> ->.
      have Hsi : size (ins i) = n.-1.
        rewrite -(size_map fst) -/(unzip1 _).
        rewrite (perm_size (uniq_perm Ui (filter_uniq _ (iota_uniq 1 n)) Ki)).
        by rewrite -(rem_filter i (iota_uniq 1 n)) size_rem // size_iota.
      have Hb1 : (n.-1 <= size (bc i))%N.
        rewrite -(size_map fst) -/(unzip1 _) -[X in (X.-1 <= _)%N](size_iota 1 n) -(size_rem Hii).
        apply: uniq_leq_size; first by rewrite rem_uniq // iota_uniq.
        move=> j; rewrite mem_rem_uniq ?iota_uniq // inE => /andP [/eqP N]; rewrite -[mem _ j]/(j \in _) mem_iota add1n ltnS => Hj.
        exact: Kb.
      have Hb2 : (size (bc i) <= n)%N.
        rewrite -(size_map fst) -/(unzip1 _) -[X in (_ <= X)%N](size_iota 1 n).
        apply: uniq_leq_size => // j /unzip1_In [b Hin].
        by have [Hj _] := hr_bc R Hi Hin; rewrite mem_iota add1n ltnS.
      have Hn1 : (0 < n.-1)%N by rewrite -ltnS prednK; [exact: leq_trans Ht Htn|case/andP: Hi; exact: leq_trans].
      have Htn' : (t.-1 <= n.-1)%N by rewrite -!subn1 leq_sub2r.
      rewrite /round2 Ed /= Hsi -(negbK (n.-1 == 0%N)) -lt0n Hn1 /=.
      rewrite ltnNge Hb2 /= ltnNge (leq_trans Htn' Hb1) /= ltnn /= ltnNge Htn' /=.
      have Hb := hr_bc R Hi.
      rewrite (_ : has _ (bc i) = false); last first.
        elim: (bc i) Hb {Ub Kb Hb1 Hb2} => [|[j b] l IH] //= Hb.
        rewrite IH; last by move=> j' b' Hin; apply: Hb; right.
        have [Hj ->] := Hb j b (or_introl erefl).
        by have [/eqP/negPf -> _] := Nz j Hj.
      rewrite (_ : has _ (bc i) = false); last first.
        elim: (bc i) Hb {Ub Kb Hb1 Hb2} => [|[j b] l IH] //= Hb.
        rewrite IH; last by move=> j' b' Hin; apply: Hb; right.
        have [Hj ->] := Hb j b (or_introl erefl); rewrite orbF.
        by have [_ N0] := Nz j Hj; rewrite has_pred1 (negPf N0).
      rewrite check_loop_ok /=; last first.
        move=> j b Hin /= N; have [Hj ->] := Hb j b Hin.
        have [Nc Nv] := Nz j Hj; have [Nsec Hszj _ Eb _] := run_r1 Hj.
        rewrite Eb /= in Nc Nv *; exists (sec j *: G), [seq a *: G | a <- rnd j].
        exists (i, enc (peval (pol j) i%:R)).
        have N0 : sec j *: G <> 0 by move=> E; move: Nv; rewrite inE E eqxx.
        split=> //.
        - split=> //; apply/eqP; rewrite scaler_eq0 oppr_eq0 negb_or; apply/andP; split; exact/eqP.
        - congr (H _ _ _ _); rewrite scalerA -scalerDl; congr (_ *: _).
          by rewrite mulNr addrAC mulrC subrr add0r.
        - exact: run_lookup.
        - apply/feldman_verify_iff => /=; split; first by case/andP: Hi.
          exists (peval (pol j) i%:R); split=> //.
            move=> E; apply: (Ns j (i, enc (peval (pol j) i%:R))); last by rewrite /= E.
            exact/lookup_some/run_lookup.
          by rewrite -[_ :: _]/([seq a *: G | a <- pol j]) ceval_base.
      have Hi0 : (0 < i)%N by case/andP: Hi.
      rewrite -(negbK (i == 0%N)) -lt0n Hi0 /= onth_map_iota; last by rewrite prednK //; case/andP: Hi.
      rewrite /= Hdec.
      have [|r ->] := @sk_loop_ok F B dec V (Dkg 2 i (Shamir t n) o ctx [seq a *: G | a <- pol i]
        [seq (j.+1, enc (peval (pol i) j.+1%:R)) | j <- iota 0 n] 0 0 0) (ins i) (bc i)
        (peval (pol i) i.-1.+1%:R); last by eexists.
      move=> j b Hin /= N; have [Hj _] := Hb j b Hin.
      by exists (i, enc (peval (pol j) i%:R)), (peval (pol j) i%:R); rewrite run_lookup ?Hdec.
    Qed.
  End Run.

  (** C29: whatever the messages, when Round2 succeeds then for every broadcast (j, b) of another
      participant: the proof of knowledge verifies, no commitment is the identity, the challenge is
      non-zero, and the share received from j lies on the polynomial that j committed to, at the
      identifier written in the share *)
  Theorem C29_round2_success_implies_consistent dp bc p2p dp' j b :
    round2 dec G H dp (Some bc) (Some p2p) = Ok dp' -> List.In (j, b) bc -> j <> dp_id dp ->
    let A0 := nth 0 (b_ver b) 0 in
    [/\ b_c b <> 0 /\ 0 \notin b_ver b,
        b_c b = H (j %% 256)%N (dp_ctx dp) A0 (b_w b *: G - b_c b *: A0) &
        exists s v, [/\ List.In (j, s) p2p, dec s.2 = Some v, v <> 0, (0 < s.1)%N &
                        v *: G = ceval (b_ver b) s.1%:R]].
  Proof.
    move/round2_inv => [bcl [p2pl [own [sk0 [[<-] [<-] _ [Hz Hc] _]]]]] Hin N A0.
    have [Ncb Nv] := Hz _ Hin; have [A [cs [s [Ev [N1 N2] Eh El Ef]]]] := check_loop_inv Hc Hin N.
    split; first by split=> //; apply/negP => /Nv; exact.
      by rewrite -scaleNr /A0 Ev.
    move: Ef; rewrite Ev => /feldman_verify_iff [H0 [v [Hv Nv0 Ec]]].
    exists s, v; split=> //; exact: lookup_some.
  Qed.

  (** C29: if moreover the received shares carry the recipient's identifier, the resulting secret share
      is the one determined by all the commitments *)
  Theorem C29_share_matches_commitments_partial dp dp1 secret sampled rnd ki bc p2p dp' b out :
    new_dkg B V (dp_id dp) (sh_thr (dp_sh dp)) (dp_ctx dp) false (dp_others dp) = Ok dp ->
    size rnd = (sh_thr (dp_sh dp)).-1 ->
    round1 enc dec G H dp secret sampled rnd ki = Ok (dp1, b, out) ->
    round2 dec G H dp1 (Some bc) (Some p2p) = Ok dp' ->
    (forall j s, List.In (j, s) p2p -> s.1 = dp_id dp) ->
    dp_vkshare dp' = ceval (b_ver b) (dp_id dp)%:R +
                     \sum_(e <- bc | e.1 != dp_id dp) ceval (b_ver e.2) (dp_id dp)%:R.
  Proof.
    move=> Hnew Hr /round1_inv /= [_ _ E1 -> _] Hr2 Hids.
    have [Ht Htn Hn _] := new_dkg_inv Hnew.
    have Hcons := fun j b0 => C29_round2_success_implies_consistent (j := j) (b := b0) Hr2.
    move: Hr2 => /round2_inv [bcl [p2pl [own [sk0 [[<-] [<-] [_ _ _ [Hi0 Ho] Eown] [_ Hch] [sk [Esk ->]]]]]]] /=.
    rewrite (poly_init_full _ Hr) in E1 *; set pol := _ :: rnd in E1 *.
    have Hsz : size pol = sh_thr (dp_sh dp) by rewrite /= Hr prednK // (leq_trans _ Ht).
    rewrite (commits_map _ Hsz) in E1 *; rewrite ceval_base.
    rewrite E1 /= in Hi0 Ho Eown Hcons Hch Esk.
    rewrite (sk_loop_val Esk) /= scalerDl; congr (_ + _).
      have Ho' := onth_some Ho; rewrite size_map size_iota in Ho'.
      rewrite onth_map_iota // in Ho; case: Ho => E.
      by move: Eown; rewrite -E /= Hdec evaluateE prednK //; case=> <-.
    rewrite scaler_suml.
    have Hl := check_loop_inv Hch; rewrite /= in Hl.
    elim: (bc) Hl => [|[j b0] l IH] Hl; rewrite ?big_nil // !big_cons /=.
    rewrite IH; last by move=> j' b' Hin; apply: Hl; right.
    case: eqP => //= N; congr (_ + _).
    have [A [cs [s [Ev _ _ El Ef]]]] := Hl j b0 (or_introl erefl) N.
    rewrite El /=; move: Ef; rewrite Ev => /feldman_verify_iff [_ [v [-> _]]] /=.
    by rewrite (Hids j s (lookup_some El)).
  Qed.

  (** C29: a broadcast without commitments, or without a matching share, makes Round2 panic rather than
      return an error *)
  Theorem C29_empty_commitments_panic dp p2p j b rest :
    j <> dp_id dp -> b_ver b = [::] -> check_loop dec G H dp p2p ((j, b) :: rest) = Panic.
  Proof. by move=> /eqP/negPf /= -> ->. Qed.
End Props.

(** C29 refuted: a received share whose identifier is not the recipient's is accepted, and the recipient's
    secret share then disagrees with the commitments. Participant 1 of 2 (threshold 2) gets the share
    (2, f(2)) instead of (1, f(1)). *)
Section Refute.
  Variable F : fieldType.
  Hypothesis HF : big_field F.
  Let D : F -> option F := @Some F.
  Let V : lmodType F := [lmodType F of F^o].
  Let g : V := (1 : F).
  Let h (_ _ : nat) (_ _ : V) : F := 1.

  Theorem C29_foreign_share_accepted_refuted :
    exists dp dp1 b out bc p2p dp',
      [/\ new_dkg F V 1 2 0 false [:: 2%N] = Ok dp,
          round1 id D g h dp None 1 [:: 1] 1 = Ok (dp1, b, out),
          round2 D g h dp1 (Some bc) (Some p2p) = Ok dp' &
          dp_vkshare dp' <> ceval (b_ver b) (dp_id dp)%:R +
                     \sum_(e <- bc | e.1 != dp_id dp) ceval (b_ver e.2) (dp_id dp)%:R].
  Proof.
    exists (Dkg 1 1 (Shamir 2 2) [:: 2%N] 0 [::] [::] 0 0 0).
    set c : seq V := [:: 1 *: g; 1 *: g].
    exists (Dkg 2 1 (Shamir 2 2) [:: 2%N] 0 c [:: (1%N, 1 * 1%:R + 1); (2%N, 1 * 2%:R + 1)] 0 0 0).
    exists (Bcast1 c (1 * 1 + 1) 1), [:: (2%N, (2%N, 1 * 2%:R + 1))].
    exists [:: (2%N, Bcast1 c 1 1)], [:: (2%N, (2%N, 1 * 2%:R + 1))].
    have Ng : 1 *: g != 0 by rewrite scaler_eq0 /g oner_eq0.
    have Ng' : (- 1) *: (1 *: g) != 0 by rewrite scaler_eq0 oppr_eq0 oner_eq0 (negPf Ng).
    have E3 : 1 * 2%:R + 1 = 3%:R :> F by rewrite mul1r -(natrD _ 2 1).
    have N3 : (1 * 2%:R + 1 : F) != 0 by rewrite E3; exact: HF.
    have Ev : feldman_verify D g c (2%N, 1 * 2%:R + 1) = Ok tt.
      apply/feldman_verify_iff; split=> //; exists (1 * 2%:R + 1); split=> //; first exact/eqP.
      by rewrite -[_ :: _]/([seq a *: g | a <- [:: 1; 1]]) ceval_base /peval !big_ord_recr big_ord0 /=
           expr0 expr1 !mul1r add0r addrC.
    exists (Dkg 3 1 (Shamir 2 2) [:: 2%N] 0 c [:: (1%N, 1 * 1%:R + 1); (2%N, 1 * 2%:R + 1)]
             (1 * 1%:R + 1 + (1 * 2%:R + 1)) (1 *: g + 1 *: g) ((1 * 1%:R + 1 + (1 * 2%:R + 1)) *: g)).
    split=> //.
    - by rewrite /round1 /= /feldman_split oner_eq0 /=.
    - by rewrite /round2 /= oner_eq0 (negPf Ng) /= (negPf Ng') /= Ev /= /h eqxx.
    - rewrite /= big_cons big_nil /= addr0 -[c]/([seq a *: g | a <- [:: 1; 1]]) ceval_base -scalerDl.
      rewrite /peval !big_ord_recr big_ord0 /= expr0 expr1 !mul1r add0r.
      move/eqP; rewrite -subr_eq0 -scalerBl scaler_eq0 /g oner_eq0 orbF.
      by rewrite opprD addrACA subrr add0r mulr2n addrAC subrr add0r oner_eq0.
  Qed.

  (** C28 applies to something: an honest run of two participants (threshold 2, secrets 1 and 2,
      polynomials 1 + x and 2 + x) with non-zero messages and shares *)
  Example C28_nonvacuous : exists d0 d1 secret sampled rnd ki bmsg out ins bc,
    honest_run id D g h 2 2 0 d0 d1 secret sampled rnd ki bmsg out ins bc /\
    (forall j, (0 < j <= 2)%N -> b_c (bmsg j) <> 0 /\ 0 \notin b_ver (bmsg j)) /\
    (forall i j s, (0 < i <= 2)%N -> List.In (j, s) (ins i) -> s.2 <> 0).
  Proof.
    pose o i := [:: 3 - i]%N.
    pose sm (i : nat) : F := i%:R.
    pose ver i : seq V := [:: sm i *: g; 1 *: g].
    pose sh i : seq (nat * F) := [:: (1%N, 1 * 1%:R + sm i); (2%N, 1 * 2%:R + sm i)].
    exists (fun i => Dkg 1 i (Shamir 2 2) (o i) 0 [::] [::] 0 0 0).
    exists (fun i => Dkg 2 i (Shamir 2 2) (o i) 0 (ver i) (sh i) 0 0 0), (fun=> None), sm, (fun=> [:: 1]), (fun=> 1).
    exists (fun i => Bcast1 (ver i) (sm i * 1 + 1) 1).
    pose out i := [:: ((3 - i)%N, nth (0%N, 0) (sh i) (2 - i)%N)].
    pose ins i := [:: ((3 - i)%N, nth (0%N, 0) (sh (3 - i)%N) i.-1)].
    exists out, ins, (fun i => [:: (1%N, Bcast1 (ver 1%N) (sm 1%N * 1 + 1) 1); (2%N, Bcast1 (ver 2%N) (sm 2%N * 1 + 1) 1)]).
    have two i : (0 < i <= 2)%N -> i = 1%N \/ i = 2%N by case: i => [|[|[|]]] //; [left|right].
    have N1 : sm 1%N != 0 by apply: HF.
    have N2 : sm 2%N != 0 by apply: HF.
    split; last split.
    - split.
      + move=> i /two [] ->; by [exists [:: 2%N]|exists [:: 1%N]].
      + by [].
      + by move=> i /two [] ->; rewrite /round1 /= /feldman_split ?(negPf N1) ?(negPf N2).
      + move=> i /two [] -> /=; split=> // j /two [] -> //.
      + move=> i _ j b /= [[<- <-]|[[<- <-]|[]]] //.
      + move=> i /two [] -> /=; split=> //.
      + move=> i /two [] -> j s /= [[<- <-]|[]]; by left.
    - move=> j /two [] -> /=; split=> //; try exact/eqP/oner_neq0; rewrite !inE !(eq_sym 0) !scaler_eq0 /g !oner_eq0 !orbF ?(negPf N1) ?(negPf N2) //.
    - move=> i j s /two [] -> /= [[_ <-]|[]] /=; rewrite mul1r -natrD; by apply/eqP/HF.
  Qed.
End Refute.
