(** C30: theorems about crypto/ted25519/frost. *)
From mathcomp Require Import all_ssreflect all_algebra.
From Verif Require Import AlgBase Lagrange ShamirModel ShamirSpec ShamirProofs ShamirProofs2
  FrostDkgModel FrostDkgProofs FrostSignModel FrostSignProofs.
Set Implicit Arguments.
Unset Strict Implicit.
Unset Printing Implicit Defensive.
Import GRing.Theory.
Local Open Scope ring_scope.

Section Props.
  Variables (F : fieldType) (V : lmodType F) (G : V) (M : Type) (mempty : M -> bool).
  Variables (Hr : nat -> M -> seq (nat * V * V) -> F) (ch : M -> V -> V -> option F) (isneg : V -> bool).

  (** C30: whatever the other signers sent, a signature returned by SignRound3 is accepted by Verify for
      the message given to SignRound2 under the signer's group key, and Z*G = R + C*vk up to the sign
      of R *)
  Theorem C30_returned_signature_verifies s1 m in2 s2 o in3 s3 R z c :
    sign_round2 mempty Hr ch isneg s1 m in2 = Ok (s2, o) ->
    sign_round3 G mempty ch isneg s2 in3 = Ok (s3, (R, z, c)) ->
    frost_verify G mempty ch (sg_vk s1) m z c = Ok true.
  Proof.
    move=> Hs2; have [d [e [acc [c0 [Li [r [_ _ [Hm _ _] _ [E2 _]]]]]]]] := sign2_inv Hs2.
    move=> Hs3; have [m' [il [[Em _] _ _ Ec _]]] := sign3_inv Hs3.
    rewrite E2 /= in Em Ec; case: Em => <- in Ec *.
    by rewrite /frost_verify (negPf Hm) Ec eqxx.
  Qed.

  (** C30: SignRound3 checks every share against the sender's nonce commitments: it returns an error
      unless each zj*G = (+/-)Rj + c*Lj*vkj, with Rj the value computed in SignRound2 *)
  Theorem C30_bad_share_rejected s in3 s3 R z c id zj vkj :
    sign_round3 G mempty ch isneg s (Some in3) = Ok (s3, (R, z, c)) ->
    List.In (id, Some (zj, vkj)) in3 ->
    exists Lj Rj, [/\ List.In (id, Lj) (sg_l s), List.In (id, Rj) (sg_Rs s) &
      zj *: G = (c * Lj) *: vkj + (if isneg R then - Rj else Rj)].
  Proof.
    move=> Hs3; have [m [il [_ [[<-] _] [El -> -> _] _ _]]] := sign3_inv Hs3; move=> Hin.
    exact: r3_loop_inv El _ _ _ Hin.
  Qed.

  (** C30: the one-time nonces are never used twice: after a successful SignRound2 no further sequence of
      calls on that signer (with any arguments) makes SignRound2 or SignRound1 succeed again *)
  Inductive call := CallR1 of F & F | CallR2 of M & seq (nat * option (V * V))
                  | CallR3 of option (seq (nat * option (F * V))).
  (** the state after a call; a call that fails leaves the nonces, the round and the results as they were *)
  Definition after (s : signer V M) (k : call) : signer V M :=
    match k with
    | CallR1 d e => if sign_round1 G s d e is Ok (s', _) then s' else s
    | CallR2 m i => if sign_round2 mempty Hr ch isneg s m i is Ok (s', _) then s' else s
    | CallR3 i => if sign_round3 G mempty ch isneg s i is Ok (s', _) then s' else s
    end.
  Theorem C30_nonces_used_once s m in2 s2 o (calls : seq call) m' in2' d e :
    sign_round2 mempty Hr ch isneg s m in2 = Ok (s2, o) ->
    let s' := foldl after s2 calls in
    sign_round2 mempty Hr ch isneg s' m' in2' = Err FD /\ sign_round1 G s' d e = Err FRound.
  Proof.
    move=> Hs2; have [d0 [e0 [acc [c0 [Li [r [_ _ _ _ [E2 _]]]]]]]] := sign2_inv Hs2; rewrite /=.
    have H2 : sg_d s2 = Some 0 /\ (2 < sg_round s2)%N by rewrite E2.
    have H3 : forall l s0, sg_d s0 = Some 0 /\ (2 < sg_round s0)%N ->
      sg_d (foldl after s0 l) = Some 0 /\ (2 < sg_round (foldl after s0 l))%N.
      elim=> [|k l IH] s0 [Hd Hrd] //=; apply: IH.
      case: k => [d1 e1|m1 i1|i1] /=.
      - by rewrite /sign_round1; case: eqP => //= E; rewrite E in Hrd.
      - by rewrite /sign_round2 Hd eqxx.
      - case E3: (sign_round3 _ _ _ _ _ _) => [[s3 [[R z] c]]||] //.
        by have [m3 [il [_ _ [_ _ _ Er] _ ->]]] := sign3_inv E3; rewrite /= Hd.
    have [Hd Hrd] := H3 calls s2 H2; split.
      by rewrite /sign_round2 Hd eqxx.
    by rewrite /sign_round1; case: eqP => // E; rewrite E in Hrd.
  Qed.

  (** C30 refuted: NewSigner accepts more cosigners than the threshold, but then SignRound2 never
      succeeds (it requires exactly threshold commitments and dereferences all cosigners') *)
  Theorem C30_more_cosigners_than_threshold_refuted s m in2 s2 o :
    (sg_thr s < size (sg_cos s))%N -> uniq (sg_cos s) -> uniq (unzip1 in2) ->
    sign_round2 mempty Hr ch isneg s m in2 <> Ok (s2, o).
  Proof.
    move=> Hlt U Ui Hs2; have [d0 [e0 [acc [c0 [Li [r [_ _ [_ _ Hs] [El _ Er _] _]]]]]]] := sign2_inv Hs2.
    move: El; rewrite {Hs2}.
    case: in2 Ui Hs => [|[id data] rest] Ui Hs.
      by move=> [E]; rewrite -E in Er.
    rewrite /=; case Ec: (concat_points _ _) => [blob|] // _.
    have := uniq_leq_size U (concat_points_subset Ec).
    by rewrite size_map Hs leqNgt Hlt.
  Qed.

  (** A run of the protocol by the signers [ids], in that order in every signer's cosigner list, holding
      shares of a polynomial [pol] of at most |ids| coefficients (what the DKG gives, C28), with Lagrange
      coefficients computed by Shamir.LagrangeCoeffs; messages are delivered unaltered, and the maps are
      iterated in any order. *)
  Record honest_sign (ids : seq nat) (pol : seq F) (m : M) (lc : nat -> seq (nat * F))
    (s0 s1 : nat -> signer V M) (d e : nat -> F) (bm : nat -> V * V)
    (in2 : nat -> seq (nat * option (V * V))) : Prop := HonestSign {
    hs_uniq : uniq ids;
    hs_ids : forall i, i \in ids -> (0 < i < 256)%N;
    hs_pol : (size pol <= size ids)%N;
    hs_lc : forall i, i \in ids -> exists outer inner,
        [/\ perm_eq outer ids, forall k, perm_eq (inner k) ids & lagrange_coeffs F outer inner = Ok (lc i)];
    hs_new : forall i, i \in ids ->
        new_signer M (Some (peval pol i%:R, peval pol i%:R *: G, peval pol 0 *: G)) i (size ids) (lc i) ids
        = Ok (s0 i);
    hs_r1 : forall i, i \in ids -> sign_round1 G (s0 i) (d i) (e i) = Ok (s1 i, bm i);
    hs_nz : forall i, i \in ids -> d i <> 0 /\ e i <> 0;
    hs_in2 : forall i, i \in ids -> perm_eq (in2 i) [seq (j, Some (bm j)) | j <- ids];
    hs_msg : ~~ mempty m }.

  Section Run.
    Hypothesis HF : big_field F.
    Hypothesis G0 : G <> 0.
    Variables (ids : seq nat) (pol : seq F) (m : M) (lc : nat -> seq (nat * F))
      (s0 s1 : nat -> signer V M) (d e : nat -> F) (bm : nat -> V * V)
      (in2 : nat -> seq (nat * option (V * V))).
    Hypothesis S : honest_sign ids pol m lc s0 s1 d e bm in2.

    Lemma hs_natr : uniq [seq i%:R : F | i <- ids].
    Proof.
      apply: natr_uniq => //; last exact: hs_uniq S.
      by apply/allP => i /(hs_ids S) /andP [].
    Qed.

    Lemma hs_lookup i j : i \in ids -> j \in ids -> lookup (lc i) j = Some (idcoeff F ids j).
    Proof.
      move=> Hi Hj; have [outer [inner [Ho Hin E]]] := hs_lc S Hi.
      move: E; rewrite (lagrange_coeffsE (ids := ids)) //; first last.
      - by move=> x; rewrite (perm_mem Ho).
      - exact: hs_natr.
      - exact: hs_uniq S.
      case=> <-; apply: (lookup_perm (ids := ids)) => //; [exact: perm_map|exact: hs_uniq S].
    Qed.

    Lemma hs_s1 i : i \in ids ->
      s1 i = Signer (peval pol i%:R) (peval pol i%:R *: G) (peval pol 0 *: G) i (size ids) 2 (lc i) ids
                    (Some (d i)) (Some (e i)) None None 0 [::] 0 /\ bm i = (d i *: G, e i *: G).
    Proof.
      move=> Hi; have [sk [vks [vk [[<- <- <-] [_ _ _ E0]]]]] := new_signer_inv (hs_new S Hi).
      by have := hs_r1 S Hi; rewrite E0 /sign_round1 /= => [[<- <-]].
    Qed.

    Let blob := [seq ((j %% 256)%N, (bm j).1, (bm j).2) | j <- ids].
    Let rho j := Hr (j %% 256)%N m blob.
    Let Rj j := rho j *: (bm j).2 + (bm j).1.
    Let R := \sum_(j <- ids) Rj j.

    Lemma hs_loop i : i \in ids -> exists Rs,
      r2_loop Hr (s1 i) m (in2 i) (in2 i) None [::] 0 = Ok (Some (rho i), Rs, R) /\
      forall j, j \in ids -> lookup Rs j = Some (Rj j).
    Proof.
      move=> Hi; have [E1 _] := hs_s1 Hi; have Hp := hs_in2 S Hi.
      have Hblob : concat_points (in2 i) (sg_cos (s1 i)) = Some blob.
        rewrite E1; apply: concat_points_some => j Hj.
        by rewrite (lookup_perm (f := fun j => Some (bm j)) Hp (hs_uniq S) Hj).
      have [js Ejs Epj] : exists2 js, in2 i = [seq (j, Some (bm j)) | j <- js] & perm_eq js ids.
        exists (unzip1 (in2 i)).
          have : {subset in2 i <= [seq (j, Some (bm j)) | j <- ids]} by move=> x; rewrite (perm_mem Hp).
          elim: (in2 i) => [|x l IH] //= Hsub; rewrite -IH; last first.
            by move=> y Hy; apply: Hsub; rewrite inE Hy orbT.
          congr (_ :: _); have /mapP [j _ ->] // := Hsub x (mem_head _ _).
        by have := perm_map fst Hp; rewrite -/(unzip1 _) -/(unzip1 _) unzip1_pairs.
      exists [seq (j, Rj j) | j <- js]; split.
        rewrite {2}Ejs (r2_loop_run _ _ _ _ _ _ _ Hblob) E1 /= (perm_mem Epj) Hi add0r.
        by congr (Ok (_, _, _)); rewrite /R (perm_big _ Epj).
      move=> j Hj; apply: (lookup_perm (ids := ids)) => //; [exact: perm_map|exact: hs_uniq S].
    Qed.

    (** C30: SignRound2 succeeds for every signer *)
    Theorem C30_honest_round2_succeeds i : i \in ids ->
      (forall r, ch m (peval pol 0 *: G) r <> None) ->
      exists s2 o, sign_round2 mempty Hr ch isneg (s1 i) m (in2 i) = Ok (s2, o).
    Proof.
      move=> Hi Hch; have [E1 _] := hs_s1 Hi; have [Rs [El _]] := hs_loop Hi.
      have Hp := hs_in2 S Hi; have [Nd Ne] := hs_nz S Hi.
      rewrite E1 in El *; rewrite /sign_round2 /= (introF eqP Nd) (introF eqP Ne) (negPf (hs_msg S)).
      rewrite (perm_size Hp) size_map eqxx /=.
      rewrite (_ : has _ (in2 i) = false); last first.
        by rewrite (perm_has _ Hp) has_map; apply/hasPn.
      rewrite (_ : has _ (in2 i) = false); last first.
        rewrite (perm_has _ Hp) has_map; apply/hasPn => j Hj /=.
        have [Ndj Nej] := hs_nz S Hj; have [_ ->] := hs_s1 Hj.
        by rewrite !scaler_eq0 (introF eqP Ndj) (introF eqP Nej) (introF eqP G0).
      rewrite El /=; case Ec: (ch _ _ _) => [c|]; last by case: (Hch R).
      by rewrite (hs_lookup Hi Hi); eexists; eexists.
    Qed.

    Section Round3.
      Variables (s2 : nat -> signer V M) (zz : nat -> F * V) (in3 : nat -> seq (nat * option (F * V))).
      Hypothesis H2 : forall i, i \in ids -> sign_round2 mempty Hr ch isneg (s1 i) m (in2 i) = Ok (s2 i, zz i).
      Hypothesis H3 : forall i, i \in ids -> perm_eq (in3 i) [seq (j, Some (zz j)) | j <- ids].

      Lemma hs_r3 : exists c z, [/\ ch m (peval pol 0 *: G) R = Some c \/ ids = [::],
          z *: G + (- c) *: (peval pol 0 *: G) = (if isneg R then - R else R) &
          forall i, i \in ids -> [/\ r3_loop G isneg (s2 i) (in3 i) 0 = Ok z, sg_R (s2 i) = R /\ sg_c (s2 i) = c,
             sg_msg (s2 i) = Some m /\ sg_round (s2 i) = 3%N, sg_d (s2 i) = Some 0 /\ sg_e (s2 i) = Some 0 &
             sg_comm (s2 i) = Some (in2 i) /\ sg_thr (s2 i) = size ids /\ sg_vk (s2 i) = peval pol 0 *: G]].
      Proof.
        have K i : i \in ids -> exists c Rs,
          [/\ ch m (peval pol 0 *: G) R = Some c,
              s2 i = Signer (peval pol i%:R) (peval pol i%:R *: G) (peval pol 0 *: G) i (size ids) 3 (lc i) ids
                     (Some 0) (Some 0) (Some (in2 i)) (Some m) c Rs R,
              forall j, j \in ids -> lookup Rs j = Some (Rj j) &
              zz i = (idcoeff F ids i * peval pol i%:R * c + (if isneg R then - e i else e i) * rho i
                        + (if isneg R then - d i else d i), peval pol i%:R *: G)].
          move=> Hi; have [E1 _] := hs_s1 Hi; have [Rs [El Hl]] := hs_loop Hi.
          have [d0 [e0 [acc [c [Li [r [[Ed _] [Ee _] _ [Ea Ec Er EL] [-> ->]]]]]]]] := sign2_inv (H2 Hi).
          rewrite El in Ea; case: Ea => Ea; rewrite -Ea /= in Ec Er *.
          case: Er => <-; rewrite E1 /= in Ed Ee Ec EL *; case: Ed => <-; case: Ee => <-.
          rewrite (hs_lookup Hi Hi) in EL; case: EL => <-.
          by exists c, Rs; split.
        case Eids: ids => [|i0 ids'].
          exists 0, 0; split; [by right| |by []].
          rewrite /R Eids big_nil oppr0 !scale0r addr0; by case: ifP; rewrite ?oppr0.
        have Hi0 : i0 \in ids by rewrite Eids mem_head.
        have [c [_ [Ec _ _ _]]] := K i0 Hi0.
        rewrite -Eids; exists c, (\sum_(j <- ids) (zz j).1).
        have Ez j : j \in ids -> zz j = (idcoeff F ids j * peval pol j%:R * c +
             (if isneg R then - e j else e j) * rho j + (if isneg R then - d j else d j), peval pol j%:R *: G).
          by move=> Hj; have [c' [Rs' [Ec' _ _ ->]]] := K j Hj; move: Ec'; rewrite Ec => [[->]].
        have Eq j : j \in ids -> (zz j).1 *: G = (c * idcoeff F ids j) *: (zz j).2 + (if isneg R then - Rj j else Rj j).
          move=> Hj; rewrite (Ez j Hj) /= /Rj; have [_ ->] := hs_s1 Hj.
          rewrite /= -addrA scalerDl; congr (_ + _); first by rewrite scalerA mulrAC [idcoeff _ _ _ * c]mulrC.
          rewrite scalerA -scalerDl; case: ifP => _; last by rewrite mulrC.
          by rewrite -scaleNr opprD mulNr mulrC.
        split; first by left.
          rewrite scaler_suml (eq_big_seq _ Eq) big_split /=.
          have -> : \sum_(i <- ids) (if isneg R then - Rj i else Rj i) = if isneg R then - R else R.
            by case: ifP => _; rewrite // /R -sumrN.
          rewrite scaleNr addrAC -[RHS]add0r; congr (_ + _); apply/eqP; rewrite subr_eq0; apply/eqP.
          transitivity (\sum_(j <- ids) c *: ((idcoeff F ids j * peval pol j%:R) *: G)).
            by apply: eq_big_seq => j Hj; rewrite (Ez j Hj) /= !scalerA mulrA.
          rewrite -scaler_sumr -scaler_suml; congr (_ *: (_ *: _)).
          exact: idcoeff_sum (hs_uniq S) hs_natr (hs_pol S).
        move=> i Hi; have [c' [Rs [Ec' Es Hl _]]] := K i Hi.
        move: Ec'; rewrite Ec => [[Ecc]]; rewrite -{}Ecc in Es.
        rewrite Es /=; split=> //.
        have Hp := H3 Hi.
        have [js Ejs Epj] : exists2 js, in3 i = [seq (j, Some (zz j)) | j <- js] & perm_eq js ids.
          exists (unzip1 (in3 i)).
            have : {subset in3 i <= [seq (j, Some (zz j)) | j <- ids]} by move=> x; rewrite (perm_mem Hp).
            elim: (in3 i) => [|x l IH] //= Hsub; rewrite -IH; last first.
              by move=> y Hy; apply: Hsub; rewrite inE Hy orbT.
            congr (_ :: _); have /mapP [j _ ->] // := Hsub x (mem_head _ _).
          by have := perm_map fst Hp; rewrite -/(unzip1 _) -/(unzip1 _) unzip1_pairs.
        rewrite Ejs (r3_loop_run (L := idcoeff F ids) (Rr := Rj)) ?add0r ?(perm_big _ Epj) //.
        move=> j; rewrite (perm_mem Epj) => Hj /=; rewrite (hs_lookup Hi Hj) (Hl j Hj); split=> //; split=> //.
        exact: Eq.
      Qed.

      (** C30: every signer's SignRound3 returns the same signature and Verify accepts it, provided the
          challenge does not depend on the sign of R whenever R can be negative (true for Ed25519, whose
          points are never negative, and for Mina, whose challenge hashes only R's x coordinate) *)
      Theorem C30_honest_signing :
        (forall r, isneg r -> ch m (peval pol 0 *: G) (- r) = ch m (peval pol 0 *: G) r) ->
        exists R0 z c, (ids <> [::] -> frost_verify G mempty ch (peval pol 0 *: G) m z c = Ok true) /\
          forall i, i \in ids -> exists s3,
            sign_round3 G mempty ch isneg (s2 i) (Some (in3 i)) = Ok (s3, (R0, z, c)).
      Proof.
        move=> Hneg; have [c [z [Hc Ez Hall]]] := hs_r3; exists R, z, c.
        have Hch : ids <> [::] -> ch m (peval pol 0 *: G) (z *: G + (- c) *: (peval pol 0 *: G)) = Some c.
          move=> N; case: Hc => // Hc; rewrite Ez; case: ifP => // Hn; by rewrite Hneg.
        split; first by move=> /Hch E; rewrite /frost_verify (negPf (hs_msg S)) E eqxx.
        move=> i Hi; have Ni : ids <> [::] by move=> E; rewrite E in Hi.
        have [El [ER Ecc] [Em Er] [Ed Ee] [Eco [Et Ev]]] := Hall i Hi.
        rewrite /sign_round3 Ed Ee eqxx /= Em (negPf (hs_msg S)) Eco Er Et ER Ecc Ev.
        rewrite (_ : has _ (in3 i) = false); last first.
          by rewrite (perm_has _ (H3 Hi)) has_map; apply/hasPn.
        rewrite (perm_size (hs_in2 S Hi)) (perm_size (H3 Hi)) !size_map eqxx /= El /= Hch // eqxx /=.
        by eexists.
      Qed.

      (** C30 refuted for other curves: when the aggregate nonce R is negative and the challenge of -R
          differs from that of R, the honest run fails in SignRound3 for every signer *)
      Theorem C30_sign_sensitive_challenge_refuted c' i : i \in ids ->
        isneg (sg_R (s2 i)) -> ch m (peval pol 0 *: G) (- sg_R (s2 i)) = Some c' ->
        ch m (peval pol 0 *: G) (sg_R (s2 i)) <> Some c' ->
        sign_round3 G mempty ch isneg (s2 i) (Some (in3 i)) = Err FInvalid.
      Proof.
        move=> Hi; have [c [z [Hc Ez Hall]]] := hs_r3.
        have [El [ER Ecc] [Em Er] [Ed Ee] [Eco [Et Ev]]] := Hall i Hi.
        rewrite ER => Hn E1 E2.
        case: Hc => [Hc|E]; last by rewrite E in Hi.
        rewrite Hn in Ez.
        rewrite /sign_round3 Ed Ee eqxx /= Em (negPf (hs_msg S)) Eco Er Et ER Ecc Ev.
        rewrite (_ : has _ (in3 i) = false); last first.
          by rewrite (perm_has _ (H3 Hi)) has_map; apply/hasPn.
        rewrite (perm_size (hs_in2 S Hi)) (perm_size (H3 Hi)) !size_map eqxx /= El /= Ez E1.
        by case: eqP => // E; rewrite Hc -E in E2.
      Qed.
    End Round3.
  End Run.
End Props.

(** C30 applies to something: signers 1 and 2 with shares of 1 + x and nonces 1 *)
Example C30_nonvacuous (F : fieldType) (HF : big_field F) :
  exists pol lc s0 s1 d e bm in2,
    honest_sign (V := [lmodType F of F^o]) (1 : F^o) (fun m : nat => m == 0%N) [:: 1; 2]%N pol 7%N lc s0 s1 d e bm in2.
Proof.
  pose V := [lmodType F of F^o]; pose g : V := 1.
  pose ids := [:: 1; 2]%N; pose pol : seq F := [:: 1; 1].
  pose l := [seq (i, idcoeff F ids i) | i <- ids].
  exists pol, (fun=> l).
  exists (fun i => Signer (peval pol i%:R) (peval pol i%:R *: g) (peval pol 0 *: g) i 2 1 l ids None None None None 0 [::] 0).
  exists (fun i => Signer (peval pol i%:R) (peval pol i%:R *: g) (peval pol 0 *: g) i 2 2 l ids (Some 1) (Some 1) None None 0 [::] 0).
  exists (fun=> 1), (fun=> 1), (fun=> (1 *: g, 1 *: g)), (fun=> [seq (j, Some (1 *: g, 1 *: g)) | j <- ids]).
  split=> //.
  - by move=> i; rewrite !inE => /orP [] /eqP ->.
  - move=> i _; exists ids, (fun=> ids); split=> //; apply: lagrange_coeffsE => //.
    by apply: natr_uniq.
  - by move=> i _; split; exact/eqP/oner_neq0.
Qed.
