(** C31 against arbitrary peers: what a participant that completes Rounds 2 and 3 knows about the
    shares it accepted, and the v1 Pedersen dealer they come from (C26). *)
From mathcomp Require Import all_ssreflect all_algebra.
From Verif Require Import AlgBase Lagrange ShamirModel ShamirSpec ShamirProofs ShamirProofs2
  SharingV1Model SharingV1Spec SharingV1Proofs FrostDkgModel FrostDkgProofs GennaroModel GennaroProofs SharingV1Props.
Set Implicit Arguments.
Unset Strict Implicit.
Unset Printing Implicit Defensive.
Import GRing.Theory.
Local Open Scope ring_scope.
Local Arguments poly_init : simpl never.

Section Adv.
  Variable p : nat.
  Hypothesis Hp : prime p.
  Local Notation F := ('F_p).
  Variables (V : lmodType F) (G : V).

  (** v1 Pedersen.Split: the shares of the secret and of the blinding factor are the values of two
      polynomials with their own random coefficients, and the commitments are those of the pairs of
      coefficients *)
  Theorem C26_v1_split (pd : pedersen V) secret blinding (rnd rndb : seq F) bl bsh sh ped feld :
    size rnd = (sh_thr (pd_sh pd)).-1 -> size rndb = (sh_thr (pd_sh pd)).-1 ->
    pedersen_split1 G pd secret blinding rnd rndb = Ok (bl, bsh, sh, ped, feld) ->
    let f := (be_value secret)%:R :: rnd in let g := blinding%:R :: rndb in
    [/\ bl = blinding /\ (blinding < p)%N /\ (be_value secret < p)%N,
        sh = [seq (i, peval f i%:R) | i <- iota 1 (sh_lim (pd_sh pd))],
        bsh = [seq (i, peval g i%:R) | i <- iota 1 (sh_lim (pd_sh pd))],
        ped = [seq f`_k *: G + g`_k *: pd_gen pd | k <- iota 0 (size rnd).+1] &
        feld = [seq f`_k *: G | k <- iota 0 (size rnd).+1]].
  Proof.
    move=> Hr Hrb; rewrite /pedersen_split1.
    case E: (get_shares1 _ secret _) => [sp||] //=.
    case E': (get_shares1 _ (getb blinding) _) => [sb||] //= [<- <- <- <- <-].
    case: (get_shares1_ok E) => _ H1 _ E2 E1; case: (get_shares1_ok E') => _ H1' _ E2' E1'.
    rewrite setb_getb in H1' E2'; rewrite -setb_value.
    rewrite (poly_init_full _ Hr) in E2; rewrite (poly_init_full _ Hrb) in E2'.
    have S n : iota 1 n = [seq i.+1 | i <- iota 0 n] by rewrite (iotaDl 1 0).
    split=> //.
    - rewrite E1 S -map_comp; apply: eq_map => i /=; by rewrite E2.
    - rewrite E1' S -map_comp; apply: eq_map => i /=; by rewrite E2'.
    - by rewrite E2 E2'.
    - by rewrite E2 -{1}[_ :: rnd](mkseq_nth 0) /mkseq -map_comp.
  Qed.

  Lemma pedersen_verify1_true (pd : pedersen V) sh bsh C : pedersen_verify1 G pd sh bsh C = Ok true ->
    [/\ (sh_thr (pd_sh pd) <= size C)%N, (sh.1 < p)%N & sh.2 *: G + bsh.2 *: pd_gen pd = ceval C sh.1%:R].
  Proof.
    rewrite /pedersen_verify1; case: ltnP => // H; rewrite /elem; case: ltnP => // Hs /=.
    by case: C H => // c0 cs H [/eqP ->]; rewrite commit_evalE.
  Qed.
  Lemma feldman_verify1_true s (sh : share1 p) (C : seq V) : feldman_verify1 G s sh C = Ok true ->
    [/\ (sh_thr s <= size C)%N, (sh.1 < p)%N & sh.2 *: G = ceval C sh.1%:R].
  Proof.
    rewrite /feldman_verify1; case: ltnP => // H; rewrite /elem; case: ltnP => // Hs /=.
    by case: C H => // c0 cs H [/eqP ->]; rewrite commit_evalE.
  Qed.

  Lemma set_share_lookup (m m' : seq (nat * pdata V)) id s : set_share m id s = Some m' ->
    forall k, omap fst (lookup m' k) = if k == id then Some (Some s) else omap fst (lookup m k).
  Proof.
    elim: m m' => [|[k0 d] m IH] m' //=; case: eqP => [->|N].
      by move=> [<-] k /=; case: eqP.
    case E: (set_share m id s) => [r|] //= [<-] k /=; case: eqP => [->|N'].
      by case: eqP => // E'; case: N.
    exact: IH.
  Qed.
  Lemma set_ver_lookup (m m' : seq (nat * pdata V)) id v : set_ver m id v = Some m' ->
    forall k, omap fst (lookup m' k) = omap fst (lookup m k).
  Proof.
    elim: m m' => [|[k0 d] m IH] m' //=; case: eqP => [_|N].
      by move=> [<-] k /=; case: eqP.
    case E: (set_ver m id v) => [r|] //= [<-] k /=; case: eqP => // _; exact: IH.
  Qed.

  Lemma loop2_inv (dp : gp V) p2p bc oth sk r : g_loop2 G dp p2p bc oth sk = Ok r ->
    [/\ forall j C, List.In (j, C) bc -> j <> g_id dp -> exists x b,
          [/\ lookup p2p j = Some (x, b), pedersen_verify1 G (g_pd dp) x b C = Ok true &
              omap fst (lookup r.1 j) = Some (Some x)],
        forall j, j \notin unzip1 bc -> omap fst (lookup r.1 j) = omap fst (lookup oth j) &
        r.2 = sk + \sum_(e <- bc | e.1 != g_id dp) (if lookup p2p e.1 is Some xb then xb.1.2 else 0)].
  Proof.
    elim: bc oth sk => [|[id C] bc IH] oth sk /=; first by case=> <-; split=> //; rewrite big_nil addr0.
    case: (id =P g_id dp) => [Eid|Nid].
      move=> /IH [H1 H2 H3]; split.
      - by move=> j C' [[<- _] []|Hin]; [|exact: H1].
      - by move=> j; rewrite inE negb_or => /andP [_]; exact: H2.
      - by rewrite big_cons Eid eqxx.
    case El: (lookup p2p id) => [[x b]|] //.
    case Ev: (pedersen_verify1 _ _ _ _ _) => [[]||] //=.
    case Es: (set_share oth id x) => [oth'|] // /IH [H1 H2 H3].
    have Hid : forall o, lookup r.1 id = o -> omap fst (lookup r.1 id) = Some (Some x).
      move=> _ _; case Hin: (id \in unzip1 bc).
        have [C' HC'] : exists C', List.In (id, C') bc.
          elim: (bc) Hin => [|[k c] l IHl] //=; rewrite inE; case/orP => [/eqP ->|/IHl [C' HC']].
            by exists c; left.
          by exists C'; right.
        by have [x' [b' [E' _ ->]]] := H1 _ _ HC' Nid; move: E'; rewrite El => -[-> _].
      by rewrite H2 ?Hin // (set_share_lookup Es) eqxx.
    split.
    - move=> j C' [[<- <-] _|Hin Nj]; last exact: H1.
      by exists x, b; split=> //; exact: Hid.
    - move=> j; rewrite inE negb_or => /andP [/negbTE N Hj].
      by rewrite H2 // (set_share_lookup Es) N.
    - by rewrite H3 big_cons /= (introN eqP Nid) El addrA.
  Qed.

  (** C31: whatever the messages, a participant that completes Round2 has, for every broadcast of another
      participant, a pair of shares on the committed pair of polynomials, at the identifier written in
      the share; its secret key share is its own share plus the shares received *)
  Theorem C31_round2_checks dp bc p2p dp' v :
    g_round2 G dp bc p2p = Ok (dp', v) ->
    (forall j C, List.In (j, C) bc -> j <> g_id dp -> exists x b,
       [/\ List.In (j, (x, b)) p2p, (x.1 < p)%N, (sh_thr (pd_sh (g_pd dp)) <= size C)%N &
           x.2 *: G + b.2 *: pd_gen (g_pd dp) = ceval C x.1%:R]) /\
    exists own, onth (g_sshares dp) (g_id dp).-1 = Some own /\
      g_sk dp' = own.2 + \sum_(e <- bc | e.1 != g_id dp) (if lookup p2p e.1 is Some xb then xb.1.2 else 0).
  Proof.
    rewrite /g_round2; case: ifP => // _; case: ifP => // _.
    case Eo: (if g_id dp == 0%N then None else _) => [own|] //.
    case E: (g_loop2 _ _ _ _ _ _) => [r||] //= [<- _] /=.
    case: (loop2_inv E) => H1 _ H3; split.
      move=> j C Hin Nj; have [x [b [El Ev _]]] := H1 j C Hin Nj.
      have [A B D] := pedersen_verify1_true Ev; exists x, b; split=> //; exact: lookup_some.
    by exists own; split=> //; move: Eo; case: eqP.
  Qed.

  Lemma loop3_inv (dp : gp V) bc oth pk r : g_loop3 G dp bc oth pk = Ok r ->
    (forall j C, List.In (j, C) bc -> j <> g_id dp -> exists x,
       omap fst (lookup oth j) = Some (Some x) /\ feldman_verify1 G (pd_sh (g_pd dp)) x C = Ok true) /\
    r.2 = pk + \sum_(e <- bc | e.1 != g_id dp) nth 0 e.2 0.
  Proof.
    elim: bc oth pk => [|[id C] bc IH] oth pk /=; first by case=> <-; split=> //; rewrite big_nil addr0.
    case: (id =P g_id dp) => [Eid|Nid].
      move=> /IH [H1 H3]; split; last by rewrite big_cons Eid eqxx.
      by move=> j C' [[<- _] []|Hin]; [|exact: H1].
    case El: (lookup oth id) => [[[x|] d]|] //.
    case Ev: (feldman_verify1 _ _ _ _) => [[]||] //=.
    case Es: (set_ver oth id C) => [oth'|] //; case: C Ev Es => // v0 C Ev Es /IH [H1 H3]; split.
      move=> j C' [[<- <-] _|Hin Nj]; first by exists x; rewrite El.
      by have := H1 j C' Hin Nj; rewrite (set_ver_lookup Es).
    by rewrite H3 big_cons /= (introN eqP Nid) addrA.
  Qed.

  (** C31: Round2 and Round3 together: for every verifier list broadcast in Round3 by a participant that
      also broadcast in Round2, the share accepted in Round2 lies on the committed polynomial *)
  Theorem C31_round3_checks dp bc p2p dp' v bc' dp'' pk sh : unzip1 bc' =i unzip1 bc ->
    g_round2 G dp bc p2p = Ok (dp', v) -> g_round3 G dp' bc' = Ok (dp'', pk, sh) ->
    (forall j C, List.In (j, C) bc' -> j <> g_id dp -> exists x b,
       [/\ List.In (j, (x, b)) p2p, (x.1 < p)%N, (sh_thr (pd_sh (g_pd dp)) <= size C)%N &
           x.2 *: G = ceval C x.1%:R]) /\
    pk = nth 0 (g_ver dp) 0 + \sum_(e <- bc' | e.1 != g_id dp) nth 0 e.2 0 /\ pk <> 0 /\
    sh = (g_id dp, g_sk dp').
  Proof.
    move=> K; rewrite /g_round2; case: ifP => // _; case: ifP => // _.
    case Eo: (if g_id dp == 0%N then None else _) => [own|] //.
    case E: (g_loop2 _ _ _ _ _ _) => [r||] //= [<- _] /=.
    rewrite /g_round3 /=; case: ifP => // _; case Eg: (g_ver dp) => [|v0 vs] //.
    case E': (g_loop3 _ _ _ _ _) => [r'||] //=; case: eqP => // Nz [_ <- <-] /=.
    case: (loop2_inv E) => H1 _ H3; case: (loop3_inv E') => /= H1' H3'; split; last by split=> //.
    move=> j C Hin Nj.
    have [C0 Hin0] : exists C0, List.In (j, C0) bc.
      have : j \in unzip1 bc.
        rewrite -K; elim: (bc') Hin => [|[k c] l IHl] //= [[-> _]|/IHl Hl]; rewrite inE ?eqxx ?Hl ?orbT //.
      elim: (bc) => [|[k c] l IHl] //=; rewrite inE; case/orP => [/eqP ->|/IHl [C' HC']].
        by exists c; left.
      by exists C'; right.
    have [x [b [El _ Ex]]] := H1 j C0 Hin0 Nj; have [x' []] := H1' j C Hin Nj.
    rewrite Ex => -[<-] Ev; have [A B D] := feldman_verify1_true Ev.
    exists x, b; split=> //; exact: lookup_some.
  Qed.

  (** C31: hence, when the received shares carry the recipient's identifier, its key share is the one
      determined by everybody's verifiers: the public key of the share is the committed polynomials'
      value at the identifier *)
  Theorem C31_share_matches_verifiers dp bc p2p dp' v bc' dp'' pk sh own :
    uniq (unzip1 bc') -> unzip1 bc' = unzip1 bc ->
    onth (g_sshares dp) (g_id dp).-1 = Some own ->
    (forall j x b, List.In (j, (x, b)) p2p -> x.1 = g_id dp) ->
    g_round2 G dp bc p2p = Ok (dp', v) -> g_round3 G dp' bc' = Ok (dp'', pk, sh) ->
    sh.2 *: G = own.2 *: G + \sum_(e <- bc' | e.1 != g_id dp) ceval e.2 (g_id dp)%:R.
  Proof.
    move=> U K Ho Hids R2 R3.
    have [_ [own' []]] := C31_round2_checks R2; rewrite Ho => -[<-] Esk.
    have K' : unzip1 bc' =i unzip1 bc by rewrite K.
    have [_ [_ [_ ->]]] := C31_round3_checks K' R2 R3; rewrite /= Esk scalerDl; congr (_ + _).
    move: R2 R3; rewrite /g_round2; case: ifP => // _; case: ifP => // _.
    case: (if g_id dp == 0%N then None else _) => [own2|] //.
    case E: (g_loop2 _ _ _ _ _ _) => [r||] //= [<- _] /=.
    rewrite /g_round3 /=; case: ifP => // _; case: (g_ver dp) => [|v0 vs] //.
    case E': (g_loop3 _ _ _ _ _) => [r'||] //= _.
    case: (loop2_inv E) => H1 _ _; case: (loop3_inv E') => /= H1' _.
    pose f j := if lookup p2p j is Some xb then xb.1.2 else 0.
    have -> : \sum_(e <- bc | e.1 != g_id dp) f e.1 = \sum_(e <- bc' | e.1 != g_id dp) f e.1.
      by rewrite -(big_map fst (fun j => j != g_id dp) f) -(big_map fst (fun j => j != g_id dp) f (r := bc'))
        -/(unzip1 bc) -/(unzip1 bc') K.
    rewrite scaler_suml.
    have Hall : forall j C, List.In (j, C) bc' -> j <> g_id dp -> f j *: G = ceval C (g_id dp)%:R.
      move=> j C Hin Nj.
      have [C0 Hin0] : exists C0, List.In (j, C0) bc.
        have : j \in unzip1 bc.
          rewrite -K; elim: (bc') Hin => [|[k c] l IHl] //= [[-> _]|/IHl Hl]; rewrite inE ?eqxx ?Hl ?orbT //.
        elim: (bc) => [|[k c] l IHl] //=; rewrite inE; case/orP => [/eqP ->|/IHl [C' HC']].
          by exists c; left.
        by exists C'; right.
      have [x [b [El _ Ex]]] := H1 j C0 Hin0 Nj; have [x' []] := H1' j C Hin Nj.
      rewrite Ex => -[<-] Ev; have [A B D] := feldman_verify1_true Ev.
      by rewrite /f El /= D (Hids _ _ _ (lookup_some El)).
    elim: (bc') Hall => [|[j C] l IH] Hall; rewrite ?big_nil // !big_cons /= IH; last first.
      by move=> j' C' Hin; apply: Hall; right.
    by case: eqP => //= Nj; rewrite (Hall j C (or_introl erefl) Nj).
  Qed.
End Adv.
