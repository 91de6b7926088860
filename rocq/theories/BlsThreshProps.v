(** C35: threshold BLS signatures. *)
From mathcomp Require Import all_ssreflect all_algebra.
From Coq Require Import BinNat Nnat.
From Verif Require Import AlgBase Lagrange PairingBase ShamirModel ShamirSpec ShamirProofs ShamirProofs2 ByteVec SchnorrModel BlsModel BlsProps ScalarCodec ShamirProps.
Delimit Scope nat_scope with N.
Delimit Scope N_scope with num.
Set Implicit Arguments.
Unset Strict Implicit.
Unset Printing Implicit Defensive.
Import GRing.Theory.
Local Open Scope ring_scope.

Section Props.
  Variables (F : fieldType) (V1 V2 VT : lmodType F) (e : pairing V1 V2 VT) (G : V1).
  Variables (hash : bytes -> bytes -> V2).
  Variables (le_bytes : F -> bytes) (le_set : bytes -> option F).
  Hypothesis le_round : forall x, le_set (le_bytes x) = Some x.
  Hypothesis le_size : forall x, size (le_bytes x) = 32%N.
  Hypothesis F_big : big_field F.

  (** the Lagrange coefficient at 0 of identifier number i *)
  Definition weight (ids : seq nat) (i : nat) : F :=
    \prod_(j <- iota 0 (size ids) | j != i) ((nth 0%N ids j)%:R / ((nth 0%N ids j)%:R - (nth 0%N ids i)%:R)).

  Lemma basisE (xs : seq F) i : uniq xs -> (i < size xs)%N -> basis_of xs i = Ok (lag0 xs i).
  Proof.
    move=> U L. rewrite /basis_of.
    have H : forall s (a : F), all (fun j => j < size xs)%N s -> foldl (fun acc j => rbind acc (fun basis =>
             if i == j then Ok basis
             else let den := xs`_i - xs`_j in
                  if den == 0 then Err BlRecombine else Ok (basis * ((- xs`_j) * den^-1)))) (Ok a) s =
        Ok (a * \prod_(j <- s | j != i) (xs`_j / (xs`_j - xs`_i))).
    { elim=> [|j s IH] a /=; first by rewrite big_nil mulr1.
      case/andP=> Lj A. rewrite big_cons eq_sym. case: (j =P i) => [_|/eqP N] /=; first exact: IH.
      rewrite subr_eq0 nth_uniq // eq_sym (negbTE N) IH //. congr (Ok _).
      by rewrite [RHS]mulrA mulNr -mulrN -invrN opprB. }
    rewrite H ?mul1r; last by apply/allP => j; rewrite mem_iota.
    by rewrite /lag0 -prodf_div.
  Qed.
  Lemma combine_loopE (xs : seq F) (ys : seq V2) : uniq xs ->
    foldl (fun acc i => rbind acc (fun sg => rbind (basis_of xs i) (fun b => Ok (sg + b *: nth 0 ys i))))
          (Ok 0) (iota 0 (size xs)) = (Ok (\sum_(i <- iota 0 (size xs)) lag0 xs i *: nth 0 ys i) : res bls_err V2).
  Proof.
    move=> U.
    have H : forall s r, all (fun i => i < size xs)%N s ->
      foldl (fun acc i => rbind acc (fun sg => rbind (basis_of xs i) (fun b => Ok (sg + b *: nth 0 ys i)))) (Ok r) s
      = (Ok (r + \sum_(i <- s) lag0 xs i *: nth 0 ys i) : res bls_err V2).
    { elim=> [|i s IH] r /=; first by rewrite big_nil addr0.
      case/andP=> Hi Hs. by rewrite basisE //= IH // big_cons addrA. }
    rewrite H ?add0r //; by apply/allP => i; rewrite mem_iota.
  Qed.

  Lemma split_xy_ok (qs : seq (nat * V2)) dup : uniq (unzip1 qs) -> (forall i, i \in dup -> i \notin unzip1 qs) ->
    split_xy dup [seq Some (q.1, In q.2) | q <- qs] = Ok ([seq (q.1)%:R | q <- qs], unzip2 qs).
  Proof.
    elim: qs dup => [|[i v] qs IH] dup //= /andP [N U] D. case: ifP => [/D|I].
    - by rewrite inE eqxx.
    - rewrite IH // => j. rewrite inE => /orP [/eqP ->//|/D]. by rewrite inE negb_or => /andP [].
  Qed.
  Lemma split_xy_inv ps dup xy : split_xy (V2 := V2) dup ps = Ok xy ->
    exists qs, [/\ ps = [seq Some (q.1, In q.2) | q <- qs], uniq (unzip1 qs) & forall i, i \in dup -> i \notin unzip1 qs].
  Proof.
    elim: ps dup xy => [|[[i [v|]]|] ps IH] dup xy //=; first by move=> _; exists [::].
    - case: ifP => // I. case E: (split_xy _ _) => [r| |] // _. have [qs [-> U D]] := IH _ _ E.
      exists ((i, v) :: qs). split=> //=.
      + by rewrite U D ?inE ?eqxx.
      + move=> j J. rewrite inE negb_or (D j) ?inE ?J ?orbT // andbT. by apply/eqP => Ej; rewrite -Ej J in I.
    - by case: ifP.
  Qed.
  Lemma weightE ids i : lag0 [seq j%:R : F | j <- ids] i = weight ids i.
  Proof.
    rewrite /lag0 /weight size_map -prodf_div.
    have E j : [seq j%:R : F | j <- ids]`_j = (nth 0%N ids j)%:R.
    { case: (ltnP j (size ids)) => L; first by rewrite (nth_map 0%N). by rewrite !nth_default ?size_map. }
    apply: eq_bigr => j _. by rewrite !E.
  Qed.

  Lemma ids_of (qs : seq (nat * V2)) : pmap (omap fst) [seq Some (q.1, In q.2) | q <- qs] = unzip1 qs.
  Proof. by elim: qs => [|q qs IH] //=; rewrite IH. Qed.
  (** Exactly: 2 to 255 partial signatures, none nil or outside the subgroup, with distinct identifiers (a byte each), are
      combined, to the sum of weight_i * s_i. *)
  Theorem C35_combine_iff (ps : seq (option (nat * point V2))) r : all (fun i => i < 256)%N (pmap (omap fst) ps) ->
    combine_sigs ps = Ok r <->
    exists qs : seq (nat * V2), [/\ (2 <= size qs <= 255)%N, ps = [seq Some (q.1, In q.2) | q <- qs], uniq (unzip1 qs) &
      r = \sum_(i <- iota 0 (size qs)) weight (unzip1 qs) i *: nth 0 (unzip2 qs) i].
  Proof.
    move=> B. have R qs : ps = [seq Some (q.1, In q.2) | q <- qs] -> (2 <= size qs <= 255)%N -> uniq (unzip1 qs) ->
      combine_sigs ps = Ok (\sum_(i <- iota 0 (size qs)) weight (unzip1 qs) i *: nth 0 (unzip2 qs) i).
    { move=> E /andP [L1 L2] U. rewrite /combine_sigs E size_map ltnNge L1 ltnNge L2. cbn [negb].
      rewrite split_xy_ok //. cbn [rbind fst snd].
      have EX : [seq (q.1)%:R : F | q <- qs] = [seq i%:R | i <- unzip1 qs] by rewrite -map_comp.
      have UX : uniq [seq (q.1)%:R : F | q <- qs].
      { rewrite EX. apply: natr_uniq => //. by move: B; rewrite E ids_of. }
      rewrite combine_loopE // size_map. congr (Ok _). apply: eq_bigr => i _. by rewrite EX weightE. }
    split=> [C|[qs [L E U ->]]]; last exact: R.
    have := C. rewrite /combine_sigs. case: ltnP => // L1. case: ltnP => // L2.
    case S: (split_xy _ _) => [xy| |] // _. have [qs [E U _]] := split_xy_inv S.
    have L : (2 <= size qs <= 255)%N by move: L1 L2; rewrite E size_map => -> ->.
    exists qs. split=> //. have := R qs E L U. rewrite C. by case.
  Qed.

  Local Notation thresholdize := (thresholdize le_bytes).
  Local Notation psign := (partial_sign hash le_set).

  Lemma share_decodes x : le_set (fit32b (rev_bytes (be_bytes le_bytes x))) = Some x.
  Proof. by rewrite /be_bytes /rev_bytes revK /fit32b take_cat le_size ltnn subnn take0 cats0 le_round. Qed.

  (** the shares of a key: number i holds the value at i of a polynomial whose coefficients are the key and the random
      scalars *)
  Lemma thresholdize_inv sk t n rnd shares : size rnd = t.-1 -> thresholdize sk t n rnd = Ok shares ->
    [/\ (2 <= t <= n)%N, (n <= 255)%N, sk <> 0 &
        shares = [seq (i, be_bytes le_bytes (peval (sk :: rnd) i%:R)) | i <- iota 1 n]].
  Proof.
    move=> Sr. rewrite /thresholdize. case: (n < t)%N => //. case: (t == 0)%N => //. case: (n <= 1)%N => //. case: (_ || _) => //.
    case E: (new_shamir t n false) => [s| |] //. cbn [rbind]. have [Es Ht Htn Hn _] := new_shamir_inv E.
    rewrite /split. case: eqP => // S0. cbn [negb]. case=> <-. split=> //; first by rewrite Ht Htn.
    rewrite Es /get_poly_and_shares. cbn [fst snd sh_thr sh_lim]. rewrite -map_comp.
    rewrite -[1%N]addn0 iotaDl -map_comp. apply/eq_in_map => i. rewrite mem_iota add0n => /andP [_ Li]. rewrite /comp. cbn [fst snd].
    rewrite evaluateE poly_init_full // add1n modn_small // ltnS. exact: leq_trans Li Hn.
  Qed.

  (** Any [threshold] or more distinct shares, in any order: their partial signatures combine to the signature of the key
      itself. *)
  Theorem C35_threshold_signature sk t n rnd shares chosen msg dst : size rnd = t.-1 ->
    thresholdize sk t n rnd = Ok shares -> uniq chosen -> {subset chosen <= shares} -> (t <= size chosen)%N -> msg <> [::] ->
    exists ps, [/\ size ps = size chosen,
      forall i, (i < size chosen)%N -> psign (nth (0%N, [::]) chosen i) msg dst = Ok (nth (0%N, Off) ps i),
      combine_sigs [seq Some p | p <- ps] = Ok (sk *: hash msg dst) &
      create_signature hash sk (Some msg) dst = Ok (sk *: hash msg dst)].
  Proof.
    move=> Sr /(thresholdize_inv Sr) [/andP [T1 T2] N1 S0 Es] U Sub L M.
    pose val (i : nat) := peval (sk :: rnd) i%:R.
    have inS s : s \in chosen -> (0 < s.1 <= n)%N /\ s.2 = be_bytes le_bytes (val s.1).
    { move=> /Sub. rewrite Es => /mapP [i]. rewrite mem_iota add1n ltnS => Hi ->. by []. }
    exists [seq (s.1, In (val s.1 *: hash msg dst)) | s <- chosen].
    have UI : uniq (unzip1 chosen).
    { rewrite map_inj_in_uniq // => -[i v] [j w] /inS [_ /= ->] /inS [_ /= ->]. by move=> ->. }
    split; [by rewrite size_map| | |].
    - move=> i Li. rewrite (nth_map (0%N, [::])) // /partial_sign. have [|_ ->] := inS (nth (0%N, [::]) chosen i); first exact: mem_nth.
      rewrite share_decodes. by case: msg M.
    - rewrite -map_comp. set qs := [seq (s.1, val s.1 *: hash msg dst) | s <- chosen].
      have -> : [seq Some (s.1, In (val s.1 *: hash msg dst)) | s <- chosen] = [seq Some (q.1, In q.2) | q <- qs] by rewrite -map_comp.
      have U1 : unzip1 qs = unzip1 chosen by rewrite /unzip1 -map_comp.
      have BI i : i \in unzip1 chosen -> (i < 256)%N.
      { case/mapP=> s /inS [/andP [_ Hs] _] ->. rewrite ltnS. exact: leq_trans Hs N1. }
      have Sz : (size chosen <= 255)%N.
      { rewrite -(size_map fst). apply: (@leq_trans (size (iota 1 255))); last by rewrite size_iota.
        apply: uniq_leq_size => // i Hi. rewrite mem_iota. case/mapP: (Hi) => s /inS [/andP [P _] _] Ei.
        by rewrite add1n BI // andbT Ei. }
      have Sq : size qs = size chosen by rewrite size_map.
      apply/C35_combine_iff.
      { rewrite ids_of U1. by apply/allP => i /BI. }
      exists qs. rewrite U1 Sq Sz (leq_trans T1 L). split=> //.
      set p := Poly (sk :: rnd). set xs := [seq i%:R : F | i <- unzip1 chosen].
      have Sx : size xs = size chosen by rewrite !size_map.
      have UX : uniq xs by apply: natr_uniq => //; apply/allP => i; exact: BI.
      have P0 : p.[0] = sk by rewrite /p -pevalE peval0.
      rewrite -{1}P0 -(lagrange0_scale (hash msg dst) UX); last first.
      { rewrite Sx. apply: leq_trans (size_Poly _) _. by rewrite /= Sr prednK // (leq_trans _ T1). }
      rewrite Sx !big_seq. apply: eq_bigr => i. rewrite mem_iota add0n => Li. rewrite weightE. congr (_ *: _).
      rewrite /qs /unzip2 -map_comp (nth_map (0%N, [::])) //= /val pevalE. congr (_.[_] *: _).
      by rewrite /xs -map_comp (nth_map (0%N, [::])).
    - rewrite /create_signature. by case: eqP.
  Qed.

  (** One share short: the combination of threshold - 1 partial signatures (two or more) is not refused, and it is the
      signature only if the top random coefficient is zero or the hash point is. *)
  Theorem C35_one_short sk t n rnd shares chosen msg dst : size rnd = t.-1 ->
    thresholdize sk t n rnd = Ok shares -> uniq chosen -> {subset chosen <= shares} -> size chosen = t.-1 -> (2 <= t.-1)%N ->
    let ps := [seq (s.1, In (peval (sk :: rnd) (s.1)%:R *: hash msg dst)) | s <- chosen] in
    exists2 r, combine_sigs [seq Some p | p <- ps] = Ok r &
      (r = sk *: hash msg dst <-> last 0 rnd = 0 \/ hash msg dst = 0).
  Proof.
    move=> Sr /(thresholdize_inv Sr) [/andP [T1 T2] N1 S0 Es] U Sub L T3.
    pose val (i : nat) := peval (sk :: rnd) i%:R.
    have inS s : s \in chosen -> (0 < s.1 <= n)%N /\ s.2 = be_bytes le_bytes (val s.1).
    { move=> /Sub. rewrite Es => /mapP [i]. rewrite mem_iota add1n ltnS => Hi ->. by []. }
    cbv zeta. rewrite -map_comp. set qs := [seq (s.1, val s.1 *: hash msg dst) | s <- chosen].
    have -> : [seq Some (s.1, In (val s.1 *: hash msg dst)) | s <- chosen] = [seq Some (q.1, In q.2) | q <- qs] by rewrite -map_comp.
    have UI : uniq (unzip1 chosen).
    { rewrite map_inj_in_uniq // => -[i v] [j w] /inS [_ /= ->] /inS [_ /= ->]. by move=> ->. }
    have U1 : unzip1 qs = unzip1 chosen by rewrite /unzip1 -map_comp.
    have BI i : i \in unzip1 chosen -> (0 < i < 256)%N.
    { case/mapP=> s /inS [/andP [P Hs] _] ->. rewrite P ltnS. exact: leq_trans Hs N1. }
    have Sz : (size chosen <= 255)%N.
    { rewrite L. apply: leq_trans (leq_pred _) _. exact: leq_trans T2 N1. }
    have Sq : size qs = size chosen by rewrite size_map.
    eexists.
    { apply/C35_combine_iff.
      { rewrite ids_of U1. by apply/allP => i /BI /andP []. }
      exists qs. rewrite U1 Sq Sz L T3. by split. }
    set p := Poly (sk :: rnd). set xs := [seq i%:R : F | i <- unzip1 chosen].
    have Sx : size xs = size chosen by rewrite !size_map.
    have UX : uniq xs by apply: natr_uniq => //; apply/allP => i /BI /andP [].
    have P0 : p.[0] = sk by rewrite /p -pevalE peval0.
    have X0 x : x \in xs -> x != 0 by move=> /mapP [i /BI Hi ->]; exact: F_big.
    pose ys := [seq p.[x] | x <- xs].
    have -> : \sum_(i <- iota 0 t.-1) weight (unzip1 chosen) i *: nth 0 (unzip2 qs) i = (interp xs ys).[0] *: hash msg dst.
    { rewrite interp0 scaler_suml Sx L !big_seq. apply: eq_bigr => i. rewrite mem_iota add0n => Li.
      rewrite -weightE [X in _ = X *: _]mulrC -[RHS]scalerA. congr (_ *: _). rewrite -L in Li.
      rewrite /qs /unzip2 -map_comp (nth_map (0%N, [::])) //= /val pevalE /ys (nth_map 0) ?Sx //. congr (_.[_] *: _).
      by rewrite /xs -map_comp (nth_map (0%N, [::])). }
    set c := last 0 rnd. set w := \prod_(x <- xs) ('X - x%:P) : {poly F}.
    have Sw : size w = t by rewrite size_prod_XsubC Sx L prednK // (leq_trans _ T1).
    have Sp : (size p <= t)%N by apply: leq_trans (size_Poly _) _; rewrite /= Sr prednK // (leq_trans _ T1).
    have LC : p`_t.-1 = c.
    { rewrite /p coef_Poly -Sr /c. have : (0 < size rnd)%N by rewrite Sr (leq_trans _ T3).
      case: (rnd) => [//|y l] _. by rewrite -[size (y :: l)]/(size (sk :: y :: l)).-1 nth_last. }
    have E : p = interp xs ys + c *: w.
    { apply/eqP. rewrite -subr_eq. apply/eqP. apply: (poly_agree UX).
      - rewrite Sx L. apply/leq_sizeP => j. rewrite leq_eqVlt => /orP [/eqP <-|Lj].
        + rewrite coefB coefZ LC. have -> : w`_t.-1 = 1.
          { have /monicP := monic_prod_XsubC xs predT (fun x : F => x). by rewrite /lead_coef -/w Sw. }
          by rewrite mulr1 subrr.
        + rewrite nth_default //. apply: leq_trans (size_add _ _) _. rewrite size_opp geq_max.
          have Lt : (t <= j)%N by move: Lj; rewrite prednK // (leq_trans _ T1).
          rewrite (leq_trans Sp Lt). apply: leq_trans (size_scale_leq _ _) _. by rewrite Sw.
      - exact: interp_size.
      - move=> x Hx. rewrite hornerD hornerN hornerZ (_ : w.[x] = 0) ?mulr0 ?subr0.
        + rewrite -(nth_index 0 Hx) interp_at ?index_mem // (nth_map 0) ?index_mem //.
        + apply/eqP. by rewrite -[_ == 0]/(root w x) root_prod_XsubC. }
    have W0 : w.[0] != 0.
    { apply/negP => R0. have : root w 0 by []. rewrite root_prod_XsubC => /X0. by rewrite eqxx. }
    have -> : sk = (interp xs ys).[0] + c * w.[0] by rewrite -P0 {1}E hornerD hornerZ.
    rewrite scalerDl. split.
    - move/eqP. rewrite -subr_eq0 opprD addrA subrr add0r oppr_eq0 !scaler_eq0 mulf_eq0 (negbTE W0) orbF.
      by case/orP=> /eqP; [left|right].
    - by case=> ->; rewrite ?mul0r ?scale0r ?scaler0 ?addr0.
  Qed.

  (** Refuted part: identifier 0 is accepted, and the other partial signatures are then ignored. *)
  Theorem C35_zero_identifier_refuted (qs : seq (nat * V2)) (v : V2) : (1 <= size qs <= 254)%N ->
    uniq (unzip1 qs) -> (forall i, i \in unzip1 qs -> (0 < i < 256)%N) ->
    combine_sigs (Some (0%N, In v) :: [seq Some (q.1, In q.2) | q <- qs]) = Ok v.
  Proof.
    move=> /andP [L1 L2] U B. apply/C35_combine_iff.
    { rewrite [pmap _ _]/= ids_of /=. by apply/allP => i /B /andP []. }
    exists ((0%N, v) :: qs). split=> //=.
    - by rewrite !ltnS L1.
    - rewrite U andbT. by apply/negP => /B.
    - rewrite big_cons /= (_ : weight _ 0 = 1); last first.
      { rewrite /weight /= big_cons /=. rewrite big_seq_cond big1 // => i /andP [].
        rewrite mem_iota => /andP [P Li] _. case: i P Li => // i _. rewrite add1n ltnS size_map => Li.
        rewrite /= subr0 divff //. have := B (nth 0%N (unzip1 qs) i). rewrite mem_nth ?size_map // => /(_ isT). exact: F_big. }
      rewrite scale1r big_seq big1 ?addr0 // => i. rewrite mem_iota => /andP [P Li].
      rewrite (_ : weight _ i = 0) ?scale0r //.
      rewrite /weight /= big_cons ifT; last by case: i P {Li}. by rewrite mul0r mul0r.
  Qed.
  (** none of: fewer than two, more than 255, repeated identifiers, nil, a point outside the subgroup *)
  Theorem C35_refused (ps : seq (option (nat * point V2))) r : combine_sigs ps = Ok r ->
    exists qs : seq (nat * V2), [/\ (2 <= size qs <= 255)%N, ps = [seq Some (q.1, In q.2) | q <- qs] & uniq (unzip1 qs)].
  Proof.
    rewrite /combine_sigs. case: ltnP => // L1. case: ltnP => // L2.
    case S: (split_xy _ _) => [xy| |] // _. have [qs [E U _]] := split_xy_inv S.
    exists qs. split=> //. by move: L1 L2; rewrite E size_map => -> ->.
  Qed.

  (** Secret keys and shares survive serialisation. *)
  Hypothesis le_canonical : forall b x, le_set b = Some x -> le_bytes x = b.
  Hypothesis le_zero : le_bytes 0 = nseq 32 0%num.
  Theorem C35_key_round_trip x : x <> 0 -> sk_unmarshal le_set (sk_marshal le_bytes x) = Ok x.
  Proof.
    move=> X0. rewrite /sk_unmarshal /sk_marshal /rev_bytes size_rev le_size eqxx. cbn [negb].
    case: eqP => [E|_]; last first.
    { rewrite revK /fit32b take_cat le_size ltnn subnn take0 cats0. by rewrite le_round. }
    case: X0. have : le_bytes x = le_bytes 0 by rewrite le_zero -[le_bytes x]revK E rev_nseq.
    move=> E'. have := le_round x. rewrite E' le_round. by case.
  Qed.
  Theorem C35_key_decodes_only_marshalled data x : sk_unmarshal le_set data = Ok x -> sk_marshal le_bytes x = data /\ x <> 0.
  Proof.
    rewrite /sk_unmarshal. case: eqP => // S. cbn [negb]. case: eqP => // Z. rewrite /rev_bytes.
    case E: (le_set _) => [y|] // [<-]. have := le_canonical E.
    rewrite /fit32b take_cat size_rev S ltnn subnn take0 cats0 => E'. rewrite /sk_marshal /rev_bytes E' revK. split=> // Y0.
    apply: Z. rewrite -[data]revK -E' Y0 le_zero rev_nseq. by [].
  Qed.
  Theorem C35_share_round_trip (i : nat) (v : bytes) : (0 < i < 256)%N -> size v = 32%N ->
    exists2 b, share_marshal (i, v) = Ok b & share_unmarshal b = Ok (i, v).
  Proof.
    move=> /andP [I0 _] S. rewrite /share_marshal. cbn [fst snd]. rewrite S ltnn subnn. eexists; first by [].
    rewrite /share_unmarshal size_cat S. cbn [size nseq addn]. rewrite eqxx. cbn [negb].
    rewrite nth_cat S ltnn subnn. cbn [nth]. rewrite Nat2N.id take_cat S ltnn subnn take0 cats0.
    case: eqP => // E. have := congr1 (fun s => nth 0%num s 32) E. rewrite nth_cat S ltnn subnn nth_nseq. cbn [nth].
    by case: (i) I0.
  Qed.
End Props.

(** Non-vacuity: a 2-of-3 sharing over the field of 257 elements; two partial signatures combine to the key's signature,
    which verifies. *)
Example C35_nonvacuous :
  let F := [fieldType of 'F_257] in let V := [lmodType F of F^o] in
  let hash : bytes -> bytes -> V := fun m d => (size m)%:R in
  exists shares ps, 
    [/\ thresholdize (@fp_bytes 257) (5%:R : F) 2 3 [:: 7%:R] = Ok shares,
        partial_sign hash (@fp_setbytes 257) (nth (0%N, [::]) shares 2) [:: 1%num; 2%num] [::] = Ok (nth (0%N, Off) ps 0),
        combine_sigs [seq Some p | p <- ps] = Ok (5%:R *: (2%:R : V)) &
        verify_signature (field_pairing F) 1 hash (fun _ _ _ => false) (In (5%:R *: 1)) (Some [:: 1%num; 2%num])
          (Some (In (5%:R *: (2%:R : V)))) [::] = Ok true].
Proof.
  move=> F V hash. have P : prime 257 by []. have LP : N.le (N.of_nat 257) (N.pow 2 256) by [].
  have codec := fp_codec P LP.
  have RT (x : F) : fp_setbytes 257 (fp_bytes x) = Some x by exact: (sc_roundtrip codec).
  have SZ (x : F) : size (fp_bytes x) = 32%N by have [? _] := sc_block codec x.
  have : exists shares, thresholdize (@fp_bytes 257) (5%:R : F) 2 3 [:: 7%:R] = Ok shares.
  { rewrite /thresholdize. cbn [ltn leq]. rewrite /split. have -> : (5%:R : F) == 0 = false by []. by eexists. }
  case=> shares E. have Sr : size [:: 7%:R : F] = 2.-1 by [].
  have [_ _ _ Es] := thresholdize_inv Sr E.
  pose chosen := [:: nth (0%N, [::]) shares 2; nth (0%N, [::]) shares 0].
  have S3 : size shares = 3%N by rewrite Es size_map.
  have IN i : (i < 3)%N -> nth (0%N, [::]) shares i \in shares by rewrite -S3; exact: mem_nth.
  have U : uniq chosen.
  { rewrite /= !inE andbT. apply/eqP => EQ. have := congr1 fst EQ. by rewrite Es. }
  have SB : {subset chosen <= shares} by move=> s; rewrite !inE => /orP [] /eqP ->; apply: IN.
  have M : [:: 1%num; 2%num] <> [::] by [].
  have L : (2 <= size chosen)%N by [].
  have [ps [Sp PS CS _]] := C35_threshold_signature hash RT SZ big_field_257 [::] Sr E U SB L M.
  exists shares, ps. split; [exact: E|exact: (PS 0%N isT)|exact: CS|].
  have G0 : (1 : V) <> 0 by move/eqP; rewrite oner_eq0.
  apply/C34_verify_iff; first exact: G0. split; [| |by []].
  - move=> Z. by have := big_field_257 (n := 5%N) isT; rewrite Z eqxx.
  - move/eqP. rewrite scaler_eq0 => /orP [|] Z.
    + by have := big_field_257 (n := 5%N) isT; rewrite Z.
    + by have := big_field_257 (n := 2%N) isT; rewrite Z.
Qed.
