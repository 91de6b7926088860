(** C22-C26: theorems about crypto/sharing. *)
From mathcomp Require Import all_ssreflect all_algebra.
From Verif Require Import AlgBase Lagrange ShamirModel ShamirSpec ShamirProofs ShamirProofs2.
Set Implicit Arguments.
Unset Strict Implicit.
Unset Printing Implicit Defensive.
Import GRing.Theory.
Local Open Scope ring_scope.

Local Arguments feldman_verify : simpl never.
Local Arguments pedersen_verify : simpl never.
Local Arguments poly_init : simpl never.

Section Props.
  Variables (F : fieldType) (B : eqType) (enc : F -> B) (dec : B -> option F).
  Hypothesis HF : big_field F.
  Hypothesis Hdec : forall x, dec (enc x) = Some x.

  (** C22: any t or more distinct shares of a Split, in any order, none of value zero *)
  Theorem C22_combine_recovers_secret t n s secret rnd shares chosen :
    new_shamir t n false = Ok s -> size rnd = t.-1 ->
    split enc s secret rnd = Ok shares ->
    uniq chosen -> {subset chosen <= shares} -> (t <= size chosen)%N ->
    (forall sh, sh \in chosen -> sh.2 <> enc 0) ->
    combine dec s chosen = Ok secret.
  Proof.
    move=> Hs Hr; rewrite /split; case: eqP => // _ [<-] U Hsub Hl Nz.
    by case: (combine_recovers Hdec HF Hs Hr Hsub U Hl Nz).
  Qed.

  Theorem C22_combine_points_recovers (V : lmodType F) (G : V) t n s secret rnd shares chosen :
    new_shamir t n false = Ok s -> size rnd = t.-1 ->
    split enc s secret rnd = Ok shares ->
    uniq chosen -> {subset chosen <= shares} -> (t <= size chosen)%N ->
    (forall sh, sh \in chosen -> sh.2 <> enc 0) ->
    combine_points dec G s chosen = Ok (secret *: G).
  Proof.
    move=> Hs Hr; rewrite /split; case: eqP => // _ [<-] U Hsub Hl Nz.
    by case: (combine_recovers Hdec HF Hs Hr Hsub U Hl Nz).
  Qed.

  (** the same for the shares dealt by Feldman.Split and by Pedersen.Split (secret and blinding),
      whose Combine is the Shamir one *)
  Theorem C22_feldman_pedersen_combine (V : lmodType F) (G H : V) t n s secret blinding rnd rndb chosen :
    new_shamir t n false = Ok s -> size rnd = t.-1 -> size rndb = t.-1 ->
    uniq chosen -> (t <= size chosen)%N -> (forall sh, sh \in chosen -> sh.2 <> enc 0) ->
    (forall cs shares, feldman_split enc G s secret rnd = Ok (cs, shares) ->
       {subset chosen <= shares} -> combine dec s chosen = Ok secret) /\
    (let r := pedersen_split enc G (Pedersen s H) secret blinding rnd rndb in
     ({subset chosen <= pr_secret_shares r} -> combine dec s chosen = Ok secret) /\
     ({subset chosen <= pr_blind_shares r} -> combine dec s chosen = Ok blinding)).
  Proof.
    move=> Hs Hr Hrb U Hl Nz; split.
      move=> cs shares; rewrite /feldman_split; case: eqP => // _ [_ <-] Hsub.
      by case: (combine_recovers Hdec HF Hs Hr Hsub U Hl Nz).
    split=> Hsub.
      by case: (combine_recovers Hdec HF Hs Hr Hsub U Hl Nz).
    by case: (combine_recovers Hdec HF Hs Hrb Hsub U Hl Nz).
  Qed.

  (** LagrangeCoeffs: whatever order the two map iterations take and however often an identifier is
      repeated, the call succeeds with one coefficient per identifier, the coefficients do not depend
      on the order, and they recover the constant term of every polynomial of few enough
      coefficients *)
  Theorem C22_lagrange_coeffs (ids outer outer' : seq nat) (inner inner' : nat -> seq nat) :
    all (fun i => i < 256)%N ids ->
    perm_eq outer (undup ids) -> (forall i, perm_eq (inner i) (undup ids)) ->
    perm_eq outer' (undup ids) -> (forall i, perm_eq (inner' i) (undup ids)) ->
    exists m m', [/\ lagrange_coeffs F outer inner = Ok m,
      lagrange_coeffs F outer' inner' = Ok m', perm_eq m m', perm_eq (unzip1 m) (undup ids) &
      forall c : seq F, (size c <= size (undup ids))%N ->
        \sum_(e <- m) e.2 * peval c (e.1)%:R = peval c 0].
  Proof.
    move=> Hall Ho Hi Ho' Hi'; set l := undup ids.
    have U : uniq l by exact: undup_uniq.
    have UF : uniq [seq i%:R : F | i <- l].
      apply: natr_uniq => //; apply/allP => i; rewrite mem_undup; exact: (allP Hall).
    have sub : forall o, perm_eq o l -> {subset o <= l} by move=> o /perm_mem E i; rewrite E.
    exists [seq (i, idcoeff F l i) | i <- outer], [seq (i, idcoeff F l i) | i <- outer']; split.
    - by apply: lagrange_coeffsE => //; apply: sub.
    - by apply: lagrange_coeffsE => //; apply: sub.
    - apply: perm_map; apply: perm_trans Ho _; by rewrite perm_sym.
    - by rewrite /unzip1 -map_comp map_id_in.
    - move=> c Hc; rewrite big_map /= (perm_big _ Ho) /=; exact: idcoeff_sum.
  Qed.

  (** a zero-valued share makes Combine fail even when it was honestly dealt *)
  Theorem C22_zero_share_rejected s chosen sh :
    sh \in chosen -> dec sh.2 = Some 0 -> exists e, combine dec s chosen = Err e.
  Proof.
    move=> Hsh Hv; rewrite /combine; case: ltnP => _; first by exists ECount.
    have : forall r, collect dec (sh_lim s) [::] chosen <> Ok r.
      move=> r /collect_inv [H _ _]; have [[_ [v [E Nv]]] _] := H _ Hsh.
      by move: E; rewrite Hv => -[Ev]; apply: Nv.
    have : collect dec (sh_lim s) [::] chosen <> Panic.
      elim: (chosen) ([::] : seq nat) => //= a l IH d.
      rewrite /validate; case: eqP => //= _; case: (dec a.2) => //= v; case: eqP => //= _.
      case: ltnP => //= _; case: ifP => //= _.
      by case E: (collect _ _ _ _) => //= _; apply: (IH _ E).
    case: (collect _ _ _ _) => [r|e|] //= _ N; first by case: (N r).
    by exists e.
  Qed.

  (** C23: Combine and CombinePoints succeed exactly on usable lists *)
  Theorem C23_combine_accepts_iff t n s l : new_shamir t n false = Ok s ->
    (exists r, combine dec s l = Ok r) <->
    [/\ (t <= size l)%N, uniq (unzip1 l) &
        forall sh, sh \in l -> (0 < sh.1 <= n)%N /\ exists v, dec sh.2 = Some v /\ v <> 0].
  Proof.
    move=> Hs; case: (new_shamir_inv Hs) => Es Ht Htn Hn _; rewrite Es; split.
    - case=> r; rewrite /combine /=; case: ltnP => // Hl.
      case E: (collect _ _ _ _) => [r'||] //= _; case: (collect_inv E) => H1 H2 _.
      split=> // sh /H1 [[Ha Hb] Hc]; by rewrite Ha Hc.
    - case=> Hl U H.
      have Hus : forall sh, sh \in l -> usable dec sh /\ (sh.1 <= sh_lim (Shamir t n))%N.
        by move=> sh /H [/andP [Ha Hb] Hv].
      have [_ ->] := combine_run HF (s := Shamir t n) Hn Hl U Hus.
      by eexists.
  Qed.

  Theorem C23_combine_points_accepts_iff (V : lmodType F) (G : V) t n s l :
    new_shamir t n false = Ok s ->
    (exists r, combine_points dec G s l = Ok r) <->
    [/\ (t <= size l)%N, uniq (unzip1 l) &
        forall sh, sh \in l -> (0 < sh.1 <= n)%N /\ exists v, dec sh.2 = Some v /\ v <> 0].
  Proof.
    move=> Hs; case: (new_shamir_inv Hs) => Es Ht Htn Hn _; rewrite Es; split.
    - case=> r; rewrite /combine_points /=; case: ltnP => // Hl.
      case E: (collect _ _ _ _) => [r'||] //= _; case: (collect_inv E) => H1 H2 _.
      split=> // sh /H1 [[Ha Hb] Hc]; by rewrite Ha Hc.
    - case=> Hl U H.
      have Hus : forall sh, sh \in l -> usable dec sh /\ (sh.1 <= sh_lim (Shamir t n))%N.
        by move=> sh /H [/andP [Ha Hb] Hv].
      have [_ ->] := combine_points_run G HF (s := Shamir t n) Hn Hl U Hus.
      by eexists.
  Qed.

  (** Combine never panics: every refusal is an error value *)
  Theorem C23_combine_never_panics s l : combine dec s l <> Panic.
  Proof.
    rewrite /combine; case: ltnP => // _.
    have C : collect dec (sh_lim s) [::] l <> Panic.
      elim: l ([::] : seq nat) => //= a l IH d.
      rewrite /validate; case: eqP => //= _; case: (dec a.2) => //= v; case: eqP => //= _.
      case: ltnP => //= _; case: ifP => //= _.
      by case E: (collect _ _ _ _) => //= _; apply: (IH _ E).
    case: (collect _ _ _ _) C => [r|e|] //= _.
    rewrite /interpolate; elim/last_ind: (iota _ _) => // a i IH.
    rewrite foldl_rcons; case: (foldl _ _ _) IH => [x|e|] //= _; by case: ifP.
  Qed.

  Theorem C23_new_shamir_iff t n b :
    (exists s, new_shamir t n b = Ok s) <-> (2 <= t <= n)%N /\ (n <= 255)%N /\ b = false.
  Proof.
    split.
      by case=> s /new_shamir_inv [_ -> -> ->].
    case=> /andP [H1 H2] [H3 ->]; exists (Shamir t n).
    by rewrite /new_shamir ltnNge H2 ltnNge H1 ltnNge H3.
  Qed.

  (** the shares of one Split with identifiers in ids *)
  Definition view (ids : seq nat) (r : res serr (seq (share B))) : seq (share B) :=
    match r with Ok l => [seq sh <- l | sh.1 \in ids] | _ => [::] end.

  (** C24: t-1 shares are consistent with every secret, by exactly one choice of coefficients *)
  Theorem C24_every_secret_fits t n s (ids : seq nat) (vals : seq F) (secret : F) :
    new_shamir t n false = Ok s -> uniq ids -> all (fun i => 0 < i <= n)%N ids ->
    size ids = t.-1 -> size vals = t.-1 -> secret <> 0 ->
    exists! rnd, size rnd = t.-1 /\
      exists shares, split enc s secret rnd = Ok shares /\
        forall k, (k < t.-1)%N -> (nth 0%N ids k, enc vals`_k) \in shares.
  Proof.
    move=> Hs U /allP Hall Hi Hv Ns; case: (new_shamir_inv Hs) => Es Ht Htn Hn _.
    have Ht0 : (0 < t)%N by apply: leq_trans Ht.
    set xs := [seq i%:R : F | i <- ids].
    have Ux : uniq (0 :: xs).
      have := @natr_uniq F (0%N :: ids) HF; rewrite /= -/xs => -> //.
        by apply/allP => i /Hall /andP [_ H]; apply: leq_ltn_trans H _.
      by rewrite U andbT; apply/negP => /Hall.
    have Hxs : size xs = t.-1 by rewrite size_map.
    have [c [Hc Hc0 Hck Huq]] := unique_completion secret Ht0 Hxs Hv Ux.
    have Ec : c = secret :: behead c by case: (c) Hc Hc0 Ht0 => [<- //|a c' _ /= -> _].
    have Hiff : forall rnd, size rnd = t.-1 ->
      ((exists shares, split enc s secret rnd = Ok shares /\
        forall k, (k < t.-1)%N -> (nth 0%N ids k, enc vals`_k) \in shares) <->
       (forall k, (k < t.-1)%N -> peval (secret :: rnd) xs`_k = vals`_k)).
      move=> rnd Hr; rewrite /split (introF eqP Ns).
      have E : forall k, (k < t.-1)%N ->
        ((nth 0%N ids k, enc vals`_k) \in (get_poly_and_shares enc s secret rnd).1) <->
        peval (secret :: rnd) xs`_k = vals`_k.
        move=> k Hk; rewrite (in_shares enc) Es /= poly_init_full //.
        rewrite (nth_map 0%N) ?Hi //; split.
          by case=> _ /(congr1 dec); rewrite !Hdec => -[->].
        by move=> ->; split=> //; apply: Hall; rewrite mem_nth ?Hi.
      split; first by case=> shares [[<-] H] k Hk; apply/E => //; exact: H.
      by move=> H; eexists; split; [reflexivity|] => k Hk; apply/E => //; exact: H.
    have Hb : size (behead c) = t.-1 by rewrite size_behead Hc.
    exists (behead c); split.
      split=> //; apply/Hiff => //; by rewrite -Ec.
    move=> rnd [Hr /Hiff H]; rewrite -[rnd]/(behead (secret :: rnd)).
    rewrite -(Huq (secret :: rnd)) //=; first by rewrite Hr prednK.
    exact: H.
  Qed.
End Props.

(** C24, distribution: over a finite field and uniformly drawn coefficients, what at most t-1 holders
    see is distributed the same for every two secrets *)
Section Finite.
  Variables (F : finFieldType) (B : eqType) (enc : F -> B) (dec : B -> option F).
  Hypothesis HF : big_field F.

  Theorem C24_view_independent_of_secret t n s (ids : seq nat) (a b : F) (v : seq (share B)) :
    new_shamir t n false = Ok s -> (size (undup ids) < t)%N -> a <> 0 -> b <> 0 ->
    #|[set rnd : t.-1.-tuple F | view ids (split enc s a rnd) == v]| =
    #|[set rnd : t.-1.-tuple F | view ids (split enc s b rnd) == v]|.
  Proof.
    move=> Hs Hsz Na Nb; case: (new_shamir_inv Hs) => Es Ht Htn Hn _.
    have Ht0 : (0 < t)%N by apply: leq_trans Ht.
    set ids' := [seq i <- undup ids | (0 < i <= n)%N].
    set xs := [seq i%:R : F | i <- ids'].
    set D := interp (0 :: xs) ((b - a) :: nseq (size xs) 0).
    have Ux : uniq (0 :: xs).
      have := @natr_uniq F (0%N :: ids') HF; rewrite /= -/xs => -> //.
        apply/allP => i; rewrite mem_filter => /andP [/andP [_ H] _].
        exact: leq_ltn_trans H _.
      by rewrite filter_uniq ?undup_uniq // andbT mem_filter.
    have HD : (size D <= t)%N.
      apply: leq_trans (interp_size _ _) _; rewrite /= size_map size_filter.
      by apply: leq_trans Hsz; rewrite ltnS count_size.
    have D0 : D`_0 = b - a.
      rewrite -horner_coef0.
      by have := @interp_at _ (0 :: xs) ((b - a) :: nseq (size xs) 0) 0 Ux isT.
    have Dx : forall i, i \in ids' -> D.[i%:R] = 0.
      move=> i Hi.
      have Hk : (index i ids' < size ids')%N by rewrite index_mem.
      have := @interp_at _ (0 :: xs) ((b - a) :: nseq (size xs) 0) (index i ids').+1 Ux.
      rewrite /= ltnS size_map Hk => /(_ isT).
      by rewrite nth_nseq Hk (nth_map 0%N) ?nth_index // /D size_map.
    have [h Hh] : exists h : t.-1.-tuple F -> t.-1.-tuple F,
        forall rnd k, tnth (h rnd) k = tnth rnd k + D`_(k.+1).
      by exists (fun rnd => [tuple tnth rnd i + D`_(i.+1) | i < t.-1]) => rnd k; rewrite tnth_mktuple.
    have hinj : injective h.
      move=> r r' E; apply/eq_from_tnth => i.
      by have := congr1 (fun x => tnth x i) E; rewrite !Hh => /addIr.
    rewrite -[in RHS](card_preimset _ hinj); congr #|pred_of_set _|.
    apply/setP => rnd; rewrite !inE; congr (_ == v).
    rewrite /split (introF eqP Na) (introF eqP Nb) /view /=.
    rewrite !filter_map; apply/eq_in_map.
    move=> i; rewrite mem_filter mem_iota /= add0n Es /= => /andP [Hin Hi]; congr (_, enc _).
    rewrite !evaluateE !poly_init_full ?size_tuple //.
    have Hcons : forall (r : t.-1.-tuple F) c x,
        peval (c :: r) x = c + \sum_(k < t.-1) tnth r k * x ^+ k.+1.
      move=> r c x; rewrite /peval /= size_tuple big_ord_recl /= expr0 mulr1; congr (_ + _).
      by apply: eq_bigr => k _; rewrite /bump /= add1n (tnth_nth 0).
    have E0 : D.[i.+1%:R] = 0.
      by apply: Dx; rewrite mem_filter mem_undup /=; move: Hin; rewrite /= => ->; rewrite andbT.
    move: E0; rewrite (@horner_coef_wide _ t.-1.+1); last by rewrite prednK.
    rewrite big_ord_recl /=.
    rewrite D0 expr0 mulr1 !Hcons => E0.
    rewrite -[LHS]addr0 -[X in _ + X]E0 addrACA [a + _]addrC subrK; congr (_ + _).
    rewrite -big_split /=; apply: eq_bigr => k _.
    by rewrite Hh /bump /= add1n mulrDl.
  Qed.
End Finite.

Section Feldman.
  Variables (F : fieldType) (B : eqType) (enc : F -> B) (dec : B -> option F).
  Hypothesis HF : big_field F.
  Hypothesis Hdec : forall x, dec (enc x) = Some x.
  Variables (V : lmodType F) (G : V).

  (** C25, arbitrary commitments: what Verify checks *)
  Theorem C25_verify_iff (C : seq V) (sh : share B) : C <> [::] ->
    feldman_verify dec G C sh = Ok tt <->
    (0 < sh.1)%N /\ exists v, [/\ dec sh.2 = Some v, v <> 0 & v *: G = ceval C (sh.1)%:R].
  Proof. by case: C => // c0 cs _; exact: feldman_verify_iff. Qed.

  (** C25, commitments of a Split: accepted exactly when the value is the committed polynomial at the
      identifier (and not zero) *)
  Theorem C25_accepts_exactly_dealt t n s secret rnd C shares (sh : share B) : G <> 0 ->
    new_shamir t n false = Ok s -> size rnd = t.-1 ->
    feldman_split enc G s secret rnd = Ok (C, shares) ->
    feldman_verify dec G C sh = Ok tt <->
    (0 < sh.1)%N /\ exists v, [/\ dec sh.2 = Some v, v <> 0 & v = peval (secret :: rnd) (sh.1)%:R].
  Proof.
    move=> NG Hs Hr; case: (new_shamir_inv Hs) => Es Ht _ _ _.
    rewrite /feldman_split; case: eqP => // _ [<- _]; rewrite Es /=.
    have -> : [seq (poly_init secret t rnd)`_i *: G | i <- iota 0 t] = [seq c *: G | c <- secret :: rnd].
      by rewrite (poly_init_full _ Hr); apply: commits_map; rewrite /= Hr prednK // (leq_trans _ Ht).
    rewrite C25_verify_iff //; split=> -[H0 [v [Hv Nv E]]]; split=> //; exists v; split=> //.
      move: E; rewrite -[X in ceval X]/(map (fun c => c *: G) (secret :: rnd)) ceval_base => /eqP.
      rewrite -subr_eq0 -scalerBl scaler_eq0 => /orP [|/eqP //]; by rewrite subr_eq0 => /eqP.
    by rewrite -[X in ceval X]/(map (fun c => c *: G) (secret :: rnd)) ceval_base E.
  Qed.

  Theorem C25_dealt_shares_accepted t n s secret rnd C shares (sh : share B) :
    new_shamir t n false = Ok s -> size rnd = t.-1 ->
    feldman_split enc G s secret rnd = Ok (C, shares) -> sh \in shares ->
    (feldman_verify dec G C sh = Ok tt <-> sh.2 <> enc 0).
  Proof.
    move=> Hs Hr; case: (new_shamir_inv Hs) => Es Ht _ _ _.
    rewrite /feldman_split; case: eqP => // _ [<- <-] /in_shares [/andP [H0 H1] Hv]; rewrite Es /=.
    have -> : [seq (poly_init secret t rnd)`_i *: G | i <- iota 0 t] = [seq c *: G | c <- secret :: rnd].
      by rewrite (poly_init_full _ Hr); apply: commits_map; rewrite /= Hr prednK // (leq_trans _ Ht).
    rewrite C25_verify_iff //; split.
      move=> [_ [v [Hv' Nv _]]] E; apply: Nv; move: Hv'; by rewrite E Hdec => -[].
    move=> Nz; split=> //; exists (peval (secret :: rnd) (sh.1)%:R); split.
    - by rewrite Hv Hdec Es /= poly_init_full.
    - by move=> E; apply: Nz; rewrite Hv Es /= poly_init_full // E.
    - by rewrite -[X in ceval X]/(map (fun c => c *: G) (secret :: rnd)) ceval_base.
  Qed.

  (** any threshold of shares that verify against one commitment vector combine to the committed
      public value, whoever dealt them *)
  Theorem C25_verified_shares_combine t n s (C : seq V) l :
    new_shamir t n false = Ok s -> size C = t -> (t <= size l)%N -> uniq (unzip1 l) ->
    (forall sh, sh \in l -> (sh.1 <= n)%N /\ feldman_verify dec G C sh = Ok tt) ->
    combine_points dec G s l = Ok (nth 0 C 0).
  Proof.
    move=> Hs HC Hl U H; case: (new_shamir_inv Hs) => Es Ht Htn Hn _.
    have NC : C <> [::] by move=> E; move: HC Ht; rewrite E => <-.
    have Hus : forall sh, sh \in l -> usable dec sh /\ (sh.1 <= sh_lim (Shamir t n))%N.
      move=> sh /H [Hi /C25_verify_iff []] // H0 [v [Hv Nv _]]; split=> //; split=> //; by exists v.
    rewrite Es; have [Ux ->] := combine_points_run G HF (s := Shamir t n) Hn Hl U Hus.
    congr (Ok _); rewrite -(lag_ceval Ux) ?size_map ?HC //.
    rewrite !big_seq; apply: eq_bigr => i; rewrite mem_iota /= add0n => Hi; congr (_ *: _).
    case: l H Hi {Hl U Hus Ux} => // sh0 l H Hi; rewrite !(nth_map sh0) //.
    have [_ /C25_verify_iff [] // _ [v [-> _ ->]]] := H _ (mem_nth sh0 Hi); done.
  Qed.

  (** C26 *)
  Theorem C26_new_pedersen_iff t n (g : option V) k pd :
    new_pedersen t n g k = Ok pd <->
    exists H, [/\ (2 <= t <= n)%N, (n <= 255)%N, k, g = Some H /\ H <> 0 & pd = Pedersen (Shamir t n) H].
  Proof.
    rewrite /new_pedersen; split.
      case: ltnP => // H1; case: ltnP => // H2; case: ltnP => // H3; case: g => // H.
      by case: k => //=; case: eqP => // NH [<-]; exists H; split=> //; apply/andP; split.
    case=> H [/andP [H1 H2] H3 Hk [-> NH] ->].
    by rewrite ltnNge H2 ltnNge H1 ltnNge H3 Hk /= (introF eqP NH).
  Qed.

  Theorem C26_dealt_shares_accepted t n k H pd secret blinding rnd rndb (sh bsh : share B) :
    new_pedersen t n (Some H) k = Ok pd -> size rnd = t.-1 -> size rndb = t.-1 ->
    let r := pedersen_split enc G pd secret blinding rnd rndb in
    sh \in pr_secret_shares r -> bsh \in pr_blind_shares r -> sh.1 = bsh.1 ->
    sh.2 <> enc 0 ->
    (bsh.2 <> enc 0 -> pedersen_verify dec G H (pr_pedersen r) sh bsh = Ok tt) /\
    feldman_verify dec G (pr_feldman r) sh = Ok tt.
  Proof.
    move=> /C26_new_pedersen_iff [H' [/andP [Ht Htn] Hn _ [[E'] NH] Epd]] Hr Hrb; subst pd; subst H'.
    move=> r Hsh Hbsh Eid Nz.
    have [/andP [H0 H1] Hv] := (proj1 (in_shares enc (Shamir t n) secret rnd sh) Hsh).
    have [_ Hb] := (proj1 (in_shares enc (Shamir t n) blinding rndb bsh) Hbsh).
    have Et : take t.-1 rnd = rnd by rewrite -Hr take_size.
    have Etb : take t.-1 rndb = rndb by rewrite -Hrb take_size.
    rewrite /r /= ?Et ?Etb {r Hsh Hbsh}.
    rewrite /= (poly_init_full _ Hr) in Hv.
    rewrite /= (poly_init_full _ Hrb) -Eid in Hb.
    have Nv : peval (secret :: rnd) (sh.1)%:R <> 0 by move=> E; apply: Nz; rewrite Hv E.
    split; last first.
      apply/C25_verify_iff => //; split=> //; exists (peval (secret :: rnd) (sh.1)%:R).
      by rewrite Hv Hdec -[X in ceval X]/(map (fun c => c *: G) (secret :: rnd)) ceval_base.
    move=> Nzb.
    have Nb : peval (blinding :: rndb) (sh.1)%:R <> 0 by move=> E; apply: Nzb; rewrite Hb E.
    apply/pedersen_verify_iff; split; rewrite -?Eid //.
    exists (peval (secret :: rnd) (sh.1)%:R), (peval (blinding :: rndb) (sh.1)%:R).
    rewrite Hv Hb !Hdec; split=> //.
    rewrite -!ceval_base /ceval /= ?poly_init_full // !size_map size_iota Hr Hrb -big_split /=.
    apply: eq_bigr => -[j Hj] _ /=; rewrite -scalerDr; congr (_ *: _).
    case: j Hj => [|j] //= Hj.
    rewrite (nth_map 0) ?Hr // (nth_map 0) ?Hrb // (nth_map 0%N) ?size_iota ?Hr //.
by rewrite nth_iota.
  Qed.

  (** two different openings accepted for one identifier give the logarithm of H to the base G *)
  Theorem C26_binding H (C : seq V) (s s' bs bs' : share B) v v' b b' :
    G <> 0 ->
    pedersen_verify dec G H C s bs = Ok tt -> pedersen_verify dec G H C s' bs' = Ok tt ->
    s.1 = s'.1 -> dec s.2 = Some v -> dec s'.2 = Some v' -> dec bs.2 = Some b -> dec bs'.2 = Some b' ->
    (v, b) <> (v', b') ->
    b <> b' /\ H = ((v - v') / (b' - b)) *: G.
  Proof.
    move=> NG; case: C => [|c0 cs]; first by rewrite /pedersen_verify; do 2 case: (validate _ _).
    move=> /pedersen_verify_iff [_ _ [v1 [b1 [[Ev _] [Eb _] E1]]]].
    move=> /pedersen_verify_iff [_ _ [v2 [b2 [[Ev' _] [Eb' _] E2]]]] Eid Hv Hv' Hb Hb' N.
    move: E1 E2; rewrite -Eid => <-.
    have [-> -> -> ->] : [/\ v1 = v, b1 = b, v2 = v' & b2 = b'].
      by split; [move: Ev|move: Eb|move: Ev'|move: Eb']; rewrite ?Hv ?Hv' ?Hb ?Hb' => -[].
    move=> E.
    have Nb : b <> b'.
      move=> Ebb; subst b'; apply: N; congr (_, _); move: E => /addIr /eqP.
      rewrite -subr_eq0 -scalerBl scaler_eq0 subr_eq0 => /orP [/eqP //|/eqP //].
    split=> //.
    have E3 : (b' - b) *: H = (v - v') *: G.
      apply/eqP; rewrite !scalerBl subr_eq addrAC eq_sym subr_eq addrC [_ + v' *: G]addrC.
      by rewrite E addrC.
    rewrite mulrC -scalerA -E3 scalerA mulVf ?scale1r // subr_eq0.
    by apply/eqP => e; apply: Nb.
  Qed.

  (** perfect hiding: when H = h*G with h <> 0, every other list of secret coefficients has a list of
      blinding coefficients with the same commitments *)
  Theorem C26_hiding t n k h pd secret blinding rnd rndb secret' rnd' :
    h <> 0 -> new_pedersen t n (Some (h *: G)) k = Ok pd ->
    size rnd = t.-1 -> size rndb = t.-1 -> size rnd' = t.-1 ->
    exists blinding' rndb', size rndb' = t.-1 /\
      pr_pedersen (pedersen_split enc G pd secret' blinding' rnd' rndb') =
      pr_pedersen (pedersen_split enc G pd secret blinding rnd rndb).
  Proof.
    move=> Nh /C26_new_pedersen_iff [H' [/andP [Ht _] _ _ [[E'] _] Epd]] Hr Hrb Hr'; subst pd.
    rewrite -E' in Nh *.
    pose f i := (blinding :: rndb)`_i + ((secret :: rnd)`_i - (secret' :: rnd')`_i) / h.
    exists (f 0%N), [seq f i | i <- iota 1 t.-1].
    have Hsz : size [seq f i | i <- iota 1 t.-1] = t.-1 by rewrite size_map size_iota.
    split=> //.
    rewrite /pr_pedersen /pedersen_split /get_poly_and_shares /=.
    rewrite !(poly_init_full _ Hr) !(poly_init_full _ Hr') !(poly_init_full _ Hrb)
      !(poly_init_full _ Hsz).
    have Et : forall r : seq F, size r = t.-1 -> size (take t.-1 r) = t.-1 by move=> r E; rewrite -E take_size.
    rewrite ?Et ?Hr ?Hr' //.
    have K : forall i, (secret' :: rnd')`_i *: G + f i *: (h *: G) =
                       (secret :: rnd)`_i *: G + (blinding :: rndb)`_i *: (h *: G).
      move=> i; rewrite !scalerA -!scalerDl; congr (_ *: _).
      rewrite /f mulrDl divfK; last exact/eqP.
      by rewrite addrCA addrC; congr (_ + _); rewrite addrC subrK.
    congr cons; first exact: K 0%N.
    apply/eq_in_map => i; rewrite mem_iota => /andP [Hi1 Hi2].
    rewrite -(K i); congr (_ + _ *: _).
    case: i Hi1 Hi2 => // i _ Hi2 /=.
    by rewrite (nth_map 0%N) ?size_iota // nth_iota // add1n.
  Qed.

  (** the identifier of the blinding share is not compared with that of the share *)
  Theorem C26_blind_identifier_ignored H (C : seq V) (s bs : share B) (j : nat) :
    pedersen_verify dec G H C s bs = Ok tt -> (0 < j)%N ->
    pedersen_verify dec G H C s (j, bs.2) = Ok tt.
  Proof.
    case: C => [|c0 cs]; first by rewrite /pedersen_verify; do 2 case: (validate _ _).
    by move=> /pedersen_verify_iff [H0 H1 E] Hj; apply/pedersen_verify_iff.
  Qed.
End Feldman.

(** Non-vacuity: such fields exist, and over each of them there is a 2-of-3 sharing of 42 with slope
    5, combined from shares 3 and 1. *)
Lemma big_field_257 : big_field [fieldType of 'F_257].
Proof.
  move=> n /andP [H0 H1]; apply/eqP => /(congr1 (@nat_of_ord _)).
  rewrite val_Fp_nat; last by [].
  rewrite modn_small => [E|]; first by rewrite E in H0.
  exact: ltnW.
Qed.

Section Example.
  Variable F : fieldType.
  Hypothesis HF : big_field F.
  Let e (x : F) := x.
  Let d (x : F) : option F := Some x.

  Example C22_example :
    split e (Shamir 2 3) (42%:R) [:: 5%:R] =
      Ok [:: (1%N, 47%:R); (2%N, 52%:R); (3%N, 57%:R)] /\
    combine d (Shamir 2 3) [:: (3%N, 57%:R); (1%N, 47%:R)] = Ok (42%:R) /\
    feldman_verify d (1 : F^o) [:: 42%:R; 5%:R] (3%N, 57%:R) = Ok tt.
  Proof.
    have E : split e (Shamir 2 3) (42%:R) [:: 5%:R] =
      Ok [:: (1%N, 47%:R); (2%N, 52%:R); (3%N, 57%:R)].
      rewrite /split /get_poly_and_shares /evaluate /= (negbTE (HF _)) //.
      by rewrite -!natrM -!natrD.
    split=> //; split.
      apply: (@C22_combine_recovers_secret F _ e d HF _ 2 3 _ _ [:: 5%:R] _ _ _ _ E) => //.
      - by move=> x; rewrite !inE => /orP [/eqP ->|/eqP ->]; rewrite ?eqxx ?orbT.
      - by move=> x; rewrite !inE => /orP [/eqP ->|/eqP ->] /= /eqP; apply/negP; apply: HF.
    apply/C25_verify_iff => //; split=> //; exists (57%:R); split=> //; first by apply/eqP; apply: HF.
    rewrite /ceval !big_ord_recr big_ord0 /= add0r expr0 expr1 scale1r.
    rewrite [LHS]mulr1 [in RHS]/GRing.scale /= -natrM; exact: (natrD F 42 15).
  Qed.
End Example.
