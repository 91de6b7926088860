(** Proofs about ShamirModel. *)
From mathcomp Require Import all_ssreflect all_algebra.
From Verif Require Import AlgBase Lagrange ShamirModel ShamirSpec.
Set Implicit Arguments.
Unset Strict Implicit.
Unset Printing Implicit Defensive.
Import GRing.Theory.
Local Open Scope ring_scope.

Section P.
  Variables (F : fieldType) (B : eqType) (enc : F -> B) (dec : B -> option F).

  Lemma pevalE (c : seq F) x : peval c x = (Poly c).[x].
  Proof.
    rewrite /peval horner_Poly; elim: c => [|a s IH]; first by rewrite big_ord0.
    rewrite big_ord_recl /= expr0 mulr1 addrC -IH mulr_suml; congr (_ + _).
    by apply: eq_bigr => i _; rewrite /bump /= add1n exprSr mulrA.
  Qed.

  Lemma evaluateE (c : seq F) x : evaluate c x = peval c x.
  Proof.
    rewrite pevalE horner_Poly /evaluate foldl_rev.
    case: c => [|a s] //=.
    elim: s a => [|b s IH] a /=; first by rewrite mul0r add0r.
    rewrite -(IH b) (iotaDl 1 0) foldr_map /=; congr (_ * x + a).
  Qed.

  Lemma size_poly_init (secret : F) t rnd : (0 < t)%N -> size rnd = t.-1 ->
    size (poly_init secret t rnd) = t.
  Proof. by move=> Ht Hr; rewrite /= size_take Hr ltnn prednK. Qed.

  Lemma poly_init_full (secret : F) t rnd : size rnd = t.-1 -> poly_init secret t rnd = secret :: rnd.
  Proof. by move=> H; rewrite /poly_init -H take_size. Qed.

  Lemma num_denE (xs : seq F) i :
    num_den xs i = (\prod_(j <- iota 0 (size xs) | j != i) xs`_j,
                    \prod_(j <- iota 0 (size xs) | j != i) (xs`_j - xs`_i)).
  Proof.
    rewrite /num_den.
    have H : forall s (a b : F), foldl (fun nd j => if i == j then nd
          else (nd.1 * xs`_j, nd.2 * (xs`_j - xs`_i))) (a, b) s =
        (a * \prod_(j <- s | j != i) xs`_j, b * \prod_(j <- s | j != i) (xs`_j - xs`_i)).
      elim=> [|j s IH] a b /=; first by rewrite !big_nil !mulr1.
      rewrite !big_cons eq_sym; case: eqP => _ /=; by rewrite IH // !mulrA.
    by rewrite H !mul1r.
  Qed.

  Lemma interpolateE (xs ys : seq F) : uniq xs ->
    interpolate xs ys = Ok (\sum_(i <- iota 0 (size xs)) ys`_i * lag0 xs i).
  Proof.
    move=> U; rewrite /interpolate.
    have H : forall s r, all (fun i => i < size xs)%N s ->
      foldl (fun acc i => rbind acc (fun result =>
             let nd := num_den xs i in
             if nd.2 == 0 then Err EDiv else Ok (result + ys`_i * (nd.1 / nd.2))))
          (Ok r) s = Ok (r + \sum_(i <- s) ys`_i * lag0 xs i).
      elim=> [|i s IH] r /=; first by rewrite big_nil addr0.
      case/andP=> Hi Hs; rewrite num_denE /= (negbTE (lag0_den U Hi)).
      by rewrite IH // big_cons addrA.
    rewrite H ?add0r //; by apply/allP => i; rewrite mem_iota.
  Qed.

  Lemma interpolate_pointE (V : lmodType F) (xs : seq F) (ys : seq V) : uniq xs ->
    interpolate_point xs ys = Ok (\sum_(i <- iota 0 (size xs)) lag0 xs i *: nth 0 ys i).
  Proof.
    move=> U; rewrite /interpolate_point.
    have H : forall s r, all (fun i => i < size xs)%N s ->
      foldl (fun acc i => rbind acc (fun result =>
             let nd := num_den xs i in
             if nd.2 == 0 then Err EDiv else Ok (result + (nd.1 / nd.2) *: nth 0 ys i)))
          (Ok r) s = Ok (r + \sum_(i <- s) lag0 xs i *: nth 0 ys i).
      elim=> [|i s IH] r /=; first by rewrite big_nil addr0.
      case/andP=> Hi Hs; rewrite num_denE /= (negbTE (lag0_den U Hi)).
      by rewrite IH // big_cons addrA.
    rewrite H ?add0r //; by apply/allP => i; rewrite mem_iota.
  Qed.

  (** identifiers 0..255 embed injectively *)
  Lemma natr_inj (i j : nat) : big_field F -> (i < 256)%N -> (j < 256)%N ->
    (i%:R = j%:R :> F) -> i = j.
  Proof.
    move=> HF; wlog: i j / (i <= j)%N.
      by move=> W Hi Hj E; case: (leqP i j) => [|/ltnW] L; [apply: W | symmetry; apply: W].
    move=> L Hi Hj E; apply/eqP; rewrite eqn_leq L /= leqNgt; apply/negP => L2.
    have : (j - i)%:R == 0 :> F by rewrite natrB // E subrr.
    rewrite (negbTE (HF _ _)) // subn_gt0 L2 /=.
    by apply: leq_ltn_trans (leq_subr _ _) Hj.
  Qed.

  Lemma natr_uniq (ids : seq nat) : big_field F -> all (fun i => i < 256)%N ids -> uniq ids ->
    uniq [seq i%:R : F | i <- ids].
  Proof.
    move=> HF /allP Hall U; rewrite map_inj_in_uniq // => i j /Hall Hi /Hall Hj.
    exact: natr_inj.
  Qed.

  Lemma validate_ok (s : share B) : validate dec s = Ok tt <-> usable dec s.
  Proof.
    rewrite /validate /usable; case: (s.1 =P 0%N) => [->|/eqP N].
      by split=> // [[]].
    rewrite lt0n N; case: (dec s.2) => [v|]; last by split=> // [[_ [v []]]].
    case: (v =P 0) => [->|Nv]; split=> //.
    - by case=> _ [v' [[<-]]].
    - by move=> _; split=> //; exists v.
  Qed.

  Lemma collect_ok lim (l : seq (share B)) dups :
    (forall s, s \in l -> usable dec s /\ (s.1 <= lim)%N) -> uniq (unzip1 l) ->
    (forall i, i \in unzip1 l -> i \notin dups) ->
    collect dec lim dups l = Ok [seq ((s.1)%:R, odflt 0 (dec s.2)) | s <- l].
  Proof.
    elim: l dups => [|s l IH] dups //= H /andP [N U] D.
    have [Hs Hl] := H s (mem_head _ _).
    move/validate_ok: (Hs) => -> /=.
    rewrite ltnNge Hl /= (negbTE (D _ (mem_head _ _))).
    case: Hs => _ [v [-> _]] /=.
    rewrite IH //= => [s' Hs'|i Hi].
      by apply: H; rewrite inE Hs' orbT.
    rewrite inE negb_or D ?inE ?Hi ?orbT // andbT.
    by apply: contra N => /eqP <-.
  Qed.

  Lemma collect_inv lim (l : seq (share B)) dups r :
    collect dec lim dups l = Ok r ->
    [/\ forall s, s \in l -> usable dec s /\ (s.1 <= lim)%N, uniq (unzip1 l)
      & forall i, i \in unzip1 l -> i \notin dups].
  Proof.
    elim: l dups r => [|s l IH] dups r //=.
    case Ev: (validate dec s) => [[]||] //=.
    case: ltnP => // Hl; case: ifPn => // Hd.
    case: (dec s.2) => // v; case Ec: (collect dec lim _ l) => [r'||] //= _.
    case: (IH _ _ Ec) => H1 H2 H3; split.
    - move=> s'; rewrite inE => /orP [/eqP ->|/H1 //]; split=> //; exact/validate_ok.
    - rewrite H2 andbT; apply/negP => /H3; by rewrite inE eqxx.
    - by move=> i; rewrite inE => /orP [/eqP -> //|/H3]; rewrite inE negb_or => /andP [].
  Qed.

  (** an explicit description of Combine *)
  Lemma combine_run s (l : seq (share B)) : big_field F -> (sh_lim s < 256)%N ->
    (sh_thr s <= size l)%N -> uniq (unzip1 l) ->
    (forall sh, sh \in l -> usable dec sh /\ (sh.1 <= sh_lim s)%N) ->
    let xs := [seq (sh.1)%:R | sh <- l] in
    uniq xs /\
    combine dec s l = Ok (\sum_(i <- iota 0 (size xs)) [seq odflt 0 (dec sh.2) | sh <- l]`_i * lag0 xs i).
  Proof.
    move=> HF Hlim Ht U H xs.
    have Ux : uniq xs.
      rewrite /xs (map_comp (fun i : nat => i%:R) fst) -/(unzip1 l).
      apply: natr_uniq => //; apply/allP => i /mapP [sh Hsh ->].
      by apply: leq_ltn_trans (proj2 (H _ Hsh)) Hlim.
    split=> //; rewrite /combine ltnNge Ht /= collect_ok //=.
    rewrite /unzip1 /unzip2 -!map_comp interpolateE //.
  Qed.

  Lemma combine_points_run (V : lmodType F) (G : V) s (l : seq (share B)) :
    big_field F -> (sh_lim s < 256)%N ->
    (sh_thr s <= size l)%N -> uniq (unzip1 l) ->
    (forall sh, sh \in l -> usable dec sh /\ (sh.1 <= sh_lim s)%N) ->
    let xs := [seq (sh.1)%:R | sh <- l] in
    uniq xs /\
    combine_points dec G s l = Ok (\sum_(i <- iota 0 (size xs))
       lag0 xs i *: nth 0 [seq odflt 0 (dec sh.2) *: G | sh <- l] i).
  Proof.
    move=> HF Hlim Ht U H xs.
    have Ux : uniq xs.
      rewrite /xs (map_comp (fun i : nat => i%:R) fst) -/(unzip1 l).
      apply: natr_uniq => //; apply/allP => i /mapP [sh Hsh ->].
      by apply: leq_ltn_trans (proj2 (H _ Hsh)) Hlim.
    split=> //; rewrite /combine_points ltnNge Ht /= collect_ok //=.
    rewrite /unzip1 /unzip2 -!map_comp interpolate_pointE //.
  Qed.

  Lemma new_shamir_inv t n b s : new_shamir t n b = Ok s ->
    [/\ s = Shamir t n, (2 <= t)%N, (t <= n)%N, (n <= 255)%N & b = false].
  Proof.
    rewrite /new_shamir; case: ltnP => // H1; case: ltnP => // H2; case: ltnP => // H3.
    by case: b => // [[<-]].
  Qed.

  Hypothesis Hdec : forall x, dec (enc x) = Some x.

  Lemma in_shares s secret rnd (sh : share B) :
    sh \in (get_poly_and_shares enc s secret rnd).1 <->
    (0 < sh.1 <= sh_lim s)%N /\
    sh.2 = enc (peval (poly_init secret (sh_thr s) rnd) (sh.1)%:R).
  Proof.
    split.
    - case/mapP=> i; rewrite mem_iota /= add0n => Hi -> /=; split=> //.
      by rewrite evaluateE.
    - case: sh => [i v] /= [Hi ->]; apply/mapP; exists i.-1.
        by rewrite mem_iota /= add0n prednK; case/andP: Hi.
      by rewrite evaluateE prednK //; case/andP: Hi.
  Qed.

  (** distinct shares of one Split have distinct identifiers *)
  Lemma shares_uniq_ids s secret rnd (l : seq (share B)) :
    {subset l <= (get_poly_and_shares enc s secret rnd).1} -> uniq l -> uniq (unzip1 l).
  Proof.
    move=> Hs U; rewrite map_inj_in_uniq // => [[i v] [j w]] /Hs /in_shares [_ /= ->].
    by move=> /Hs /in_shares [_ /= ->] ->.
  Qed.

  Lemma peval_size_poly (c : seq F) : (size (Poly c) <= size c)%N.
  Proof. exact: size_Poly. Qed.

  Lemma peval0 (a : F) c : peval (a :: c) 0 = a.
  Proof. by rewrite pevalE horner_Poly /= mulr0 add0r. Qed.

  Lemma split_usable s secret rnd (l : seq (share B)) :
    {subset l <= (get_poly_and_shares enc s secret rnd).1} ->
    (forall sh, sh \in l -> sh.2 <> enc 0) ->
    forall sh, sh \in l -> usable dec sh /\ (sh.1 <= sh_lim s)%N.
  Proof.
    move=> Hs Nz sh Hsh; have := Hs _ Hsh; move/in_shares => [/andP [H0 H1] Hv].
    split=> //; split=> //; exists (peval (poly_init secret (sh_thr s) rnd) (sh.1)%:R).
    split; first by rewrite Hv Hdec.
    by move=> E; apply: (Nz _ Hsh); rewrite Hv E.
  Qed.

  Lemma combine_recovers t n s secret rnd (l : seq (share B)) :
    big_field F -> new_shamir t n false = Ok s -> size rnd = t.-1 ->
    {subset l <= (get_poly_and_shares enc s secret rnd).1} -> uniq l -> (t <= size l)%N ->
    (forall sh, sh \in l -> sh.2 <> enc 0) ->
    combine dec s l = Ok secret /\
    forall (V : lmodType F) (G : V), combine_points dec G s l = Ok (secret *: G).
  Proof.
    move=> HF /new_shamir_inv [Es Ht Htn Hn _] Hr Hsub U Hl Nz.
    have Hus := split_usable Hsub Nz.
    have Uid := shares_uniq_ids Hsub U.
    have Hlim : (sh_lim s < 256)%N by rewrite Es.
    have Ht' : (sh_thr s <= size l)%N by rewrite Es.
    set p := Poly (poly_init secret t rnd).
    have Hsz : forall xs : seq F, size xs = size l -> (size p <= size xs)%N.
      move=> xs ->; apply: leq_trans (size_Poly _) _.
      by rewrite size_poly_init // (leq_trans _ Ht).
    have Hval : forall i, (i < size l)%N ->
      [seq odflt 0 (dec sh.2) | sh <- l]`_i = p.[[seq (sh.1)%:R | sh <- l]`_i].
      move=> i Hi; case: l Hsub Hi {U Hl Nz Hus Uid Ht' Hsz} => // sh0 l' Hsub Hi.
      rewrite !(nth_map sh0) //.
      have := Hsub _ (mem_nth sh0 Hi); move/in_shares => [_ ->].
      by rewrite Hdec /= pevalE Es.
    have P0 : p.[0] = secret by rewrite /p -pevalE peval0.
    split.
      have [Ux ->] := combine_run HF Hlim Ht' Uid Hus; congr (Ok _).
      rewrite -P0 -(lagrange0 Ux) ?Hsz ?size_map //.
      rewrite !big_seq; apply: eq_bigr => i; rewrite mem_iota /= add0n => Hi.
      by rewrite Hval.
    move=> V G; have [Ux ->] := combine_points_run G HF Hlim Ht' Uid Hus; congr (Ok _).
    rewrite -P0 -(lagrange0_scale G Ux) ?Hsz ?size_map //.
    rewrite !big_seq; apply: eq_bigr => i; rewrite mem_iota /= add0n => Hi.
    rewrite -Hval // (map_comp (fun x => x *: G) (fun sh => odflt 0 (dec sh.2))).
    by rewrite (nth_map 0) // size_map.
  Qed.
End P.
