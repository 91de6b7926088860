From mathcomp Require Import all_ssreflect all_algebra.
From Verif Require Import AlgBase Lagrange ShamirModel ShamirSpec ShamirProofs ShamirProofs2
  FrostDkgModel FrostDkgSpec.
Set Implicit Arguments.
Unset Strict Implicit.
Unset Printing Implicit Defensive.
Import GRing.Theory.
Local Open Scope ring_scope.
Local Arguments poly_init : simpl never.
Local Arguments feldman_verify : simpl never.

Lemma In_unzip1 (A : Type) (m : seq (nat * A)) k a : List.In (k, a) m -> k \in unzip1 m.
Proof.
  elim: m => [|[k' a'] m IH] //= [[-> _]|Hin]; first by rewrite inE eqxx.
  by rewrite inE (IH Hin) orbT.
Qed.

Lemma unzip1_In (A : Type) (m : seq (nat * A)) k : k \in unzip1 m -> exists a, List.In (k, a) m.
Proof.
  elim: m => [|[k' a'] m IH] //=; rewrite inE => /orP [/eqP ->|/IH [a Ha]].
    by exists a'; left.
  by exists a; right.
Qed.

Lemma lookup_in (A : Type) (m : seq (nat * A)) k a : uniq (unzip1 m) -> List.In (k, a) m -> lookup m k = Some a.
Proof.
  elim: m => [|[k' a'] m IH] //= /andP [N U] [[-> ->]|Hin]; first by rewrite eqxx.
  case: eqP => [E|_]; last exact: IH.
  by case/negP: N; rewrite -E; exact: In_unzip1 Hin.
Qed.

Lemma lookup_some (A : Type) (m : seq (nat * A)) k a : lookup m k = Some a -> List.In (k, a) m.
Proof.
  elim: m => [|[k' a'] m IH] //=; case: eqP => [-> [->]|_ /IH HH]; [by left|by right].
Qed.

Lemma onth_nth (A : Type) (x0 : A) (s : seq A) i : (i < size s)%N -> onth s i = Some (nth x0 s i).
Proof. by rewrite /onth; elim: s i => [|a s IH] [|i] //=; exact: IH. Qed.

Lemma onth_map_iota (A : Type) (f : nat -> A) n i : (i < n)%N -> onth [seq f j | j <- iota 0 n] i = Some (f i).
Proof.
  move=> Hi; rewrite (onth_nth (f 0%N)) ?size_map ?size_iota //.
  by rewrite (nth_map 0%N) ?size_iota // nth_iota.
Qed.

Lemma onth_some (A : Type) (s : seq A) i a : onth s i = Some a -> (i < size s)%N.
Proof. by rewrite /onth; elim: s i => [|b s IH] [|i] //=; exact: IH. Qed.

Section P.
  Variables (F : fieldType) (B : eqType) (enc : F -> B) (dec : B -> option F).
  Hypothesis Hdec : forall x, dec (enc x) = Some x.
  Variables (V : lmodType F) (G : V) (H : nat -> nat -> V -> V -> F).

  Lemma new_dkg_inv id t ctx b others dp : new_dkg B V id t ctx b others = Ok dp ->
    [/\ (2 <= t)%N, (t <= (size others).+1)%N, ((size others).+1 <= 255)%N &
        dp = Dkg 1 id (Shamir t (size others).+1) (undup others) ctx [::] [::] 0 0 0].
  Proof.
    rewrite /new_dkg; case: ifP => // _.
    case E: (new_shamir _ _ _) => [s||] //= [<-].
    by case: (new_shamir_inv E) => -> H1 H2 H3 _; split.
  Qed.

  (** the effective secret of Round1 *)
  Definition r1_secret (secret : option B) (sampled : F) : F :=
    match secret with None => sampled | Some b => odflt 0 (dec b) end.

  Lemma round1_inv dp secret sampled rnd ki dp' b p2p :
    round1 enc dec G H dp secret sampled rnd ki = Ok (dp', b, p2p) ->
    let s := r1_secret secret sampled in
    let shp := get_poly_and_shares enc (dp_sh dp) s rnd in
    let ver := [seq shp.2`_i *: G | i <- iota 0 (sh_thr (dp_sh dp))] in
    let ci := H (dp_id dp %% 256)%N (dp_ctx dp) (nth 0 ver 0) (ki *: G) in
    [/\ s <> 0, dp_round dp = 1%N,
        dp' = Dkg 2 (dp_id dp) (dp_sh dp) (dp_others dp) (dp_ctx dp) ver shp.1 0 0 0,
        b = Bcast1 ver (s * ci + ki) ci &
        send_shares shp.1 (dp_others dp) = Ok p2p].
  Proof.
    rewrite /round1; case: eqP => //= Hr; case: ifP => // _.
    set sr := match secret with None => _ | Some _ => _ end.
    case Es: sr => [s||] //=.
    have E : r1_secret secret sampled = s.
      move: Es; rewrite /sr /r1_secret; case: secret {sr} => [b0|]; last by case.
      by case: (dec b0) => //= s'; case: eqP => // _ [].
    rewrite E /feldman_split; case: eqP => // Ns.
    case Esd: (send_shares _ _) => [l||] //= [<- <- <-].
    split=> //.
  Qed.

  Lemma send_shares_inv (shares : seq (share B)) ids l : send_shares shares ids = Ok l ->
    unzip1 l = ids /\ forall id s, List.In (id, s) l -> (0 < id)%N /\ onth shares id.-1 = Some s.
  Proof.
    elim: ids l => [|id ids IH] l /=; first by case=> <-.
    case: eqP => // /eqP N; case Eo: (onth _ _) => [s|] //.
    case Es: (send_shares _ _) => [l'||] //= [<-] /=.
    case: (IH _ Es) => -> Hl; split=> // id' s' [[<- <-]|/Hl //].
    by rewrite lt0n.
  Qed.

  Lemma check_loop_inv dp p2p (bc : seq (nat * bcast1 V)) : check_loop dec G H dp p2p bc = Ok tt ->
    forall id b, List.In (id, b) bc -> id <> dp_id dp ->
    exists A0 cs fji, [/\ b_ver b = A0 :: cs, A0 <> 0 /\ (- b_c b) *: A0 <> 0,
      H (id %% 256)%N (dp_ctx dp) A0 (b_w b *: G + (- b_c b) *: A0) = b_c b,
      lookup p2p id = Some fji & feldman_verify dec G (b_ver b) fji = Ok tt].
  Proof.
    elim: bc => [|[id b] bc IH] //=.
    case: eqP => [E|N] Hc id' b' [[E1 E2]|Hin] Nid.
    - by rewrite -E1 in Nid.
    - exact: IH.
    - subst id' b'; move: Hc; case Ev: (b_ver b) => [|A0 cs] //.
      case: ifP => // /norP [/eqP N1 /eqP N2]; case: eqP => // Eh.
      case El: (lookup p2p id) => [fji|] //; case Ef: (feldman_verify _ _ _ _) => [u||] // _.
      by exists A0, cs, fji; split=> //; case: (u) Ef.
    - apply: IH => //; move: Hc; case: (b_ver b) => [|A0 cs] //.
      case: ifP => // _; case: eqP => // _; case: (lookup p2p id) => // fji.
      by case: (feldman_verify _ _ _ _).
  Qed.

  Lemma check_loop_ok dp p2p (bc : seq (nat * bcast1 V)) :
    (forall id b, List.In (id, b) bc -> id <> dp_id dp ->
      exists A0 cs fji, [/\ b_ver b = A0 :: cs, A0 <> 0 /\ (- b_c b) *: A0 <> 0,
        H (id %% 256)%N (dp_ctx dp) A0 (b_w b *: G + (- b_c b) *: A0) = b_c b,
        lookup p2p id = Some fji & feldman_verify dec G (b_ver b) fji = Ok tt]) ->
    check_loop dec G H dp p2p bc = Ok tt.
  Proof.
    elim: bc => [|[id b] bc IH] //= Hall.
    case: eqP => [E|N]; first by apply: IH => id' b' Hin; apply: Hall; right.
    have [A0 [cs [fji [Ev [N1 N2] Eh El Ef]]]] := Hall id b (or_introl erefl) N.
    rewrite Ev (introF eqP N1) (introF eqP N2) /= Eh eqxx /= El -Ev Ef.
    by apply: IH => id' b' Hin; apply: Hall; right.
  Qed.

  (** the sum of the decoded received shares *)
  Lemma sk_loop_val dp p2p (bc : seq (nat * bcast1 V)) sk r : sk_loop dec dp p2p bc sk = Ok r ->
    r = sk + \sum_(e <- bc | e.1 != dp_id dp)
               odflt 0 (obind (fun s : share B => dec s.2) (lookup p2p e.1)).
  Proof.
    elim: bc sk => [|[id b] bc IH] sk /=; first by case=> <-; rewrite big_nil addr0.
    rewrite big_cons /=; case: ifP => _ /=; first exact: IH.
    case: (lookup p2p id) => [s|] //=; case: (dec s.2) => [t2|] //= /IH ->.
    by rewrite addrA.
  Qed.

  Lemma sk_loop_ok dp p2p (bc : seq (nat * bcast1 V)) sk :
    (forall id b, List.In (id, b) bc -> id <> dp_id dp ->
       exists s v, lookup p2p id = Some s /\ dec s.2 = Some v) ->
    exists r, sk_loop dec dp p2p bc sk = Ok r.
  Proof.
    elim: bc sk => [|[id b] bc IH] sk /= Hall; first by eexists.
    case: eqP => [E|N]; first by apply: IH => id' b' Hin; apply: (Hall id' b'); right.
    have [s [v [-> ->]]] := Hall id b (or_introl erefl) N.
    by apply: IH => id' b' Hin; apply: (Hall id' b'); right.
  Qed.

  Lemma vk_loop_val (dp : dkg B V) (bc : seq (nat * bcast1 V)) vk :
    vk_loop dp bc vk = vk + \sum_(e <- bc | e.1 != dp_id dp) nth 0 (b_ver e.2) 0.
  Proof.
    rewrite /vk_loop; elim: bc vk => [|[id b] bc IH] vk /=; first by rewrite big_nil addr0.
    rewrite big_cons IH /=; case: ifP => _ /=; by rewrite ?addrA.
  Qed.

  Lemma round2_inv dp bc p2p dp' : round2 dec G H dp bc p2p = Ok dp' ->
    exists bcl p2pl own sk0, [/\ bc = Some bcl, p2p = Some p2pl,
      [/\ dp_round dp = 2%N, ((sh_thr (dp_sh dp)).-1 <= size bcl <= sh_lim (dp_sh dp))%N,
       ((sh_thr (dp_sh dp)).-1 <= size p2pl <= (sh_lim (dp_sh dp)).-1)%N,
       (0 < dp_id dp)%N /\ onth (dp_shares dp) (dp_id dp).-1 = Some own & dec own.2 = Some sk0],
      (forall e, List.In e bcl -> b_c e.2 <> 0 /\ forall c, c \in b_ver e.2 -> c <> 0) /\
       check_loop dec G H dp p2pl bcl = Ok tt &
      exists sk, sk_loop dec dp p2pl bcl sk0 = Ok sk /\
       dp' = Dkg 3 (dp_id dp) (dp_sh dp) (dp_others dp) (dp_ctx dp) (dp_verifiers dp) (dp_shares dp) sk
                 (vk_loop dp bcl (nth 0 (dp_verifiers dp) 0)) (sk *: G)].
  Proof.
    rewrite /round2; case: eqP => //= Hr; case: bc => // bcl; case: p2p => // p2pl.
    case: ifP => // _; case: ifP => // /norP [L1 L2]; case: ifP => // /norP [L3 L4].
    case: ifPn => // Hci; case: ifPn => // Hcom.
    case Ec: (check_loop _ _ _ _ _ _) => [[]||] //=.
    case: eqP => // /eqP Nid; case Eo: (onth _ _) => [own|] //; case Ed: (dec _) => [sk0|] //.
    case Es: (sk_loop _ _ _ _ _) => [sk||] //= [<-].
    exists bcl, p2pl, own, sk0; split=> //.
    - rewrite -leqNgt in L1; rewrite -leqNgt in L2; rewrite -leqNgt in L3; rewrite -leqNgt in L4.
      by split=> //; rewrite ?L1 ?L2 ?L3 ?L4 // lt0n.
    - split=> //.
      elim: (bcl) Hci Hcom {L1 L2 Ec Es} => [|e l IH] //= /norP [C1 C2] /norP [D1 D2] e' [<-|Hin].
        split; first exact/eqP.
        by move=> c Hc E; case/negP: D1; apply/hasP; exists c => //; rewrite E.
      exact: IH.
    - by exists sk.
  Qed.
End P.
