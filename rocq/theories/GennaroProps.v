(** C31: theorems about crypto/dkg/gennaro. *)
From mathcomp Require Import all_ssreflect all_algebra.
From Verif Require Import AlgBase Lagrange ShamirModel ShamirSpec ShamirProofs ShamirProofs2
  SharingV1Model SharingV1Spec SharingV1Proofs FrostDkgModel FrostDkgProofs GennaroModel SharingV1Props
  GennaroProofs.
Set Implicit Arguments.
Unset Strict Implicit.
Unset Printing Implicit Defensive.
Import GRing.Theory.
Local Open Scope ring_scope.
Local Arguments poly_init : simpl never.

Section Props.
  Variable p : nat.
  Hypothesis Hp : prime p.
  Local Notation F := ('F_p).
  Variables (V : lmodType F) (G : V).

  (** the map handed to participant i has the message [msg j] of every other participant j (and possibly
      i's own), in any order *)
  Definition delivered (A : Type) (n i : nat) (msg : nat -> A) (m : seq (nat * A)) : Prop :=
    [/\ uniq (unzip1 m), (forall j, (0 < j <= n)%N -> j <> i -> j \in unzip1 m) &
        forall j a, List.In (j, a) m -> (0 < j <= n)%N /\ a = msg j].

  (** Participants 1..n run Round1 honestly (secret given or sampled) and the messages are delivered;
      the map of private packets given to i has, under j, what j's Round1 returned under i. *)
  Record honest_run (t n : nat) (gen : V) (d0 d1 : nat -> gp V) (secret : nat -> option (seq nat))
    (sampled blinding : nat -> nat) (rnd rndb : nat -> seq F) (b1 : nat -> seq V)
    (out ins : nat -> seq (nat * (share1 p * share1 p))) (bc1 : nat -> seq (nat * seq V)) : Prop := HonestRun {
    hr_n : (0 < n)%N;
    hr_new : forall i, (0 < i <= n)%N -> exists others, perm_eq others [seq j <- iota 1 n | j != i] /\
        new_participant i t (Some gen) others = Ok (d0 i);
    hr_rnd : forall i, (0 < i <= n)%N -> size (rnd i) = t.-1 /\ size (rndb i) = t.-1;
    hr_r1 : forall i, (0 < i <= n)%N ->
        g_round1 G (d0 i) (secret i) (sampled i) (blinding i) (rnd i) (rndb i) = Ok (d1 i, b1 i, out i);
    hr_bc1 : forall i, (0 < i <= n)%N -> delivered n i b1 (bc1 i);
    hr_ins : forall i, (0 < i <= n)%N ->
        uniq (unzip1 (ins i)) /\ unzip1 (ins i) =i [seq j <- iota 1 n | j != i];
    hr_ins_val : forall i, (0 < i <= n)%N -> forall j s, List.In (j, s) (ins i) -> List.In (i, s) (out j) }.

  (** the secret a participant contributes *)
  Definition contribution (secret : option (seq nat)) (sampled : nat) : F :=
    (if secret is Some b then be_value b else sampled)%:R.

  Section Run.
    Variables (t n : nat) (gen : V) (d0 d1 : nat -> gp V) (secret : nat -> option (seq nat))
      (sampled blinding : nat -> nat) (rnd rndb : nat -> seq F) (b1 : nat -> seq V)
      (out ins : nat -> seq (nat * (share1 p * share1 p))) (bc1 : nat -> seq (nat * seq V)).
    Hypothesis R : honest_run t n gen d0 d1 secret sampled blinding rnd rndb b1 out ins bc1.

    Let sec j : F := contribution (secret j) (sampled j).
    Let pol j : seq F := sec j :: rnd j.
    Let bpol j : seq F := (blinding j)%:R :: rndb j.

    Lemma run_new i : (0 < i <= n)%N -> (2 <= t <= n)%N /\
      exists o, perm_eq o [seq j <- iota 1 n | j != i] /\
       d0 i = GP 1 i (Pedersen (Shamir t n) gen) [seq (j, (None, None)) | j <- o] [::] [::] [::] [::] 0 0.
    Proof.
      move=> Hi; have [o [Hpo /new_participant_inv [g [[->] Ht _ _ E]]]] := hr_new R Hi.
      have Hs : (size o).+1 = n.
        have Hii : i \in iota 1 n by rewrite mem_iota add1n ltnS; case/andP: Hi => -> ->.
        rewrite (perm_size Hpo) -(rem_filter i (iota_uniq 1 n)) size_rem // size_iota prednK //.
        by case/andP: Hi => Hi0 Hi1; exact: leq_trans Hi0 Hi1.
      rewrite Hs in Ht E; split=> //; exists o; split=> //.
      by rewrite E undup_id // (perm_uniq Hpo) filter_uniq // iota_uniq.
    Qed.

    Lemma run_size i : (0 < i <= n)%N -> size (pol i) = t /\ size (bpol i) = t.
    Proof.
      move=> Hi; have [/andP [Ht _] _] := run_new Hi; have [Hr Hrb] := hr_rnd R Hi.
      by rewrite /= Hr Hrb prednK // (leq_trans _ Ht).
    Qed.

    Lemma run_r1 i : (0 < i <= n)%N ->
      [/\ (n < p)%N, exists o, perm_eq o [seq j <- iota 1 n | j != i] /\
        d1 i = GP 2 i (Pedersen (Shamir t n) gen) [seq (j, (None, None)) | j <- o]
             [seq (j.+1, peval (pol i) j.+1%:R) | j <- iota 0 n]
             [seq (j.+1, peval (bpol i) j.+1%:R) | j <- iota 0 n] (b1 i) [seq c *: G | c <- pol i] 0 0,
        b1 i = [seq (pol i)`_k *: G + (bpol i)`_k *: gen | k <- iota 0 t] &
        forall j s, List.In (j, s) (out i) -> (0 < j <= n)%N /\
          s = ((j, peval (pol i) j%:R), (j, peval (bpol i) j%:R))].
    Proof.
      move=> Hi; have [Ht [o [Hpo E]]] := run_new Hi; have [Hr Hrb] := hr_rnd R Hi.
      have Ht0 : (0 < t)%N by case/andP: Ht => Ht _; exact: leq_trans Ht.
      have := hr_r1 R Hi; rewrite E => /(g_round1_inv Hr Hrb Ht0) [Hn E1 E2 Ho].
      split=> //; [exact: Hn (hr_n R)|by exists o].
    Qed.

    Lemma run_lookup i j : (0 < i <= n)%N -> (0 < j <= n)%N -> j <> i ->
      lookup (ins i) j = Some ((i, peval (pol j) i%:R), (i, peval (bpol j) i%:R)).
    Proof.
      move=> Hi Hj N; have [U K] := hr_ins R Hi.
      have [|s Es] := @lookup_mem _ (ins i) j.
        rewrite K mem_filter (introN eqP N) mem_iota add1n ltnS; by case/andP: Hj => -> ->.
      rewrite Es; have := hr_ins_val R Hi (lookup_some Es) => Ho.
      by have [_ _ _ /(_ _ _ Ho) [_ ->]] := run_r1 Hj.
    Qed.

    Lemma run_r2 i : (0 < i <= n)%N -> exists oth,
      [/\ g_round2 G (d1 i) (bc1 i) (ins i) =
          Ok (GP 3 i (Pedersen (Shamir t n) gen) oth
                [seq (j.+1, peval (pol i) j.+1%:R) | j <- iota 0 n]
                [seq (j.+1, peval (bpol i) j.+1%:R) | j <- iota 0 n] (b1 i) [seq c *: G | c <- pol i]
                (\sum_(j <- iota 1 n) peval (pol j) i%:R) 0, [seq c *: G | c <- pol i]),
        perm_eq (unzip1 oth) [seq j <- iota 1 n | j != i] &
        forall j, (0 < j <= n)%N -> j <> i -> lookup oth j = Some (Some (i, peval (pol j) i%:R), None)].
    Proof.
      move=> Hi; have [Hn [o [Hpo Ed]] _ _] := run_r1 Hi; have [/andP [Ht Htn] _] := run_new Hi.
      have [Ub Kb Hb] := hr_bc1 R Hi; have [Ui Ki] := hr_ins R Hi.
      have Hi0 : (0 < i)%N by case/andP: Hi.
      have Ho : unzip1 [seq (j, (None, None) : pdata V) | j <- o] = o.
        by rewrite /unzip1 -map_comp -[RHS]map_id; apply: eq_map.
      have [|oth [El Eu H1 H2]] := @loop2_run p V G (d1 i) (ins i)
        (fun j => (i, peval (pol j) i%:R)) (fun j => (i, peval (bpol j) i%:R)) (bc1 i)
        [seq (j, (None, None)) | j <- o] (peval (pol i) i%:R) Ub.
        move=> j v Hin; rewrite Ed /= => N; have [Hj ->] := Hb j v Hin; split.
        - exact: run_lookup.
        - have [_ _ -> _] := run_r1 Hj; have [Sp Sb] := run_size Hj.
          rewrite C26_v1_verify_iff /=.
          + by rewrite -[X in iota 0 X]Sp ceval_pedersen ?Sp ?Sb // eqxx.
          + by rewrite size_map size_iota leqnn andbT (leq_trans _ Ht).
          + by apply: leq_ltn_trans Hn; case/andP: Hi.
        - by rewrite Ho (perm_mem Hpo) mem_filter (introN eqP N) mem_iota add1n ltnS; case/andP: Hj => -> ->.
      exists oth; split; last first.
      - move=> j Hj N; rewrite Ed /= in H2; rewrite H2 //; last exact: Kb.
        have [|d Ed'] := @lookup_mem _ [seq (j, (None, None) : pdata V) | j <- o] j.
          by rewrite Ho (perm_mem Hpo) mem_filter (introN eqP N) mem_iota add1n ltnS; case/andP: Hj => -> ->.
        rewrite Ed' /=; have : List.In (j, d) [seq (j, (None, None) : pdata V) | j <- o] := lookup_some Ed'.
        by elim: (o) => [|k l IH] //= [[_ <-]|].
      - by rewrite Eu Ho.
      rewrite /g_round2 Ed /= -(negbK (i == 0%N)) -lt0n Hi0 /=.
      have Nb : (size (bc1 i) == 0%N) || (size (ins i) == 0%N) = false.
        have [j [Hj Nj]] : exists j, (0 < j <= n)%N /\ j <> i.
          case: (i =P 1%N) => [->|N1]; first by exists 2%N; rewrite (leq_trans Ht Htn).
          by exists 1%N; rewrite (hr_n R); split=> // E; apply: N1.
        apply/norP; split.
          by apply/negP => /eqP Z; have := Kb j Hj Nj; rewrite (size0nil Z).
        apply/negP => /eqP Z; have := Ki j; rewrite (size0nil Z) mem_filter (introN eqP Nj) mem_iota add1n ltnS.
        by case/andP: Hj => -> ->.
      rewrite Nb onth_map_iota /=; last by rewrite prednK //; case/andP: Hi.
      rewrite prednK //; rewrite Ed in El; rewrite El /=; congr (Ok (GP _ _ _ _ _ _ _ _ _ _, _)).
      exact: (sum_others (fun j => peval (pol j) i%:R) Hi Ub Kb (fun j a H => proj1 (Hb j a H))).
    Qed.

    (** C31: on honest messages Round2 succeeds for every participant *)
    Theorem C31_honest_round2_succeeds i : (0 < i <= n)%N ->
      exists d2, g_round2 G (d1 i) (bc1 i) (ins i) = Ok (d2, [seq c *: G | c <- pol i]).
    Proof. by move=> /run_r2 [oth [-> _ _]]; eexists. Qed.

    Section Round3.
      Variables (d2 : nat -> gp V) (v2 : nat -> seq V) (bc2 : nat -> seq (nat * seq V)).
      Hypothesis H2 : forall i, (0 < i <= n)%N -> g_round2 G (d1 i) (bc1 i) (ins i) = Ok (d2 i, v2 i).
      Hypothesis Hbc2 : forall i, (0 < i <= n)%N -> delivered n i v2 (bc2 i).

      Let S : F := \sum_(j <- iota 1 n) sec j.

      Lemma run_r3 i : (0 < i <= n)%N -> exists oth bs bl, perm_eq (unzip1 oth) [seq j <- iota 1 n | j != i] /\
        (forall j, (0 < j <= n)%N -> j <> i ->
           lookup oth j = Some (Some (i, peval (pol j) i%:R), Some [seq c *: G | c <- pol j])) /\
        let sk := \sum_(j <- iota 1 n) peval (pol j) i%:R in
        g_round3 G (d2 i) (bc2 i) = if S *: G == 0 then Err GKey else
          Ok (GP 4 i (Pedersen (Shamir t n) gen) oth
                [seq (j.+1, peval (pol i) j.+1%:R) | j <- iota 0 n]
                bs bl [seq c *: G | c <- pol i] sk (S *: G), S *: G, (i, sk)).
      Proof.
        move=> Hi; have [Hn _ _ _] := run_r1 Hi; have [/andP [Ht Htn] _] := run_new Hi.
        have [Ub Kb Hb] := Hbc2 Hi.
        have V2 j : (0 < j <= n)%N -> v2 j = [seq c *: G | c <- pol j].
          by move=> Hj; have [o [E _ _]] := run_r2 Hj; have := H2 Hj; rewrite E => [[_ <-]].
        have [o2 [E2 Hpo Hl]] := run_r2 Hi.
        have Ed : d2 i = GP 3 i (Pedersen (Shamir t n) gen) o2
                [seq (j.+1, peval (pol i) j.+1%:R) | j <- iota 0 n]
                [seq (j.+1, peval (bpol i) j.+1%:R) | j <- iota 0 n] (b1 i) [seq c *: G | c <- pol i]
                (\sum_(j <- iota 1 n) peval (pol j) i%:R) 0.
          by have := H2 Hi; rewrite E2 => [[<- _]].
        have [|oth [El Eu H1 H3]] := @loop3_run p V G (d2 i) (fun j => (i, peval (pol j) i%:R)) (bc2 i)
          o2 (sec i *: G) Ub.
          move=> j v Hin; rewrite Ed /= => N; have [Hj ->] := Hb j v Hin; rewrite V2 //; split=> //.
            by exists None; exact: Hl.
          have [Sp _] := run_size Hj.
          rewrite (C25_v1_verify_iff G (t := t) (n := n)) ?ceval_base ?eqxx // /new_shamir1.
          + by rewrite ltnNge Htn /= ltnNge Ht.
          + by apply: leq_ltn_trans Hn; case/andP: Hi.
          + by rewrite size_map Sp.
        exists oth, [seq (j.+1, peval (bpol i) j.+1%:R) | j <- iota 0 n], (b1 i); split; first by rewrite Eu.
        split.
          move=> j Hj N; have [v Hv] := unzip1_In (Kb j Hj N).
          have [_ Ev] := Hb j v Hv; rewrite Ed /= in H3; rewrite (H3 j v Hv N) Ev V2 //.
        rewrite /g_round3 Ed /=.
        have -> : (size (bc2 i) == 0%N) = false.
          apply/negP => /eqP Z.
          have [j [Hj Nj]] : exists j, (0 < j <= n)%N /\ j <> i.
            case: (i =P 1%N) => [->|N1]; first by exists 2%N; rewrite (leq_trans Ht Htn).
            by exists 1%N; rewrite (hr_n R); split=> // E; apply: N1.
          by have := Kb j Hj Nj; rewrite (size0nil Z).
        rewrite Ed in El; rewrite El /=.
        have -> : sec i *: G + \sum_(e <- bc2 i | e.1 != i) nth 0 e.2 0 = S *: G.
          rewrite /S scaler_suml -(sum_others (fun j => sec j *: G) Hi Ub Kb (fun j a H => proj1 (Hb j a H))).
          congr (_ + _); elim: (bc2 i) Hb => [|[j v] l IH] Hb; rewrite ?big_nil // !big_cons /=.
          rewrite IH; last by move=> j' v' Hin; apply: Hb; right.
          case: eqP => //= N; congr (_ + _).
          by have [Hj ->] := Hb j v (or_introl erefl); rewrite V2.
        by [].
      Qed.

      (** C31: there is one polynomial of degree < t, with constant term the sum of the contributions, such
          that every participant's Round3 returns as public key its value at 0 times the generator and as
          secret share its value at the participant's identifier; the only failure is a zero key, which
          every participant reports *)
      Theorem C31_dkg_agreement : exists c : seq F, size c = t /\
        c`_0 = \sum_(j <- iota 1 n) contribution (secret j) (sampled j) /\
        forall i, (0 < i <= n)%N ->
          if c`_0 *: G == 0 then g_round3 G (d2 i) (bc2 i) = Err GKey
          else exists d3, g_round3 G (d2 i) (bc2 i) = Ok (d3, c`_0 *: G, (i, peval c i%:R)).
      Proof.
        pose q : {poly F} := \sum_(j <- iota 1 n) Poly (pol j).
        have Hsz : forall j, j \in iota 1 n -> size (pol j) = t.
          by move=> j; rewrite mem_iota add1n ltnS => /run_size [].
        have Hq : (size q <= t)%N.
          rewrite /q big_seq; apply: (big_ind (fun q : {poly F} => (size q <= t)%N)).
          - by rewrite size_poly0.
          - by move=> x y Hx Hy; apply: leq_trans (size_add _ _) _; rewrite geq_max Hx.
          - by move=> j Hj; rewrite -(Hsz j Hj); exact: size_Poly.
        have Ht : (0 < t)%N.
          have [] := @run_new 1%N; first by rewrite (hr_n R).
          by case/andP => Ht _ _; exact: leq_trans Ht.
        have E0 : (coefs t q)`_0 = S.
          by rewrite nth_mkseq // /q coef_sum; apply: eq_bigr => j _; rewrite coef_Poly.
        exists (coefs t q); rewrite size_mkseq E0; split=> //; split=> // i Hi.
        have [oth [bs [bl [_ [_ ->]]]]] := run_r3 Hi.
        case: (S *: G == 0) => //.
        eexists; congr (Ok (_, _, (_, _))).
        rewrite peval_coefs // /q horner_sum; by apply: eq_bigr => j _; rewrite pevalE.
      Qed.

      (** C31: t or more of the returned shares combine to the private key *)
      Theorem C31_shares_combine (d3 : nat -> gp V) (pk : nat -> V) (sh : nat -> share1 p) (ids : seq nat) :
        (forall i, (0 < i <= n)%N -> g_round3 G (d2 i) (bc2 i) = Ok (d3 i, pk i, sh i)) ->
        uniq ids -> {subset ids <= iota 1 n} -> (t <= size ids)%N ->
        exists x : F, (forall i, (0 < i <= n)%N -> pk i = x *: G) /\
          combine1 (Shamir t n) [seq sh i | i <- ids] = Ok (getb (nat_of_ord x)).
      Proof.
        move=> H3 U Hsub Hl; have [c [Hc [_ Hall]]] := C31_dkg_agreement.
        have Hi1 : (0 < 1 <= n)%N by rewrite (hr_n R).
        have NZ : (c`_0 *: G == 0) = false.
          apply/negP => Z; have := Hall 1%N Hi1; rewrite Z; by rewrite H3.
        have Es i : (0 < i <= n)%N -> pk i = c`_0 *: G /\ sh i = (i, peval c i%:R).
          move=> Hi; have := Hall i Hi; rewrite NZ => [[d]]; by rewrite H3 // => [[_ <- <-]].
        exists c`_0; split; first by move=> i /Es [].
        have [Hn _ _ _] := run_r1 Hi1; have [/andP [Ht _] _] := run_new Hi1.
        have Hmem i : i \in ids -> (0 < i <= n)%N by move/Hsub; rewrite mem_iota add1n ltnS.
        have Em : [seq sh i | i <- ids] = [seq (i, peval c i%:R) | i <- ids].
          by apply/eq_in_map => i /Hmem /Es [].
        rewrite Em; apply: combine1_poly => //; first exact: leq_trans Ht.
          by rewrite size_map.
        - rewrite -map_take /unzip1 -map_comp (_ : map _ _ = take t ids); first exact: take_uniq.
          by rewrite -[RHS]map_id; apply: eq_map.
        - move=> s; rewrite -map_take => /mapP [i Hin ->] /=; split=> //.
          by apply: Hmem; exact: mem_take Hin.
      Qed.

      (** C31: the value Round4 publishes for participant j (as computed by participant i): the public key
          plus sum_k j*(k+1) times j's k-th commitment *)
      Theorem C31_round4_value i d3 pk sh : (0 < i <= n)%N ->
        g_round3 G (d2 i) (bc2 i) = Ok (d3, pk, sh) ->
        exists l, g_round4 d3 = Ok l /\ forall j, (0 < j <= n)%N ->
          lookup l j = Some (pk + \sum_(k <- iota 0 t) (j * k.+1)%:R *: ((pol j)`_k *: G)).
      Proof.
        move=> Hi; have [oth [bs [bl [Hpo [Hl ->]]]]] := run_r3 Hi.
        case: ifP => // _ [<- <- _].
        have Hps j (v : seq V) w ks : {subset ks <= iota 0 (size v)} ->
          pub_share j v ks w = Ok (w + \sum_(k <- ks) (j * k.+1)%:R *: nth 0 v k).
          elim: ks w => [|k ks IH] w Hs /=; first by rewrite big_nil addr0.
          have Hk : (k < size v)%N by have := Hs k (mem_head _ _); rewrite mem_iota.
          rewrite (onth_nth 0) // IH ?big_cons ?addrA // => x Hx; by apply: Hs; rewrite inE Hx orbT.
        set r := (i, [seq c *: G | c <- pol i]) :: [seq (e.1, odflt [::] e.2.2) | e <- oth].
        rewrite /g_round4 /= -/r.
        have Hr j : (0 < j <= n)%N -> lookup r j = Some [seq c *: G | c <- pol j].
          rewrite /r /=; case: eqP => [-> //|N] Hj; have := Hl j Hj N.
          elim: (oth) => [|[k d] m IH] //=; case: eqP => // _ [->] //.
        have Hrk : {subset unzip1 r <= iota 1 n}.
          move=> j; rewrite /r /= inE => /orP [/eqP ->|].
            by rewrite mem_iota add1n ltnS; case/andP: Hi => -> ->.
          rewrite /unzip1 -map_comp (_ : map _ _ = unzip1 oth); last exact: eq_map.
          by rewrite (perm_mem Hpo) mem_filter => /andP [].
        have Ur : uniq (unzip1 r).
          rewrite /r /= /unzip1 -map_comp (_ : map _ _ = unzip1 oth); last exact: eq_map.
          by rewrite (perm_mem Hpo) mem_filter eqxx /= (perm_uniq Hpo) filter_uniq // iota_uniq.
        have Hr' j v : List.In (j, v) r -> v = [seq c *: G | c <- pol j] /\ (0 < j <= n)%N.
          move=> Hin; have Hj := Hrk j (In_unzip1 Hin); rewrite mem_iota add1n ltnS in Hj.
          by have := lookup_in Ur Hin; rewrite Hr // => [[<-]].
        have Hrun m : (forall j v, List.In (j, v) m -> v = [seq c *: G | c <- pol j] /\ (0 < j <= n)%N) ->
          exists l, pub_shares (GP 4 i (Pedersen (Shamir t n) gen) oth
               [seq (j.+1, peval (pol i) j.+1%:R) | j <- iota 0 n] bs bl [seq c *: G | c <- pol i]
               (\sum_(j <- iota 1 n) peval (pol j) i%:R) (S *: G)) m = Ok l /\
            forall j v, lookup m j = Some v ->
              lookup l j = Some (S *: G + \sum_(k <- iota 0 t) (j * k.+1)%:R *: nth 0 v k).
          elim: m => [|[j v] m IH] Hm; first by exists [::].
          have [Ev Hj] := Hm j v (or_introl erefl).
          have [l [El Hll]] := IH (fun j' v' H => Hm j' v' (or_intror H)).
          eexists; split.
            rewrite pub_shares_cons -[g_ver _]/([seq c *: G | c <- pol i]) -[g_vk _]/(S *: G) size_map (proj1 (run_size Hi)) Hps; last first.
              by rewrite Ev size_map (proj1 (run_size Hj)).
            by rewrite [rbind (Ok _) _]/= El.
          move=> j' v' /=; case: eqP => [-> [->] //|_]; exact: Hll.
        have [l [El Hll]] := Hrun r Hr'; exists l; split=> // j Hj.
        rewrite (Hll j _ (Hr j Hj)); congr (Some (_ + _)).
        rewrite big_seq [in RHS]big_seq; apply: eq_bigr => k; rewrite mem_iota add0n => /andP [_ Hk].
        by rewrite (nth_map 0) // (proj1 (run_size Hj)).
      Qed.
    End Round3.
  End Run.
End Props.

(** C31 refuted for the public shares: in an honest run of two participants (threshold 2, every
    polynomial 1 + x) Round4 publishes for participant 1 a point that is not its secret share times the
    generator. The run also shows that the hypotheses of the theorems above are met. *)
Section Refute.
  Variable p : nat.
  Hypothesis Hp : prime p.
  Hypothesis Hp2 : (2 < p)%N.
  Local Notation F := ('F_p).
  Let V : lmodType F := [lmodType F of F^o].
  Let g : V := (1 : F).

  Let pd : pedersen V := Pedersen (Shamir 2 2) g.
  Let sh (i : nat) : share1 p := (i, evaluate [:: 1; 1] i%:R).
  Let oth i : seq (nat * pdata V) := [:: ((3 - i)%N, (None, None))].
  Let ver : seq V := [:: 1 *: g; 1 *: g].
  Let bl : seq V := [:: 1 *: g + 1 *: g; 1 *: g + 1 *: g].
  Let d0 i := GP 1 i pd (oth i) [::] [::] [::] [::] 0 0.
  Let d1 i := GP 2 i pd (oth i) [:: sh 1; sh 2] [:: sh 1; sh 2] bl ver 0 0.
  Let out i := [:: ((3 - i)%N, (sh (3 - i), sh (3 - i)))].
  Let ins i := [:: ((3 - i)%N, (sh i, sh i))].
  Let bcl := [:: (1%N, bl); (2%N, bl)].

  Lemma two i : (0 < i <= 2)%N -> i = 1%N \/ i = 2%N.
  Proof. by case: i => [|[|[|]]] //; [left|right]. Qed.

  Example C31_nonvacuous : honest_run g 2 2 g d0 d1 (fun=> None) (fun=> 1%N) (fun=> 1%N) (fun=> [:: 1])
    (fun=> [:: 1]) (fun=> bl) out ins (fun=> bcl).
  Proof.
    have H1 : (1 < p)%N by exact: prime_gt1.
    split=> //.
    - move=> i /two [] ->; [exists [:: 2%N]|exists [:: 1%N]]; split=> //;
        by rewrite /new_participant /= /new_pedersen1 /= /g oner_eq0.
    - move=> i /two [] ->; rewrite /g_round1 /pedersen_split1 /= /get_shares1 /= H1 /= /elem H1 Hp2 /=;
        by rewrite /poly_init.
    - move=> i /two [] ->; split=> // j; try (by case/two => ->); move=> a /= [[<- <-]|[[<- <-]|[]]] //.
    - by move=> i /two [] ->; split.
    - by move=> i /two [] -> j s /= [[<- <-]|[]]; left.
  Qed.

  Theorem C31_public_share_refuted :
    exists d1 bc1 ins d2 v2 bc2 d3 pk sk l w,
      [/\ honest_run g 2 2 g d0 d1 (fun=> None) (fun=> 1%N) (fun=> 1%N) (fun=> [:: 1])
            (fun=> [:: 1]) (fun=> bl) out ins bc1,
          forall i, (0 < i <= 2)%N -> g_round2 g (d1 i) (bc1 i) (ins i) = Ok (d2 i, v2 i),
          delivered 2 1 v2 bc2 /\ g_round3 g (d2 1%N) bc2 = Ok (d3, pk, (1%N, sk)),
          g_round4 d3 = Ok l & lookup l 1%N = Some w /\ w <> sk *: g].
  Proof.
    have R := C31_nonvacuous.
    have [|a Ha] := @C31_honest_round2_succeeds p V g _ _ _ _ _ _ _ _ _ _ _ _ _ _ R 1; first by [].
    have [|b Hb] := @C31_honest_round2_succeeds p V g _ _ _ _ _ _ _ _ _ _ _ _ _ _ R 2; first by [].
    exists d1, (fun=> bcl), ins.
    pose d2 i := if i == 1%N then a else b.
    pose v2 (_ : nat) := [seq c *: g | c <- [:: 1; 1]].
    have H2 i : (0 < i <= 2)%N -> g_round2 g (d1 i) bcl (ins i) = Ok (d2 i, v2 i).
      by case/two => ->; rewrite ?Ha ?Hb.
    pose bc2 (_ : nat) := [:: (1%N, v2 1%N); (2%N, v2 2%N)].
    have Hbc2 i : (0 < i <= 2)%N -> delivered 2 i v2 (bc2 i).
      move=> _; split=> // [j|j c /= [[<- <-]|[[<- <-]|[]]] //]; by case/two => ->.
    have [oth3 [bs3 [bl3 [_ [_ E3]]]]] := run_r3 R H2 Hbc2 (isT : (0 < 1 <= 2)%N).
    have E0 : \sum_(j <- iota 1 2) (contribution p None 1) = 2%:R.
      by rewrite /= !big_cons big_nil /contribution addr0 -natrD.
    move: E3; rewrite E0 /=.
    have N0 : (2%:R *: g == 0) = false.
      rewrite scaler_eq0 /g oner_eq0 orbF; apply/negP => /eqP /(congr1 (@nat_of_ord _)).
      by rewrite natr_val.
    rewrite N0 => E3.
    have [|l [El Hl]] := C31_round4_value R H2 Hbc2 _ E3; first by [].
    exists d2, v2, (bc2 1%N); eexists; eexists; eexists; exists l; eexists; split=> //.
    - by split; [exact: Hbc2|exact: E3].
    - exact: El.
    split; first exact: (Hl 1%N isT).
    rewrite /= !big_cons !big_nil /= /contribution /peval !big_ord_recr big_ord0 /=.
    rewrite expr0 expr1 !mulr1 !addr0 !add0r !scalerA -!scalerDl => /eqP.
    rewrite -subr_eq0 -scalerBl scaler_eq0 /g oner_eq0 orbF.
    rewrite !mulr1 -!natrD /= => /eqP E.
    have : 1 = 0 :> F by rewrite -[RHS]E (_ : (2 + (1 + 2) = 1 + 4)%N) // natrD addrK.
    by move/eqP; rewrite oner_eq0.
  Qed.
End Refute.
