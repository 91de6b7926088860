From mathcomp Require Import all_ssreflect all_algebra.
From Verif Require Import AlgBase Lagrange ShamirModel ShamirSpec ShamirProofs ShamirProofs2
  SharingV1Model SharingV1Spec SharingV1Proofs FrostDkgModel FrostDkgProofs GennaroModel SharingV1Props.
Set Implicit Arguments.
Unset Strict Implicit.
Unset Printing Implicit Defensive.
Import GRing.Theory.
Local Open Scope ring_scope.
Local Arguments poly_init : simpl never.

(** a sum over one's own entry and the others' entries of a map is the sum over 1..n *)
Lemma sum_others (A : Type) (W : zmodType) (f : nat -> W) n i (bc : seq (nat * A)) :
  (0 < i <= n)%N -> uniq (unzip1 bc) ->
  (forall j, (0 < j <= n)%N -> j <> i -> j \in unzip1 bc) ->
  (forall j a, List.In (j, a) bc -> (0 < j <= n)%N) ->
  f i + \sum_(e <- bc | e.1 != i) f e.1 = \sum_(j <- iota 1 n) f j.
Proof.
  move=> Hi U K Hb.
  rewrite -(big_map fst (fun j => j != i) f) -/(unzip1 bc) -big_filter.
  have Hii : i \in iota 1 n by rewrite mem_iota add1n ltnS; case/andP: Hi => -> ->.
  rewrite (big_rem i Hii) /=; congr (_ + _); apply: perm_big.
  apply: uniq_perm; [by rewrite filter_uniq|by rewrite rem_uniq // iota_uniq|].
  move=> j; rewrite mem_filter mem_rem_uniq ?iota_uniq // inE; case: eqP => //= N.
  rewrite mem_iota add1n ltnS; apply/idP/idP => [/unzip1_In [b Hin]|Hj]; last exact: K.
  exact: Hb Hin.
Qed.

Lemma ceval_pedersen (F : fieldType) (V : lmodType F) (G H : V) (a b : seq F) x : size a = size b ->
  ceval [seq a`_i *: G + b`_i *: H | i <- iota 0 (size a)] x = peval a x *: G + peval b x *: H.
Proof.
  move=> E; rewrite /ceval /peval size_map size_iota -E !scaler_suml -big_split /=.
  apply: eq_bigr => j _.
  by rewrite (nth_map 0%N) ?size_iota // nth_iota // scalerDr !scalerA ![x ^+ j * _]mulrC.
Qed.

Section P.
  Variable p : nat.
  Hypothesis Hp : prime p.
  Local Notation F := ('F_p).
  Variables (V : lmodType F) (G : V).

  Lemma new_participant_inv id t gen others (dp : gp V) : new_participant id t gen others = Ok dp ->
    exists g, [/\ gen = Some g, (2 <= t <= (size others).+1)%N, g <> 0, valid_ids (rcons others id) &
      dp = GP 1 id (Pedersen (Shamir t (size others).+1) g) [seq (i, (None, None)) | i <- undup others]
              [::] [::] [::] [::] 0 0].
  Proof.
    rewrite /new_participant; case: gen => [g|] //; case: ifP => // _; case: ifPn => //; rewrite negbK => Hv.
    rewrite /new_shamir1 /new_pedersen1; case: ltnP => // H1; case: ltnP => //= H2.
    case: eqP => //= Ng [<-]; exists g; split=> //; by rewrite H2 H1.
  Qed.

  Lemma set_share_ok (m : seq (nat * pdata V)) id s : id \in unzip1 m ->
    exists m', [/\ set_share m id s = Some m', unzip1 m' = unzip1 m,
      (forall k, k <> id -> lookup m' k = lookup m k) &
      lookup m' id = omap (fun d => (Some s, d.2)) (lookup m id)].
  Proof.
    elim: m => [|[k d] m IH] //=; rewrite inE; case: eqP => [->|N] /=.
      move=> _; eexists; split; first by [].
      - by [].
      - by move=> k' N; rewrite /= (introF eqP N).
      - by rewrite /= eqxx.
    move=> /IH [m' [-> Eu Hn He]]; eexists; split; first by [].
    - by rewrite /= Eu.
    - by move=> k' Nk /=; case: eqP => // _; exact: Hn.
    - by rewrite /= (introF eqP N).
  Qed.

  Lemma set_ver_ok (m : seq (nat * pdata V)) id v : id \in unzip1 m ->
    exists m', [/\ set_ver m id v = Some m', unzip1 m' = unzip1 m,
      (forall k, k <> id -> lookup m' k = lookup m k) &
      lookup m' id = omap (fun d => (d.1, Some v)) (lookup m id)].
  Proof.
    elim: m => [|[k d] m IH] //=; rewrite inE; case: eqP => [->|N] /=.
      move=> _; eexists; split; first by [].
      - by [].
      - by move=> k' N; rewrite /= (introF eqP N).
      - by rewrite /= eqxx.
    move=> /IH [m' [-> Eu Hn He]]; eexists; split; first by [].
    - by rewrite /= Eu.
    - by move=> k' Nk /=; case: eqP => // _; exact: Hn.
    - by rewrite /= (introF eqP N).
  Qed.

  Lemma pub_shares_cons (dp : gp V) j v m : pub_shares dp ((j, v) :: m) =
    rbind (pub_share j v (iota 0 (size (g_ver dp))) (g_vk dp)) (fun w =>
    rbind (pub_shares dp m) (fun l => Ok ((j, w) :: l))).
  Proof. by []. Qed.

  Lemma lookup_mem (A : Type) (m : seq (nat * A)) k : k \in unzip1 m -> exists a, lookup m k = Some a.
  Proof.
    elim: m => [|[k' a] m IH] //=; rewrite inE; case: eqP => [_ _|_] /=; [by exists a|exact: IH].
  Qed.

  (** the loop of Round2 on consistent messages *)
  Lemma loop2_run (dp : gp V) p2p (x r : nat -> share1 p) bc oth sk :
    uniq (unzip1 bc) ->
    (forall j v, List.In (j, v) bc -> j <> g_id dp -> [/\ lookup p2p j = Some (x j, r j),
        pedersen_verify1 G (g_pd dp) (x j) (r j) v = Ok true & j \in unzip1 oth]) ->
    exists oth', [/\ g_loop2 G dp p2p bc oth sk = Ok (oth', sk + \sum_(e <- bc | e.1 != g_id dp) (x e.1).2),
      unzip1 oth' = unzip1 oth,
      (forall j, j \notin unzip1 bc -> lookup oth' j = lookup oth j) &
      (forall j, j \in unzip1 bc -> j <> g_id dp ->
         lookup oth' j = omap (fun d => (Some (x j), d.2)) (lookup oth j))].
  Proof.
    elim: bc oth sk => [|[id v] bc IH] oth sk /= U Hall.
      by exists oth; split=> //; rewrite big_nil addr0.
    case/andP: U => Nid U; rewrite big_cons /=; case: eqP => [E|N] /=.
      have [oth' [-> Eu H1 H2]] := IH oth sk U (fun j v' Hin => Hall j v' (or_intror Hin)).
      exists oth'; split=> // j; first by rewrite inE negb_or => /andP [_ /H1].
      rewrite inE => /orP [/eqP ->|]; [by rewrite E|exact: H2].
    have [El Ev Hid] := Hall id v (or_introl erefl) N; rewrite El Ev /=.
    have [o1 [-> Eu1 K1 K2]] := set_share_ok (x id) Hid.
    have [|oth' [-> Eu H1 H2]] := IH o1 (sk + (x id).2) U.
      by move=> j v' Hin Nj; have [? ? ?] := Hall j v' (or_intror Hin) Nj; rewrite Eu1.
    exists oth'; split; [by rewrite addrA|by rewrite Eu Eu1| |].
    - move=> j; rewrite inE negb_or => /andP [/eqP Nj Nin]; by rewrite H1 // K1.
    - move=> j; rewrite inE => /orP [/eqP -> _|Hj Nj]; first by rewrite H1.
      rewrite H2 // K1 // => E; by rewrite -E Hj in Nid.
  Qed.

  Lemma loop3_run (dp : gp V) (x : nat -> share1 p) bc oth pk :
    uniq (unzip1 bc) ->
    (forall j v, List.In (j, v) bc -> j <> g_id dp ->
       [/\ (exists w, lookup oth j = Some (Some (x j), w)),
        feldman_verify1 G (pd_sh (g_pd dp)) (x j) v = Ok true & v <> [::]]) ->
    exists oth', [/\ g_loop3 G dp bc oth pk = Ok (oth', pk + \sum_(e <- bc | e.1 != g_id dp) nth 0 e.2 0),
      unzip1 oth' = unzip1 oth,
      (forall j, j \notin unzip1 bc -> lookup oth' j = lookup oth j) &
      (forall j v, List.In (j, v) bc -> j <> g_id dp -> lookup oth' j = Some (Some (x j), Some v))].
  Proof.
    elim: bc oth pk => [|[id v] bc IH] oth pk /= U Hall.
      by exists oth; split=> //; rewrite big_nil addr0.
    case/andP: U => Nid U; rewrite big_cons /=; case: eqP => [E|N] /=.
      have [oth' [-> Eu H1 H2]] := IH oth pk U (fun j v' Hin => Hall j v' (or_intror Hin)).
      exists oth'; split=> //; first by move=> j; rewrite inE negb_or => /andP [_ /H1].
      move=> j v' [[<- _]|Hin]; [by rewrite E|exact: H2].
    have [[w El] Ev Nv] := Hall id v (or_introl erefl) N; rewrite El Ev /=.
    have Hid : id \in unzip1 oth by exact: In_unzip1 (lookup_some El).
    have [o1 [-> Eu1 K1 K2]] := set_ver_ok v Hid.
    case: v Nv K2 Hall Ev => [|v0 v] // _ K2 Hall Ev.
    have [|oth' [-> Eu H1 H2]] := IH o1 (pk + v0) U.
      move=> j v' Hin Nj; have [[w' Ew] ? ?] := Hall j v' (or_intror Hin) Nj; split=> //.
      have Nji : j <> id by move=> E; rewrite -E (In_unzip1 Hin) in Nid.
      by exists w'; rewrite K1.
    exists oth'; split; [by rewrite addrA|by rewrite Eu Eu1| |].
    - move=> j; rewrite inE negb_or => /andP [/eqP Nj Nin]; by rewrite H1 // K1.
    - move=> j v' [[<- <-] _|Hin Nj]; last exact: H2.
      by rewrite H1 // K2 El.
  Qed.

  (** what Round1 returns *)
  Lemma g_round1_inv t n i gen oth (rnd rndb : seq F) secret sampled blinding (d1 : gp V) b1 out :
    size rnd = t.-1 -> size rndb = t.-1 -> (0 < t)%N ->
    g_round1 G (GP 1 i (Pedersen (Shamir t n) gen) oth [::] [::] [::] [::] 0 0) secret sampled blinding rnd rndb
      = Ok (d1, b1, out) ->
    let s : F := (if secret is Some b then be_value b else sampled)%:R in
    let P := s :: rnd in let Q := blinding%:R :: rndb in
    [/\ (0 < n -> n < p)%N,
      d1 = GP 2 i (Pedersen (Shamir t n) gen) oth [seq (j.+1, peval P j.+1%:R) | j <- iota 0 n]
             [seq (j.+1, peval Q j.+1%:R) | j <- iota 0 n] b1 [seq c *: G | c <- P] 0 0,
      b1 = [seq P`_k *: G + Q`_k *: gen | k <- iota 0 t] &
      forall j sb, List.In (j, sb) out ->
        (0 < j <= n)%N /\ sb = ((j, peval P j%:R), (j, peval Q j%:R))].
  Proof.
    move=> Hr Hrb Ht; rewrite /g_round1 /=.
    set ssec := match secret with None => _ | Some _ => _ end.
    case Es: ssec => [sec||] //=.
    have E : setb sec = if secret is Some b then be_value b else sampled.
      move: Es; rewrite /ssec; case: secret {ssec} => [b|].
        by case: ifP => // _; case: ifP => // _ [<-]; rewrite setb_value.
      by case=> <-; rewrite setb_getb.
    rewrite /pedersen_split1 /=; case Ea: (get_shares1 _ sec _) => [sp||] //=.
    case Eb: (get_shares1 _ _ rndb) => [sb||] //=.
    have [_ _ Hn] := get_shares1_ok Ea; rewrite (poly_init_full _ Hr) /= E => E2 E1.
    have [_ _ _] := get_shares1_ok Eb; rewrite (poly_init_full _ Hrb) /= setb_getb => F2 F1.
    case Ep: (p2p_send _ _ _) => [l||] //= [<- <- <-].
    have Hsz : (size rnd).+1 = t by rewrite Hr prednK.
    rewrite E1 F1 E2 F2 in Ep *; rewrite -[size (_ :: rnd)]/(size rnd).+1 Hsz; split=> // j [sj bj].
    elim: (unzip1 oth) l Ep => [|k ks IH] l /=; first by case=> <-.
    case: eqP => // /eqP N.
    case Eo: (onth _ _) => [sk|] //; case Eo2: (onth _ _) => [bk|] //.
    case Er: (p2p_send _ _ _) => [l'||] //= [<-] /= [[<- <- <-]|]; last exact: IH Er.
    have Hk := onth_some Eo; rewrite size_map size_iota in Hk.
    rewrite -lt0n in N; rewrite onth_map_iota // in Eo; rewrite onth_map_iota // in Eo2.
    case: Eo => <-; case: Eo2 => <-; rewrite prednK // in Hk *; by rewrite N Hk.
  Qed.
End P.
