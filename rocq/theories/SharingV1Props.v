(** C27 (and the v1 part of C25, C26): theorems about crypto/sharing/v1. *)
From mathcomp Require Import all_ssreflect all_algebra.
From Verif Require Import AlgBase Lagrange ShamirModel ShamirSpec ShamirProofs ShamirProofs2
  SharingV1Model SharingV1Spec SharingV1Proofs.
Set Implicit Arguments.
Unset Strict Implicit.
Unset Printing Implicit Defensive.
Import GRing.Theory.
Local Open Scope ring_scope.
Local Arguments poly_init : simpl never.

Section Props.
  Variable p : nat.
  Hypothesis Hp : prime p.
  Local Notation F := ('F_p).

  Lemma new_shamir1_inv t n s : new_shamir1 t n = Ok s -> [/\ s = Shamir t n, (2 <= t)%N & (t <= n)%N].
  Proof. by rewrite /new_shamir1; case: ltnP => // H1; case: ltnP => // H2 [<-]. Qed.

  (** the first t shares of the list are distinct shares of the Split (whatever follows them): Combine
      returns the secret without its leading zero bytes *)
  Theorem C27_combine_recovers t n s secret (rnd : seq F) shares chosen :
    new_shamir1 t n = Ok s -> size rnd = t.-1 -> is_bytes secret ->
    split1 s secret rnd = Ok shares ->
    (t <= size chosen)%N -> uniq (take t chosen) -> {subset take t chosen <= shares} ->
    combine1 s chosen = Ok (strip secret).
  Proof.
    move=> /new_shamir1_inv [-> Ht Htn] Hr Hb; rewrite /split1.
    case E: (get_shares1 _ _ _) => [r||] //= [<-] Hs U Hsub.
    case: (get_shares1_ok E) => _ Hlt Hlim E2 E1 /=; rewrite /= in Hlim E2 E1.
    have Ht0 : (0 < t)%N by apply: leq_trans Ht.
    rewrite (poly_init_full _ Hr) in E2.
    have Hn : (n < p)%N by apply: Hlim; apply: leq_trans Ht0 Htn.
    have Hin : forall sh, sh \in take t chosen -> (0 < sh.1 <= n)%N /\ sh.2 = peval r.2 (sh.1)%:R.
      move=> sh /Hsub; rewrite E1 => /mapP [i]; rewrite mem_iota /= add0n => Hi -> /=; by rewrite Hi.
    rewrite (@combine1_poly _ Hp t n r.2 chosen) //.
    - by rewrite E2 /= natr_val // getb_setb.
    - by rewrite E2 /= Hr prednK.
    - rewrite map_inj_in_uniq // => [[i v] [j w]] /Hin [_ /= ->] /Hin [_ /= ->] -> //.
  Qed.

  (** hence the exact secret when it has no leading zero byte; with one, it is not returned *)
  Theorem C27_exact_secret_iff t n s secret (rnd : seq F) shares chosen :
    new_shamir1 t n = Ok s -> size rnd = t.-1 -> is_bytes secret ->
    split1 s secret rnd = Ok shares ->
    (t <= size chosen)%N -> uniq (take t chosen) -> {subset take t chosen <= shares} ->
    (combine1 s chosen = Ok secret <-> head 1%N secret <> 0%N).
  Proof.
    move=> H1 H2 H3 H4 H5 H6 H7; rewrite (C27_combine_recovers H1 H2 H3 H4 H5 H6 H7).
    case: secret {H3 H4} => [|[|b] bs] //=; split=> // -[E]; exfalso.
    have : (size (strip bs) <= size bs)%N by elim: bs {E} => [|[|c] bs IH] //=; exact: leqW.
    by rewrite E /= ltnn.
  Qed.

  (** Combine only looks at the first t shares *)
  Theorem C27_rest_ignored t n s (l l' : seq (share1 p)) : new_shamir1 t n = Ok s ->
    size l = t -> combine1 s (l ++ l') = combine1 s l.
  Proof.
    move=> /new_shamir1_inv [-> _ _] Hs; rewrite /combine1 /= size_cat Hs ltnn.
    by rewrite take_size_cat // -Hs take_size ltnNge leq_addr.
  Qed.

  (** a repeated identifier among the first t is refused *)
  Theorem C27_repeated_identifier_refused t n s (l : seq (share1 p)) : new_shamir1 t n = Ok s ->
    (n < p)%N -> (t <= size l)%N -> (forall sh, sh \in take t l -> (0 < sh.1 <= n)%N) ->
    ~~ uniq (unzip1 (take t l)) -> combine1 s l = Err VCoord.
  Proof.
    move=> /new_shamir1_inv [-> Ht Htn] Hn Hl Hr Nu; rewrite /combine1 /= ltnNge Hl /=.
    set l1 := take t l in Hr Nu *.
    have Hs : size l1 = t by rewrite size_takel.
    rewrite collect1_ok //= /interpolate1 !size_map Hs ltnn /=.
    set xs := [seq (sh.1)%:R : F | sh <- l1].
    have [i [j [Hi Hj Nij Exx]]] : exists i j, [/\ (i < t)%N, (j < t)%N, i <> j & xs`_i = xs`_j].
      case/(uniqPn 0%N): Nu => i [j [Hij Hj E]]; rewrite size_map Hs in Hj.
      exists i, j; split=> //; first exact: ltn_trans Hij Hj.
        by move=> e; rewrite e ltnn in Hij.
      have Hi : (i < t)%N by exact: ltn_trans Hij Hj.
      rewrite /xs (map_comp (fun k : nat => k%:R) fst).
      by rewrite !(nth_map 0%N) ?size_map ?Hs // -/(unzip1 l1) E.
    set f := (fun acc k => _).
    have Stuck : forall js, foldl f (Err VCoord) js = Err VCoord by elim.
    have Hb : forall k, (exists b, basis1 xs t k = Ok b) \/ basis1 xs t k = Err VCoord.
      move=> k; rewrite /basis1; elim/last_ind: (iota 0 t) => [|js m IH]; first by left; eexists.
      rewrite foldl_rcons; case: IH => [[b ->]|->] /=; last by right.
      by case: ifP => _; [left; eexists | case: ifP => _; [right | left; eexists]].
    have Hf : forall b k, (exists b', f (Ok b) k = Ok b') \/ f (Ok b) k = Err VCoord.
      by move=> b k; rewrite /f /=; case: (Hb k) => [[b' ->]|->]; [left; eexists | right].
    have Hi' : forall b, f (Ok b) i = Err VCoord.
      move=> b; rewrite /f /= (@basis1_fail p xs t i j) //; by rewrite size_map.
    have H : forall js b, i \in js -> foldl f (Ok b) js = Err VCoord.
      elim=> [|k js IH] b //; rewrite inE -[foldl f (Ok b) _]/(foldl f (f (Ok b) k) js).
      case: (i =P k) => [<- _|Njk]; first by rewrite Hi' Stuck.
      rewrite orFb => Hk.
      by case: (Hf b k) => [[b' ->]|->]; [exact: IH | rewrite Stuck].
    by rewrite H // mem_iota.
  Qed.

  (** identifiers out of range and short lists are refused *)
  Theorem C27_bad_input_refused t n s (l : seq (share1 p)) : new_shamir1 t n = Ok s ->
    (size l < t)%N \/ (exists2 sh, sh \in take t l & ~~ (0 < sh.1 <= n)%N) ->
    forall r, combine1 s l <> Ok r.
  Proof.
    move=> /new_shamir1_inv [-> Ht Htn] Hbad r; rewrite /combine1 /=; case: ltnP => // Hl.
    case E: (collect1 _ _) => [q||] //= _; case: (collect1_inv E) => Hr _.
    by case: Hbad => [|[sh /Hr ->]] //; rewrite ltnNge Hl.
  Qed.

  (** adding two shares of one identifier; of different identifiers it panics *)
  Theorem C27_add (a b : share1 p) :
    share_add a b = if a.1 == b.1 then Ok (a.1, a.2 + b.2) else Panic.
  Proof.
    case: eqP => [E|N]; first exact: share_add_ok.
    by rewrite /share_add; case: eqP.
  Qed.

  (** the sums of the shares of two secrets combine to the sum of the secrets modulo p *)
  Theorem C27_add_homomorphic t n s sec1 sec2 (rnd1 rnd2 : seq F) sh1 sh2 chosen :
    new_shamir1 t n = Ok s -> size rnd1 = t.-1 -> size rnd2 = t.-1 ->
    is_bytes sec1 -> is_bytes sec2 ->
    split1 s sec1 rnd1 = Ok sh1 -> split1 s sec2 rnd2 = Ok sh2 ->
    (t <= size chosen)%N -> uniq (take t chosen) ->
    (forall sh, sh \in take t chosen ->
       exists a b, [/\ a \in sh1, b \in sh2 & share_add a b = Ok sh]) ->
    combine1 s chosen = Ok (getb ((be_value sec1 + be_value sec2) %% p)%N).
  Proof.
    move=> /new_shamir1_inv [-> Ht Htn] Hr1 Hr2 Hb1 Hb2; rewrite /split1.
    case E: (get_shares1 _ sec1 _) => [r1||] //= [<-].
    case E': (get_shares1 _ sec2 _) => [r2||] //= [<-] Hs U Hsub.
    case: (get_shares1_ok E) => _ Hlt1 Hlim E12 E11 /=; rewrite /= in Hlim E12 E11.
    case: (get_shares1_ok E') => _ Hlt2 _ E22 E21 /=; rewrite /= in E22 E21.
    have Ht0 : (0 < t)%N by apply: leq_trans Ht.
    rewrite (poly_init_full _ Hr1) in E12; rewrite (poly_init_full _ Hr2) in E22.
    have Hn : (n < p)%N by apply: Hlim; apply: leq_trans Ht0 Htn.
    have S1 : size r1.2 = t by rewrite E12 /= Hr1 prednK.
    have S2 : size r2.2 = t by rewrite E22 /= Hr2 prednK.
    pose c := [seq q.1 + q.2 | q <- zip r1.2 r2.2].
    have Hin : forall sh, sh \in take t chosen -> (0 < sh.1 <= n)%N /\ sh.2 = peval c (sh.1)%:R.
      move=> sh /Hsub [a [b [Ha Hb]]]; move: Ha Hb; rewrite E11 E21.
      move=> /mapP [i]; rewrite mem_iota add0n => /andP [_ Hi] ->.
      move=> /mapP [j _ ->]; rewrite C27_add; case: eqP => // -[Eij] [<-].
      by rewrite -Eij Hi peval_add // S1 S2.
    rewrite (@combine1_poly _ Hp t n c chosen) //.
    - have -> : c`_0 = (setb sec1 + setb sec2)%:R by rewrite /c E12 E22 natrD.
      by rewrite val_Fp_nat // !setb_value.
    - by rewrite size_map size_zip S1 S2 minnn.
    - rewrite map_inj_in_uniq // => [[i v] [j w]] /Hin [_ /= ->] /Hin [_ /= ->] -> //.
  Qed.

  (** ComputeL: the Lagrange coefficients of the first t shares recover every polynomial's constant *)
  Theorem C27_compute_l t n s (l : seq (share1 p)) : new_shamir1 t n = Ok s ->
    (n < p)%N -> (t <= size l)%N -> (forall sh, sh \in take t l -> (0 < sh.1 <= n)%N) ->
    uniq (unzip1 (take t l)) ->
    exists L, [/\ compute_l s l = Ok L, size L = t &
      forall c : seq F, (size c <= t)%N ->
        \sum_(i < t) L`_i * peval c (nth 0%N (unzip1 l) i)%:R = peval c 0].
  Proof.
    move=> /new_shamir1_inv [-> Ht Htn] Hn Hl Hr U; rewrite /compute_l /= ltnNge Hl /=.
    set l1 := take t l in Hr U *.
    have Hs : size l1 = t by rewrite size_takel.
    rewrite collect1_ok //=; set xs := [seq (sh.1)%:R : F | sh <- l1].
    have Sx : size xs = t by rewrite size_map.
    have Ux : uniq xs.
      rewrite /xs (map_comp (fun i : nat => i%:R) fst); apply: (uniq_natr Hp Hn) => //.
      by apply/allP => i /mapP [sh /Hr /andP [_ Hi] ->].
    have HB : forall ks, all (fun k => k < t)%N ks -> basis_list xs t ks = Ok [seq lag0 xs k | k <- ks].
      elim=> [|k ks IH] //= /andP [Hk Hks]; by rewrite basis1_ok //= IH.
    exists [seq lag0 xs k | k <- iota 0 t]; split.
    - by rewrite HB //; apply/allP => k; rewrite mem_iota.
    - by rewrite size_map size_iota.
    - move=> c Hc; rewrite !pevalE -(lagrange0 Ux) ?Sx; last by apply: leq_trans (size_Poly _) Hc.
      rewrite -[X in iota 0 X]subn0 -/(index_iota 0 t) big_mkord; apply: eq_bigr => i _.
      have -> : [seq lag0 xs k | k <- index_iota 0 t]`_i = lag0 xs i.
        by rewrite /index_iota subn0 (nth_map 0%N) ?size_iota // nth_iota.
      rewrite mulrC pevalE; congr (_.[_] * _).
      have Hi : (i < size l1)%N by rewrite Hs.
      rewrite /xs (map_comp (fun i : nat => i%:R) fst) (nth_map 0%N) ?size_map //.
      by rewrite /l1 map_take nth_take.
  Qed.

  Section Points.
    Variables (V : lmodType F) (G : V).

    (** v1 Feldman Verify *)
    Theorem C25_v1_verify_iff t n s (C : seq V) (sh : share1 p) : new_shamir1 t n = Ok s ->
      (sh.1 < p)%N -> (t <= size C)%N ->
      feldman_verify1 G s sh C = Ok (sh.2 *: G == ceval C (sh.1)%:R).
    Proof.
      move=> /new_shamir1_inv [-> Ht _] Hi HC; rewrite /feldman_verify1 ltnNge HC /= elem_ok //=.
      by case: C HC => [|c0 cs] HC; [case: t Ht HC | rewrite commit_evalE].
    Qed.

    Theorem C25_v1_accepts_exactly_dealt t n s secret (rnd : seq F) C shares (sh : share1 p) : G <> 0 ->
      new_shamir1 t n = Ok s -> size rnd = t.-1 -> (sh.1 < p)%N ->
      feldman_split1 G s secret rnd = Ok (C, shares) ->
      (feldman_verify1 G s sh C = Ok true <-> sh.2 = peval ((be_value secret)%:R :: rnd) (sh.1)%:R) /\
      (sh \in shares -> feldman_verify1 G s sh C = Ok true).
    Proof.
      move=> NG Hs Hr Hi; rewrite /feldman_split1.
      case E: (get_shares1 _ _ _) => [r||] //= [<- <-].
      have [Es Ht Htn] := new_shamir1_inv Hs.
      case: (get_shares1_ok E) => _ _ _; rewrite Es (poly_init_full _ Hr) setb_value /= => E2 E1.
      have SC : (t <= size [seq c *: G | c <- r.2])%N.
        by rewrite size_map E2 /= Hr prednK // (leq_trans _ Ht).
      have K : feldman_verify1 G s sh [seq c *: G | c <- r.2] = Ok true <->
               sh.2 = peval ((be_value secret)%:R :: rnd) (sh.1)%:R.
        rewrite (C25_v1_verify_iff Hs Hi SC) ceval_base -E2; split=> [[]|->]; last by rewrite eqxx.
        rewrite -subr_eq0 -scalerBl scaler_eq0 subr_eq0 => /orP [/eqP //|/eqP //].
      rewrite -Es; split=> // Hin; apply/K; move: Hin.
      by rewrite E1 => /mapP [i _ ->] /=; rewrite E2.
    Qed.

    (** v1 Pedersen: what Verify checks, and binding *)
    Theorem C26_v1_verify_iff (pd : pedersen V) (C : seq V) (sh bsh : share1 p) :
      (0 < sh_thr (pd_sh pd) <= size C)%N -> (sh.1 < p)%N ->
      pedersen_verify1 G pd sh bsh C = Ok (sh.2 *: G + bsh.2 *: pd_gen pd == ceval C (sh.1)%:R).
    Proof.
      case/andP=> Ht HC Hi; rewrite /pedersen_verify1 ltnNge HC /= elem_ok //=.
      case: C HC => [|c0 cs] HC; last by rewrite commit_evalE.
      by move: (leq_trans Ht HC).
    Qed.

    Theorem C26_v1_binding (pd : pedersen V) (C : seq V) (s s' b b' : share1 p) : G <> 0 ->
      (0 < sh_thr (pd_sh pd) <= size C)%N -> (s.1 < p)%N -> s.1 = s'.1 ->
      pedersen_verify1 G pd s b C = Ok true -> pedersen_verify1 G pd s' b' C = Ok true ->
      (s.2, b.2) <> (s'.2, b'.2) ->
      b.2 <> b'.2 /\ pd_gen pd = ((s.2 - s'.2) / (b'.2 - b.2)) *: G.
    Proof.
      move=> NG HC Hi Ei; rewrite !C26_v1_verify_iff -?Ei // => -[/eqP <-] [/eqP E] N.
      have Nb : b.2 <> b'.2.
        move=> Eb; rewrite -Eb in E N; apply: N; congr (_, _); move: E => /addIr /eqP.
        rewrite -subr_eq0 -scalerBl scaler_eq0 subr_eq0 => /orP [/eqP //|/eqP //].
      split=> //.
      have E3 : (b'.2 - b.2) *: pd_gen pd = (s.2 - s'.2) *: G.
        apply/eqP; rewrite !scalerBl subr_eq addrAC eq_sym subr_eq addrC [_ + s'.2 *: G]addrC.
        by rewrite E addrC.
      rewrite mulrC -scalerA -E3 scalerA mulVf ?scale1r // subr_eq0.
      by apply/eqP => e; apply: Nb.
    Qed.

    (** v1 Pedersen Split refuses the blinding factor zero (its byte string is empty) *)
    Theorem C26_v1_zero_blinding_refused pd secret (rnd rndb : seq F) r :
      pedersen_split1 G pd secret 0 rnd rndb <> Ok r.
    Proof. by rewrite /pedersen_split1; case: (get_shares1 _ secret _). Qed.
  End Points.
End Props.

(** The unconditional claim "Combine returns the secret" is false: a leading zero byte is lost. *)
Theorem C27_leading_zero_lost_refuted :
  ~ (forall p, prime p -> forall t n s secret (rnd : seq 'F_p) shares chosen,
     new_shamir1 t n = Ok s -> size rnd = t.-1 -> is_bytes secret ->
     split1 s secret rnd = Ok shares ->
     (t <= size chosen)%N -> uniq (take t chosen) -> {subset take t chosen <= shares} ->
     combine1 s chosen = Ok secret).
Proof.
  move=> H.
  have P5 : prime 5 by [].
  have E : split1 (Shamir 2 2) [:: 0%N; 3%N] ([:: 1] : seq 'F_5) = Ok [:: (1%N, 4%:R); (2%N, 0)].
    rewrite /split1 /get_shares1 /= /elem /= /evaluate /=.
    by congr (Ok [:: (_, _); (_, _)]); apply/eqP.
  have B : is_bytes [:: 0%N; 3%N] by move=> b; rewrite !inE => /orP [/eqP ->|/eqP ->].
  have := H 5%N P5 2%N 2%N (Shamir 2 2) [:: 0%N; 3%N] [:: 1] _ [:: (1%N, 4%:R); (2%N, 0)]
            erefl erefl B E erefl erefl (fun x h => h).
  by rewrite (@C27_combine_recovers 5%N P5 2%N 2%N _ [:: 0%N; 3%N] [:: 1] _ _ erefl erefl B E).
Qed.
