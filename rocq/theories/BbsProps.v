(** C36 BBS+ signatures verify; C37 what a signature binds. *)
From mathcomp Require Import all_ssreflect all_algebra.
From Coq Require Import BinNat Nnat String Ring.
From Verif Require Import AlgBase PairingBase ByteVec VRing SchnorrModel SimplestOtModel BlsProps BbsModel.
Delimit Scope nat_scope with N.
Delimit Scope N_scope with num.
Set Implicit Arguments.
Unset Strict Implicit.
Unset Printing Implicit Defensive.
Import GRing.Theory.
Local Open Scope ring_scope.

Section Spec.
  Variables (F : fieldType) (V1 : lmodType F) (g1 : V1) (hash : bytes -> V1).
  (** the generator of message number i (counted from 1); for i = 0 the blinding generator *)
  Definition gen_at (g : generators V1) (i : nat) : V1 := odflt 0 (get hash g (Posz i)).
  (** the point a BBS+ signature is about: g1 + s h0 + sum_i m_i h_i *)
  Definition bound (g : generators V1) (s : F) (ms : seq F) : V1 :=
    g1 + s *: gen_at g 0 + \sum_(i < size ms) ms`_i *: gen_at g i.+1.
  (** a message list the generators can carry *)
  Definition fits (g : generators V1) (ms : seq F) : Prop := (0 < size ms <= g_length g)%N.
End Spec.

Section Proofs.
  Variables (F : fieldType) (V1 V2 VT : lmodType F) (e : pairing V1 V2 VT) (g1 : V1) (g2 : V2).
  Variables (hash : bytes -> V1) (uenc2 : V2 -> bytes).
  Add Ring tvring : (tv_ring V1).
  Notation get := (get hash).
  Notation gen_at := (gen_at hash).
  Notation bound := (bound g1 hash).
  Notation verify := (verify e g1 g2 hash).
  Notation sign := (sign g1 hash).
  Notation public_key := (public_key g2).
  Notation init := (init hash uenc2).

  Lemma get_some g i : (i <= g_length g)%N -> get g (Posz i) = Some (gen_at g i).
  Proof. by rewrite /BbsProps.gen_at; case: i => [|i] //= Hi; rewrite ltnNge Hi. Qed.
  Lemma gen_at0 g : gen_at g 0 = g_h0 g. Proof. by []. Qed.

  Lemma sop_some (vs : seq V1) (ss : seq F) : size vs = size ss ->
    sum_of_products (map Some vs) ss = Some (\sum_(x <- zip vs ss) x.2 *: x.1).
  Proof.
    move=> Hs; rewrite /sum_of_products size_map Hs eqxx.
    have -> : all isSome (map Some vs) by elim: vs {Hs} => //=.
    congr Some; elim: vs ss Hs => [|v vs IH] [|s ss] //=; first by rewrite !big_nil.
    by case=> Hs; rewrite !big_cons IH.
  Qed.

  Lemma gets_some g n k : (k + n <= g_length g)%N ->
    [seq get g (Posz i.+1) | i <- iota k n] = map Some [seq gen_at g i.+1 | i <- iota k n].
  Proof.
    move=> Hn; rewrite -map_comp; apply/eq_in_map => i; rewrite mem_iota => /andP [_ Hi].
    by rewrite get_some //; apply: leq_trans Hi Hn.
  Qed.

  Lemma sum_zip_iota (f : nat -> V1) (ms : seq F) k :
    \sum_(x <- zip [seq f i.+1 | i <- iota k (size ms)] ms) x.2 *: x.1 =
    \sum_(i < size ms) ms`_i *: f (k + i).+1.
  Proof.
    elim: ms k => [|m ms IH] k; first by rewrite big_nil big_ord0.
    rewrite big_cons IH big_ord_recl addn0; congr (_ + _).
    by apply: eq_bigr => i _ /=; rewrite addSnnS.
  Qed.

  Lemma compute_bE g s ms : fits g ms -> compute_b g1 hash s ms g = Ok (bound g s ms).
  Proof.
    case/andP; case: ms => [|m ms] // _ Hl; rewrite /compute_b.
    rewrite (@gets_some g (size (m :: ms)) 0) // (@get_some g 0) //.
    rewrite -[_ :: _ :: map _ _]/(map Some (g1 :: gen_at g 0 :: [seq gen_at g i.+1 | i <- iota 0 (size (m :: ms))])).
    rewrite sop_some; last by rewrite [LHS]/= !size_map size_iota.
    congr Ok; rewrite -[zip _ _]/((g1, 1) :: (gen_at g 0, s) :: zip [seq gen_at g i.+1 | i <- iota 0 (size (m :: ms))] (m :: ms)).
    rewrite 2!big_cons sum_zip_iota scale1r /BbsProps.bound addrA.
    congr (_ + _).
  Qed.

  (** C36: what Verify accepts, for the key of secret scalar sk *)
  Theorem C36_verify_iff (sk : F) (sg : signature V1) (g : generators V1) (ms : seq F) : g2 != 0 ->
    verify (public_key sk) sg g ms = Ok tt <->
    [/\ fits g ms, sk != 0, sg_a sg != 0 & (sg_e sg + sk) *: sg_a sg = bound g (sg_s sg) ms].
  Proof.
    move=> Hg2; rewrite /verify.
    have Hpk : (public_key sk == 0) = (sk == 0) by rewrite scaler_eq0 (negbTE Hg2) orbF.
    rewrite Hpk.
    case: (ltnP (g_length g) (size ms)) => Hl; first by split=> // -[] /andP [_]; rewrite leqNgt Hl.
    case: (ltnP (size ms) 1) => H1; first by split=> // -[] /andP []; rewrite ltnNge -ltnS H1.
    case: (sk =P 0) => Hsk; first by split=> // -[].
    case: (sg_a sg =P 0) => Ha; first by split=> // -[].
    have Hf : fits g ms by rewrite /fits H1 Hl.
    rewrite compute_bE //= pair_addr !pair_scaler -scalerDl pairNl -pair_scalel -pairBl.
    split.
      case: eqP => // /(pair_nondeg (p := e)) [/eqP|/eqP]; last by rewrite (negbTE Hg2).
      by rewrite subr_eq0 => /eqP Hb _.
    by case=> _ _ _ ->; rewrite subrr pair0l eqxx.
  Qed.

  Theorem C36_sign_verify_iff (sk : F) (g : generators V1) (ms : seq F) (ee s : F) (sg : signature V1) : g2 != 0 ->
    sign sk g ms ee s = Ok sg ->
    verify (public_key sk) sg g ms = Ok tt <-> bound g s ms != 0.
  Proof.
    move=> Hg2; rewrite /sign.
    case: (ltnP (g_length g) (size ms)) => Hl //; case: (ltnP (size ms) 1) => H1 //.
    case: (sk =P 0) => Hsk //.
    have Hf : fits g ms by rewrite /fits H1 Hl.
    rewrite compute_bE //=; case: (ee + sk =P 0) => // /eqP Hes [] <-.
    have Hi : (ee + sk)^-1 != 0 by rewrite invr_eq0.
    split.
      by move/(C36_verify_iff _ _ _ _ Hg2) => [_ _ /=]; rewrite scaler_eq0 negb_or => /andP [].
    move=> Hb; apply/(C36_verify_iff _ _ _ _ Hg2); split=> //=; first exact/eqP.
      by rewrite scaler_eq0 negb_or Hi Hb.
    by rewrite scalerA divff // scale1r.
  Qed.

  (** C36: every signature Sign produces verifies; the excluded case is that the point signed is the identity *)
  Theorem C36_sign_verifies (sk : F) (g : generators V1) (ms : seq F) (ee s : F) (sg : signature V1) : g2 != 0 ->
    bound g s ms != 0 -> sign sk g ms ee s = Ok sg -> verify (public_key sk) sg g ms = Ok tt.
  Proof. by move=> Hg2 Hb /(C36_sign_verify_iff Hg2) ->. Qed.

  (** and Sign produces a signature whenever the list fits the generators, the key is not zero and e + sk is not *)
  Theorem C36_sign_succeeds (sk : F) (g : generators V1) (ms : seq F) (ee s : F) :
    fits g ms -> sk != 0 -> ee + sk != 0 ->
    sign sk g ms ee s = Ok (Sig ((ee + sk)^-1 *: bound g s ms) ee s).
  Proof.
    move=> Hf Hsk Hes; rewrite /sign compute_bE //=.
    by case/andP: Hf => H1 H2; rewrite ltnNge H2 /= ltnNge H1 (negbTE Hsk) (negbTE Hes).
  Qed.

  (** the generator for index i exists exactly up to the length; index 0 (and below) is the blinding generator *)
  Theorem C36_generator_range (g : generators V1) (i : int) :
    ((exists P, BbsModel.get hash g i = Some P) <-> (i <= (g_length g)%:Z)%R) /\ ((i <= 0)%R -> BbsModel.get hash g i = Some (g_h0 g)).
  Proof.
    case: i => [[|n]|n] /=; split=> //; try (by split=> // _; eexists).
    rewrite lez_nat; case: ltnP => H; split=> //; try (by case); by move=> _; eexists.
  Qed.

  Theorem C36_refusals (pk : V2) (sg : signature V1) (g : generators V1) (ms : seq F) :
    (g_length g < size ms)%N \/ ms = [::] \/ pk = 0 \/ sg_a sg = 0 -> exists x, verify pk sg g ms = Err x.
  Proof.
    rewrite /verify; case: (ltnP (g_length g) (size ms)) => Hl; first by move=> _; eexists.
    case: (ltnP (size ms) 1) => H1; first by move=> _; eexists.
    case: (pk =P 0) => Hp; first by move=> _; eexists.
    case: (sg_a sg =P 0) => Ha; first by move=> _; eexists.
    by case=> // -[Hm|[]] //; rewrite Hm in H1.
  Qed.

  Lemma bound_rcons0 g s ms : bound g s (rcons ms 0) = bound g s ms.
  Proof.
    rewrite /BbsProps.bound size_rcons big_ord_recr /= nth_rcons ltnn eqxx scale0r addr0; congr (_ + _).
    by apply: eq_bigr => i _; rewrite nth_rcons ltn_ord.
  Qed.

  (** C36, second half, refuted: when there are more generators than messages, a signature is also accepted for the
      list with the message 0 appended *)
  Theorem C36_other_length_refused_refuted (sk : F) (sg : signature V1) (g : generators V1) (ms : seq F) : g2 != 0 ->
    (size ms < g_length g)%N ->
    verify (public_key sk) sg g ms = Ok tt -> verify (public_key sk) sg g (rcons ms 0) = Ok tt.
  Proof.
    move=> Hg2 Hl /(C36_verify_iff _ _ _ _ Hg2) [Hf Hsk Ha Hb].
    by apply/(C36_verify_iff _ _ _ _ Hg2); split=> //; rewrite ?bound_rcons0 // /fits size_rcons Hl.
  Qed.

  (** C37: two different lists of one length under one signature are a non-trivial linear relation between the message
      generators (any generators) *)
  Theorem C37_two_lists_relation_partial (sk : F) (sg : signature V1) (g : generators V1) (ms ms' : seq F) : g2 != 0 ->
    size ms = size ms' -> ms <> ms' ->
    verify (public_key sk) sg g ms = Ok tt -> verify (public_key sk) sg g ms' = Ok tt ->
    exists c : 'I_(size ms) -> F, (exists i, c i != 0) /\ \sum_i c i *: gen_at g i.+1 = 0.
  Proof.
    move=> Hg2 Hs Hne /(C36_verify_iff _ _ _ _ Hg2) [_ _ _ Hb] /(C36_verify_iff _ _ _ _ Hg2) [_ _ _ Hb'].
    exists (fun i => ms`_i - ms'`_i); split.
      case: (altP (@existsP _ (fun i : 'I_(size ms) => ms`_i - ms'`_i != 0))) => //.
      rewrite negb_exists => /forallP H; exfalso; apply: Hne; apply: (@eq_from_nth _ 0) => // i Hi.
      by move: (H (Ordinal Hi)); rewrite negbK subr_eq0 => /eqP.
    move: Hb; rewrite Hb' /BbsProps.bound -Hs => /addrI H.
    under eq_bigr => i _ do rewrite scalerBl.
    by rewrite sumrB H subrr.
  Qed.

  (** C37: the message generators the code makes are all the same point, the blinding generator *)
  Theorem C37_generators_all_equal (pk : V2) (n : nat) (g : generators V1) : init pk (Posz n) = Ok g ->
    g_length g = n /\ forall i, (i <= n)%N -> get g (Posz i) = get g 0 /\ gen_at g i = g_h0 g.
  Proof.
    case=> <-; split=> // i Hi; rewrite /BbsProps.gen_at /BbsModel.get.
    by case: i Hi => [|i] //= Hi; rewrite ltnNge Hi.
  Qed.

  Lemma bound_sum pk n g s ms : init pk n = Ok g -> fits g ms -> bound g s ms = g1 + (s + \sum_(m <- ms) m) *: g_h0 g.
  Proof.
    case: n => [n|n] // Hi /andP [_ Hl]; have [Hn Hg] := C37_generators_all_equal Hi.
    rewrite /BbsProps.bound scalerDl addrA; congr (_ + _).
    rewrite (eq_bigr (fun i : 'I_(size ms) => ms`_i *: g_h0 g)).
      by rewrite -scaler_suml; congr (_ *: _); rewrite [RHS](big_nth 0) big_mkord.
    move=> i _; rewrite (proj2 (Hg _ _)) // -Hn.
    exact: leq_trans (ltn_ord i) Hl.
  Qed.

  (** C37: with the generators of the code a signature is about the sum of the messages *)
  Theorem C37_same_sum_iff (sk : F) (sg : signature V1) (pk : V2) (n : int) (g : generators V1) (ms ms' : seq F) : g2 != 0 ->
    init pk n = Ok g -> g_h0 g != 0 -> fits g ms' ->
    verify (public_key sk) sg g ms = Ok tt ->
    (verify (public_key sk) sg g ms' = Ok tt <-> \sum_(m <- ms) m = \sum_(m <- ms') m).
  Proof.
    move=> Hg2 Hi Hh Hf' /(C36_verify_iff _ _ _ _ Hg2) [Hf Hsk Ha Hb].
    rewrite C36_verify_iff // (bound_sum _ Hi Hf'); rewrite (bound_sum _ Hi Hf) in Hb; rewrite Hb.
    split.
      case=> _ _ _ /addrI /eqP; rewrite -subr_eq0 -scalerBl scaler_eq0 (negbTE Hh) orbF subr_eq0.
      by move/eqP/addrI.
    by move=> ->.
  Qed.

  (** C37 refuted: a signature verifies for every permutation of the messages signed *)
  Theorem C37_permutation_refuted (sk : F) (sg : signature V1) (pk : V2) (n : int) (g : generators V1) (ms ms' : seq F) :
    g2 != 0 -> init pk n = Ok g -> perm_eq ms ms' ->
    verify (public_key sk) sg g ms = Ok tt -> verify (public_key sk) sg g ms' = Ok tt.
  Proof.
    move=> Hg2 Hi Hp /(C36_verify_iff _ _ _ _ Hg2) [Hf Hsk Ha Hb].
    have Hf' : fits g ms' by rewrite /fits -(perm_size Hp).
    apply/(C36_verify_iff _ _ _ _ Hg2); split=> //.
    by rewrite Hb (bound_sum _ Hi Hf) (bound_sum _ Hi Hf') (perm_big _ Hp).
  Qed.

  (** C37 refuted, without the secret key: from one signature anyone computes a signature on any other list *)
  Theorem C37_forgery_refuted (sk : F) (sg : signature V1) (pk : V2) (n : int) (g : generators V1) (ms ms' : seq F) :
    g2 != 0 -> init pk n = Ok g -> fits g ms' ->
    verify (public_key sk) sg g ms = Ok tt ->
    verify (public_key sk) (Sig (sg_a sg) (sg_e sg) (sg_s sg + \sum_(m <- ms) m - \sum_(m <- ms') m)) g ms' = Ok tt.
  Proof.
    move=> Hg2 Hi Hf' /(C36_verify_iff _ _ _ _ Hg2) [Hf Hsk Ha Hb].
    apply/(C36_verify_iff _ _ _ _ Hg2); split=> //=.
    by rewrite Hb (bound_sum _ Hi Hf) (bound_sum _ Hi Hf') subrK.
  Qed.

  (** the hash input separates public keys and lengths below 2^32 *)
  Theorem C37_states_differ (pk pk' : V2) (n n' : nat) :
    (forall v, size (uenc2 v) = 192%N) -> injective uenc2 -> (N.of_nat n < 2 ^ 32)%num -> (N.of_nat n' < 2 ^ 32)%num ->
    gen_state uenc2 pk n = gen_state uenc2 pk' n' -> pk = pk' /\ n = n'.
  Proof.
    move=> Hs Hinj Hn Hn'; rewrite /gen_state.
    have Ht v : take 192 (uenc2 v ++ nseq 192 0%num) = uenc2 v by rewrite take_size_cat.
    rewrite !Ht => /eqP; rewrite eqseq_cat; last by rewrite !Hs.
    case/andP => /eqP /Hinj -> /eqP H; split=> //.
    have {H} H : be4 n = be4 n'.
      by move/eqP: H; rewrite eqseq_cat ?size_nseq // => /andP [_ /eqP].
    apply: Nat2N.inj; apply: N.bits_inj => i.
    have [Hi|Hi] := (N.lt_ge_cases i 32).
      have Hb s : N.testbit (N.land (N.shiftr (N.of_nat n) s) 255) (i - s) = N.testbit (N.land (N.shiftr (N.of_nat n') s) 255) (i - s) -> (s <= i)%num -> (i < s + 8)%num -> N.testbit (N.of_nat n) i = N.testbit (N.of_nat n') i.
        move=> HH Hsi Hi8; move: HH; rewrite !N.land_spec !N.shiftr_spec'.
        have -> : (i - s + s = i)%num by apply: N.sub_add.
        have -> : N.testbit 255 (i - s) = true.
          have -> : 255%num = N.ones 8 by [].
          by apply: N.ones_spec_low; apply/(N.add_lt_mono_r _ _ s); rewrite N.sub_add // N.add_comm.
        by rewrite !andbT.
      have Hk k : nth 0%num (be4 n) k = nth 0%num (be4 n') k by rewrite H.
      have H24 : N.land (N.shiftr (N.of_nat n) 24) 255 = N.land (N.shiftr (N.of_nat n') 24) 255 := Hk 0%N.
      have H16 : N.land (N.shiftr (N.of_nat n) 16) 255 = N.land (N.shiftr (N.of_nat n') 16) 255 := Hk 1%N.
      have H8 : N.land (N.shiftr (N.of_nat n) 8) 255 = N.land (N.shiftr (N.of_nat n') 8) 255 := Hk 2%N.
      have H0 : N.land (N.shiftr (N.of_nat n) 0) 255 = N.land (N.shiftr (N.of_nat n') 0) 255 := Hk 3%N.
      have [?|?] := N.lt_ge_cases i 8; first by apply: (Hb 0%num); rewrite ?H0 //; apply: N.le_0_l.
      have [?|?] := N.lt_ge_cases i 16; first by apply: (Hb 8%num); rewrite ?H8.
      have [?|?] := N.lt_ge_cases i 24; first by apply: (Hb 16%num); rewrite ?H16.
      by apply: (Hb 24%num); rewrite ?H24.
    have Hhi m : (m < 2 ^ 32)%num -> N.testbit m i = false.
      move=> Hm; have [->|Hm0] := N.eq_dec m 0; first exact: N.bits_0.
      apply: N.bits_above_log2; apply: N.lt_le_trans Hi.
      by apply/N.log2_lt_pow2 => //; apply/N.neq_0_lt_0.
    by rewrite !Hhi.
  Qed.
End Proofs.

(** non-vacuity: over F_257 with the multiplication pairing, key 3, two messages, five generators *)
Section Example.
  Let F := [fieldType of 'F_257].
  Let V := [lmodType F of F^o].
  Let e := field_pairing F.
  Definition C36_one : V := (1 : F).
  Definition C36_ex_pk : V := (3%:R : F).
  Definition C36_ex_hash : bytes -> V := fun b => (2%:R : F).
  Definition C36_ex_uenc : V -> bytes := fun _ => nseq 192 1%num.
  Definition C36_ex_gens : generators V :=
    Gens (C36_ex_hash (gen_state C36_ex_uenc C36_ex_pk 5)) 5 (gen_state C36_ex_uenc C36_ex_pk 5).
  Theorem C36_nonvacuous :
    init C36_ex_hash C36_ex_uenc C36_ex_pk 5%:Z = Ok C36_ex_gens /\
    (exists sg, [/\ sign C36_one C36_ex_hash (3%:R : F) C36_ex_gens [:: 10%:R; 20%:R] 4%:R 5%:R = Ok sg,
      verify e C36_one C36_one C36_ex_hash (public_key C36_one (3%:R : F)) sg C36_ex_gens [:: 10%:R; 20%:R] = Ok tt,
      verify e C36_one C36_one C36_ex_hash (public_key C36_one (3%:R : F)) sg C36_ex_gens [:: 20%:R; 10%:R] = Ok tt &
      verify e C36_one C36_one C36_ex_hash (public_key C36_one (3%:R : F)) sg C36_ex_gens [:: 20%:R; 11%:R] <> Ok tt]).
  Proof.
    have Hi : init C36_ex_hash C36_ex_uenc C36_ex_pk 5%:Z = Ok C36_ex_gens by [].
    have H1 : C36_one != 0 by exact: oner_neq0.
    have Hh : g_h0 C36_ex_gens != 0 by [].
    split; first exact: Hi.
    have Hf x y : fits C36_ex_gens [:: x; y] by [].
    have Hs := C36_sign_succeeds C36_one C36_ex_hash (5%:R : F) (Hf 10%:R 20%:R) (isT : (3%:R : F) != 0) (isT : (4%:R + 3%:R : F) != 0).
    have Hb : bound C36_one C36_ex_hash C36_ex_gens 5%:R [:: 10%:R; 20%:R] != 0.
      rewrite (bound_sum C36_one (5%:R : F) Hi (Hf _ _)) !big_cons big_nil.
      by vm_compute.
    have Hv := C36_sign_verifies e H1 Hb Hs.
    eexists; split; [exact: Hs | exact: Hv | |].
    - refine (C37_permutation_refuted H1 Hi _ Hv).
      by vm_compute.
    - move/(C37_same_sum_iff H1 Hi Hh (Hf _ _) Hv).
      rewrite !big_cons !big_nil => /eqP.
      by vm_compute.
  Qed.
End Example.
