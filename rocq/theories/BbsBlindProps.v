(** C39 BBS+ blind issuance. *)
From mathcomp Require Import all_ssreflect all_algebra.
From Coq Require Import BinNat String Ring.
From Verif Require Import AlgBase PairingBase ByteVec VRing SchnorrModel SimplestOtModel BlsProps BbsModel BbsProps BbsPokProps.
Delimit Scope nat_scope with N.
Delimit Scope N_scope with num.
Set Implicit Arguments.
Unset Strict Implicit.
Unset Printing Implicit Defensive.
Import GRing.Theory Num.Theory Order.TTheory.
Local Open Scope ring_scope.
Arguments BbsModel.get : simpl never.
Arguments BbsModel.sum_of_products : simpl never.
Arguments BbsModel.commit : simpl never.

Section Spec.
  Variable F : fieldType.
  (** the maps of hidden and known messages together give every message of the list ms exactly once *)
  Definition combines (hidden known : seq (int * F)) (ms : seq F) : Prop :=
    perm_eq (hidden ++ known) [seq (Posz i, ms`_i) | i <- iota 0 (size ms)].
End Spec.

Section Proofs.
  Variables (F : fieldType) (V1 V2 VT : lmodType F) (e : pairing V1 V2 VT) (g1 : V1) (g2 : V2).
  Variables (hash : bytes -> V1) (enc1 : V1 -> bytes) (uenc2 : V2 -> bytes) (fbytes : F -> bytes).
  Variables (wide : bytes -> option F) (ext : transcript -> bytes).
  Add Ring tvring : (tv_ring V1).
  Notation get := (get hash).
  Notation gen_at := (gen_at hash).
  Notation bound := (bound g1 hash).
  Notation verify := (verify e g1 g2 hash).
  Notation public_key := (public_key g2).
  Notation init := (init hash uenc2).
  Notation new_context := (new_context hash enc1 fbytes wide ext).
  Notation context_verify := (context_verify hash enc1 fbytes wide ext).
  Notation context_commitment := (context_commitment hash).
  Notation to_blind_signature := (to_blind_signature g1 hash enc1 fbytes wide ext).

  Notation mgens g ms := [seq odflt 0 (get g (x.1 + 1)) | x <- ms].
  Definition in_range (g : generators V1) (m : seq (int * F)) : bool :=
    all (fun x => (0 <= x.1) && (x.1 < Posz (g_length g))) m.

  Lemma get_range g (i : int) : 0 <= i -> i < Posz (g_length g) -> get g (i + 1) = Some (odflt 0 (get g (i + 1))).
  Proof.
    case: i => [k|k] // _; rewrite ltz_nat => Hk; have -> : Posz k + 1 = Posz k.+1 by rewrite -addn1 PoszD.
    by rewrite get_some.
  Qed.
  Lemma gets_range g m : in_range g m -> [seq get g (x.1 + 1) | x <- m] = map Some (mgens g m).
  Proof.
    move/allP => H; rewrite -map_comp; apply/eq_in_map => x /H /andP [H1 H2] /=.
    exact: get_range.
  Qed.
  Lemma range_guard g m : in_range g m -> forall x, x \in m -> (Posz (g_length g) < x.1) || (x.1 < 0) = false.
  Proof.
    move/allP => H x /H /andP [H1 H2]; rewrite !ltNge H1 (ltW H2) //.
  Qed.

  Lemma blind_loopE g m rnd bp bs : in_range g m -> size rnd = size m -> (size bp + size m <= pcb_limit.+1)%N ->
    blind_loop hash g m rnd (bp, bs) = Ok (bp ++ map Some (mgens g m), bs ++ rnd).
  Proof.
    elim: m rnd bp bs => [|[i x] m IH] [|r rnd] bp bs //=; first by rewrite !cats0.
    move=> Hr [] Hs Hl; move: (Hr) => /andP [/andP [H1 H2] Hr'].
    have -> : (Posz (g_length g) < i) || (i < 0) = false by rewrite !ltNge H1 (ltW H2).
    rewrite /commit /= ltnNge.
    have -> : (size bp <= pcb_limit)%N by move: Hl; rewrite addnS ltnS; apply: leq_trans (leq_addr _ _).
    rewrite /= IH //; last by rewrite size_rcons addSnnS.
    by rewrite -!cats1 -!catA /= -get_range.
  Qed.

  Lemma combines_keys (hm km : seq (int * F)) (ms : seq F) : combines hm km ms -> perm_eq (unzip1 hm ++ unzip1 km) [seq Posz i | i <- iota 0 (size ms)].
  Proof. by move/(perm_map fst); rewrite map_cat -map_comp. Qed.
  Lemma combines_uniq (hm km : seq (int * F)) (ms : seq F) : combines hm km ms -> uniq (unzip1 hm ++ unzip1 km).
  Proof. move/combines_keys/perm_uniq => ->; rewrite map_inj_uniq ?iota_uniq //; by move=> i j []. Qed.
  Lemma combines_range (hm km : seq (int * F)) (ms : seq F) g : combines hm km ms -> size ms = g_length g -> in_range g hm /\ in_range g km.
  Proof.
    move=> H Hs; apply/andP; rewrite -all_cat (perm_all _ H) all_map; apply/allP => i.
    by rewrite mem_iota add0n => /=; rewrite ltz_nat -Hs.
  Qed.
  Lemma combines_hidden (hm km : seq (int * F)) (ms : seq F) : combines hm km ms ->
    perm_eq [seq Posz i | i <- iota 0 (size ms) & Posz i \notin unzip1 km] (unzip1 hm).
  Proof.
    move=> H; have Hu := combines_uniq H; have Hk := combines_keys H.
    apply: uniq_perm.
    - by rewrite map_inj_uniq ?filter_uniq ?iota_uniq // => i j [].
    - by move: Hu; rewrite cat_uniq => /andP [].
    move=> x; apply/mapP/idP.
      case=> i; rewrite mem_filter => /andP [Hn Hi] ->.
      have : Posz i \in [seq Posz i | i <- iota 0 (size ms)] by apply: map_f.
      by rewrite -(perm_mem Hk) mem_cat (negbTE Hn) orbF.
    move=> Hx; have : x \in [seq Posz i | i <- iota 0 (size ms)] by rewrite -(perm_mem Hk) mem_cat Hx.
    case/mapP => i Hi Ex; exists i => //; rewrite mem_filter Hi andbT -Ex.
    apply/negP => Hx'; move: Hu; rewrite cat_uniq => /and3P [_ /negP H' _]; apply: H'.
    by apply/hasP; exists x.
  Qed.

  Lemma combines_sum (W : lmodType F) (hm km : seq (int * F)) (ms : seq F) (f : int -> W) : combines hm km ms ->
    \sum_(x <- hm) x.2 *: f x.1 + \sum_(x <- km) x.2 *: f x.1 = \sum_(i < size ms) ms`_i *: f (Posz i).
  Proof.
    move=> H; rewrite -big_cat (perm_big _ H) big_map /= -(big_mkord xpredT (fun i => ms`_i *: f (Posz i))).
    by rewrite /index_iota subn0.
  Qed.

  Lemma sop_dot (vs : seq V1) (ss : seq F) : size vs = size ss ->
    sum_of_products (map Some vs) ss = Some (\sum_(j < size vs) ss`_j *: vs`_j).
  Proof. by move=> Hs; rewrite sop_some // sum_zip_nth. Qed.

  Lemma sum_map_gens g m : \sum_(x <- zip (mgens g m) (unzip2 m)) x.2 *: x.1 = \sum_(x <- m) x.2 *: odflt 0 (get g (x.1 + 1)).
  Proof. by elim: m => [|x m IH]; rewrite ?big_nil // !big_cons IH. Qed.
  Lemma big_zip_rcons (vs : seq V1) v (ss : seq F) s : size vs = size ss ->
    \sum_(x <- zip (rcons vs v) (rcons ss s)) x.2 *: x.1 = \sum_(x <- zip vs ss) x.2 *: x.1 + s *: v.
  Proof.
    elim: vs ss => [|w vs IH] [|y ss] //=; first by rewrite big_cons !big_nil addr0 add0r.
    by case=> Hs; rewrite !big_cons IH // addrA.
  Qed.

  (** C39: what an issued signature is, for any context and any generators: its equation contains the commitment *)
  Theorem C39_issued_equation (bc : context V1) (km : seq (int * F)) (sk nonce ee s : F) (g : generators V1) (bs : signature V1) :
    in_range g km -> to_blind_signature bc km sk g nonce ee s = Ok bs ->
    [/\ sk != 0, ee + sk != 0, context_verify bc (unzip1 km) g nonce = Ok tt & [/\ sg_e bs = ee, sg_s bs = s &
      (ee + sk) *: sg_a bs = g1 + bc_commitment bc + s *: g_h0 g + \sum_(x <- km) x.2 *: odflt 0 (get g (x.1 + 1))]].
  Proof.
    move=> Hr; rewrite /to_blind_signature; case: (sk =P 0) => // /eqP Hsk; case: ifP => // _.
    case Hv: (context_verify _ _ _ _) => [[]| |] //=; case: (ee + sk =P 0) => // /eqP Hes.
    rewrite (gets_range Hr) (@get_some _ _ hash g 0) //.
    rewrite -[[:: Some _, _, _ & map Some _]]/(map Some ([:: bc_commitment bc; g1; g_h0 g] ++ mgens g km)).
    rewrite sop_some; last by rewrite /= !size_map.
    case=> <-; split=> //; split=> //=.
    rewrite scalerA divff // scale1r !big_cons /= !scale1r sum_map_gens.
    by rewrite !addrA [g1 + _]addrC.
  Qed.

  (** C39: the unblinded signature is valid on ms exactly when the commitment opens to the hidden messages of ms *)
  Theorem C39_unblinded_iff (bc : context V1) (hm km : seq (int * F)) (ms : seq F) (sk nonce ee s bl : F) (g : generators V1)
      (bs : signature V1) : g2 != 0 -> (0 < size ms)%N -> size ms = g_length g -> combines hm km ms ->
    to_blind_signature bc km sk g nonce ee s = Ok bs ->
    (verify (public_key sk) (to_unblinded bs bl) g ms = Ok tt <->
     bc_commitment bc = bl *: g_h0 g + \sum_(x <- hm) x.2 *: odflt 0 (get g (x.1 + 1)) /\ bound g (s + bl) ms != 0).
  Proof.
    move=> Hg2 H0 Hl Hc Hb; have [Hrh Hrk] := combines_range Hc Hl.
    have [Hsk Hes _ [E1 E2 Heq]] := C39_issued_equation Hrk Hb.
    have Hf : fits g ms by rewrite /fits H0 Hl leqnn.
    have Hbd : bound g (s + bl) ms = g1 + (s + bl) *: g_h0 g + (\sum_(x <- hm) x.2 *: odflt 0 (get g (x.1 + 1)) + \sum_(x <- km) x.2 *: odflt 0 (get g (x.1 + 1))).
      rewrite (combines_sum (fun i => odflt 0 (get g (i + 1))) Hc) /BbsProps.bound gen_at0; congr (_ + _).
      by apply: eq_bigr => i _; have -> : Posz i + 1 = Posz i.+1 by rewrite -addn1 PoszD.
    rewrite (C36_verify_iff _ _ _ _ _ _ _ Hg2) /to_unblinded /= E1 E2 Heq Hbd.
    move: (\sum_(x <- hm) _) (\sum_(x <- km) _) Heq {Hbd} => A B Heq; split.
      case=> _ _ Ha HH.
      have -> : bc_commitment bc = bl *: g_h0 g + A.
        have H0' : g1 + bc_commitment bc + s *: g_h0 g + B - (g1 + (s + bl) *: g_h0 g + (A + B)) = 0 by rewrite HH subrr.
        by apply/eqP; rewrite -subr_eq0 -H0'; apply/eqP; vpsi V1; ring.
      split=> //; rewrite -HH -Heq scaler_eq0 negb_or Hes //.
    case=> Hcm Hne.
    have HE : g1 + bc_commitment bc + s *: g_h0 g + B = g1 + (s + bl) *: g_h0 g + (A + B).
      by rewrite Hcm; vpsi V1; ring.
    split=> //; apply/eqP => Ha; move: Heq; rewrite Ha scaler0 HE => /esym/eqP; by rewrite (negbTE Hne).
  Qed.

  (** C39: with the generators of the code, for every split of the messages, any map orders and any randomness: the
      holder's context is accepted by the issuer and the unblinded signature verifies on the combined list *)
  Theorem C39_blind_issuance (pk : V2) (n : int) (g : generators V1) (hm km : seq (int * F)) (ms : seq F)
      (rnd : seq F) (sk nonce ee s bl k : F) :
    g2 != 0 -> init pk n = Ok g -> (0 < size ms)%N -> size ms = g_length g -> combines hm km ms ->
    size rnd = size hm -> (size hm < pcb_limit.+1)%N -> (forall t, exists c, wide (ext t) = Some c) ->
    exists bc, new_context hm g nonce rnd bl k = Ok (bc, bl) /\
      context_verify bc (unzip1 km) g nonce = Ok tt /\
      (sk != 0 -> ee + sk != 0 -> bound g (s + bl) ms != 0 ->
       exists bs, to_blind_signature bc km sk g nonce ee s = Ok bs /\
                  verify (public_key sk) (to_unblinded bs bl) g ms = Ok tt).
  Proof.
    move=> Hg2 Hi H0 Hl Hc Hrnd Hlim Hw; have [Hrh Hrk] := combines_range Hc Hl.
    have Hgen x : x \in hm ++ km -> odflt 0 (get g (x.1 + 1)) = g_h0 g.
      move: n Hi => [n|n] // /(C37_generators_all_equal) [Hn Hg] Hx.
      have : in_range g (hm ++ km) by rewrite /in_range all_cat -!/(in_range _ _) Hrh Hrk.
      move/allP => /(_ _ Hx); case: x Hx => [[i|i] x] //= _; rewrite ltz_nat => Hi'.
      have -> : Posz i + 1 = Posz i.+1 by rewrite -addn1 PoszD.
      by apply: (proj2 (Hg _ _)); rewrite -Hn.
    set h := g_h0 g.
    have Hmg : mgens g hm = nseq (size hm) h.
      apply: (@eq_from_nth _ 0); rewrite size_map ?size_nseq // => i Hi'.
      rewrite (nth_map (0, 0)) // nth_nseq Hi' Hgen // mem_cat mem_nth //.
    have Hsum (vs : seq F) m : size vs = m -> \sum_(x <- zip (nseq m h) vs) x.2 *: x.1 = (\sum_(v <- vs) v) *: h.
      elim: vs m => [|v vs IH] [|m] //=; first by rewrite !big_nil scale0r.
      by case=> Hs; rewrite !big_cons IH // scalerDl.
    have Hrc m : rcons (nseq m h) h = nseq m.+1 h by rewrite -cats1 -[[:: h]]/(nseq 1 h) -nseqD addn1.
    have Hbl := blind_loopE (bp := [::]) [::] Hrh Hrnd (ltnW Hlim).
    pose cm := (\sum_(v <- unzip2 hm) v + bl) *: h.
    pose rc := (\sum_(v <- rnd) v + k) *: h.
    have Hg0 : get g 0 = Some h by rewrite (@get_some _ _ hash g 0).
    have Hcm : sum_of_products (rcons (map Some (mgens g hm)) (get g 0)) (rcons (unzip2 hm) bl) = Some cm.
      rewrite Hg0 -map_rcons Hmg sop_some; last by rewrite !size_rcons size_nseq size_map.
      by rewrite Hrc Hsum ?size_rcons ?size_map // -cats1 big_cat /= big_seq1.
    have Hrcm : sum_of_products (rcons (map Some (mgens g hm)) (get g 0)) (rcons rnd k) = Some rc.
      rewrite Hg0 -map_rcons Hmg sop_some; last by rewrite !size_rcons size_nseq Hrnd.
      by rewrite Hrc Hsum ?size_rcons ?Hrnd // -cats1 big_cat /= big_seq1.
    have [c Hch] : exists c, blind_challenge fbytes wide ext (enc1 rc) (enc1 cm) nonce = Some c by exact: Hw.
    pose bc := Ctx cm c [seq x.1 * c + x.2 | x <- zip (rcons (unzip2 hm) bl) (rcons rnd k)].
    have Hnc : new_context hm g nonce rnd bl k = Ok (bc, bl).
      rewrite /new_context Hbl [rbind (Ok _) _]/= /commit [size _]/= !size_map ltnNge -ltnS Hlim [rbind _ _]/=.
      rewrite Hcm /contribution [sum_of_products _ _]Hrcm Hch /generate_proof !size_rcons size_map Hrnd eqxx.
      by [].
    have Hhas : has (fun i => Posz (g_length g) < i) (unzip1 km) = false.
      apply: negbTE; apply/hasPn => _ /mapP [x Hx ->]; move/allP: Hrk => /(_ _ Hx) /andP [_ H2].
      by rewrite -leNgt ltW.
    have Hcv : context_verify bc (unzip1 km) g nonce = Ok tt.
      rewrite /context_verify Hhas.
      have Hpts : [seq get g (Posz i.+1) | i <- iota 0 (g_length g) & Posz i \notin unzip1 km] = map Some (nseq (size hm) h).
        have Hsz : size [seq i <- iota 0 (g_length g) | Posz i \notin unzip1 km] = size hm.
          by have := perm_size (combines_hidden Hc); rewrite Hl !size_map.
        apply: (@eq_from_nth _ None); first by rewrite !size_map size_nseq Hsz.
        move=> i; rewrite size_map => Hi'; rewrite (nth_map 0%N) // (nth_map 0) ?size_nseq -?Hsz // nth_nseq Hi'.
        have : nth 0%N [seq i <- iota 0 (g_length g) | Posz i \notin unzip1 km] i \in iota 0 (g_length g).
          by have := mem_nth 0%N Hi'; rewrite mem_filter => /andP [].
        rewrite mem_iota add0n => Hlt; move: n Hi => [n|n] // /(C37_generators_all_equal) [Hn Hg].
        rewrite get_some //; congr Some; apply: (proj2 (Hg _ _)); by rewrite -Hn.
      rewrite /context_commitment Hpts Hg0.
      rewrite -[[:: Some h; Some (bc_commitment bc)]]/(map Some [:: h; cm]) -map_cat.
      rewrite -cat_rcons cats1 Hrc sop_some; last by rewrite !size_rcons size_nseq size_map size_zip !size_rcons size_map Hrnd minnn.
      rewrite big_zip_rcons; last by rewrite size_nseq size_map size_zip !size_rcons size_map Hrnd minnn.
      rewrite Hsum; last by rewrite size_map size_zip !size_rcons size_map Hrnd minnn.
      have -> : (\sum_(v <- [seq x.1 * c + x.2 | x <- zip (rcons (unzip2 hm) bl) (rcons rnd k)]) v) *: h + - c *: cm = rc.
        have -> : \sum_(v <- [seq x.1 * c + x.2 | x <- zip (rcons (unzip2 hm) bl) (rcons rnd k)]) v =
                  (\sum_(v <- rcons (unzip2 hm) bl) v) * c + \sum_(v <- rcons rnd k) v.
          rewrite big_map big_split /= -mulr_suml; congr (_ * _ + _).
            rewrite -(big_map fst xpredT id) -/(unzip1 _) unzip1_zip // !size_rcons size_map Hrnd //.
          rewrite -(big_map snd xpredT id) -/(unzip2 _) unzip2_zip // !size_rcons size_map Hrnd //.
        rewrite -!cats1 !big_cat !big_seq1 /cm /rc; move: (\sum_(v <- unzip2 hm) v) (\sum_(v <- rnd) v) => A B.
        by vpsi V1; ring.
      by rewrite Hch eqxx.
    exists bc; split; [exact: Hnc|split; [exact: Hcv|]].
    move=> Hsk Hes Hne.
    have [bs Hbs] : exists bs, to_blind_signature bc km sk g nonce ee s = Ok bs.
      rewrite /to_blind_signature (negbTE Hsk) -(has_map fst (fun i => Posz (g_length g) < i)) Hhas Hcv [rbind (Ok _) _]/= (negbTE Hes).
      rewrite (gets_range Hrk) Hg0 -[[:: Some cm, Some g1, Some h & _]]/(map Some [:: cm, g1, h & mgens g km]) sop_some; last first.
        by rewrite /= !size_map.
      by eexists.
    exists bs; split=> //.
    apply/(C39_unblinded_iff bl Hg2 H0 Hl Hc Hbs); split=> //.
    rewrite /bc /cm /=.
    rewrite (eq_big_seq (fun x => x.2 *: h)); last by move=> x Hx; rewrite Hgen // mem_cat Hx.
    by rewrite -scaler_suml big_map -scalerDl addrC.
  Qed.

  (** C39, the index right after the last generator passes the bound check of both sides and panics *)
  Theorem C39_index_length_panics (g : generators V1) (hm : seq (int * F)) (rnd : seq F) (nonce bl k : F) :
    all (fun x => (0 <= x.1) && (x.1 <= Posz (g_length g))) hm -> Posz (g_length g) \in unzip1 hm ->
    (size hm < pcb_limit.+1)%N -> new_context hm g nonce rnd bl k = Panic.
  Proof.
    move=> Hr Hm Hl; rewrite /new_context.
    have [bb [Hb1 Hb2 Hb3]] : exists b, [/\ blind_loop hash g hm rnd ([::], [::]) = Ok b, size b.1 = size hm & ~~ all isSome b.1].
      have Hgen m b rnd' : all (fun x => (0 <= x.1) && (x.1 <= Posz (g_length g))) m -> (size b.1 + size m <= pcb_limit.+1)%N ->
          exists b', [/\ blind_loop hash g m rnd' b = Ok b', size b'.1 = (size b.1 + size m)%N &
                       all isSome b'.1 = all isSome b.1 && all (fun x => isSome (get g (x.1 + 1))) m].
        elim: m b rnd' => [|[i x] m IH] b rnd' /=; first by move=> _ _; exists b; rewrite addn0 andbT.
        case/andP => /andP [H1 H2] Hr' Hl'; rewrite !ltNge H1 H2 /= /commit ltnNge.
        have -> : (size b.1 <= pcb_limit)%N by move: Hl'; rewrite addnS ltnS; apply: leq_trans (leq_addr _ _).
        rewrite [rbind _ _]/=.
        have [|b' [E1 E2 E3]] := IH (rcons b.1 (get g (i + 1)), rcons b.2 (head 0 rnd')) (behead rnd') Hr'.
          by rewrite size_rcons addSnnS.
        by exists b'; split=> //; rewrite ?E2 ?E3 ?size_rcons ?addSnnS //= all_rcons andbA [X in X && _]andbC.
      have [|b [E1 E2 E3]] := Hgen hm ([::], [::]) rnd Hr; first exact: ltnW.
      exists b; split=> //; rewrite E3 /=; apply/allPn; case/mapP: Hm => x Hx Ex.
      exists x => //; rewrite -Ex; have -> : Posz (g_length g) + 1 = Posz (g_length g).+1 by rewrite -addn1 PoszD.
      by rewrite /BbsModel.get ltnSn.
    rewrite Hb1 [rbind (Ok _) _]/= /commit Hb2 ltnNge -ltnS Hl [rbind _ _]/=.
    by rewrite /sum_of_products all_rcons (negbTE Hb3) andbF.
  Qed.

  (** C39, soundness of the holder's proof: two answers to different challenges for one commitment and one recomputed
      random commitment open the commitment over the hidden generators *)
  Theorem C39_context_special_soundness (bc bc' : context V1) (known : seq int) (g : generators V1) (x : V1) :
    bc_commitment bc = bc_commitment bc' -> bc_challenge bc != bc_challenge bc' ->
    context_commitment bc known g = Some x -> context_commitment bc' known g = Some x ->
    exists (m : nat -> F) (bl : F),
      bc_commitment bc = bl *: g_h0 g + \sum_(i <- iota 0 (g_length g) | Posz i \notin known) m i *: gen_at g i.+1.
  Proof.
    move=> Ecm Hc; rewrite /context_commitment -Ecm.
    set idx := [seq i <- iota 0 (g_length g) | _].
    have Hpts : [seq get g (Posz i.+1) | i <- idx] = map Some [seq gen_at g i.+1 | i <- idx].
      rewrite -map_comp; apply/eq_in_map => i; rewrite mem_filter mem_iota add0n => /andP [_ Hi] /=.
      by rewrite get_some.
    rewrite Hpts (@get_some _ _ hash g 0) // -[[:: Some _; Some _]]/(map Some [:: g_h0 g; bc_commitment bc]) -map_cat.
    set vs := [seq gen_at g i.+1 | i <- idx].
    have HH (b : context V1) : sum_of_products (map Some (vs ++ [:: g_h0 g; bc_commitment bc])) (rcons (bc_proofs b) (- bc_challenge b)) = Some x ->
        x = \sum_(j < size vs) (bc_proofs b)`_j *: vs`_j + (bc_proofs b)`_(size vs) *: g_h0 g - bc_challenge b *: bc_commitment bc.
      move=> H; have Hsz : size (bc_proofs b) = (size vs).+1.
        move: H; rewrite /sum_of_products size_map; case: ifP => // _; case: eqP => //.
        by rewrite size_cat size_rcons addn2 => -[].
      move: H; rewrite sop_some; last by rewrite size_cat size_rcons Hsz addn2.
      case=> <-; rewrite -cat_rcons cats1 big_zip_rcons ?size_rcons ?Hsz // scaleNr; congr (_ - _).
      have Hlast : bc_proofs b = rcons (take (size vs) (bc_proofs b)) (bc_proofs b)`_(size vs).
        by rewrite -take_nth ?Hsz // take_oversize // Hsz.
      rewrite {1}Hlast big_zip_rcons; last by rewrite size_takel // Hsz.
      congr (_ + _); rewrite sum_zip_nth; last by rewrite size_takel // Hsz.
      by apply: eq_bigr => j _; rewrite nth_take.
    move=> /HH E /HH E'.
    have Hd : bc_challenge bc - bc_challenge bc' != 0 by rewrite subr_eq0.
    set q := (bc_challenge bc - bc_challenge bc')^-1.
    exists (fun i => ((bc_proofs bc)`_(seq.index i idx) - (bc_proofs bc')`_(seq.index i idx)) * q).
    exists (((bc_proofs bc)`_(size vs) - (bc_proofs bc')`_(size vs)) * q).
    rewrite -big_filter -/idx (big_nth 0%N) big_mkord.
    have -> : \sum_(i < size idx) (((bc_proofs bc)`_(seq.index (nth 0%N idx i) idx) - (bc_proofs bc')`_(seq.index (nth 0%N idx i) idx)) * q) *: gen_at g (nth 0%N idx i).+1 =
      q *: (\sum_(j < size vs) (bc_proofs bc)`_j *: vs`_j - \sum_(j < size vs) (bc_proofs bc')`_j *: vs`_j).
      rewrite -sumrB scaler_sumr size_map; apply: eq_bigr => j _.
      rewrite index_uniq ?filter_uniq ?iota_uniq // (nth_map 0%N) // -scalerBl scalerA.
      by rewrite mulrC.
    have H1 : q *: ((bc_challenge bc - bc_challenge bc') *: bc_commitment bc) = bc_commitment bc.
      by rewrite scalerA mulVf // scale1r.
    rewrite -[LHS]H1.
    have H2 : (bc_challenge bc - bc_challenge bc') *: bc_commitment bc =
       (\sum_(j < size vs) (bc_proofs bc)`_j *: vs`_j + (bc_proofs bc)`_(size vs) *: g_h0 g)
       - (\sum_(j < size vs) (bc_proofs bc')`_j *: vs`_j + (bc_proofs bc')`_(size vs) *: g_h0 g).
      move: E E'; move: (\sum_(j < _) _) (\sum_(j < _) _) => A B -> /eqP; rewrite -subr_eq0 => /eqP H0.
      by apply/eqP; rewrite eq_sym -subr_eq0 -[X in _ == X]H0; apply/eqP; vpsi V1; ring.
    rewrite H2; move: (\sum_(j < _) _) (\sum_(j < _) _) => A B.
    by vpsi V1; ring.
  Qed.
End Proofs.

Section Example.
  Let F := [fieldType of 'F_257].
  Definition C39_ex_hidden : seq (int * F) := [:: (3%:Z, 4%:R); (0%:Z, 10%:R)].
  Definition C39_ex_known : seq (int * F) := [:: (4%:Z, 5%:R); (1%:Z, 20%:R); (2%:Z, 3%:R)].
  Definition C39_ex_ms : seq F := [:: 10%:R; 20%:R; 3%:R; 4%:R; 5%:R].
  Theorem C39_nonvacuous :
    [/\ init C36_ex_hash C36_ex_uenc C36_ex_pk 5%:Z = Ok C36_ex_gens, combines C39_ex_hidden C39_ex_known C39_ex_ms,
        size C39_ex_ms = g_length C36_ex_gens, bound C36_one C36_ex_hash C36_ex_gens (5%:R + 6%:R : F) C39_ex_ms != 0 &
        (3%:R : F) != 0 /\ (4%:R + 3%:R : F) != 0].
  Proof.
    have Hi : init C36_ex_hash C36_ex_uenc C36_ex_pk 5%:Z = Ok C36_ex_gens by [].
    have Hf : fits C36_ex_gens C39_ex_ms by [].
    have Hc : perm_eq (C39_ex_hidden ++ C39_ex_known) [seq (Posz i, C39_ex_ms`_i) | i <- iota 0 (size C39_ex_ms)].
      by vm_compute.
    have Hs : size C39_ex_ms = g_length C36_ex_gens by reflexivity.
    have Hb : bound C36_one C36_ex_hash C36_ex_gens (5%:R + 6%:R : F) C39_ex_ms != 0.
      rewrite (bound_sum C36_one _ Hi Hf) !big_cons big_nil.
      by vm_compute.
    have H3 : (3%:R : F) != 0 by vm_compute.
    have H4 : (4%:R + 3%:R : F) != 0 by vm_compute.
    exact: (And5 Hi Hc Hs Hb (conj H3 H4)).
  Qed.
End Example.
