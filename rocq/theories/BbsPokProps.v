(** C38 BBS+ selective disclosure. *)
From mathcomp Require Import all_ssreflect all_algebra.
From Coq Require Import BinNat String Ring.
From Verif Require Import AlgBase PairingBase ByteVec VRing SchnorrModel SimplestOtModel BlsProps BbsModel BbsProps.
Delimit Scope nat_scope with N.
Delimit Scope N_scope with num.
Set Implicit Arguments.
Unset Strict Implicit.
Unset Printing Implicit Defensive.
Import GRing.Theory.
Local Open Scope ring_scope.
Arguments BbsModel.get : simpl never.
Arguments BbsModel.sum_of_products : simpl never.
Arguments BbsModel.commit : simpl never.

Section Spec.
  Variable F : fieldType.
  (** what the holder discloses: the seq.index (from 0) and value of every message not hidden *)
  Fixpoint revealed_from (i : nat) (msgs : seq (proof_message F)) : seq (int * F) :=
    match msgs with
    | [::] => [::]
    | Revealed m :: rest => (Posz i, m) :: revealed_from i.+1 rest
    | Hidden _ _ :: rest => revealed_from i.+1 rest
    end.
  Definition revealed_of := revealed_from 0.
  (** the builder's limit: at most 65536 commitments, two of which are not messages *)
  Definition hidden_fit (msgs : seq (proof_message F)) : Prop := (count (@pm_hidden F) msgs + 2 <= pcb_limit.+1)%N.
End Spec.

Section Proofs.
  Variables (F : fieldType) (V1 V2 VT : lmodType F) (e : pairing V1 V2 VT) (g1 : V1) (g2 : V2).
  Variables (hash : bytes -> V1) (enc1 : V1 -> bytes) (uenc2 : V2 -> bytes) (fbytes : F -> bytes).
  Variables (wide : bytes -> option F) (ext : transcript -> bytes).
  Add Ring tvring : (tv_ring V1).
  Notation get := (get hash).
  Notation gen_at := (gen_at hash).
  Notation bound := (bound g1 hash).
  Notation verify := (verify e g1 g2 hash).
  Notation public_key := (public_key g2).
  Notation init := (init hash uenc2).
  Notation new_pok := (new_pok g1 hash).
  Notation pok_contribution := (pok_contribution enc1).
  Notation pok_challenge := (pok_challenge fbytes wide ext).
  Notation pok_verify := (pok_verify e g1 g2 hash enc1 fbytes wide ext).
  Notation proof_commitments := (proof_commitments g1 hash).
  Notation verify_sig_pok := (verify_sig_pok e g2).

  (** hidden messages with their index, and blinding *)
  Fixpoint hidden_from (i : nat) (msgs : seq (proof_message F)) : seq (nat * (F * F)) :=
    match msgs with
    | [::] => [::]
    | Revealed _ :: rest => hidden_from i.+1 rest
    | Hidden m b :: rest => (i, (m, b)) :: hidden_from i.+1 rest
    end.
  Notation hgens g i msgs := [seq gen_at g x.1.+1 | x <- hidden_from i msgs].
  Notation hmsgs i msgs := [seq x.2.1 | x <- hidden_from i msgs].
  Notation hblind i msgs := [seq x.2.2 | x <- hidden_from i msgs].

  Lemma size_hidden i msgs : size (hidden_from i msgs) = count (@pm_hidden F) msgs.
  Proof. by elim: msgs i => [|[m|m b] msgs IH] i //=; rewrite IH. Qed.

  Lemma commit_hiddenE g i msgs bp bs sec : (i + size msgs <= g_length g)%N ->
    (size bp + count (@pm_hidden F) msgs <= pcb_limit.+1)%N ->
    commit_hidden hash g i msgs (bp, bs) sec =
    Ok ((bp ++ map Some (hgens g i msgs), bs ++ hblind i msgs), sec ++ hmsgs i msgs).
  Proof.
    elim: msgs i bp bs sec => [|[m|m b] msgs IH] i bp bs sec /= Hl Hc.
    - by rewrite !cats0.
    - by rewrite IH // addSnnS.
    - rewrite /commit /= ltnNge.
      have -> : (size bp <= pcb_limit)%N by move: Hc; rewrite add1n addnS ltnS; apply: leq_trans (leq_addr _ _).
      rewrite /= IH; [|by rewrite addSnnS|by rewrite size_rcons addSn -addnS].
      by rewrite -!cats1 -!catA /= get_some //; apply: leq_trans Hl; rewrite addnS ltnS leq_addr.
  Qed.

  Lemma mem_hidden_lt i msgs x : x \in hidden_from i msgs -> (i <= x.1 < i + size msgs)%N.
  Proof.
    elim: msgs i => [|[m|m b] msgs IH] i //=.
      by move/IH => /andP [H1 H2]; rewrite (ltnW H1) /= -addSnnS.
    rewrite inE => /orP [/eqP ->|/IH /andP [H1 H2]] /=; first by rewrite leqnn addnS ltnS leq_addr.
    by rewrite (ltnW H1) /= -addSnnS.
  Qed.
  Lemma mem_revealed_from i (msgs : seq (proof_message F)) (k : nat) :
    (Posz k \in unzip1 (revealed_from i msgs)) =
    (i <= k < i + size msgs)%N && ~~ pm_hidden (nth (Hidden 0 0) msgs (k - i)).
  Proof.
    elim: msgs i => [|m msgs IH] i.
      by rewrite addn0 in_nil; case: leqP => //= H; rewrite ltnNge H.
    have -> : (Posz k \in unzip1 (revealed_from i (m :: msgs))) =
              (~~ pm_hidden m && (k == i)) || (Posz k \in unzip1 (revealed_from i.+1 msgs)).
      by case: m.
    rewrite IH addSnnS -[size (m :: msgs)]/(size msgs).+1.
    have [Hik|Hki|->] := ltngtP i k; rewrite ?andbF ?subnn //=.
      by rewrite -(subnSK Hik).
    by rewrite andbT orbF addnS ltnS leq_addr.
  Qed.

  (** hidden_terms in closed form *)
  Definition hidx (rv : seq (int * F)) (i n : nat) : seq nat := [seq k <- iota i n | Posz k \notin unzip1 rv].
  Lemma hidden_termsE g rv p2 i j n : (i + n <= g_length g)%N ->
    hidden_terms hash g rv p2 i j n =
    if (j + size (hidx rv i n) <= size p2)%N || (hidx rv i n == [::])
    then Ok (map Some [seq gen_at g k.+1 | k <- hidx rv i n], take (size (hidx rv i n)) (drop j p2))
    else Panic.
  Proof.
    elim: n i j => [|n IH] i j /= Hl; first by rewrite take0 orbT.
    have Hl' : (i.+1 + n <= g_length g)%N by rewrite addSnnS.
    rewrite /hidx /=; case: (boolP (Posz i \in unzip1 rv)) => Hm /=; first exact: IH.
    rewrite orbF; case: (leqP (size p2) j) => Hj.
      by rewrite addnS ltnNge (leq_trans Hj (leq_addr _ _)).
    rewrite IH // -/(hidx rv i.+1 n) addnS -addSn.
    have -> : ((j.+1 + size (hidx rv i.+1 n) <= size p2) || (hidx rv i.+1 n == [::]))%N = (j.+1 + size (hidx rv i.+1 n) <= size p2)%N.
      by case: eqP => [->|_]; rewrite ?orbF // orbT addn0 Hj.
    case: ifP => // _ /=; rewrite get_some; last by apply: leq_trans Hl; rewrite addnS ltnS leq_addr.
    by rewrite (drop_nth 0 Hj).
  Qed.

  (** commitments in closed form *)
  Definition commit1 (p : pok_proof V1) (g : generators V1) (c : F) : V1 :=
    c *: (pp_abar p - pp_d p) + (pp_proof1 p)`_0 *: pp_a' p + (pp_proof1 p)`_1 *: g_h0 g.
  Definition revealed_point (g : generators V1) (rv : seq (int * F)) : V1 :=
    g1 + \sum_(x <- rv) x.2 *: odflt 0 (get g (x.1 + 1)).
  Definition commit2 (p : pok_proof V1) (g : generators V1) (rv : seq (int * F)) (c : F) : V1 :=
    c *: revealed_point g rv + (pp_proof2 p)`_0 *: (- pp_d p) + (pp_proof2 p)`_1 *: g_h0 g
    + \sum_(j < size (hidx rv 0 (g_length g))) (pp_proof2 p)`_(j + 2) *: gen_at g (nth 0%N (hidx rv 0 (g_length g)) j).+1.

  Lemma sop_iff (ps : seq (option V1)) (ss : seq F) :
    sum_of_products ps ss =
    if all isSome ps && (size ps == size ss) then Some (\sum_(x <- zip ps ss) x.2 *: odflt 0 x.1) else None.
  Proof. by rewrite /sum_of_products; case: all. Qed.

  Lemma sum_zip_map (I : Type) (f : I -> option V1) (s : seq I) (h : I -> F) :
    \sum_(x <- zip (map f s) (map h s)) x.2 *: odflt 0 x.1 = \sum_(x <- s) h x *: odflt 0 (f x).
  Proof. by elim: s => [|x s IH]; rewrite ?big_nil // !big_cons IH. Qed.
  Lemma sum_zip_nth (vs : seq V1) (ss : seq F) : size vs = size ss ->
    \sum_(x <- zip vs ss) x.2 *: x.1 = \sum_(j < size vs) ss`_j *: vs`_j.
  Proof.
    elim: vs ss => [|v vs IH] [|s ss] //=; first by rewrite !big_nil big_ord0.
    by case=> Hs; rewrite big_cons big_ord_recl IH.
  Qed.

  Lemma proof_commitmentsE p g rv c x : proof_commitments p g rv c = Ok x ->
    [/\ (2 <= size (pp_proof1 p))%N, (2 + size (hidx rv 0 (g_length g)) <= size (pp_proof2 p))%N,
        (size rv <= g_length g)%N, all (fun y => isSome (get g (y.1 + 1))) rv &
        x = (commit1 p g c, commit2 p g rv c)].
  Proof.
    rewrite /proof_commitments /commit1 /commit2.
    case: (pp_proof1 p) => [|x0 [|x1 p1]] //.
    rewrite -[[:: Some _; _; _]]/(map Some [:: pp_abar p - pp_d p; pp_a' p; g_h0 g]) sop_some //.
    rewrite sop_iff; case: ifP => // /andP [Hall _].
    rewrite [all _ _]/= all_map in Hall.
    have Hr : \sum_(x <- zip (Some g1 :: [seq get g (x.1 + 1) | x <- rv]) (1 :: unzip2 rv)) x.2 *: odflt 0 x.1 =
              revealed_point g rv.
      by rewrite /= big_cons /= scale1r /revealed_point -sum_zip_map.
    rewrite Hr; case: ltnP => // Hlen.
    case Hp2: (pp_proof2 p) => [|y0 [|y1 p2]] //.
    rewrite hidden_termsE //; case: ifP => // Hsz.
    have Hsz' : (2 + size (hidx rv 0 (g_length g)) <= size [:: y0, y1 & p2])%N.
      by case/orP: Hsz => [//|/eqP ->].
    rewrite [rbind _ _]/= -[_ :: _ :: _ :: map Some _]/(map Some ([:: revealed_point g rv; - pp_d p; g_h0 g] ++ _)).
    have Htk : size (take (size (hidx rv 0 (g_length g))) p2) = size (hidx rv 0 (g_length g)) by rewrite size_takel.
    rewrite sop_some; last by rewrite /= drop0 Htk size_map.
    case=> <-; split=> //.
    congr (_, _).
      by rewrite /= !big_cons big_nil /= addr0 addrA.
    rewrite /= drop0 !big_cons /= sum_zip_nth; last by rewrite Htk size_map.
    rewrite size_map !addrA; congr (_ + _); apply: eq_bigr => j _.
    by rewrite nth_take // (nth_map 0%N) // addn2.
  Qed.

  Lemma proof_commitments_ok p g rv c :
    (2 <= size (pp_proof1 p))%N -> (2 + size (hidx rv 0 (g_length g)) <= size (pp_proof2 p))%N ->
    (size rv <= g_length g)%N -> all (fun y => isSome (get g (y.1 + 1))) rv ->
    proof_commitments p g rv c = Ok (commit1 p g c, commit2 p g rv c).
  Proof.
    move=> H1 H2 H3 H4.
    suff [x Hx] : exists x, proof_commitments p g rv c = Ok x by rewrite Hx; case: (proof_commitmentsE Hx) => _ _ _ _ ->.
    rewrite /proof_commitments; case: (pp_proof1 p) H1 => [|x0 [|x1 p1]] // _.
    rewrite -[[:: Some _; _; _]]/(map Some [:: pp_abar p - pp_d p; pp_a' p; g_h0 g]) sop_some //.
    rewrite sop_iff /= all_map H4 !size_map eqxx /= ltnNge H3 /=.
    case: (pp_proof2 p) H2 => [|y0 [|y1 p2]] // H2.
    rewrite hidden_termsE // H2 /= drop0.
    rewrite sop_iff /= !size_map size_takel // eqxx andbT.
    have -> : all isSome (map Some [seq gen_at g k.+1 | k <- hidx rv 0 (g_length g)]) by elim: (hidx _ _ _).
    by eexists.
  Qed.

  Lemma verify_sig_pok_iff p sk : g2 != 0 ->
    verify_sig_pok p (public_key sk) <-> [/\ sk != 0, pp_a' p != 0, pp_abar p != 0 & pp_abar p = sk *: pp_a' p].
  Proof.
    move=> Hg2; rewrite /verify_sig_pok /public_key scaler_eq0 (negbTE Hg2) orbF.
    rewrite pair_scaler pairNr -pair_scalel -pairBl; split.
      case/and4P => -> -> -> /eqP /(pair_nondeg (p := e)) [/eqP|/eqP]; last by rewrite (negbTE Hg2).
      by rewrite subr_eq0 => /eqP ->.
    by case=> -> -> -> ->; rewrite subrr pair0l eqxx.
  Qed.

  (** C38: the check of the randomised signature *)
  Theorem C38_sig_pok_iff (p : pok_proof V1) (sk : F) : g2 != 0 ->
    verify_sig_pok p (public_key sk) <-> [/\ sk != 0, pp_a' p != 0, pp_abar p != 0 & pp_abar p = sk *: pp_a' p].
  Proof. exact: verify_sig_pok_iff. Qed.

  Lemma hidx_perm rv rv' i n : perm_eq rv rv' -> hidx rv i n = hidx rv' i n.
  Proof. by move=> Hp; apply: eq_filter => k; rewrite (perm_mem (perm_map fst Hp)). Qed.
  Lemma filter_hidden i (msgs : seq (proof_message F)) :
    [seq k <- iota i (size msgs) | pm_hidden (nth (Hidden 0 0) msgs (k - i))] = unzip1 (hidden_from i msgs).
  Proof.
    elim: msgs i => [|m msgs IH] i //=; rewrite subnn.
    have -> : [seq k <- iota i.+1 (size msgs) | pm_hidden (nth (Hidden 0 0) (m :: msgs) (k - i))] =
              [seq k <- iota i.+1 (size msgs) | pm_hidden (nth (Hidden 0 0) msgs (k - i.+1))].
      by apply: eq_in_filter => k; rewrite mem_iota => /andP [Hk _]; rewrite -(subnSK Hk).
    by rewrite IH; case: m.
  Qed.
  Lemma hidx_revealed (msgs : seq (proof_message F)) : hidx (revealed_of msgs) 0 (size msgs) = unzip1 (hidden_from 0 msgs).
  Proof.
    rewrite -filter_hidden; apply: eq_in_filter => k; rewrite mem_iota add0n => Hk.
    by rewrite mem_revealed_from add0n Hk negbK.
  Qed.

  Lemma size_revealed_from i (msgs : seq (proof_message F)) : (size (revealed_from i msgs) <= size msgs)%N.
  Proof. by elim: msgs i => [|[m|m b] msgs IH] i //=; rewrite ?ltnS ?IH //; apply: leq_trans (IH _) _. Qed.
  Lemma revealed_some g i (msgs : seq (proof_message F)) : (i + size msgs <= g_length g)%N ->
    all (fun y => isSome (get g (y.1 + 1))) (revealed_from i msgs).
  Proof.
    elim: msgs i => [|[m|m b] msgs IH] i //= Hl; last by apply: IH; rewrite addSnnS.
    have -> : Posz i + 1 = Posz i.+1 by rewrite -addn1 PoszD.
    rewrite get_some; last by apply: leq_trans Hl; rewrite addnS ltnS leq_addr.
    by rewrite IH // addSnnS.
  Qed.

  (** all messages = revealed ones and hidden ones *)
  Lemma split_sum g i (msgs : seq (proof_message F)) : (i + size msgs <= g_length g)%N ->
    \sum_(x <- revealed_from i msgs) x.2 *: odflt 0 (get g (x.1 + 1)) +
    \sum_(x <- hidden_from i msgs) x.2.1 *: gen_at g x.1.+1 =
    \sum_(j < size msgs) (map (@pm_msg F) msgs)`_j *: gen_at g (i + j).+1.
  Proof.
    elim: msgs i => [|[m|m b] msgs IH] i /= Hl; first by rewrite !big_nil big_ord0 addr0.
    - rewrite big_cons big_ord_recl -addrA IH ?addSnnS //= addn0; congr (_ + _).
        have -> : Posz i + 1 = Posz i.+1 by rewrite -addn1 PoszD.
        by rewrite get_some //; apply: leq_trans Hl; rewrite addnS ltnS leq_addr.
      by apply: eq_bigr => j _; rewrite addSnnS.
    - rewrite big_cons big_ord_recl addrCA IH ?addSnnS //= addn0; congr (_ + _).
      by apply: eq_bigr => j _; rewrite addSnnS.
  Qed.

  Lemma generate_proofE (ps : seq (option V1)) (bl : seq F) (c : F) (sec : seq F) : size sec = size bl ->
    generate_proof (ps, bl) c sec = Ok [seq x.1 * c + x.2 | x <- zip sec bl].
  Proof. by move=> Hs; rewrite /generate_proof /= Hs eqxx. Qed.

  Lemma honest_run (sk : F) (sg : signature V1) (g : generators V1) (msgs : seq (proof_message F))
      (rv : seq (int * F)) (r1 r2 k1 k2 k3 k4 : F) :
    g2 != 0 -> verify (public_key sk) sg g (map (@pm_msg F) msgs) = Ok tt -> size msgs = g_length g ->
    hidden_fit msgs -> r1 != 0 -> perm_eq rv (revealed_of msgs) ->
    exists p x, [/\ new_pok sg g msgs r1 r2 k1 k2 k3 k4 = Ok p,
      sum_of_products (pk_proof1 p).1 (pk_proof1 p).2 = Some x.1,
      sum_of_products (pk_proof2 p).1 (pk_proof2 p).2 = Some x.2 &
      forall c, exists pr, [/\ pok_generate p c = Ok pr, proof_commitments pr g rv c = Ok x, verify_sig_pok pr (public_key sk) &
        [/\ pp_a' pr = pk_a' p, pp_abar pr = pk_abar p & pp_d pr = pk_d p]]].
  Proof.
    move=> Hg2 /(C36_verify_iff _ _ _ _ _ _ _ Hg2) [Hf Hsk Ha Hb] Hl Hh Hr1 Hp.
    set b := bound g (sg_s sg) _ in Hb.
    set d := r1 *: b + r2 *: g_h0 g.
    set a' := r1 *: sg_a sg.
    set abar := r1 *: b - sg_e sg *: a'.
    set r3 := r1^-1; set s' := sg_s sg + r2 * r3.
    set hs := hidden_from 0 msgs.
    pose p := Pok a' abar d ([:: Some a'; Some (g_h0 g)], [:: k1; k2])
      ([:: Some (- d); Some (g_h0 g)] ++ map Some [seq gen_at g x.1.+1 | x <- hs], [:: k3; k4] ++ [seq x.2.2 | x <- hs])
      [:: sg_e sg; r2] ([:: r3; s'] ++ [seq x.2.1 | x <- hs]).
    pose x : V1 * V1 := (k1 *: a' + k2 *: g_h0 g, k3 *: (- d) + k4 *: g_h0 g + \sum_(x <- hs) x.2.2 *: gen_at g x.1.+1).
    exists p, x; split.
      rewrite /new_pok Hl eqxx (negbTE Hr1) /= compute_bE // -/b [rbind _ _]/=.
      rewrite !big_cons big_nil addr0 -/d.
      rewrite commit_hiddenE ?add0n ?Hl //; last by rewrite addnC.
    - rewrite -[(pk_proof1 p).1]/(map Some [:: a'; g_h0 g]) sop_some // [zip _ _]/= !big_cons big_nil addr0.
      by [].
    - rewrite -[(pk_proof2 p).1]/(map Some [:: - d, g_h0 g & [seq gen_at g x.1.+1 | x <- hs]]).
      rewrite sop_some; last by rewrite /= !size_map.
      congr Some; rewrite /= !big_cons /= addrA; congr (_ + _).
      by elim: (hs) => [|y s IH]; rewrite ?big_nil // !big_cons IH.
    move=> c.
    pose pr := PokProof a' abar d [:: sg_e sg * c + k1; r2 * c + k2]
      [seq x.1 * c + x.2 | x <- zip ([:: r3; s'] ++ [seq x.2.1 | x <- hs]) ([:: k3; k4] ++ [seq x.2.2 | x <- hs])].
    exists pr; split; last by [].
      by rewrite /pok_generate /generate_proof /= !size_map eqxx.
    have Hidx : hidx rv 0 (g_length g) = unzip1 hs by rewrite (hidx_perm _ _ Hp) -Hl hidx_revealed.
    have Hsz : size (pp_proof2 pr) = (size hs).+2 by rewrite size_map size_zip /= !size_map minnn.
    have Hcm := proof_commitments_ok (p := pr) (g := g) (rv := rv) c.
    rewrite Hcm //; last first.
    - by rewrite (perm_all _ Hp) revealed_some // add0n Hl.
    - by rewrite (perm_size Hp) -Hl size_revealed_from.
    - by rewrite Hsz Hidx size_map.
    congr (Ok (_, _)).
      by rewrite /commit1 /= /abar /d; vpsi V1; ring.
      rewrite /commit2 Hidx /= size_map.
      have -> : \sum_(j < size hs) [seq x.1 * c + x.2 | x <- zip [:: r3, s' & [seq x.2.1 | x <- hs]] [:: k3, k4 & [seq x.2.2 | x <- hs]]]`_(j + 2) *: gen_at g (nth 0%N (unzip1 hs) j).+1 =
         c *: (\sum_(x <- hs) x.2.1 *: gen_at g x.1.+1) + \sum_(x <- hs) x.2.2 *: gen_at g x.1.+1.
        rewrite scaler_sumr -big_split /= [RHS](big_nth (0%N, (0, 0))) big_mkord; apply: eq_bigr => j _.
        rewrite addn2 /= (nth_map (0, 0)); last by rewrite size_zip !size_map minnn.
        rewrite nth_zip ?size_map // !(nth_map (0%N, (0, 0))) //= scalerA -scalerDl.
        by rewrite [c * _]mulrC.
      have HR : revealed_point g rv + (\sum_(x <- hs) x.2.1 *: gen_at g x.1.+1) + sg_s sg *: g_h0 g = b.
        rewrite /revealed_point (perm_big _ Hp) /= -[g1 + _ + _]addrA split_sum ?add0n ?Hl //.
        rewrite /b /BbsProps.bound size_map addrAC Hl.
        by [].
      have Hd : r3 *: d = b + (r2 * r3) *: g_h0 g.
        by rewrite /d scalerDr !scalerA mulVf // scale1r [r3 * _]mulrC.
      move: HR Hd; set S1 := \sum_(x <- hs) x.2.1 *: _; set S2 := \sum_(x <- hs) x.2.2 *: _ => HR Hd.
      have Hz : revealed_point g rv + S1 + s' *: g_h0 g - r3 *: d = 0.
        by rewrite Hd -HR /s' scalerDl; vpsi V1; ring.
      have Hcz : c *: revealed_point g rv + c *: S1 + (s' * c) *: g_h0 g - (r3 * c) *: d = 0.
        by rewrite ![_ * c]mulrC -!scalerA -scalerN -!scalerDr Hz scaler0.
      apply/eqP; rewrite -subr_eq0 -Hcz; apply/eqP.
      by vpsi V1; ring.
    have Ha' : a' != 0 by rewrite scaler_eq0 negb_or Hr1 Ha.
    have Hab : abar = sk *: a'.
      by rewrite /abar -Hb /a'; vpsi V1; ring.
    apply/(verify_sig_pok_iff _ _ Hg2); split=> //=.
    by rewrite Hab scaler_eq0 negb_or Hsk Ha'.
  Qed.

  (** C38: a proof made from a valid signature, for any choice of hidden messages, any randomness with r1 <> 0, any
      transcript and whatever challenge the transcript gives, verifies for the disclosed messages in any map order *)
  Theorem C38_complete (sk : F) (sg : signature V1) (g : generators V1) (msgs : seq (proof_message F))
      (rv : seq (int * F)) (r1 r2 k1 k2 k3 k4 nonce : F) (t : transcript) :
    g2 != 0 -> verify (public_key sk) sg g (map (@pm_msg F) msgs) = Ok tt -> size msgs = g_length g ->
    hidden_fit msgs -> r1 != 0 -> perm_eq rv (revealed_of msgs) ->
    exists p, new_pok sg g msgs r1 r2 k1 k2 k3 k4 = Ok p /\
      forall c, pok_challenge (pok_contribution p t) nonce = Some c ->
      exists pr, pok_generate p c = Ok pr /\ pok_verify pr rv (public_key sk) g nonce c t = Ok true.
  Proof.
    move=> Hg2 Hv Hl Hh Hr Hp.
    have [p [x [Hp1 S1 S2 Hr']]] := honest_run r2 k1 k2 k3 k4 Hg2 Hv Hl Hh Hr Hp.
    exists p; split=> // c Hc; have [pr [H1 H2 H3 [E1 E2 E3]]] := Hr' c.
    exists pr; split=> //; rewrite /pok_verify /proof_contribution H2 [rbind (Ok _) _]/= [rbind (Ok _) _]/= E1 E2 E3 H3.
    move: Hc; rewrite /BbsModel.pok_contribution /contribution S1 S2 => ->.
    by rewrite eqxx.
  Qed.

  (** the hypotheses of C38_special_soundness below are met: an honest prover can answer every challenge *)
  Theorem C38_answers_every_challenge (sk : F) (sg : signature V1) (g : generators V1) (msgs : seq (proof_message F))
      (rv : seq (int * F)) (r1 r2 k1 k2 k3 k4 : F) :
    g2 != 0 -> verify (public_key sk) sg g (map (@pm_msg F) msgs) = Ok tt -> size msgs = g_length g ->
    hidden_fit msgs -> r1 != 0 -> perm_eq rv (revealed_of msgs) ->
    exists p x, new_pok sg g msgs r1 r2 k1 k2 k3 k4 = Ok p /\
      forall c, exists pr, [/\ pok_generate p c = Ok pr, proof_commitments pr g rv c = Ok x,
        verify_sig_pok pr (public_key sk) & [/\ pp_a' pr = pk_a' p, pp_abar pr = pk_abar p & pp_d pr = pk_d p]].
  Proof.
    move=> Hg2 Hv Hl Hh Hr Hp.
    have [p [x [Hp1 S1 S2 Hr']]] := honest_run r2 k1 k2 k3 k4 Hg2 Hv Hl Hh Hr Hp.
    by exists p, x.
  Qed.

  (** assembling the message list from the revealed messages and values for the hidden indices *)
  Definition assemble (rv : seq (int * F)) (n : nat) (h : nat -> F) : seq F :=
    mkseq (fun i => if Posz i \in unzip1 rv then (unzip2 rv)`_(seq.index (Posz i) (unzip1 rv))
                    else h (seq.index i (hidx rv 0 n))) n.
  Lemma assemble_revealed rv n h i m : uniq (unzip1 rv) -> (i < n)%N -> (Posz i, m) \in rv -> (assemble rv n h)`_i = m.
  Proof.
    move=> Hu Hi Hm; rewrite nth_mkseq // (map_f fst Hm).
    have Hk : (seq.index (Posz i, m) rv < size rv)%N by rewrite index_mem.
    have -> : seq.index (Posz i) (unzip1 rv) = seq.index (Posz i, m) rv.
      rewrite -[X in seq.index X _]/((Posz i, m).1) -{1}(nth_index (Posz i, m) Hm) -(nth_map _ 0) //.
      by apply: index_uniq; rewrite ?size_map.
    by rewrite (nth_map (Posz i, m)) // nth_index.
  Qed.
  Lemma assemble_sum g rv h (n := g_length g) : uniq (unzip1 rv) -> all (fun x => (0 <= x.1)) rv ->
    all (fun y => isSome (get g (y.1 + 1))) rv ->
    \sum_(i < n) (assemble rv n h)`_i *: gen_at g i.+1 =
    \sum_(x <- rv) x.2 *: odflt 0 (get g (x.1 + 1)) +
    \sum_(j < size (hidx rv 0 n)) h j *: gen_at g (nth 0%N (hidx rv 0 n) j).+1.
  Proof.
    move=> Hu Hpos Hsome.
    have Hlt x : x \in rv -> exists k, x.1 = Posz k /\ (k < n)%N.
      move=> Hx; move/allP: Hpos => /(_ _ Hx); move/allP: Hsome => /(_ _ Hx).
      case: x Hx => [[k|k] m] //= _ Hg _; exists k; split=> //.
      move: Hg; have -> : Posz k + 1 = Posz k.+1 by rewrite -addn1 PoszD.
      by rewrite /BbsModel.get ltnNge -/n; case: (k < n)%N.
    rewrite -(big_mkord xpredT (fun i => (assemble rv n h)`_i *: gen_at g i.+1)) /index_iota subn0.
    rewrite (bigID (fun i => Posz i \in unzip1 rv)) /=; congr (_ + _); last first.
      rewrite -big_filter -/(hidx rv 0 n) [LHS](big_nth 0%N) big_mkord; apply: eq_bigr => j _.
      have Hmem : nth 0%N (hidx rv 0 n) j \in hidx rv 0 n by rewrite mem_nth.
      move: (Hmem); rewrite mem_filter mem_iota => /andP [Hn Hi].
      rewrite nth_mkseq // (negbTE Hn) index_uniq //.
      by apply: filter_uniq; apply: iota_uniq.
    rewrite -big_filter (perm_big [seq `|x.1|%N | x <- rv]) /=.
      rewrite big_map; rewrite big_seq [RHS]big_seq; apply: eq_bigr => x Hx.
      have [k [Hk Hkn]] := Hlt _ Hx.
      have -> : (assemble rv n h)`_(`|x.1|) = x.2.
        by apply: assemble_revealed => //; rewrite Hk // -Hk; case: (x) Hx.
      rewrite Hk /=; have -> : Posz k + 1 = Posz k.+1 by rewrite -addn1 PoszD.
      by [].
    apply: uniq_perm; first by apply: filter_uniq; apply: iota_uniq.
      rewrite map_inj_in_uniq; first exact: map_uniq Hu.
      move=> x y Hx Hy; have [k [Hk _]] := Hlt _ Hx; have [l [Hl' _]] := Hlt _ Hy.
      rewrite Hk Hl' /= => Hkl; have Hxy : x.1 = y.1 by rewrite Hk Hl' Hkl.
      have := nth_uniq 0 (s := unzip1 rv) (i := seq.index x rv) (j := seq.index y rv).
      rewrite !size_map !index_mem Hx Hy => /(_ isT isT Hu).
      rewrite !(nth_map x) ?index_mem // !nth_index // Hxy eqxx => /esym /eqP Hi.
      by rewrite -(nth_index x Hx) Hi nth_index.
    move=> i; rewrite mem_filter mem_iota add0n; apply/andP/mapP.
      by case=> /mapP [x Hx Hi] _; exists x => //; rewrite -Hi.
    case=> x Hx Hi; have [k [Hk Hkn]] := Hlt _ Hx; rewrite Hi Hk; split=> //.
    by apply/mapP; exists x.
  Qed.

  (** C38, soundness: two accepting answers to different challenges for one set of commitments give a signature on a
      list that has the disclosed messages at the disclosed places, or a relation between g1 and the generators *)
  Theorem C38_special_soundness (sk : F) (g : generators V1) (rv : seq (int * F)) (p p' : pok_proof V1) (c c' : F) (x : V1 * V1) :
    g2 != 0 -> (0 < g_length g)%N -> uniq (unzip1 rv) -> all (fun y => (0 <= y.1)) rv ->
    pp_a' p = pp_a' p' -> pp_abar p = pp_abar p' -> pp_d p = pp_d p' -> c != c' ->
    proof_commitments p g rv c = Ok x -> proof_commitments p' g rv c' = Ok x ->
    verify_sig_pok p (public_key sk) ->
    exists ms : seq F, [/\ size ms = g_length g, (forall i m, (Posz i, m) \in rv -> ms`_i = m) &
      exists a ee s, verify (public_key sk) (Sig a ee s) g ms = Ok tt \/ bound g s ms = 0].
  Proof.
    move=> Hg2 Hl0 Hu Hpos Ea Eb Ed Hc Hx Hx' /(verify_sig_pok_iff _ _ Hg2) [Hsk Ha' _ Hab].
    have [_ _ _ Hsome E] := proof_commitmentsE Hx; have [_ _ _ _ E'] := proof_commitmentsE Hx'.
    move: E'; rewrite E => -[E1 E2].
    have Hdc : c - c' != 0 by rewrite subr_eq0.
    pose q := (c - c')^-1.
    pose dif (u v : seq F) (j : nat) : F := (u`_j - v`_j) * q.
    pose eh := dif (pp_proof1 p) (pp_proof1 p') 0%N; pose r2h := dif (pp_proof1 p) (pp_proof1 p') 1%N.
    pose r3h := dif (pp_proof2 p) (pp_proof2 p') 0%N; pose sh := dif (pp_proof2 p) (pp_proof2 p') 1%N.
    pose mh j := dif (pp_proof2 p) (pp_proof2 p') (j + 2)%N.
    have D1 : pp_abar p - pp_d p + eh *: pp_a' p + r2h *: g_h0 g = 0.
      have : q *: (commit1 p g c - commit1 p' g c') = 0 by rewrite E1 subrr scaler0.
      rewrite /commit1 -Ea -Eb -Ed => H0.
      rewrite -[RHS]H0 /eh /r2h /dif.
      have Hq : (c - c') * q = 1 by rewrite divff.
      rewrite -[pp_abar p - pp_d p in LHS]scale1r -Hq; move: (q) => q0.
      by vpsi V1; ring.
    set hx := hidx rv 0 (g_length g) in E2 *.
    pose S := \sum_(j < size hx) mh j *: gen_at g (nth 0%N hx j).+1.
    have D2 : revealed_point g rv - r3h *: pp_d p + sh *: g_h0 g + S = 0.
      have : q *: (commit2 p g rv c - commit2 p' g rv c') = 0 by rewrite E2 subrr scaler0.
      rewrite /commit2 -Ed -/hx => H0.
      have HS : S = q *: (\sum_(j < size hx) (pp_proof2 p)`_(j + 2) *: gen_at g (nth 0%N hx j).+1 -
                          \sum_(j < size hx) (pp_proof2 p')`_(j + 2) *: gen_at g (nth 0%N hx j).+1).
        rewrite -sumrB scaler_sumr; apply: eq_bigr => j _; rewrite /mh /dif.
        by rewrite -scalerBl scalerA mulrC.
      rewrite HS -[RHS]H0 /r3h /sh /dif.
      have Hq : (c - c') * q = 1 by rewrite divff.
      rewrite -[revealed_point g rv in LHS]scale1r -Hq; move: (q) => q0.
      move: (\sum_(j < _) _) (\sum_(j < _) _) (revealed_point _ _) => T1 T2 R.
      by vpsi V1; ring.
    exists (assemble rv (g_length g) mh); split; first by rewrite size_mkseq.
      move=> i m Hm; apply: assemble_revealed => //.
      move/allP: Hsome => /(_ _ Hm) /=; have -> : Posz i + 1 = Posz i.+1 by rewrite -addn1 PoszD.
      by rewrite /BbsModel.get ltnNge; case: (i < g_length g)%N.
    exists (r3h *: pp_a' p), eh, (sh - r3h * r2h).
    have Hbd : (eh + sk) *: (r3h *: pp_a' p) = bound g (sh - r3h * r2h) (assemble rv (g_length g) mh).
      rewrite /BbsProps.bound size_mkseq assemble_sum // -/hx -/S gen_at0.
      have Hd : pp_d p = pp_abar p + eh *: pp_a' p + r2h *: g_h0 g.
        by apply/eqP; rewrite eq_sym -subr_eq0 -[X in _ == X]D1; apply/eqP; vpsi V1; ring.
      move: D2; rewrite /revealed_point Hd Hab.
      move: (\sum_(y <- rv) _) => R D2.
      by apply/eqP; rewrite eq_sym -subr_eq0 -[X in _ == X]D2; apply/eqP; vpsi V1; ring.
    case: (r3h =P 0) => Hr3; [right|left].
      by rewrite -Hbd Hr3 scale0r scaler0.
    apply/(C36_verify_iff _ _ _ _ _ _ _ Hg2); split=> //.
      by rewrite /fits size_mkseq Hl0 leqnn.
    by rewrite scaler_eq0 negb_or Ha' andbT; apply/eqP.
  Qed.

  (** C38, what the equal generators cost: the holder of a signature on any list can disclose, with an accepted proof, the
      messages of any other list of as many messages *)
  Theorem C38_disclose_anything_refuted (sk : F) (sg : signature V1) (pk : V2) (n : int) (g : generators V1) (ms : seq F)
      (msgs : seq (proof_message F)) (rv : seq (int * F)) (r1 r2 k1 k2 k3 k4 nonce : F) (t : transcript) :
    g2 != 0 -> init pk n = Ok g -> verify (public_key sk) sg g ms = Ok tt -> size msgs = g_length g ->
    hidden_fit msgs -> r1 != 0 -> perm_eq rv (revealed_of msgs) ->
    exists sg' p, new_pok sg' g msgs r1 r2 k1 k2 k3 k4 = Ok p /\
      forall c, pok_challenge (pok_contribution p t) nonce = Some c ->
      exists pr, pok_generate p c = Ok pr /\ pok_verify pr rv (public_key sk) g nonce c t = Ok true.
  Proof.
    move=> Hg2 Hi Hv Hl Hh Hr Hp.
    have Hf : fits g (map (@pm_msg F) msgs).
      have [/andP [H1 H2] _ _ _] := proj1 (C36_verify_iff _ _ _ _ _ _ _ Hg2) Hv.
      by rewrite /fits size_map Hl leqnn andbT (leq_trans H1 H2).
    have Hv' := C37_forgery_refuted Hg2 Hi Hf Hv.
    have [p Hp'] := C38_complete r2 k1 k2 k3 k4 nonce t Hg2 Hv' Hl Hh Hr Hp.
    by eexists; exists p; exact: Hp'.
  Qed.
End Proofs.

Section Example.
  Let F := [fieldType of 'F_257].
  Let V := [lmodType F of F^o].
  Let e := field_pairing F.
  Definition C38_ex_msgs : seq (proof_message F) :=
    [:: Hidden 10%:R 7%:R; Revealed 20%:R; Hidden 3%:R 1; Revealed 4%:R; Revealed 5%:R].
  Definition C38_ex_revealed : seq (int * F) := [:: (4%:Z, 5%:R); (1%:Z, 20%:R); (3%:Z, 4%:R)].
  (** a signature on five messages, two of them hidden, and the map given in another order *)
  Theorem C38_nonvacuous : exists sg,
    [/\ verify e C36_one C36_one C36_ex_hash (public_key C36_one (3%:R : F)) sg C36_ex_gens (map (@pm_msg F) C38_ex_msgs) = Ok tt,
        size C38_ex_msgs = g_length C36_ex_gens, hidden_fit C38_ex_msgs, (2%:R : F) != 0 &
        perm_eq C38_ex_revealed (revealed_of C38_ex_msgs)].
  Proof.
    have Hi : init C36_ex_hash C36_ex_uenc C36_ex_pk 5%:Z = Ok C36_ex_gens by [].
    have H1 : C36_one != 0 by exact: oner_neq0.
    have Hf : fits C36_ex_gens (map (@pm_msg F) C38_ex_msgs) by [].
    have Hs := C36_sign_succeeds C36_one C36_ex_hash (5%:R : F) Hf (isT : (3%:R : F) != 0) (isT : (4%:R + 3%:R : F) != 0).
    have Hb : bound C36_one C36_ex_hash C36_ex_gens 5%:R (map (@pm_msg F) C38_ex_msgs) != 0.
      rewrite (bound_sum C36_one (5%:R : F) Hi Hf) !big_cons big_nil.
      by vm_compute.
    have Hv := C36_sign_verifies e H1 Hb Hs.
    eexists; split; [exact: Hv | by [] | | by [] | by vm_compute].
    rewrite /hidden_fit; have -> : count (@pm_hidden F) C38_ex_msgs = 2%N by [].
    by [].
  Qed.
End Example.
