(** C32, C33: threshold Ed25519. *)
From mathcomp Require Import all_ssreflect all_algebra.
From Verif Require Import AlgBase Lagrange ShamirModel ShamirSpec ShamirProofs ShamirProofs2
  SharingV1Model SharingV1Spec SharingV1Proofs SharingV1Props Ted25519Model Ted25519Proofs.
Set Implicit Arguments.
Unset Strict Implicit.
Unset Printing Implicit Defensive.
Import GRing.Theory.
Local Open Scope ring_scope.
Local Arguments poly_init : simpl never.
Local Arguments fit32 : simpl never.
Local Arguments getb : simpl never.
Local Arguments setb : simpl never.
Local Arguments be4 : simpl never.

Section Props.
  (** the group order: a prime of at most 253 bits (Ed25519's has 253) *)
  Variable p : nat.
  Hypothesis Hp : prime p.
  Hypothesis Hq : (p <= 32 * 256 ^ 31)%N.
  Local Notation F := ('F_p).
  Local Notation share1 := (share1 p).
  Variables (V : lmodType F) (G : V) (enc : V -> seq nat) (decp : seq nat -> option V).
  Variable H : seq nat -> F.
  (** points encode to 32 bytes and decode back *)
  Hypothesis enc_size : forall v, size (enc v) = 32%N.
  Hypothesis decK : forall v, decp (enc v) = Some v.

  (** one deal of a secret by [split]: secret bytes, random coefficients, commitments and shares *)
  Definition dealt (t n : nat) (secret : seq nat) (shares : seq share1) : Prop :=
    exists (rnd : seq F) (C : seq V), size rnd = t.-1 /\ split G secret t n rnd = Ok (C, shares).

  (** a partial signature some share holder [id] makes: TSign with its key share and the sum of the
      nonce shares it got from each of the nonce dealers *)
  Definition produced (msg pubA R : seq nat) (keys : seq share1) (nonces : seq (seq share1))
      (sg : psig) : Prop :=
    exists (key nonce : share1) (n0 : share1) (ns : seq share1),
      [/\ key \in keys, size (n0 :: ns) = size nonces,
          forall k, (k < size nonces)%N -> nth n0 (n0 :: ns) k \in nth [::] nonces k
                                         /\ (nth n0 (n0 :: ns) k).1 = key.1,
          add_all n0 ns = Ok nonce & tsign H msg key pubA nonce R = Ok sg].

  Lemma dealt_inv t n secret shares : dealt t n secret shares ->
    exists c : seq F, [/\ [/\ (2 <= t)%N, (t <= n)%N & (n < p)%N], size c = t,
      c`_0 = (setb secret)%:R &
      forall sh, sh \in shares -> (0 < sh.1 <= n)%N /\ sh.2 = peval c (sh.1)%:R].
  Proof.
    case=> rnd [C [Hr E]]; have [c [Ht Hc [H0 _] _ /= ->]] := split_inv Hp Hq Hr E.
    exists c; split=> //; [by rewrite H0|] => sh /mapP [i]; rewrite mem_iota /= add0n => Hi -> /=; by rewrite Hi.
  Qed.

  Lemma add_all_inv (acc nonce : share1) (l : seq share1) : add_all acc l = Ok nonce ->
    nonce.1 = acc.1 /\ nonce.2 = acc.2 + \sum_(o <- l) o.2.
  Proof.
    elim: l acc => [|o l IH] acc /=; first by case=> <-; rewrite big_nil addr0.
    have [E|N] := eqVneq acc.1 o.1; last by rewrite /share_add N.
    by rewrite (share_add_ok Hp E) /= => /IH /= [-> ->]; rewrite big_cons addrA.
  Qed.

  Lemma peval_lin t (a b : seq F) (k x : F) : size a = t -> size b = t ->
    peval [seq k * a`_j + b`_j | j <- iota 0 t] x = k * peval a x + peval b x.
  Proof.
    move=> Ha Hb; rewrite /peval size_map size_iota Ha Hb mulr_sumr -big_split /=.
    apply: eq_bigr => i _; rewrite (nth_map 0%N) ?size_iota // nth_iota // add0n.
    by rewrite mulrDl mulrA.
  Qed.

  (** the sum of dealt nonces is dealt by the sum polynomial *)
  Lemma nonce_sum t n (nb : seq (seq nat)) (nonces : seq (seq share1)) : (2 <= t)%N ->
    size nb = size nonces ->
    (forall k, (k < size nonces)%N -> dealt t n (nth [::] nb k) (nth [::] nonces k)) ->
    exists c : seq F, [/\ size c = t, c`_0 = \sum_(b <- nb) (setb b)%:R &
      forall x0 (id : nat) (ns : seq share1), size ns = size nonces ->
        (forall k, (k < size nonces)%N -> nth x0 ns k \in nth [::] nonces k
                                          /\ (nth x0 ns k).1 = id) ->
        \sum_(o <- ns) o.2 = peval c id%:R].
  Proof.
    move=> Ht; elim: nonces nb => [|d nonces IH] [|b nb] //=.
      move=> _ _; exists (nseq t 0); rewrite size_nseq nth_nseq; split=> //.
        by rewrite big_nil; case: ifP.
      move=> x0 id [|//] _ _; rewrite big_nil /peval big1 // => i _.
      by rewrite nth_nseq; case: ifP; rewrite mul0r.
    case=> Hs Hd; have [c [Hc0 Hcs Hc]] : exists c : seq F, [/\ size c = t,
      c`_0 = \sum_(b <- nb) (setb b)%:R &
      forall x0 (id : nat) (ns : seq share1), size ns = size nonces ->
        (forall k, (k < size nonces)%N -> nth x0 ns k \in nth [::] nonces k
                                          /\ (nth x0 ns k).1 = id) ->
        \sum_(o <- ns) o.2 = peval c id%:R].
      by apply: IH => // k Hk; have := Hd k.+1 Hk.
    have [a [_ Ha Ha0 Has]] := dealt_inv (Hd 0%N isT).
    exists [seq 1 * a`_j + c`_j | j <- iota 0 t]; split; first by rewrite size_map size_iota.
      rewrite (nth_map 0%N) ?size_iota ?(leq_trans _ Ht) // nth_iota ?(leq_trans _ Ht) // add0n.
      by rewrite mul1r big_cons Hcs Ha0.
    move=> x0 id [|s ns] //= [Hn] Hk; rewrite big_cons peval_lin // mul1r.
    have [/Has [_ ->] E] := Hk 0%N isT; rewrite /= in E; rewrite E; congr (_ + _).
    by apply: (Hc x0) => // k Hkk; have := Hk k.+1 Hkk.
  Qed.

  (** At least t partial signatures, the first t of distinct holders, of at most 255 holders, made
      under one key deal and any number of nonce deals, aggregate to the signature (R, s) with
      s = r + c sk, which Verify accepts. *)
  Theorem C32_aggregate_verifies t n msg sk keys (nb : seq (seq nat)) nonces (sigs : seq psig) :
    let A : V := (setb sk)%:R *: G in
    let r : F := \sum_(b <- nb) (setb b)%:R in
    let R : seq nat := enc (r *: G) in
    let c : F := H (R ++ enc A ++ msg) in
    (n < 256)%N -> dealt t n sk keys -> size nb = size nonces ->
    (forall k, (k < size nonces)%N -> dealt t n (nth [::] nb k) (nth [::] nonces k)) ->
    (t <= size sigs)%N -> uniq [seq sg.1 | sg <- take t sigs] ->
    (forall sg, sg \in sigs -> produced msg (enc A) R keys nonces sg) ->
    let sig := R ++ scalar_bytes (r + c * (setb sk)%:R) in
    [/\ aggregate p sigs t n = Ok sig,
        verify G enc decp H (enc A) msg sig = Ok true &
        (r + c * (setb sk)%:R) *: G = r *: G + c *: A].
  Proof.
    move=> A r R c Hn Hk Hnb Hnd Hs U Hprod sig.
    have [ck [[Ht Htn Hnp] Hck Hck0 Hks]] := dealt_inv Hk.
    have [cr [Hcr Hcr0 Hrs]] := nonce_sum Ht Hnb Hnd.
    have Ht0 : (0 < t)%N by apply: leq_trans Ht.
    set P := [seq c * ck`_j + cr`_j | j <- iota 0 t].
    have Hpart : forall sg, sg \in sigs -> (0 < sg.1 <= n)%N /\
         sg.2 = R ++ scalar_bytes (peval P (sg.1)%:R).
      move=> sg /Hprod [key [nonce [n0 [ns [Hkey Hsz Hnth /add_all_inv [E1 E2] Hsig]]]]].
      have [Hid Hkv] := Hks _ Hkey.
      have Hsum : nonce.2 = peval cr (key.1)%:R.
        by rewrite E2 -(Hrs n0 key.1 (n0 :: ns) Hsz Hnth) big_cons.
      move: Hsig; rewrite /tsign /reverse_bytes.
      have [Kz|Kz] := eqVneq (key.2) 0; first by rewrite Kz.
      have [Nz|Nz] := eqVneq (nonce.2) 0.
        by rewrite Nz /threshold_sign; case: (_ || _).
      rewrite (threshold_signE Hp Hq H _ _ Kz Nz) ?enc_size //= /new_partial.
      rewrite size_cat enc_size /scalar_bytes size_fit32 eqxx /= => -[<-] /=.
      rewrite modn_small; last by case/andP: Hid => _ Hid; apply: leq_ltn_trans Hn.
      by split=> //; rewrite peval_lin // -Hkv -Hsum.
    have Hto : forall l : seq psig, {subset l <= sigs} ->
       to_shares p l = Ok [seq (sg.1, peval P (sg.1)%:R) | sg <- l].
      elim=> [|sg l IH] //= Hl.
      have [_ ->] := Hpart _ (Hl _ (mem_head _ _)).
      rewrite /sig_S drop_size_cat ?enc_size // /reverse_bytes /scalar_bytes.
      rewrite le_pad ?size_val // (elem_back Hp) /= IH // => x Hx.
      by apply: Hl; rewrite inE Hx orbT.
    have EP0 : P`_0 = r + c * (setb sk)%:R.
      by rewrite (nth_map 0%N) ?size_iota // nth_iota // add0n Hck0 Hcr0 addrC.
    split; last by rewrite scalerDl scalerA.
    - rewrite /aggregate; case: sigs Hs U Hprod Hpart Hto => [|s0 rest] Hs U Hprod Hpart Hto.
        by move: Hs Ht0; rewrite leqn0 => /eqP ->.
      have Rall : forall s, s \in s0 :: rest -> sig_R s.2 = R.
        by move=> s /Hpart [_ ->]; rewrite /sig_R take_size_cat ?enc_size.
      have -> : all (fun s : psig => sig_R s.2 == sig_R s0.2) rest.
        apply/allP => s Hsin; rewrite (Rall s0) ?mem_head // Rall ?eqxx //.
        by rewrite inE Hsin orbT.
      rewrite (Rall s0) ?mem_head // (Hto (s0 :: rest) (fun x => id)).
      have -> : new_shamir1 t n = Ok (Shamir t n).
        by rewrite /new_shamir1 ltnNge Htn /= ltnNge Ht.
      rewrite /lift /rbind.
      set shs : seq share1 := [seq (sg.1, peval P (sg.1)%:R) | sg <- s0 :: rest].
      rewrite (@combine1_poly p Hp t n P shs) //; first last.
      + move=> sh; rewrite -map_take => /mapP [sg /mem_take /Hpart [Hid _] ->] /=; by split.
      + by rewrite -map_take /unzip1 -map_comp.
      + by rewrite size_map.
      + by rewrite size_map size_iota.
      by rewrite fit32_exact ?enc_size // /reverse_bytes EP0.
    - rewrite /verify enc_size eqxx /= /sig size_cat enc_size {1}/scalar_bytes size_fit32 eqxx /=.
      set s : F := r + c * (setb sk)%:R.
      have -> : (31 < nth 0%N (R ++ scalar_bytes s) 63)%N = false.
        rewrite nth_cat enc_size /=; apply/negbTE; rewrite -leqNgt -ltnS.
        have := nth31 (size_val Hp Hq s); rewrite setb_getb => Hle.
        have := leq_ltn_trans Hle (leq_trans (elem_val Hp _) Hq).
        by rewrite ltn_mul2r => /andP [].
      rewrite fit32_exact ?enc_size // decK take_size_cat ?enc_size // drop_size_cat ?enc_size //.
      rewrite /scalar_bytes fit32_exact ?size_fit32 // (scalar_leK Hp Hq) /=.
      rewrite /s scalerDl -scalerA -/A -/c scalerN addrCA addNr addr0.
      by rewrite eqxx.
  Qed.

  (** TSign panics for a holder whose key share or nonce share happens to be zero, and only then *)
  Theorem C32_tsign_panics_iff msg (key nonce : share1) pubA (R : V) :
    tsign H msg key pubA nonce (enc R) = Panic <-> key.2 = 0 \/ nonce.2 = 0.
  Proof.
    rewrite /tsign /reverse_bytes.
    have [Kz|Kz] := eqVneq (key.2) 0; first by rewrite Kz; split=> // _; left.
    have [Nz|Nz] := eqVneq (nonce.2) 0.
      by rewrite Nz /threshold_sign; case: (_ || _); split=> // _; right.
    rewrite (threshold_signE Hp Hq H _ _ Kz Nz) ?enc_size //= /new_partial.
    rewrite size_cat enc_size /scalar_bytes size_fit32 eqxx /=; split=> // -[] E.
      by rewrite E eqxx in Kz.
    by rewrite E eqxx in Nz.
  Qed.

  (** the partial signature a holder publishes satisfies the share verification equation: it is an
      ordinary signature under the share's own key and nonce points *)
  Theorem C32_partial_valid msg (key nonce : share1) pubA (R : V) sg :
    tsign H msg key pubA nonce (enc R) = Ok sg ->
    sg.1 = (key.1 %% 256)%N /\ exists s : F, sg.2 = enc R ++ scalar_bytes s /\
      s *: G = nonce.2 *: G + H (enc R ++ pubA ++ msg) *: (key.2 *: G).
  Proof.
    rewrite /tsign /reverse_bytes.
    have [Kz|Kz] := eqVneq (key.2) 0; first by rewrite Kz.
    have [Nz|Nz] := eqVneq (nonce.2) 0.
      by rewrite Nz /threshold_sign; case: (_ || _).
    rewrite (threshold_signE Hp Hq H _ _ Kz Nz) ?enc_size //= /new_partial.
    rewrite size_cat enc_size /scalar_bytes size_fit32 eqxx => -[<-]; split; first by [].
    exists (H (enc R ++ pubA ++ msg) * key.2 + nonce.2); split; first by [].
    by rewrite scalerDl scalerA addrC.
  Qed.

  (** Verify accepts exactly the pairs (R, s) satisfying the Ed25519 equation for a decodable key *)
  Theorem C32_verify_iff (A R : V) msg (s : F) : injective enc ->
    verify G enc decp H (enc A) msg (enc R ++ scalar_bytes s)
      = Ok (s *: G == R + H (enc R ++ enc A ++ msg) *: A).
  Proof.
    move=> Hinj; rewrite /verify enc_size eqxx /= size_cat enc_size /scalar_bytes size_fit32 eqxx /=.
    rewrite -/(scalar_bytes s).
    have -> : (31 < nth 0%N (enc R ++ scalar_bytes s) 63)%N = false.
      rewrite nth_cat enc_size /=; apply/negbTE; rewrite -leqNgt -ltnS.
      have := nth31 (size_val Hp Hq s); rewrite setb_getb => Hle.
      have := leq_ltn_trans Hle (leq_trans (elem_val Hp _) Hq).
      by rewrite ltn_mul2r => /andP [].
    rewrite fit32_exact ?enc_size // decK take_size_cat ?enc_size // drop_size_cat ?enc_size //.
    rewrite /scalar_bytes fit32_exact ?size_fit32 // (scalar_leK Hp Hq) /=.
    rewrite (inj_eq Hinj) scalerN; congr (Ok _); rewrite addrC eq_sym.
    by rewrite subr_eq.
  Qed.

  (** partial signatures under different nonces are refused, whatever follows *)
  Theorem C32_mixed_nonces_refused t n (s0 s1 : psig) (rest : seq psig) :
    s1 \in rest -> take 32 s1.2 != take 32 s0.2 ->
    aggregate p (s0 :: rest) t n = Err TNonce.
  Proof.
    move=> Hin Hne; rewrite /aggregate /sig_R; case: allP => //= Ha.
    by have := Ha _ Hin; rewrite (negbTE Hne).
  Qed.

  (** with more than 255 holders a signature of a holder whose number is a multiple of 256 cannot be
      aggregated: TSign truncates the number to a byte *)
  Theorem C32_identifier_256_refuted t n msg (key nonce : share1) pubA (R : V) sg (rest : seq psig) :
    (256 %| key.1)%N -> (2 <= t <= n)%N -> (t <= (size rest).+1)%N ->
    tsign H msg key pubA nonce (enc R) = Ok sg ->
    forall sig, aggregate p (sg :: rest) t n <> Ok sig.
  Proof.
    move=> Hd /andP [Ht Htn] Hs /C32_partial_valid [E _] sig.
    rewrite /aggregate; case: (all _ _) => //.
    have -> : new_shamir1 t n = Ok (Shamir t n).
      by rewrite /new_shamir1 ltnNge Htn /= ltnNge Ht.
    rewrite /lift {1}/rbind [to_shares _ _]/=; case: (elem p _) => [v||] //=.
    case E2: (to_shares p rest) => [l||] //=; rewrite /combine1 /=.
    case: t Ht Hs Htn => // t Ht Hs Htn /=.
    by case: ltnP => // _ /=; rewrite E (eqP Hd).
  Qed.

  (** ** C33 *)

  Lemma vss_loop_cons (x i : F) (rhs c : V) (cs : seq V) : vss_loop x i rhs (c :: cs) =
    rbind (relabel TScalar (scalar_le p (fit32 (getb (nat_of_ord (i * x)))))) (fun s =>
        vss_loop x (i * x) (rhs + s *: c) cs).
  Proof. by []. Qed.

  Lemma lt_pow4 id : (id < 256)%N -> (id < 256 ^ 4)%N.
  Proof. by move=> Hi; apply: (leq_trans Hi); rewrite -{1}[256%N]expn1 leq_pexp2l. Qed.

  Lemma verify_vssE id (v : F) c0 cs t : (id < p)%N -> (id < 256 ^ 4)%N -> (t <= (size cs).+1)%N ->
    verify_vss G (id, v) (c0 :: cs) t = rbind (vss_loop id%:R 1 c0 cs) (fun rhs => Ok (v *: G == rhs)).
  Proof.
    move=> H1 H2 H3; rewrite /verify_vss [size _]/= ltnNge H3 [fst _]/= setb_be4 // elem_ok //.
    rewrite [lift _]/= {1}/rbind [snd _]/= /reverse_bytes; have -> := scalar_leK Hp Hq v.
    by case: (vss_loop _ _ _ _).
  Qed.

  Lemma vss_loop_step (x i s : F) (rhs c : V) (cs : seq V) :
    scalar_le p (fit32 (getb (nat_of_ord (i * x)))) = Ok s ->
    vss_loop x i rhs (c :: cs) = vss_loop x (i * x) (rhs + s *: c) cs.
  Proof. by rewrite vss_loop_cons => ->. Qed.

  Lemma vss_loop_small (x : nat) (cs : seq V) j (rhs : V) : (256 <= p)%N -> (0 < x)%N ->
    (x ^ (j + size cs) < 256)%N ->
    vss_loop x%:R (x ^ j)%:R rhs cs
    = Ok (rhs + \sum_(k < size cs) (x%:R ^+ (j + k).+1) *: nth 0 cs k).
  Proof.
    move=> Hp256 Hx; elim: cs j rhs => [|c cs IH] j rhs; first by rewrite /= big_ord0 addr0.
    rewrite vss_loop_cons -[size (c :: cs)]/(size cs).+1 addnS => Hlt; rewrite -natrM -expnSr.
    have Hj : (0 < x ^ j.+1 < 256)%N.
      rewrite expn_gt0 Hx /=; apply: leq_ltn_trans Hlt; rewrite leq_pexp2l //.
      by rewrite ltnS leq_addr.
    have Hjp : (x ^ j.+1 < p)%N by case/andP: Hj => _ Hj; apply: leq_trans Hj Hp256.
    rewrite natr_val // getb_small // /scalar_le size_fit32 eqxx /= le_one Hjp /=.
    rewrite IH ?addSn // big_ord_recl /= addn0 addrA; congr (Ok (_ + _ *: _ + _)).
      by rewrite natrX.
    by apply: eq_bigr => k _; rewrite /= /bump add1n addnS addSn.
  Qed.

  (** VerifyVSS is right as long as every power of the identifier it uses fits one byte: it accepts a
      value exactly when it is the dealt one *)
  Theorem C33_small_identifier_partial t n secret (rnd : seq F) C shares (id : nat) (v : F) :
    G <> 0 -> (256 <= p)%N -> size rnd = t.-1 -> split G secret t n rnd = Ok (C, shares) ->
    (0 < id <= n)%N -> (id ^ t.-1 < 256)%N ->
    verify_vss G (id, v) C t = Ok ((id, v) \in shares).
  Proof.
    move=> HG Hp256 Hr E /andP [Hid Hidn] Hpow.
    have [c [[Ht Htn Hnp] Hc _ /= EC ES]] := split_inv Hp Hq Hr E.
    have Ht1 : (0 < t.-1)%N by case: (t) Ht => // -[].
    have Hid256 : (id < 256)%N.
      apply: leq_ltn_trans Hpow; rewrite -{1}[id]expn1 leq_pexp2l //.
    have Hidp : (id < p)%N by apply: leq_ltn_trans Hnp.
    rewrite /verify_vss EC size_map Hc ltnn setb_be4; last first.
      by apply: leq_trans Hid256 _; rewrite -{1}[256%N]expn1 leq_pexp2l.
    rewrite elem_ok //=; case: c Hc EC ES => [|c0 c] Hc EC ES; first by rewrite -Hc in Ht.
    rewrite /= in Hc; rewrite /=.
    have := @vss_loop_small id [seq x *: G | x <- c] 0 (c0 *: G) Hp256 Hid.
    rewrite size_map add0n expn0 -[size c]/(size c).+1.-1 Hc => /(_ Hpow) -> /=.
    rewrite (scalar_leK Hp Hq) /=; congr Ok.
    have -> : c0 *: G + \sum_(k < t.-1) id%:R ^+ (0 + k).+1 *: nth 0 [seq x *: G | x <- c] k
            = peval (c0 :: c) id%:R *: G.
      rewrite /peval /= big_ord_recl expr0 mulr1 scalerDl scaler_suml; congr (_ + _).
      have -> : t.-1 = size c by rewrite -Hc.
      by apply: eq_bigr => k _; rewrite add0n /= /bump add1n /= (nth_map 0) // scalerA mulrC.
    rewrite -subr_eq0 -scalerBl scaler_eq0; case: (G =P 0) => [/HG //|_]; rewrite orbF subr_eq0.
    apply/idP/idP => [/eqP ->|].
      rewrite ES; apply/mapP; exists id.-1; last by rewrite prednK.
      by rewrite mem_iota /= add0n prednK.
    by rewrite ES => /mapP [i _ [-> ->]].
  Qed.

  (** for holder 16 of a sharing with threshold 3 the square 256 is read back as 1: the honest share is
      refused unless the leading coefficient happens to be zero *)
  Theorem C33_identifier_16_refuted n secret (c1 c2 : F) C shares (v : F) :
    G <> 0 -> (257 < p)%N -> split G secret 3 n [:: c1; c2] = Ok (C, shares) ->
    (16%N, v) \in shares -> verify_vss G (16%N, v) C 3 = Ok (c2 == 0).
  Proof.
    move=> HG Hp257 E.
    have Hr : size [:: c1; c2] = 3.-1 by [].
    have [c [[_ _ Hnp] _ [Ec _] /= EC ES]] := split_inv Hp Hq Hr E.
    set c0 : F := (setb secret)%:R in Ec.
    rewrite ES => /mapP [i _ [Ei Ev]]; move: Ev; rewrite -Ei => Ev.
    have P16 : (16 < p)%N by apply: ltn_trans Hp257.
    have P256 : (256 < p)%N by apply: ltn_trans Hp257.
    have E256 : (16%:R * 16%:R : F) = 256%:R by rewrite -natrM.
    have B256 : getb 256 = [:: 1%N; 0%N] by rewrite getb_rcons.
    have L1 : setb (rev (fit32 [:: 1%N; 0%N])) = 1%N.
      by rewrite -[[:: 1%N; 0%N]]/(rev [:: 0%N; 1%N]) le_pad.
    rewrite EC Ec map_cons.
    have P3 : (3 <= (size [seq x *: G | x <- [:: c1; c2]]).+1)%N by [].
    rewrite (verify_vssE v (c0 *: G) P16 (lt_pow4 (isT : 16 < 256)%N) P3) !map_cons.
    have S16 : scalar_le p (fit32 [:: 16%N]) = Ok (16%:R : F).
      by rewrite /scalar_le size_fit32 eqxx le_one P16.
    have S1 : scalar_le p (fit32 [:: 1%N; 0%N]) = Ok (1 : F).
      by rewrite /scalar_le size_fit32 eqxx L1 prime_gt1.
    rewrite (@vss_loop_step _ _ 16%:R); last by rewrite mul1r natr_val // getb_small.
    rewrite mul1r (@vss_loop_step _ _ 1); last by rewrite E256 natr_val // B256.
    rewrite /vss_loop /rbind.
    have Hv : v = c0 + 16%:R * c1 + (16%:R * 16%:R) * c2.
      rewrite Ev Ec /peval -[size _]/3%N !big_ord_recl big_ord0 addr0.
      rewrite expr0 mulr1 addrA; congr (_ + _ + _).
        by rewrite -[_ ^+ _]/(16%:R ^+ 1) expr1 mulrC.
      by rewrite -[_ ^+ _]/(16%:R ^+ 2) expr2 mulrC.
    have H255 : (16%:R * 16%:R - 1 : F) != 0.
      rewrite E256 subr_eq0; apply/negP => /eqP /(elem_inj Hp P256 (prime_gt1 Hp)); discriminate.
    move: Hv H255; move: (16%:R : F) => q Hv H255.
    congr Ok; rewrite Hv scale1r !scalerDl !scalerA -subr_eq0 opprD addrACA addrN add0r -scalerBl.
    rewrite -{2}[c2]mul1r -mulrBl scaler_eq0 mulf_eq0 (negbTE H255).
    by case: (G =P 0) => [/HG //|_]; rewrite orbF.
  Qed.

  (** ** Key shares as bytes, reconstruction, public nonce addition *)

  Theorem C32_share_bytes_roundtrip (sh : share1) : (sh.1 < 256 ^ 4)%N ->
    share_from_bytes p (share_bytes sh) = Ok sh.
  Proof.
    case: sh => id v Hid; rewrite /share_from_bytes /share_bytes [fst _]/= [snd _]/= in Hid *.
    have S4 : size (be4 id) = 4%N by [].
    rewrite size_cat S4 ltnNge leq_addr drop_size_cat // take_size_cat // setb_be4 //.
    by rewrite (elem_back Hp).
  Qed.

  Theorem C32_reconstruct t n secret shares (chosen : seq share1) : is_bytes secret ->
    dealt t n secret shares -> (t <= size chosen)%N -> uniq (unzip1 (take t chosen)) ->
    {subset take t chosen <= shares} -> reconstruct chosen t n = Ok (strip secret).
  Proof.
    move=> Hb [rnd [C [Hr E]]] Hs U Hsub; move: E; rewrite /split /reconstruct.
    case E1: (new_shamir1 t n) => [s||] //=; case E2: (get_shares1 _ _ _) => [q||] //=.
    case: (commit_coeffs _ _) => [v||] //= [_ Eq].
    rewrite (@C27_combine_recovers p Hp t n s secret rnd shares) //.
    - by rewrite /split1 E2 /= Eq.
    - by apply: map_uniq U.
  Qed.

  Theorem C32_ge_add (a b : V) : ge_add enc decp (enc a) (enc b) = Ok (enc (a + b)).
  Proof. by rewrite /ge_add !decK. Qed.
End Props.

(** The hypotheses are met: for every prime order from 5 on, the group of scalars, secret 1 and nonce 1
    shared with threshold 2 of 2; both holders sign and the aggregate verifies. *)
Section Example.
  Variable p : nat.
  Hypothesis Hp : prime p.
  Hypothesis Hq : (p <= 32 * 256 ^ 31)%N.
  Hypothesis H3 : (3 < p)%N.
  Local Notation F := ('F_p).
  Let V : lmodType F := [the lmodType F of F^o].
  Let G : V := (1 : F).
  Let encx : V -> seq nat := fun v => scalar_bytes (v : F).
  Let decx : seq nat -> option V := fun bs => match scalar_le p bs with Ok v => Some (v : V) | _ => None end.
  Variables (H : seq nat -> F) (msg : seq nat).

  Lemma ex_enc_size v : size (encx v) = 32%N. Proof. exact: size_fit32. Qed.
  Lemma ex_decK v : decx (encx v) = Some v.
  Proof. by rewrite /decx /encx /scalar_bytes (scalar_leK Hp Hq). Qed.

  Let shares : seq (share1 p) := [:: (1%N, 1 + 1); (2%N, 1 + 1 + 1)].

  Lemma ex_dealt : dealt G 2 2 [:: 1%N] shares.
  Proof.
    exists [:: 1]; exists [:: 1 *: G; 1 *: G]; split=> //.
    have E0 : setb [:: 1%N] = 1%N by [].
    rewrite /split [new_shamir1 2 2]/=; rewrite -[relabel _ (Ok _)]/(Ok _) {1}/rbind /get_shares1.
    rewrite -[size _ == _]/false E0 (prime_gt1 Hp) elem_ok ?prime_gt1 // {2}/rbind.
    rewrite deal_loop_ok; last first.
      by rewrite /= (prime_gt1 Hp) (leq_trans _ H3).
    rewrite /relabel /rbind [~~ true]/=; cbv beta iota; rewrite [snd _]/= [fst _]/= (commit_coeffsE Hp Hq).
    congr (Ok (_, _)); rewrite /shares.
    rewrite /peval /poly_init -[size _]/2%N !big_ord_recl !big_ord0 !addr0 !expr0 !mulr1.
    have E1 : forall q : F, q ^+ (fintype.lift ord0 ord0 : 'I_2) = q by move=> q; exact: expr1.
    by rewrite !E1 !mul1r -addrA.
  Qed.

  Theorem C32_nonvacuous :
    exists (sigs : seq psig) (sig : seq nat),
      aggregate p sigs 2 2 = Ok sig /\ verify G encx decx H (encx (1 *: G)) msg sig = Ok true.
  Proof.
    have N2 : (1 + 1 : F) != 0.
      by apply/negP => /eqP /(@elem_inj _ Hp 2 0 (ltn_trans (isT : 2 < 3)%N H3) (prime_gt0 Hp)).
    have N3 : (1 + 1 + 1 : F) != 0.
      rewrite -addrA; by apply/negP => /eqP /(@elem_inj _ Hp 3 0 H3 (prime_gt0 Hp)).
    pose R := encx ((\sum_(b <- [:: [:: 1%N]]) (setb b)%:R) *: G).
    pose A := encx ((setb [:: 1%N])%:R *: G).
    pose sg i (x : F) : psig := (i, R ++ scalar_bytes (H (R ++ A ++ msg) * x + x)).
    pose sigs := [:: sg 1%N (1 + 1); sg 2%N (1 + 1 + 1)].
    have T : forall i (x : F), x != 0 -> (i < 256)%N -> tsign H msg (i, x) A (i, x) R = Ok (sg i x).
      move=> i x Hx Hi; rewrite /tsign /reverse_bytes [snd _]/= [fst _]/=.
      have -> := threshold_signE Hp Hq H A msg Hx Hx (ex_enc_size _).
      by rewrite /rbind /new_partial size_cat ex_enc_size size_fit32 eqxx modn_small.
    have [||||||| E1 E2 _] := @C32_aggregate_verifies p Hp Hq V G encx decx H ex_enc_size ex_decK
       2 2 msg [:: 1%N] shares [:: [:: 1%N]] [:: shares] sigs.
    - by [].
    - exact: ex_dealt.
    - by [].
    - by case=> // _; exact: ex_dealt.
    - by [].
    - by [].
    - move=> s; rewrite !inE => /orP [] /eqP ->.
        exists (1%N, 1 + 1), (1%N, 1 + 1), (1%N, 1 + 1), [::]; split=> //.
        + by rewrite mem_head.
        + by case=> // _; rewrite mem_head.
        + exact: T.
      exists (2%N, 1 + 1 + 1), (2%N, 1 + 1 + 1), (2%N, 1 + 1 + 1), [::]; split=> //.
      + by rewrite /shares inE mem_head orbT.
      + by case=> // _; rewrite /shares inE mem_head orbT.
      + exact: T.
    exists sigs; eexists; split; first exact: E1.
    exact: E2.
  Qed.
End Example.
