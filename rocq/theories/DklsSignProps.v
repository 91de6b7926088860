(** C53, C54: the two-party ECDSA signature. *)
From mathcomp Require Import all_ssreflect all_algebra.
From Coq Require Import BinNat String Ring Lia.
From Verif Require Import AlgBase VRing ByteVec BinFieldProps SchnorrModel SchnorrProps SimplestOtModel SimplestOtProps KosModel KosProofs KosProps ScalarCodec
  MultiplyModel MultiplyProofs MultiplyProps DklsSignModel.
Delimit Scope nat_scope with N.
Delimit Scope N_scope with num.
Set Implicit Arguments.
Unset Strict Implicit.
Unset Printing Implicit Defensive.
Import GRing.Theory.
Local Open Scope ring_scope.

(** Specification: a valid ECDSA signature (r, s) on m for the public key pk. [x P] is the x coordinate of P modulo the
    group order. *)
Definition ecdsa_valid (F : fieldType) (V : lmodType F) (G : V) (x : V -> F) (pk : V) (m r s : F) : Prop :=
  r <> 0 /\ s <> 0 /\ exists P, P <> 0 /\ s *: P = m *: G + r *: pk /\ x P = r.

Section Props.
  Variables (F : fieldType) (V : lmodType F) (G : V).
  Variables (enc : V -> bytes) (sbytes : F -> bytes) (setbytes : bytes -> option F).
  Variables (H hm : bytes -> bytes) (shake : bytes -> bytes -> nat -> bytes) (ext : transcript -> bytes).
  Variables (gshake : nat -> bytes) (lb eb : nat) (xmod : V -> F).
  Add Ring tvring : (tv_ring V).

  Local Notation round2 := (sign_round2 G sbytes setbytes H shake ext gshake lb eb).
  Local Notation round3 := (sign_round3 G enc sbytes setbytes H hm shake ext gshake lb eb).
  Local Notation round4 := (sign_round4 G enc sbytes setbytes H hm shake ext lb xmod).

  Lemma verify_valid pk m r s : ecdsa_verify G xmod pk m r s -> ecdsa_valid G xmod pk m r s.
  Proof.
    rewrite /ecdsa_verify => /and3P [R S /andP [P /eqP X]]. split; first exact/eqP. split; first exact/eqP.
    exists ((m / s) *: G + (r / s) *: pk). split; first exact/eqP. split=> //.
    by rewrite scalerDr !scalerA !mulrA ![s * _]mulrC !mulfK.
  Qed.
  Lemma valid_verify pk m r s : ecdsa_valid G xmod pk m r s -> ecdsa_verify G xmod pk m r s.
  Proof.
    move=> [/eqP R [/eqP S [P [/eqP NP [E X]]]]]. rewrite /ecdsa_verify R S /=.
    have -> : (m / s) *: G + (r / s) *: pk = P.
    { by rewrite -(scalerK S P) E scalerDr !scalerA [s^-1 * m]mulrC [s^-1 * r]mulrC. }
    by rewrite NP X eqxx.
  Qed.

  (** Bob never returns a signature that does not verify, whatever Alice sent. *)
  Theorem C53_output_valid b message m3 sig : round4 b message m3 = Ok sig ->
    exists2 m, setbytes (hm message) = Some m & ecdsa_valid G xmod (sb_pk b) m (es_R sig) (es_S sig).
  Proof.
    rewrite /sign_round4. case: (sb_mul0 b) => [r0|] //. case: (sb_mul1 b) => [r1|] //.
    case: (mul_round3 _ _ _ _ _ r0 _) => [r0'| |] //. cbn [lift_err rbind].
    case: (mul_round3 _ _ _ _ _ r1 _) => [r1'| |] //. cbn [lift_err rbind].
    case: (hash_point _ _ _ _) => [h| |] //. cbn [rbind]. rewrite /extract.
    case: (sch_verify _ _ _ _ _ _ _) => [[]| |] //. cbn [lift_err rbind].
    case: (nonce_x _ _ _) => [rX| |] //. cbn [rbind].
    case: (hash_point _ _ _ _) => [h1| |] //. cbn [rbind]. case: (_ == _) => //.
    case M: (setbytes (hm message)) => [m|] //. cbn [of_option rbind].
    case: (hash_point _ _ _ _) => [h2| |] //. cbn [rbind].
    case: (normalise_s _ _ _) => [v s']. case: ifP => // E [<-].
    exists m => //. exact: verify_valid.
  Qed.

  Hypothesis codec : scalar_codec sbytes setbytes.
  Hypothesis lb32 : (32 <= lb)%N.
  Hypothesis lb_eb : (lb <= eb)%N.
  (** The compressed form carries the x coordinate (when that is below the group order); a point and its opposite have
      the same one. The generator is not zero. *)
  Hypothesis x_enc : forall P c, setbytes (drop 1 (enc P)) = Some c -> xmod P = c.
  Hypothesis x_opp : forall P, xmod (- P) = xmod P.
  Hypothesis G_nonzero : G <> 0.

  Section Session.
    Variables (so : sender_output) (ro : receiver_output) (skA skB : F) (pk : V).
    (** the key shares: what C49 and C55 provide *)
    Hypothesis seeds : seeds_ok so ro.
    Hypothesis joint : pk = (skA * skB) *: G.
    Variables (message aseed bseed : bytes) (kB kPA nonce phi ah0 ah1 : F) (rnd0 gamma0 rnd1 gamma1 : nat -> N).
    Variables (b1 : sign_bob V) (m2 : sign_msg2 V) (a2 : sign_alice V) (m3 : sign_msg3 V).
    Let a1 := (sign_round1 (sign_new_alice ro skA pk) aseed).1.
    Hypothesis R2 : round2 (sign_new_bob so skB pk) aseed bseed kB rnd0 gamma0 rnd1 gamma1 = Ok (b1, m2).
    Hypothesis R3 : round3 a1 message m2 kPA nonce phi ah0 ah1 = Ok (a2, m3).

    (** The honest session: the digest m, the joint nonce k, its x coordinate rX. If rX and m + rX * sk are not zero, Bob
        gets the signature with R = rX, S = (m + rX * sk) / k or its opposite as normalise_s says, and it is valid for the joint key; if
        one of them is zero he gets the verification error. *)
    Theorem C53_correct : exists m k rX,
      [/\ setbytes (hm message) = Some m,
          exists2 h, setbytes (H (enc ((kPA * kB) *: G))) = Some h & k = (h + kPA) * kB,
          k <> 0, xmod (k *: G) = rX &
          let s := (m + rX * (skA * skB)) / k in
          [/\ (rX <> 0 -> s <> 0 -> exists sig,
                 [/\ round4 b1 message m3 = Ok sig, es_R sig = rX, es_S sig = s \/ es_S sig = - s,
                     (es_V sig, es_S sig) = normalise_s sbytes (N.testbit (nth 0%num (enc (k *: G)) 0) 0) s &
                     ecdsa_valid G xmod pk m (es_R sig) (es_S sig)]) &
              (rX = 0 \/ s = 0 -> round4 b1 message m3 = Err SgVerify)]].
    Proof.
      move: R2. rewrite /sign_round2 /extract. cbn [sign_new_bob sb_tr sb_seeds sb_sk sb_pk].
      set t0 := rcons _ (TAppend "session_id_bob" bseed). set t1 := rcons t0 _. set t2 := rcons t1 _.
      case N0: (new_mul_receiver _ _ _ _ (ext t1)) => [r0| |] //. cbn [lift_err rbind].
      case N1: (new_mul_receiver _ _ _ _ (ext t2)) => [r1| |] //. cbn [lift_err rbind].
      case: (kB =P 0) => [//|/eqP kB0]. 
      case M0: (mul_round1 _ _ _ _ _ _ r0 _ _ _) => [[r0' k0]| |] //. cbn [lift_err rbind].
      case M1: (mul_round1 _ _ _ _ _ _ r1 _ _ _) => [[r1' k1]| |] //. cbn [lift_err rbind fst snd].
      case=> <- E2. move: R3. rewrite -E2 /sign_round3 /extract.
      cbn [a1 sign_round1 sign_new_alice fst snd sa_tr sa_seeds sa_sk sa_pk g2_seed g2_DB g2_kos0 g2_kos1].
      rewrite -/t0 -/t1 -/t2.
      case S0: (new_mul_sender _ _ _ _ (ext t1)) => [s0| |] //. cbn [lift_err rbind].
      case S1: (new_mul_sender _ _ _ _ (ext t2)) => [s1| |] //. cbn [lift_err rbind].
      case HR: (hash_point _ _ _ _) => [h| |] //. cbn [rbind]. set kA := h + kPA.
      set t3 := rcons t2 _.
      case P: (sch_prove _ _ _ _ _ _ _ _) => [pf| |] //. cbn [lift_err rbind].
      case: (kA =P 0) => [//|/eqP kA0].
      case Q0: (mul_round2 _ _ _ _ _ _ _ s0 _ _ _) => [[s0' q0]| |] //. cbn [lift_err rbind fst snd].
      case Q1: (mul_round2 _ _ _ _ _ _ _ s1 _ _ _) => [[s1' q1]| |] //. cbn [lift_err rbind fst snd].
      have [r0'' T0 SUM0] := C52_correct codec lb32 lb_eb seeds S0 N0 M0 Q0.
      have [r1'' T1 SUM1] := C52_correct codec lb32 lb_eb seeds S1 N1 M1 Q1.
      have PX : pr_X pf = (kA * kB) *: G.
      { move: P. rewrite /sch_prove. cbn [base]. case: (setbytes _) => [c|] // [<-]. cbn [pr_X]. by rewrite scalerA. }
      case H1: (hash_point _ _ _ _) => [h1| |] //. cbn [rbind].
      case HM: (setbytes (hm message)) => [m|] //. cbn [of_option rbind].
      case NX: (nonce_x _ _ _) => [rX| |] //. cbn [rbind].
      case H2: (hash_point _ _ _ _) => [h2| |] //. cbn [rbind]. case=> _ <-.
      have K0 : kA * kB != 0 by rewrite mulf_neq0.
      have XR : xmod ((kA * kB) *: G) = rX.
      { move: NX. rewrite /nonce_x PX. case: (_ != _) => //. case X: (setbytes _) => [c|] // [<-]. exact: x_enc. }
      exists m, (kA * kB), rX. split=> //; [|exact/eqP|].
      { exists h => //. move: HR. rewrite /hash_point scalerA. by case: (setbytes _) => [x|] // [->]. }
      cbv zeta.
      rewrite /sign_round4. cbn [sb_mul0 sb_mul1 sb_dB sb_tr sb_pk sb_kB g3_mul0 g3_mul1 g3_RPrime g3_proof g3_etaPhi g3_etaSig].
      rewrite T0. cbn [lift_err rbind]. rewrite T1. cbn [lift_err rbind]. rewrite HR. cbn [rbind]. rewrite /extract -/t3.
      have ER : h *: (kB *: G) + kPA *: (kB *: G) = pr_X pf by rewrite PX -scalerDl scalerA.
      rewrite ER.
      have -> : SProof (pr_C pf) (pr_S pf) (pr_X pf) = pf by case: (pf).
      have -> : sch_verify G enc sbytes H pf (Some (kB *: G)) (ext t3) = Ok tt.
      { exact: (proj2 (C40_complete (sc_canonical codec) P)). }
      cbn [lift_err rbind]. rewrite NX. cbn [rbind].
      set a0 := ms_share s0'. set b0 := mr_share r0''. set aa1 := ms_share s1'. set bb1 := mr_share r1''.
      set iA := kA^-1. set iB := kB^-1.
      have IA : iA * kA = 1 by rewrite mulVf. have IB : iB * kB = 1 by rewrite mulVf.
      have B0 : b0 = (phi + iA) * iB - a0 by rewrite /iA /iB -[kA^-1]div1r -[kB^-1]div1r -SUM0 [_ + b0]addrC addrK.
      have B1 : bb1 = skA * iA * (skB * iB) - aa1 by rewrite /iA /iB -[kA^-1]div1r -[kB^-1]div1r -SUM1 [_ + bb1]addrC addrK.
      have -> : b0 *: pr_X pf = (kA * phi + 1) *: G + - a0 *: pr_X pf.
      { rewrite PX !scalerA -scalerDl. congr (_ *: G). rewrite B0.
        transitivity (kA * phi * (iB * kB) + (iA * kA) * (iB * kB) + - a0 * (kA * kB)); first by vphi V; ring.
        by rewrite IA IB !mulr1. }
      rewrite H1. cbn [rbind]. rewrite (negbTE kB0) HM. cbn [of_option rbind].
      have -> : h1 + phi - h1 = phi by rewrite addrAC addrN add0r.
      set theta := b0 - phi / kB.
      have TH : theta = iA * iB - a0 by rewrite /theta B0 -/iB; vphi V; ring.
      have -> : bb1 *: G + - theta *: pk = a0 *: pk + - aa1 *: G.
      { rewrite TH joint !scalerA -!scalerDl. congr (_ *: G). rewrite B1. by vphi V; ring. }
      rewrite H2. cbn [rbind].
      set s := m * theta + rX * bb1 + _.
      have -> : (m + rX * (skA * skB)) / (kA * kB) = s.
      { rewrite invfM -/iA -/iB /s TH B1. by vphi V; ring. }
      have VAL : rX <> 0 -> s <> 0 -> ecdsa_valid G xmod pk m rX s /\ ecdsa_valid G xmod pk m rX (- s).
      { move=> NR NS.
        have E : s *: ((kA * kB) *: G) = m *: G + rX *: pk.
        { rewrite joint !scalerA -scalerDl. congr (_ *: G). rewrite /s TH B1.
          transitivity (m * (iA * kA) * (iB * kB) + rX * (skA * skB) * (iA * kA) * (iB * kB)); first by vphi V; ring.
          by rewrite IA IB !mulr1. }
        have NP : (kA * kB) *: G <> 0.
        { move/eqP. rewrite scaler_eq0 (negbTE K0) /=. by move/eqP. }
        split; split=> //; split=> //.
        - by exists ((kA * kB) *: G).
        - by move/eqP; rewrite oppr_eq0 => /eqP.
        - exists (- ((kA * kB) *: G)). split; first by (move/eqP; rewrite oppr_eq0 => /eqP). split; last by rewrite x_opp.
          by rewrite scalerN scaleNr opprK. }
      split.
      - move=> NR NS. have [V1 V2] := VAL NR NS. rewrite /normalise_s PX. case: (bit255 _ _).
        + rewrite (valid_verify V2). eexists. split; [by reflexivity|by []|by right|by []|exact: V2].
        + rewrite (valid_verify V1). eexists. split; [by reflexivity|by []|by left|by []|exact: V1].
      - move=> Z. rewrite /normalise_s.
        have ZV s' : s' = s \/ s' = - s -> ecdsa_verify G xmod pk m rX s' = false.
        { move=> C. apply/negP => /verify_valid [NR [NS _]]. case: Z => // Z. apply: NS. case: C => ->; by rewrite Z ?oppr0. }
        case: (bit255 _ _); rewrite ZV; by [|right|left].
    Qed.
  End Session.
End Props.

(** C54. [normalise_s] negates when bit 255 of the integer is set; here for the prime fields of order below 2^256. *)
Section LowS.
  Variable p : nat.
  Hypothesis p_prime : prime p.
  Hypothesis p_256 : N.lt (N.of_nat p) (N.pow 2 256).
  Local Notation int x := (N.of_nat (val (x : 'F_p))).

  Lemma val_lt (x : 'F_p) : (val x < p)%N.
  Proof. exact: leq_trans (ltn_ord x) (eq_leq (Fp_cast p_prime)). Qed.
  Lemma int_lt (x : 'F_p) : N.lt (int x) (N.of_nat p).
  Proof. have /ltP := val_lt x. move: (val x) => a. lia. Qed.
  Lemma bit255_iff (x : 'F_p) : bit255 (@fp_bytes p) x <-> N.le (N.pow 2 255) (int x).
  Proof.
    have -> : bit255 (@fp_bytes p) x = nbit (int x) 255.
    { have L : (255 < 256)%N by []. rewrite -(n_bytes_le_bit (int x) L) /bit255 /fp_bytes /bit_at.
      have [S _] := n_bytes_le_block (int x).
      rewrite nth_rev; last by rewrite S. by rewrite S. }
    have L : N.lt (int x) (N.pow 2 256) by apply: N.lt_trans (int_lt x) p_256.
    rewrite /nbit -[N.of_nat 255]/255%num. move: (int x) L => n L. split.
    - move=> T. case: (N.le_gt_cases (N.pow 2 255) n) => // B.
      have Z : N.ltb n (N.pow 2 (N.of_nat 255)) by apply/N.ltb_spec0.
      have := elimT (nbit_ltP n 255) Z 255%N (leqnn _). by rewrite /nbit -[N.of_nat 255]/255%num T.
    - move=> B. rewrite N.testbit_eqb.
      have -> : N.div n (N.pow 2 255) = 1%num; last by [].
      symmetry. apply: (N.div_unique n (N.pow 2 255) 1 (n - N.pow 2 255)%num).
      + have E : N.pow 2 256 = N.mul 2 (N.pow 2 255) by []. rewrite E in L. move: (N.pow 2 255) L B => q. lia.
      + move: (N.pow 2 255) B => q. lia.
  Qed.
  Lemma int_opp (x : 'F_p) : x != 0 -> int (- x) = N.sub (N.of_nat p) (int x).
  Proof.
    move=> X. have : (val (- x) + val x = p)%N.
    { have Z : val (x) != 0%N by []. have Z' : val (- x) != 0%N by rewrite -[val (- x) != 0%N]/(- x != 0) oppr_eq0.
      have D : (p %| val (- x) + val x)%N.
      { have : ((val (- x) + val x)%N)%:R == 0 :> 'F_p by rewrite natrD !natr_Zp addNr.
        by rewrite -(dvdn_charf (char_Fp p_prime)). }
      move: (val_lt x) (val_lt (- x)) Z Z' D. move: (val x) (val (- x)) => a b La Lb Za Zb /dvdnP [q E].
      move: E. case: q => [|[|q]].
      - rewrite mul0n => /eqP. by rewrite addn_eq0 (negbTE Zb).
      - by rewrite mul1n.
      - move=> E. have : (b + a < p + p)%N by rewrite -addSn leq_add // ltnW.
        by rewrite E addnn -mul2n ltn_pmul2r ?prime_gt0. }
    move: (val x) (val (- x)) => a b <-. rewrite Nnat.Nat2N.inj_add. lia.
  Qed.

  (** What the normalisation achieves: S is below 2^255. *)
  Theorem C54_below_2_255_partial v (s : 'F_p) : N.lt (int (normalise_s (@fp_bytes p) v s).2) (N.pow 2 255).
  Proof.
    rewrite /normalise_s. case B: (bit255 _ _); cbn [snd].
    - have L := proj1 (bit255_iff s) B. rewrite int_opp.
      + have E : N.pow 2 256 = N.mul 2 (N.pow 2 255) by []. have G0 : N.lt 0 (N.pow 2 255) by [].
        have P := p_256. rewrite E in P. have I := int_lt s. move: (N.pow 2 255) (int s) L G0 P I => q i. lia.
      + apply/eqP => Z. rewrite Z in L. have : N.lt (int 0) (N.pow 2 255) by []. move: L. lia.
    - case: (N.le_gt_cases (N.pow 2 255) (int s)) => // L. by rewrite (proj2 (bit255_iff s) L) in B.
  Qed.
  (** What it misses: every S with order / 2 < S < 2^255 is left as it is. *)
  Theorem C54_high_s_kept v (s : 'F_p) : N.lt (N.of_nat p) (N.mul 2 (int s)) -> N.lt (int s) (N.pow 2 255) ->
    normalise_s (@fp_bytes p) v s = (v, s).
  Proof.
    move=> _ L. rewrite /normalise_s. case B: (bit255 _ _) => //. have := proj1 (bit255_iff s) B. move: L. lia.
  Qed.
End LowS.

(** Non-vacuity: with any scalar codec, the one-dimensional space, constant hash functions, any transcript and any lengths, honest
    sessions exist for every digest m and all nonces whose products are not zero. *)
Section Sessions.
  Variables (F : fieldType) (sb : F -> bytes) (ssb : bytes -> option F).
  Hypothesis codec : scalar_codec sb ssb.
  Variables (lb eb : nat) (m : F).
  Hypothesis lb32 : (32 <= lb)%N.
  Hypothesis lb_eb : (lb <= eb)%N.
  Definition ex_H (_ : bytes) : bytes := sb 1.
  Definition ex_hm (_ : bytes) : bytes := sb m.
  Definition ex_shake (_ _ : bytes) (n : nat) : bytes := nseq n 0%num.
  Variable ex_ext : transcript -> bytes.
  Hypothesis ex_ext_ok : forall t, ssb (ex_ext t) <> None.
  Definition ex_gshake (_ : nat) : bytes := sb 1.
  Definition ex_enc (P : F^o) : bytes := 2%num :: sb (P * P).
  Definition ex_x (P : F^o) : F := P * P.
  Let G : F^o := 1.

  Lemma ex_decode x : ssb (sb x) = Some x. Proof. exact: (sc_roundtrip codec). Qed.
  Lemma ex_block x : block (ex_H x). Proof. exact: (sc_block codec). Qed.
  Lemma ex_xenc P c : ssb (drop 1 (ex_enc P)) = Some c -> ex_x P = c.
  Proof. rewrite /ex_enc. cbn [drop]. rewrite drop0 ex_decode. by case. Qed.
  Lemma ex_xopp P : ex_x (- P) = ex_x P. Proof. by rewrite /ex_x mulrNN. Qed.
  Lemma ex_columns sid j row : column ssb ex_shake sid j row <> None.
  Proof.
    rewrite /column. have -> : take 32 (ex_shake sid (be16 j ++ row) 64) = sb 0 by rewrite (sc_zero codec).
    have -> : take 32 (drop 32 (ex_shake sid (be16 j ++ row) 64)) = sb 0 by rewrite (sc_zero codec).
    by rewrite ex_decode.
  Qed.
  Lemma ex_gadget_ok : exists g : seq F, gadget_vector ssb ex_gshake lb = Ok g.
  Proof.
    rewrite /gadget_vector. case E: (traverse _ _) => [g|]; first by exists g.
    have [i _] := proj1 (traverse_none _ _) E. rewrite /gadget_entry /ex_gshake ex_decode. by case: (i < kappa)%N.
  Qed.
  Lemma ex_receiver so sid : exists r, new_mul_receiver ssb ex_gshake lb so sid = Ok r.
  Proof. have [g E] := ex_gadget_ok. rewrite /new_mul_receiver E. by eexists. Qed.
  Lemma ex_sender ro sid : exists r, new_mul_sender ssb ex_gshake lb ro sid = Ok r.
  Proof. have [g E] := ex_gadget_ok. rewrite /new_mul_sender E. by eexists. Qed.
  Lemma ex_hash P : hash_point ex_enc ssb ex_H P = Ok 1.
  Proof. by rewrite /hash_point /ex_H ex_decode. Qed.

  Lemma session_exists so ro skA skB (pk : F^o) message aseed bseed kB kPA nonce phi ah0 ah1 rnd0 gamma0 rnd1 gamma1 :
    seeds_ok so ro -> kB != 0 -> 1 + kPA != 0 ->
    exists b1 m2 a2 m3,
      sign_round2 G sb ssb ex_H ex_shake ex_ext ex_gshake lb eb (sign_new_bob so skB pk) aseed bseed kB rnd0 gamma0 rnd1 gamma1 = Ok (b1, m2) /\
      sign_round3 G ex_enc sb ssb ex_H ex_hm ex_shake ex_ext ex_gshake lb eb
        (sign_round1 (sign_new_alice ro skA pk) aseed).1 message m2 kPA nonce phi ah0 ah1 = Ok (a2, m3) /\
      sb_pk b1 = pk.
  Proof.
    move=> seeds KB KA. rewrite /sign_round2 /extract. cbn [sign_new_bob sb_tr sb_seeds sb_sk sb_pk].
    set t0 := rcons _ (TAppend "session_id_bob" bseed). set t1 := rcons t0 _. set t2 := rcons t1 _.
    have [r0 N0] := ex_receiver so (ex_ext t1). have [r1 N1] := ex_receiver so (ex_ext t2).
    have [s0 S0] := ex_sender ro (ex_ext t1). have [s1 S1] := ex_sender ro (ex_ext t2).
    rewrite N0. cbn [lift_err rbind]. rewrite N1. cbn [lift_err rbind]. rewrite (negbTE KB).
    have [r0' [k0 [M0 _]]] := C52_round1_succeeds ex_H ex_shake eb codec lb32 (1 / kB) rnd0 gamma0 seeds S0 N0.
    have [r1' [k1 [M1 _]]] := C52_round1_succeeds ex_H ex_shake eb codec lb32 (skB * (1 / kB)) rnd1 gamma1 seeds S1 N1.
    rewrite M0. cbn [lift_err rbind]. rewrite M1. cbn [lift_err rbind fst snd].
    do 2 eexists.
    have [s0' [q0 Q0]] := C52_completes codec ex_block lb32 (phi + 1 / (1 + kPA)) ah0 seeds S0 N0 M0 (@ex_columns _) ex_ext_ok.
    have [s1' [q1 Q1]] := C52_completes codec ex_block lb32 (skA * (1 / (1 + kPA))) ah1 seeds S1 N1 M1 (@ex_columns _) ex_ext_ok.
    do 2 eexists. split; first by reflexivity. rewrite /sign_round3 /extract.
    cbn [sign_round1 sign_new_alice fst snd sa_tr sa_seeds sa_sk sa_pk g2_seed g2_DB g2_kos0 g2_kos1].
    rewrite -/t0 -/t1 -/t2 S0. cbn [lift_err rbind]. rewrite S1. cbn [lift_err rbind]. rewrite ex_hash. cbn [rbind].
    rewrite /sch_prove. cbn [base]. rewrite [ssb (ex_H _)]ex_decode. cbn [lift_err rbind pr_X].
    rewrite (negbTE KA) Q0. cbn [lift_err rbind fst snd]. rewrite Q1. cbn [lift_err rbind fst snd]. rewrite ex_hash. cbn [rbind].
    rewrite [ssb (ex_hm _)]ex_decode. cbn [of_option rbind].
    have NXE P : nonce_x ex_enc ssb P = Ok (P * P).
    { rewrite /nonce_x /ex_enc. have [E _] := sc_block codec (P * P). cbn [size drop]. by rewrite E drop0 ex_decode. }
    rewrite NXE. cbn [rbind]. rewrite ex_hash. cbn [rbind]. split; first by reflexivity. by [].
  Qed.
End Sessions.

(** C54 refuted: for every prime order between 2^255 and 2^256 - 2 (the order of secp256k1 is one) some honest session
    returns an S above half the order. *)
Theorem C54_refuted (p lb eb : nat) : (32 <= lb)%N -> (lb <= eb)%N -> prime p -> N.lt (N.pow 2 255) (N.of_nat p) -> N.lt (N.of_nat p) (N.sub (N.pow 2 256) 2) ->
  exists (ext : transcript -> bytes) (hm : bytes -> bytes) so ro skA skB (pk : ('F_p)^o) message aseed bseed kB kPA nonce phi ah0 ah1
         rnd0 gamma0 rnd1 gamma1 b1 m2 a2 m3 sig,
    let sb := @fp_bytes p in let ssb := @fp_setbytes p in let H := ex_H sb in let G : ('F_p)^o := 1 in
    [/\ seeds_ok so ro, pk = (skA * skB) *: G,
        sign_round2 G sb ssb H ex_shake ext (ex_gshake sb) lb eb (sign_new_bob so skB pk) aseed bseed kB rnd0 gamma0 rnd1 gamma1 = Ok (b1, m2),
        sign_round3 G (ex_enc sb) sb ssb H hm ex_shake ext (ex_gshake sb) lb eb
          (sign_round1 (sign_new_alice ro skA pk) aseed).1 message m2 kPA nonce phi ah0 ah1 = Ok (a2, m3) &
        sign_round4 G (ex_enc sb) sb ssb H hm ex_shake ext lb (@ex_x _) b1 message m3 = Ok sig /\
        N.lt (N.of_nat p) (N.mul 2 (N.of_nat (val (es_S sig))))].
Proof.
  move=> LB LE Pp L1 L2. have P256 : N.lt (N.of_nat p) (N.pow 2 256).
  { move: L2. move: (N.pow 2 256) => q. lia. }
  have codec := fp_codec Pp (N.lt_le_incl _ _ P256).
  have [so [ro [seeds _]]] := C51_seeds_exist.
  have [s VS] : exists s : 'F_p, N.of_nat (val s) = N.sub (N.pow 2 255) 1.
  { exists (N.to_nat (N.sub (N.pow 2 255) 1))%:R. have L : (N.to_nat (N.sub (N.pow 2 255) 1) < p)%N.
    { apply/ltP. move: L1. move: (N.pow 2 255) => q. lia. }
    move: (N.sub (N.pow 2 255) 1) L => q L. rewrite (val_Fp_nat Pp (N.to_nat q) : val _ = _) modn_small //.
    exact: Nnat.N2Nat.id. }
  pose ext (t : transcript) := @fp_bytes p 1.
  have EX t : @fp_setbytes p (ext t) <> None by rewrite /ext (sc_roundtrip codec).
  have K0 : (1 : 'F_p) != 0 by exact: oner_neq0. have K1 : (1 + 0 : 'F_p) != 0 by rewrite addr0.
  pose z (_ : nat) := 0%num.
  pose pk : ('F_p)^o := (1 * 1) *: (1 : ('F_p)^o).
  have [b1 [m2 [a2 [m3 [R2 [R3 PK]]]]]] :=
    @session_exists _ _ _ codec lb eb (s - 1) LB ext EX so ro 1 1 pk [::] [::] [::] 1 0 0 0 0 0 z z z z seeds K0 K1.
  have NG : (1 : ('F_p)^o) <> 0 by apply/eqP; exact: oner_neq0.
  have [m [k [rX [HM [h Hh Hk] KN XK [OK _]]]]] := C53_correct codec LB LE (@ex_xenc _ _ _ codec) (@ex_xopp _) NG seeds (erefl pk) R2 R3.
  have {HM} Em : m = s - 1 by move: HM; rewrite /ex_hm (sc_roundtrip codec); case.
  have {Hh} Eh : h = 1 by move: Hh; rewrite /ex_H (sc_roundtrip codec); case.
  have {Hk} Ek : k = 1 by rewrite Hk Eh addr0 mulr1.
  have {XK} Er : rX = 1 by rewrite -XK Ek /ex_x scale1r mulr1.
  have Es : (m + rX * (1 * 1)) / k = s by rewrite Em Er Ek !mulr1 divr1 subrK.
  rewrite Es Er in OK.
  have S0 : s <> 0.
  { move=> E. move: VS. rewrite E. by []. }
  have [sig [R4 _ _ NS _]] := OK (elimN eqP K0) S0.
  exists ext, (ex_hm (@fp_bytes p) (s - 1)), so, ro, 1, 1, pk, [::], [::], [::], 1, 0, 0, 0, 0, 0, z, z, z, z, b1, m2, a2, m3, sig.
  cbv zeta. split; [exact: seeds|by []|exact: R2|exact: R3|]. split; first exact: R4.
  have HI : N.lt (N.of_nat p) (N.mul 2 (N.of_nat (val s))).
  { rewrite VS. move: L2. have -> : N.pow 2 256 = N.mul 2 (N.pow 2 255) by []. move: (N.pow 2 255) => q. lia. }
  have LO : N.lt (N.of_nat (val s)) (N.pow 2 255).
  { rewrite VS. by []. }
  rewrite (C54_high_s_kept Pp P256 _ HI LO) in NS. by case: NS => _ ->.
Qed.

(** A complete successful session in 'F_7 with m = 2, sk = 3 * 5, k = 4 * 2. *)
Example C53_run_exists (lb eb : nat) : (32 <= lb)%N -> (lb <= eb)%N ->
  exists (so : sender_output) (ro : receiver_output) b1 m2 a2 m3 sig,
    let sb := @fp_bytes 7 in let ssb := @fp_setbytes 7 in let H := ex_H sb in let hm := ex_hm sb 2%:R in
    let ext := fun _ : transcript => sb 1 in let G : ('F_7)^o := 1 in let pk : ('F_7)^o := (3%:R * 5%:R) *: G in
    let z := fun _ : nat => 0%num in
    [/\ seeds_ok so ro,
        sign_round2 G sb ssb H ex_shake ext (ex_gshake sb) lb eb (sign_new_bob so 5%:R pk) [::] [::] 2%:R z z z z = Ok (b1, m2),
        sign_round3 G (ex_enc sb) sb ssb H hm ex_shake ext (ex_gshake sb) lb eb
          (sign_round1 (sign_new_alice ro 3%:R pk) [::]).1 [::] m2 3%:R 1 1 1 1 = Ok (a2, m3) &
        sign_round4 G (ex_enc sb) sb ssb H hm ex_shake ext lb (@ex_x _) b1 [::] m3 = Ok sig].
Proof.
  move=> LB LE. have P7 : prime 7 by []. have LP : N.le (N.of_nat 7) (N.pow 2 256) by [].
  have codec := fp_codec P7 LP.
  have [so [ro [seeds _]]] := C51_seeds_exist.
  have EX (t : transcript) : @fp_setbytes 7 (@fp_bytes 7 1) <> None by rewrite (sc_roundtrip codec).
  have K0 : (2%:R : 'F_7) != 0 by []. have K1 : (1 + 3%:R : 'F_7) != 0 by [].
  have [b1 [m2 [a2 [m3 [R2 [R3 PK]]]]]] :=
    @session_exists _ _ _ codec lb eb 2%:R LB (fun _ => @fp_bytes 7 1) EX so ro 3%:R 5%:R ((3%:R * 5%:R) *: (1 : ('F_7)^o))
      [::] [::] [::] 2%:R 3%:R 1 1 1 1 (fun _ => 0%num) (fun _ => 0%num) (fun _ => 0%num) (fun _ => 0%num) seeds K0 K1.
  have NG : (1 : ('F_7)^o) <> 0 by [].
  have [m [k [rX [HM [h Hh Hk] KN XK [OK _]]]]] := C53_correct codec LB LE (@ex_xenc _ _ _ codec) (@ex_xopp _) NG seeds (erefl _) R2 R3.
  have {HM} Em : m = 2%:R by move: HM; rewrite /ex_hm (sc_roundtrip codec); case.
  have {Hh} Eh : h = 1 by move: Hh; rewrite /ex_H (sc_roundtrip codec); case.
  have Ek : k = (1 + 3%:R) * 2%:R by rewrite Hk Eh.
  have Er : rX = k * k by rewrite -XK /ex_x -[k *: 1]/(k * 1) mulr1.
  have [sig [R4 _ _ _ _]] : exists sig, [/\ _ = Ok sig, _, _, _ & _] := OK (ltac:(by rewrite Er Ek)) (ltac:(by rewrite Er Em Ek)).
  exists so, ro, b1, m2, a2, m3, sig. cbv zeta. split; [exact: seeds|exact: R2|exact: R3|exact: R4].
Qed.
