(** C49, C55: key generation, dealing and refreshing; C53 for every key they produce. *)
From mathcomp Require Import all_ssreflect all_algebra.
From Coq Require Import BinNat String.
From Verif Require Import AlgBase ByteVec BinFieldProps SchnorrModel SchnorrProps SimplestOtModel SimplestOtProofs SimplestOtProps KosModel KosProofs KosProps ScalarCodec
  MultiplyModel MultiplyProofs MultiplyProps DklsSignModel DklsSignProps DklsKeyModel.
Delimit Scope nat_scope with N.
Delimit Scope N_scope with num.
Set Implicit Arguments.
Unset Strict Implicit.
Unset Printing Implicit Defensive.
Import GRing.Theory.
Local Open Scope ring_scope.

(** Specification: the outputs of the two parties form one key: the same public key, which is the product of the two
    shares times the generator, and matching seeds for the OT extension. *)
Definition one_key (F : fieldType) (V : lmodType F) (G : V) (ks : alice_output V * bob_output V) : Prop :=
  [/\ ao_pk ks.1 = (ao_sk ks.1 * bo_sk ks.2) *: G, bo_pk ks.2 = ao_pk ks.1 & seeds_ok (bo_seeds ks.2) (ao_seeds ks.1)].

Section Props.
  Variables (F : fieldType) (V : lmodType F) (G : V).
  Variables (enc : V -> bytes) (dec : bytes -> option V) (sbytes : F -> bytes) (setbytes : bytes -> option F).
  Variables (H : bytes -> bytes) (ext : transcript -> bytes).
  Hypothesis canonical : forall b c, setbytes b = Some c -> sbytes c = b.
  Hypothesis dec_sound : forall P Q, dec (enc P) = Some Q -> Q = P.
  Hypothesis H_size : forall m, size (H m) = 32%N.

  Local Notation dkg := (dkg_run G enc dec sbytes setbytes H ext).
  Local Notation refresh := (refresh_run G enc dec sbytes setbytes H ext).

  Theorem C49_dkg_one_key bseed aseed rnd skA skB nA nB b k a ks : (forall i, is_byte (rnd i)) ->
    dkg bseed aseed rnd skA skB nA nB b k a = Ok ks ->
    one_key G ks /\ ao_sk ks.1 = skA /\ bo_sk ks.2 = skB.
  Proof.
    move=> RB. rewrite /dkg_run. cbn [dkg_round1]. rewrite /dkg_round2 /extract.
    set t0 := rcons _ (TAppend "session_id_alice" aseed). set t1 := rcons t0 _. set t2 := rcons t1 _.
    case NR: (new_receiver _ _ _ _) => [r0| |] //. cbn [lift_err rbind].
    case PC: (prove_commit _ _ _ _ _ _ _ _ _) => [[pfA com]| |] //. cbn [lift_err rbind fst snd].
    rewrite /dkg_round3 /extract. cbn [d2_seed d2_commitment]. rewrite -/t0 -/t1 -/t2. set t3 := rcons t2 _.
    case NS: (new_sender _ _ _) => [s0| |] //. cbn [lift_err rbind].
    case PB: (sch_prove _ _ _ _ _ _ _ _) => [pfB| |] //. cbn [lift_err rbind].
    rewrite /dkg_round4 /extract. cbn [da_tr da_receiver da_sk da_proof]. rewrite -/t3.
    case VB: (sch_verify _ _ _ _ _ _ _) => [[]| |] //. cbn [lift_err rbind].
    rewrite /dkg_round5. cbn [db_commitment db_salt db_sk db_sender db_tr].
    case DA: (decommit_verify _ _ _ _ _ _ _ _) => [[]| |] //. cbn [lift_err rbind].
    case O1: (ot_round1 _ _ _ _ _ _ _ _) => [[s1 pf]| |] //. cbn [lift_err rbind fst snd].
    rewrite /dkg_finish. cbn [da_receiver db_sender da_pk da_sk db_pk db_sk].
    case O2: (ot_round2 _ _ _ _ _ _ _ _) => [[r1 msgs]| |] //. cbn [rbind].
    case O3: (ot_round3 _ _ _ _ _ _) => [[s2 chal]| |] //. cbn [rbind].
    case O4: (ot_round4 _ _ _) => [[r2 resp]| |] //. cbn [rbind].
    case O5: (ot_round5 _ _ _) => [opn| |] //. cbn [rbind].
    case O6: (ot_round6 _ _ _) => [[]| |] //. cbn [rbind lift_err]. case=> <-.
    split; last by []. split; cbn [fst snd ao_pk ao_sk bo_pk bo_sk ao_seeds bo_seeds].
    - have [-> _] := C40_complete canonical PB. cbn [base]. by rewrite scalerA.
    - have [-> _] := C40_complete canonical PB. move: PC. rewrite /prove_commit.
      case PA: (sch_prove _ _ _ _ _ _ _ _) => [q| |] //. cbn [rbind]. case=> <- _.
      have [-> _] := C40_complete canonical PA. by rewrite !scalerA mulrC.
    - apply: (@seed_ot_gives_seeds F V G enc dec sbytes setbytes H ext (ext t1) rnd b k a) => //.
      rewrite /run_simplest_ot -/kappa NR. cbn [rbind]. rewrite NS. cbn [rbind].
      rewrite /ot_rounds O1. cbn [rbind]. rewrite O2. cbn [rbind]. rewrite O3. cbn [rbind]. rewrite O4. cbn [rbind].
      rewrite O5. cbn [rbind]. by rewrite O6.
  Qed.

  (** the pad keys are two 32-byte arrays per instance *)
  Theorem C49_dealer_one_key rnd skA skB keys : (forall i, is_byte (rnd i)) ->
    (forall i, size (keys i).1 = 32%N /\ size (keys i).2 = 32%N) ->
    exists2 ks, deal G rnd skA skB keys = Ok ks & one_key G ks /\ ao_sk ks.1 = skA /\ bo_sk ks.2 = skB.
  Proof.
    move=> RB KS. rewrite /deal /new_receiver. cbn [kappa].
    have -> : (256 %% 8 != 0)%N = false by []. cbn [lift_err rbind r_out ro_bits ro_packed].
    eexists; first by reflexivity. split; last by []. split; cbn [fst snd ao_pk ao_sk bo_pk bo_sk ao_seeds bo_seeds]; [by []|by []|].
    have E256 : kappa = 256%N by [].
    have BT i : (i < 256)%N -> nth false (init_choice kappa (mkseq rnd (256 %/ 8))) i = bit_at (mkseq rnd (256 %/ 8)) i.
    { move=> L. rewrite /init_choice nth_mkseq ?E256 //. by rewrite extract_bitE. }
    split.
    - split; cbn [ro_bits ro_keys]; rewrite ?size_mkseq //.
      move=> i L. rewrite !nth_mkseq //.
    - cbn [ro_packed]. split; first by rewrite size_mkseq. by apply/allP => x /mapP [i _ ->].
    - exact: BT.
  Qed.

  (** One refresh: the multiplier k is not zero, the shares become skA / k and skB * k, public keys stay. *)
  Theorem C55_refresh_keeps_key ks aseed bseed rnd b k a ks' : (forall i, is_byte (rnd i)) ->
    one_key G ks -> refresh ks aseed bseed rnd b k a = Ok ks' ->
    [/\ one_key G ks', ao_pk ks'.1 = ao_pk ks.1, ao_sk ks'.1 * bo_sk ks'.2 = ao_sk ks.1 * bo_sk ks.2 &
        exists m, [/\ m != 0, ao_sk ks'.1 = ao_sk ks.1 / m & bo_sk ks'.2 = bo_sk ks.2 * m]].
  Proof.
    move=> RB [K1 K2 K3]. rewrite /refresh_run. cbn [ref_round1]. rewrite /ref_round2 /extract.
    set t0 := rcons _ (TAppend "bob refresh seed" _). set t1 := rcons t0 _. set t2 := rcons t1 _.
    case M: (setbytes (ext t1)) => [m|] //.
    case NS: (new_sender _ _ _) => [s0| |] //. cbn [lift_err rbind].
    case O1: (ot_round1 _ _ _ _ _ _ _ _) => [[s1 pf]| |] //. cbn [lift_err rbind fst snd].
    rewrite /ref_round3 /extract. cbn [fst snd]. rewrite -/t0 -/t1 -/t2 M.
    case: (m =P 0) => [//|/eqP M0].
    case NR: (new_receiver _ _ _ _) => [r0| |] //. cbn [lift_err rbind].
    case O2: (ot_round2 _ _ _ _ _ _ _ _) => [[r1 msgs]| |] //. cbn [lift_err rbind fst snd].
    rewrite /ref_finish. cbn [rb_sender ra_receiver ra_pk ra_sk rb_pk rb_sk].
    case O3: (ot_round3 _ _ _ _ _ _) => [[s2 chal]| |] //. cbn [rbind].
    case O4: (ot_round4 _ _ _) => [[r2 resp]| |] //. cbn [rbind].
    case O5: (ot_round5 _ _ _) => [opn| |] //. cbn [rbind].
    case O6: (ot_round6 _ _ _) => [[]| |] //. cbn [rbind lift_err]. case=> <-.
    rewrite /one_key. cbn [fst snd ao_pk ao_sk bo_pk bo_sk ao_seeds bo_seeds].
    have PR : ao_sk ks.1 / m * (bo_sk ks.2 * m) = ao_sk ks.1 * bo_sk ks.2 by rewrite mulrA mulrAC mulfVK.
    split=> //; last by exists m.
    split; [by rewrite PR|by []|].
    apply: (@seed_ot_gives_seeds F V G enc dec sbytes setbytes H ext (ext t2) rnd b k a) => //.
    rewrite /run_simplest_ot -/kappa NR. cbn [rbind]. rewrite NS. cbn [rbind].
    rewrite /ot_rounds O1. cbn [rbind]. rewrite O2. cbn [rbind]. rewrite O3. cbn [rbind]. rewrite O4. cbn [rbind].
    rewrite O5. cbn [rbind]. by rewrite O6.
  Qed.

  (** Any history: a key generated or dealt, then refreshed any number of times; [history pk sk ks] holds for the
      current outputs, with pk and sk the public key and product of shares at the start. *)
  Inductive history : V -> F -> alice_output V * bob_output V -> Prop :=
  | HDkg bseed aseed rnd skA skB nA nB b k a ks : (forall i, is_byte (rnd i)) ->
      dkg bseed aseed rnd skA skB nA nB b k a = Ok ks -> history (ao_pk ks.1) (skA * skB) ks
  | HDeal rnd skA skB keys ks : (forall i, is_byte (rnd i)) -> (forall i, size (keys i).1 = 32%N /\ size (keys i).2 = 32%N) ->
      deal G rnd skA skB keys = Ok ks -> history (ao_pk ks.1) (skA * skB) ks
  | HRefresh pk sk ks aseed bseed rnd b k a ks' : history pk sk ks -> (forall i, is_byte (rnd i)) ->
      refresh ks aseed bseed rnd b k a = Ok ks' -> history pk sk ks'.

  Theorem C55_history pk sk ks : history pk sk ks ->
    [/\ one_key G ks, pk = sk *: G, ao_pk ks.1 = pk, bo_pk ks.2 = pk & ao_sk ks.1 * bo_sk ks.2 = sk].
  Proof.
    elim=> {pk sk ks} [bseed aseed rnd skA skB nA nB b k a ks RB E|rnd skA skB keys ks RB KS E|pk sk ks aseed bseed rnd b k a ks' _ [K P A B S] RB E].
    - have [[K1 K2 K3] [EA EB]] := C49_dkg_one_key RB E. split=> //; [by rewrite K1 EA EB|by rewrite EA EB].
    - have [ks' E' [[K1 K2 K3] [EA EB]]] := C49_dealer_one_key skA skB RB KS. rewrite E in E'. case: E' => Ek. subst ks'.
      split=> //; [by rewrite K1 EA EB|by rewrite EA EB].
    - have [[K1' K2' K3'] PK SK _] := C55_refresh_keeps_key RB K E. split=> //; [by rewrite PK|by rewrite K2' PK|by rewrite SK].
  Qed.

  (** The shares do change: a refresh with multiplier k leaves a non-zero share alone only if k = 1. *)
  Theorem C55_shares_change (skA skB m : F) : m != 0 ->
    (skA / m = skA <-> skA = 0 \/ m = 1) /\ (skB * m = skB <-> skB = 0 \/ m = 1).
  Proof.
    have fix_iff (x y : F) : x * y = x <-> x = 0 \/ y = 1.
    { split; last by case=> ->; rewrite ?mul0r ?mulr1.
      move/eqP. rewrite -subr_eq0 -{2}[x]mulr1 -mulrBr mulf_eq0 subr_eq0 => /orP [/eqP ->|/eqP ->]; by [left|right]. }
    move=> M0. split; last exact: fix_iff. rewrite fix_iff. split; case=> E; [by left| |by left|by right; rewrite E invr1].
    right. by rewrite -[m]invrK E invr1.
  Qed.

  (** Key generation completes when every digest decodes to a scalar (a digest at or above the group order is an
      error in the code) and every point sent decodes. *)
  Section Completes.
    Hypothesis digests_decode : forall m, setbytes (H m) <> None.
    Hypothesis points_decode : forall P, dec (enc P) <> None.
    Lemma proves sid x k : exists pf, sch_prove G enc setbytes H None sid x k = Ok pf.
    Proof. rewrite /sch_prove. case E: (setbytes _) => [c|]; first by eexists. by have := digests_decode E. Qed.

    Theorem C49_dkg_completes bseed aseed rnd skA skB nA nB b k a : exists ks, dkg bseed aseed rnd skA skB nA nB b k a = Ok ks.
    Proof.
      rewrite /dkg_run. cbn [dkg_round1]. rewrite /dkg_round2 /extract.
      set t0 := rcons _ (TAppend "session_id_alice" aseed). set t1 := rcons t0 _. set t2 := rcons t1 _.
      have [_ [_ [_ R]]] := C50_outcomes G ext canonical dec_sound H_size kappa (ext t1) rnd b k a.
      have [||so [ro]] := R erefl; [exact: digests_decode|by move=> i _; exact: points_decode|].
      rewrite /run_simplest_ot.
      case NR: (new_receiver _ _ _ _) => [r0| |] //. cbn [lift_err rbind].
      case NS: (new_sender _ _ _) => [s0| |] //. cbn [lift_err rbind].
      rewrite /ot_rounds.
      case O1: (ot_round1 _ _ _ _ _ _ _ _) => [[s1 pf]| |] //. cbn [lift_err rbind fst snd].
      case O2: (ot_round2 _ _ _ _ _ _ _ _) => [[r1 msgs]| |] //. cbn [rbind].
      case O3: (ot_round3 _ _ _ _ _ _) => [[s2 chal]| |] //. cbn [rbind].
      case O4: (ot_round4 _ _ _) => [[r2 resp]| |] //. cbn [rbind].
      case O5: (ot_round5 _ _ _) => [opn| |] //. cbn [rbind].
      case O6: (ot_round6 _ _ _) => [[]| |] // _.
      have [pfA PA] := proves (ext t2) skA nA. have [XA VA] := C40_complete canonical PA.
      rewrite /prove_commit PA. cbn [rbind lift_err fst snd].
      rewrite /dkg_round3 /extract. cbn [d2_seed d2_commitment]. rewrite -/t0 -/t1 -/t2. set t3 := rcons t2 _.
      rewrite NS. cbn [lift_err rbind].
      have [pfB PB] := proves (ext t3) skB nB. have [XB VB] := C40_complete canonical PB.
      rewrite PB. cbn [rbind lift_err].
      rewrite /dkg_round4 /extract. cbn [da_tr da_receiver da_sk da_proof]. rewrite -/t3 VB. cbn [lift_err rbind].
      rewrite /dkg_round5 /decommit_verify. cbn [db_commitment db_salt db_sk db_sender db_tr].
      rewrite eqxx VA. cbn [negb lift_err rbind]. rewrite O1. cbn [lift_err rbind fst snd].
      rewrite /dkg_finish. cbn [da_receiver db_sender da_pk da_sk db_pk db_sk].
      rewrite O2. cbn [rbind]. rewrite O3. cbn [rbind]. rewrite O4. cbn [rbind].
      rewrite O5. cbn [rbind]. rewrite O6. cbn [rbind lift_err]. by eexists.
    Qed.

    (** A refresh completes exactly if moreover the multiplier drawn from the transcript decodes and is not zero. *)
    Theorem C55_refresh_completes ks (aseed bseed : F) rnd b k a :
      let mult := setbytes (ext (rcons (rcons (rcons ref_start (TAppend "alice refresh seed" (sbytes aseed)))
                                    (TAppend "bob refresh seed" (sbytes bseed))) (TExtract "secret key share multiplier" 32))) in
      (exists ks', refresh ks aseed bseed rnd b k a = Ok ks') <-> exists2 m, mult = Some m & m != 0.
    Proof.
      cbv zeta. rewrite /refresh_run. cbn [ref_round1]. rewrite /ref_round2 /extract.
      set t0 := rcons _ (TAppend "bob refresh seed" _). set t1 := rcons t0 _. set t2 := rcons t1 _.
      case M: (setbytes (ext t1)) => [m|]; last by split; [case|case].
      have [_ [_ [_ R]]] := C50_outcomes G ext canonical dec_sound H_size kappa (ext t2) rnd b k a.
      have [||so [ro]] := R erefl; [exact: digests_decode|by move=> i _; exact: points_decode|].
      rewrite /run_simplest_ot.
      case NR: (new_receiver _ _ _ _) => [r0| |] //. cbn [lift_err rbind].
      case NS: (new_sender _ _ _) => [s0| |] //. cbn [lift_err rbind].
      rewrite /ot_rounds.
      case O1: (ot_round1 _ _ _ _ _ _ _ _) => [[s1 pf]| |] //. cbn [lift_err rbind fst snd].
      case O2: (ot_round2 _ _ _ _ _ _ _ _) => [[r1 msgs]| |] //. cbn [rbind].
      case O3: (ot_round3 _ _ _ _ _ _) => [[s2 chal]| |] //. cbn [rbind].
      case O4: (ot_round4 _ _ _) => [[r2 resp]| |] //. cbn [rbind].
      case O5: (ot_round5 _ _ _) => [opn| |] //. cbn [rbind].
      case O6: (ot_round6 _ _ _) => [[]| |] // _.
      rewrite /ref_round3 /extract. cbn [fst snd]. rewrite -/t0 -/t1 -/t2 M NR.
      have [E|M0] := eqVneq m 0; first by split; [case|case=> m' [<-]; rewrite E eqxx].
      cbn [lift_err rbind]. rewrite O2. cbn [lift_err rbind fst snd].
      rewrite /ref_finish. cbn [rb_sender ra_receiver ra_pk ra_sk rb_pk rb_sk].
      rewrite O3. cbn [rbind]. rewrite O4. cbn [rbind].
      rewrite O5. cbn [rbind]. rewrite O6. cbn [rbind lift_err]. split=> _; [by exists m|by eexists].
    Qed.
  End Completes.

  (** Bob goes on in round 5 only with a proof that opens the commitment he received before revealing his own key. *)
  Theorem C49_commitment_checked (bob : dkg_bob V) pf b k r : dkg_round5 G enc sbytes setbytes H ext bob pf b k = Ok r ->
    H (sbytes (pr_C pf) ++ sbytes (pr_S pf)) = db_commitment bob /\
    sch_verify G enc sbytes H pf None (db_salt bob) = Ok tt.
  Proof.
    rewrite /dkg_round5 /decommit_verify. case: eqP => //. case: (sch_verify _ _ _ _ _ _ _) => [[]| |] //.
  Qed.
  (** Alice goes on in round 4 only if Bob's proof verifies. *)
  Theorem C49_proof_checked (al : dkg_alice V) pf r : dkg_round4 G enc sbytes H ext al pf = Ok r ->
    exists sid, sch_verify G enc sbytes H pf None sid = Ok tt.
  Proof. rewrite /dkg_round4 /extract. case E: (sch_verify _ _ _ _ _ _ _) => [[]| |] // _. by eexists; exact: E. Qed.

  (** C68 (refuted): nothing rejects the point at infinity. A Bob with key share 0 makes Alice accept it as joint key. *)
  Theorem C68_zero_key_accepted (al : dkg_alice V) nB pf sid : sid = (extract ext (da_tr al) "salt for bob schnorr").2 ->
    sch_prove G enc setbytes H None sid 0 nB = Ok pf ->
    exists al', dkg_round4 G enc sbytes H ext al pf = Ok (al', da_proof al) /\ da_pk al' = 0.
  Proof.
    move=> ES P. have [X VE] := C40_complete canonical P. rewrite /dkg_round4. move: ES. rewrite /extract. cbn [snd].
    move=> E. rewrite -E VE. cbn [lift_err rbind]. eexists. split; first by reflexivity.
    cbn [da_pk]. by rewrite X scale0r scaler0.
  Qed.
End Props.

(** C53 for every key of any history. *)
Section SignAfterHistory.
  Variables (F : fieldType) (V : lmodType F) (G : V).
  Variables (enc : V -> bytes) (dec : bytes -> option V) (sbytes : F -> bytes) (setbytes : bytes -> option F).
  Variables (H hm : bytes -> bytes) (shake : bytes -> bytes -> nat -> bytes) (ext : transcript -> bytes).
  Variables (gshake : nat -> bytes) (lb eb : nat) (xmod : V -> F).
  Hypothesis dec_sound : forall P Q, dec (enc P) = Some Q -> Q = P.
  Hypothesis H_size : forall m, size (H m) = 32%N.
  Hypothesis codec : scalar_codec sbytes setbytes.
  Hypothesis lb32 : (32 <= lb)%N.
  Hypothesis lb_eb : (lb <= eb)%N.
  Hypothesis x_enc : forall P c, setbytes (drop 1 (enc P)) = Some c -> xmod P = c.
  Hypothesis x_opp : forall P, xmod (- P) = xmod P.
  Hypothesis G_nonzero : G <> 0.

  Theorem C55_refreshed_keys_sign pk sk ks message aseed bseed kB kPA nonce phi ah0 ah1 rnd0 gamma0 rnd1 gamma1 b1 m2 a2 m3 :
    history G enc dec sbytes setbytes H ext pk sk ks ->
    sign_round2 G sbytes setbytes H shake ext gshake lb eb (sign_new_bob (bo_seeds ks.2) (bo_sk ks.2) (bo_pk ks.2))
      aseed bseed kB rnd0 gamma0 rnd1 gamma1 = Ok (b1, m2) ->
    sign_round3 G enc sbytes setbytes H hm shake ext gshake lb eb
      (sign_round1 (sign_new_alice (ao_seeds ks.1) (ao_sk ks.1) (ao_pk ks.1)) aseed).1 message m2 kPA nonce phi ah0 ah1 = Ok (a2, m3) ->
    exists m k, setbytes (hm message) = Some m /\ k <> 0 /\
      (xmod (k *: G) <> 0 -> m + xmod (k *: G) * sk <> 0 ->
       exists2 sig, sign_round4 G enc sbytes setbytes H hm shake ext lb xmod b1 message m3 = Ok sig &
                    ecdsa_valid G xmod pk m (es_R sig) (es_S sig)).
  Proof.
    move=> Hh R2 R3. have [[K1 K2 K3] P A B S] := C55_history (sc_canonical codec) dec_sound H_size Hh.
    rewrite A in R3. rewrite B in R2. have J : pk = (ao_sk ks.1 * bo_sk ks.2) *: G by rewrite S P.
    have [m [k [rX [HM _ KN XK [OK _]]]]] := C53_correct codec lb32 lb_eb x_enc x_opp G_nonzero K3 J R2 R3.
    exists m, k. do 2 split=> //. rewrite XK => NR NS.
    have [|sig [R4 _ _ _ VV]] := OK NR; last by exists sig.
    rewrite S. move/eqP. by rewrite mulf_eq0 invr_eq0 => /orP [/eqP|/eqP].
  Qed.
End SignAfterHistory.

(** Non-vacuity: over a prime field with its 32-byte encoding, a key is generated and refreshed twice; both shares
    change. *)
Section KeyExample.
  Variables (F : fieldType) (sb : F -> bytes) (ssb : bytes -> option F).
  Hypothesis codec : scalar_codec sb ssb.
  Variables (m : F).
  Hypothesis m0 : m != 0.
  Let eH (_ : bytes) : bytes := sb m.
  Let eext (_ : transcript) : bytes := sb m.
  Lemma key_run_exists skA skB rnd nA nB b k a : exists ks ks' ks'' : alice_output [lmodType F of F^o] * bob_output [lmodType F of F^o],
    let V := [lmodType F of F^o] in
    [/\ dkg_run (1 : V) sb ssb sb ssb eH eext [:: 1%num] [:: 2%num] rnd skA skB nA nB b k a = Ok ks,
        refresh_run (1 : V) sb ssb sb ssb eH eext ks 3%:R 4%:R rnd b k a = Ok ks' &
        refresh_run (1 : V) sb ssb sb ssb eH eext ks' 3%:R 4%:R rnd b k a = Ok ks''].
  Proof.
    have R x : ssb (sb x) = Some x by exact: (sc_roundtrip codec).
    have DS (P Q : [lmodType F of F^o]) : ssb (sb P) = Some Q -> Q = P by rewrite R => -[].
    have HS x : size (eH x) = 32%N by have [? _] := sc_block codec m.
    have DD x : ssb (eH x) <> None by rewrite /eH R.
    have PD (P : [lmodType F of F^o]) : ssb (sb P) <> None by rewrite R.
    have [ks E1] := @C49_dkg_completes F [lmodType F of F^o] 1 sb ssb sb ssb eH eext (sc_canonical codec) DS HS DD PD [:: 1%num] [:: 2%num] rnd skA skB nA nB b k a.
    have RC K := @C55_refresh_completes F [lmodType F of F^o] 1 sb ssb sb ssb eH eext (sc_canonical codec) DS HS DD PD K 3%:R 4%:R rnd b k a.
    have M : exists2 m', ssb (sb m) = Some m' & m' != 0 by exists m.
    have [ks' E2] := proj2 (RC ks) M. have [ks'' E3] := proj2 (RC ks') M.
    by exists ks, ks', ks''.
  Qed.
End KeyExample.
