(** crypto/tecdsa/dklsv1: key generation (dkg/dkg.go), trusted dealer (dealer/dealer.go) and key refresh
    (refresh/refresh.go). Parameters as in SimplestOtModel; randomness is an argument. Not represented: calling rounds
    out of order (nil fields). *)
From mathcomp Require Import all_ssreflect all_algebra.
From Coq Require Import BinNat String.
From Verif Require Import AlgBase ByteVec SchnorrModel SimplestOtModel KosModel.
Delimit Scope nat_scope with N.
Delimit Scope N_scope with num.
Set Implicit Arguments.
Unset Strict Implicit.
Unset Printing Implicit Defensive.
Import GRing.Theory.
Local Open Scope ring_scope.

Inductive dkg_err := DkOt of ot_err | DkSchnorr of sch_err | DkMultiplier | DkInvert.

Section Dkg.
  Variables (F : fieldType) (V : lmodType F) (G : V).
  Variables (enc : V -> bytes) (dec : bytes -> option V) (sbytes : F -> bytes) (setbytes : bytes -> option F).
  Variables (H : bytes -> bytes) (ext : transcript -> bytes).

  (** dkg.go:29-41 AliceOutput, 44-56 BobOutput *)
  Record alice_output := AliceOut { ao_pk : V; ao_sk : F; ao_seeds : receiver_output }.
  Record bob_output := BobOut { bo_pk : V; bo_sk : F; bo_seeds : sender_output }.

  (** dkg.go:60-78 Alice, 82-104 Bob; the fields set by each round *)
  Record dkg_alice := DkgAlice { da_tr : transcript; da_receiver : receiver V; da_sk : F; da_proof : sproof V; da_pk : V }.
  Record dkg_bob := DkgBob { db_tr : transcript; db_sender : sender V; db_sk : F; db_commitment : bytes; db_salt : bytes;
                             db_pk : V }.
  (** dkg.go:107-113 Round2Output *)
  Record dkg_msg2 := DkgMsg2 { d2_seed : bytes; d2_commitment : bytes }.

  Definition dkg_start : transcript := [:: TNew "Coinbase_DKLs_DKG"%string].

  (** dkg.go:137-144 Round1GenerateRandomSeed, on NewBob's transcript *)
  Definition dkg_round1 (bseed : bytes) : transcript * bytes :=
    (rcons dkg_start (TAppend "session_id_bob" bseed), bseed).
  (** dkg.go:147-176 Round2CommitToProof; [rnd] the receiver's choice bytes, [skA] the key share, [k] the nonce *)
  Definition dkg_round2 (bseed aseed : bytes) (rnd : nat -> N) (skA k : F) : res dkg_err (dkg_alice * dkg_msg2) :=
    let t0 := rcons (rcons dkg_start (TAppend "session_id_bob" bseed)) (TAppend "session_id_alice" aseed) in
    let '(t1, id) := extract ext t0 "salt for simplest OT" in
    rbind (lift_err DkOt (new_receiver V kappa id rnd)) (fun r =>
    let '(t2, sid) := extract ext t1 "salt for alice schnorr" in
    rbind (lift_err DkSchnorr (prove_commit G enc sbytes setbytes H None sid skA k)) (fun pc =>
      Ok (DkgAlice t2 r skA pc.1 0, DkgMsg2 aseed pc.2))).
  (** dkg.go:180-203 Round3SchnorrProve *)
  Definition dkg_round3 (t : transcript) (m : dkg_msg2) (skB k : F) : res dkg_err (dkg_bob * sproof V) :=
    let t0 := rcons t (TAppend "session_id_alice" (d2_seed m)) in
    let '(t1, id) := extract ext t0 "salt for simplest OT" in
    rbind (lift_err DkOt (new_sender V kappa id)) (fun s =>
    let '(t2, salt) := extract ext t1 "salt for alice schnorr" in
    let '(t3, sid) := extract ext t2 "salt for bob schnorr" in
    rbind (lift_err DkSchnorr (sch_prove G enc setbytes H None sid skB k)) (fun pf =>
      Ok (DkgBob t3 s skB (d2_commitment m) salt 0, pf))).
  (** dkg.go:206-215 Round4VerifyAndReveal *)
  Definition dkg_round4 (a : dkg_alice) (pf : sproof V) : res dkg_err (dkg_alice * sproof V) :=
    let '(t, sid) := extract ext (da_tr a) "salt for bob schnorr" in
    rbind (lift_err DkSchnorr (sch_verify G enc sbytes H pf None sid)) (fun _ =>
      Ok (DkgAlice t (da_receiver a) (da_sk a) (da_proof a) (da_sk a *: pr_X pf), da_proof a)).
  (** dkg.go:218-229 Round5DecommitmentAndStartOt; [b], [k] the OT sender's draws *)
  Definition dkg_round5 (bob : dkg_bob) (pf : sproof V) (b k : F) : res dkg_err (dkg_bob * sproof V) :=
    rbind (lift_err DkSchnorr (decommit_verify G enc sbytes H pf (db_commitment bob) None (db_salt bob))) (fun _ =>
    let pk := db_sk bob *: pr_X pf in
    rbind (lift_err DkOt (ot_round1 G enc setbytes H ext (db_sender bob) b k)) (fun sp =>
      Ok (DkgBob (db_tr bob) sp.1 (db_sk bob) (db_commitment bob) (db_salt bob) pk, sp.2))).
  (** dkg.go:232-252 Round6..Round10: the remaining rounds of the seed OT; 256-272 Output *)
  Definition dkg_finish (alice : dkg_alice) (bob : dkg_bob) (pf : sproof V) (a : nat -> F)
    : res dkg_err (alice_output * bob_output) :=
    lift_err DkOt (
    rbind (ot_round2 G enc sbytes H ext (da_receiver alice) pf a) (fun '(r1, msgs) =>
    rbind (ot_round3 enc dec H ext (db_sender bob) msgs) (fun '(s2, chal) =>
    rbind (ot_round4 H r1 chal) (fun '(r2, resp) =>
    rbind (ot_round5 H s2 resp) (fun opn =>
    rbind (ot_round6 H r2 opn) (fun _ =>
      Ok (AliceOut (da_pk alice) (da_sk alice) (r_out r2), BobOut (db_pk bob) (db_sk bob) (s_out s2)))))))).

  (** the whole protocol between honest parties (dklsv1/boilerplate.go:62-194 runs the rounds in this order) *)
  Definition dkg_run (bseed aseed : bytes) (rnd : nat -> N) (skA skB nA nB b k : F) (a : nat -> F)
    : res dkg_err (alice_output * bob_output) :=
    let '(tB, seed) := dkg_round1 bseed in
    rbind (dkg_round2 seed aseed rnd skA nA) (fun '(al, m2) =>
    rbind (dkg_round3 tB m2 skB nB) (fun '(bo, pf3) =>
    rbind (dkg_round4 al pf3) (fun '(al', pf4) =>
    rbind (dkg_round5 bo pf4 b k) (fun '(bo', pf5) =>
      dkg_finish al' bo' pf5 a)))).

  (** dealer.go:27-83 GenerateAndDeal; [keys i] are the random pad keys *)
  Definition deal (rnd : nat -> N) (skA skB : F) (keys : nat -> bytes * bytes) : res dkg_err (alice_output * bob_output) :=
    let pk := (skA * skB) *: G in
    rbind (lift_err DkOt (new_receiver V kappa (nseq 32 0%num) rnd)) (fun r =>
      let bits := ro_bits (r_out r) in
      let so := mkseq keys kappa in
      let dk := mkseq (fun i => let k := nth ([::], [::]) so i in if nth false bits i then k.2 else k.1) kappa in
      Ok (AliceOut pk skA (ROut (ro_packed (r_out r)) bits dk), BobOut pk skB so)).

  (** refresh.go:30-61 Alice, Bob *)
  Record ref_alice := RefAlice { ra_tr : transcript; ra_sk : F; ra_pk : V; ra_receiver : receiver V }.
  Record ref_bob := RefBob { rb_tr : transcript; rb_sk : F; rb_pk : V; rb_sender : sender V }.
  Definition ref_start : transcript := [:: TNew "Coinbase_DKLs_Refresh"%string].
  (** refresh.go:88-92 Round1RefreshGenerateSeed, on NewAlice's transcript *)
  Definition ref_round1 (aseed : F) : transcript * F := (rcons ref_start (TAppend "alice refresh seed" (sbytes aseed)), aseed).
  (** refresh.go:94-122 Round2RefreshProduceSeedAndMultiplyAndStartOT *)
  Definition ref_round2 (o : bob_output) (aseed bseed : F) (b k : F) : res dkg_err (ref_bob * (sproof V * F)) :=
    let t0 := rcons (rcons ref_start (TAppend "alice refresh seed" (sbytes aseed))) (TAppend "bob refresh seed" (sbytes bseed)) in
    let '(t1, kb) := extract ext t0 "secret key share multiplier" in
    match setbytes kb with
    | None => Err DkMultiplier
    | Some m =>
        let '(t2, id) := extract ext t1 "salt for simplest OT" in
        rbind (lift_err DkOt (new_sender V kappa id)) (fun s =>
        rbind (lift_err DkOt (ot_round1 G enc setbytes H ext s b k)) (fun sp =>
          Ok (RefBob t2 (bo_sk o * m) (bo_pk o) sp.1, (sp.2, bseed))))
    end.
  (** refresh.go:124-147 Round3RefreshMultiplyRound2Ot: the part before the OT round *)
  Definition ref_round3 (o : alice_output) (t : transcript) (msg : sproof V * F) (rnd : nat -> N) (a : nat -> F)
    : res dkg_err (ref_alice * seq bytes) :=
    let t0 := rcons t (TAppend "bob refresh seed" (sbytes msg.2)) in
    let '(t1, kb) := extract ext t0 "secret key share multiplier" in
    match setbytes kb with
    | None => Err DkMultiplier
    | Some m =>
        if m == 0 then Err DkInvert
        else
          let '(t2, id) := extract ext t1 "salt for simplest OT" in
          rbind (lift_err DkOt (new_receiver V kappa id rnd)) (fun r =>
          rbind (lift_err DkOt (ot_round2 G enc sbytes H ext r msg.1 a)) (fun rm =>
            Ok (RefAlice t2 (ao_sk o * m^-1) (ao_pk o) rm.1, rm.2)))
    end.
  (** refresh.go:149-183 Round4..Round7 and Output *)
  Definition ref_finish (al : ref_alice) (bo : ref_bob) (msgs : seq bytes) : res dkg_err (alice_output * bob_output) :=
    lift_err DkOt (
    rbind (ot_round3 enc dec H ext (rb_sender bo) msgs) (fun '(s2, chal) =>
    rbind (ot_round4 H (ra_receiver al) chal) (fun '(r2, resp) =>
    rbind (ot_round5 H s2 resp) (fun opn =>
    rbind (ot_round6 H r2 opn) (fun _ =>
      Ok (AliceOut (ra_pk al) (ra_sk al) (r_out r2), BobOut (rb_pk bo) (rb_sk bo) (s_out s2))))))).
  (** one refresh between honest parties (dklsv1/boilerplate.go:296-402 runs the rounds in this order) *)
  Definition refresh_run (keys : alice_output * bob_output) (aseed bseed : F) (rnd : nat -> N) (b k : F) (a : nat -> F)
    : res dkg_err (alice_output * bob_output) :=
    let '(tA, seed) := ref_round1 aseed in
    rbind (ref_round2 keys.2 seed bseed b k) (fun '(bo, m2) =>
    rbind (ref_round3 keys.1 tA m2 rnd a) (fun '(al, msgs) => ref_finish al bo msgs)).
End Dkg.
