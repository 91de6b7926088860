(** crypto/tecdsa/dklsv1/sign/sign.go: two-party ECDSA signing. Scalars are a field F, points a vector space V over it
    with generator G. Parameters as in SchnorrModel, SimplestOtModel and MultiplyModel; [hm] is the message hash (a
    fresh hash object: one session hashes one message), [xmod] the x coordinate of a point reduced modulo the group
    order, used only by ECDSA verification. R and S are kept as scalars: BigInt/SetBigInt of reduced values. Randomness
    is an argument. Not represented: nil pointers from a hostile caller; the conversion of the public key to affine
    coordinates for crypto/ecdsa. *)
From mathcomp Require Import all_ssreflect all_algebra.
From Coq Require Import BinNat String.
From Verif Require Import AlgBase ByteVec SchnorrModel SimplestOtModel KosModel MultiplyModel.
Delimit Scope nat_scope with N.
Delimit Scope N_scope with num.
Set Implicit Arguments.
Unset Strict Implicit.
Unset Printing Implicit Defensive.
Import GRing.Theory.
Local Open Scope ring_scope.

Inductive sign_err := SgMul of mul_err | SgSetBytes | SgSchnorr of sch_err | SgSize | SgVerify.

Section Sign.
  Variables (F : fieldType) (V : lmodType F) (G : V).
  Variables (enc : V -> bytes) (sbytes : F -> bytes) (setbytes : bytes -> option F).
  Variables (H hm : bytes -> bytes) (shake : bytes -> bytes -> nat -> bytes) (ext : transcript -> bytes).
  Variables (gshake : nat -> bytes) (lb eb : nat) (xmod : V -> F).

  (** sign.go:34-41 Alice, 45-61 Bob *)
  Record sign_alice := SignAlice { sa_seeds : receiver_output; sa_sk : F; sa_pk : V; sa_tr : transcript }.
  Record sign_bob := SignBob { sb_seeds : sender_output; sb_sk : F; sb_pk : V; sb_tr : transcript;
                               sb_mul0 : option (mul_receiver F); sb_mul1 : option (mul_receiver F); sb_kB : F; sb_dB : V }.
  (** sign.go:64-73, 77-86 NewAlice, NewBob *)
  Definition sign_new_alice (seeds : receiver_output) (sk : F) (pk : V) : sign_alice :=
    SignAlice seeds sk pk [:: TNew "Coinbase_DKLs_Sign"%string].
  Definition sign_new_bob (seeds : sender_output) (sk : F) (pk : V) : sign_bob :=
    SignBob seeds sk pk [:: TNew "Coinbase_DKLs_Sign"%string] None None 0 0.

  (** sign.go:89-98 SignRound2Output, 101-116 SignRound3Output *)
  Record sign_msg2 := SignMsg2 { g2_kos0 : kos_msg1; g2_kos1 : kos_msg1; g2_DB : V; g2_seed : bytes }.
  Record sign_msg3 := SignMsg3 { g3_mul0 : mul_msg2 F; g3_mul1 : mul_msg2 F; g3_proof : sproof V; g3_RPrime : V;
                                 g3_etaPhi : F; g3_etaSig : F }.
  (** curves/ecdsa.go:20-23 EcdsaSignature; V is a bit *)
  Record ecdsa_sig := EcdsaSig { es_V : bool; es_R : F; es_S : F }.

  (** crypto/ecdsa.Verify, for a digest that is the encoding of [m] *)
  Definition ecdsa_verify (pk : V) (m r s : F) : bool :=
    [&& r != 0, s != 0 &
        let P := (m / s) *: G + (r / s) *: pk in (P != 0) && (xmod P == r)].

  (** SHA3-256 of a point as a scalar: sign.go:199-203, 226-230, 256-260 and the same in Round4Final *)
  Definition hash_point (P : V) : res sign_err F := of_option SgSetBytes (setbytes (H (enc P))).

  (** sign.go:126-133 Round1GenerateRandomSeed *)
  Definition sign_round1 (a : sign_alice) (seed : bytes) : sign_alice * bytes :=
    (SignAlice (sa_seeds a) (sa_sk a) (sa_pk a) (rcons (sa_tr a) (TAppend "session_id_alice" seed)), seed).

  (** sign.go:139-176 Round2Initialize. A zero kB makes Div return nil and encode panic *)
  Definition sign_round2 (b : sign_bob) (aseed bseed : bytes) (kB : F) (rnd0 gamma0 rnd1 gamma1 : nat -> N)
    : res sign_err (sign_bob * sign_msg2) :=
    let t0 := rcons (rcons (sb_tr b) (TAppend "session_id_alice" aseed)) (TAppend "session_id_bob" bseed) in
    let '(t1, id0) := extract ext t0 "multiply receiver id 0" in
    rbind (lift_err SgMul (new_mul_receiver setbytes gshake lb (sb_seeds b) id0)) (fun r0 =>
    let '(t2, id1) := extract ext t1 "multiply receiver id 1" in
    rbind (lift_err SgMul (new_mul_receiver setbytes gshake lb (sb_seeds b) id1)) (fun r1 =>
    let dB := kB *: G in
    if kB == 0 then Panic
    else
    rbind (lift_err SgMul (mul_round1 sbytes setbytes H shake lb eb r0 (1 / kB) rnd0 gamma0)) (fun p0 =>
    rbind (lift_err SgMul (mul_round1 sbytes setbytes H shake lb eb r1 (sb_sk b * (1 / kB)) rnd1 gamma1)) (fun p1 =>
      Ok (SignBob (sb_seeds b) (sb_sk b) (sb_pk b) t2 (Some p0.1) (Some p1.1) kB dB,
          SignMsg2 p0.2 p1.2 dB bseed))))).

  (** sign.go:241-249, 298-306: the x coordinate of the nonce point as a scalar *)
  Definition nonce_x (r : V) : res sign_err F :=
    if size (enc r) != 33%N then Err SgSize
    else of_option SgSetBytes (setbytes (drop 1 (enc r))).

  (** sign.go:184-265 Round3Sign. [kPA], [nonce], [phi], [ah0], [ah1] are the scalars drawn. A zero kA makes Div return
      nil and Round2Multiply panic; the code would report a failed OT check first. *)
  Definition sign_round3 (a : sign_alice) (message : bytes) (m2 : sign_msg2) (kPA nonce phi ah0 ah1 : F)
    : res sign_err (sign_alice * sign_msg3) :=
    let t0 := rcons (sa_tr a) (TAppend "session_id_bob" (g2_seed m2)) in
    let '(t1, id0) := extract ext t0 "multiply receiver id 0" in
    rbind (lift_err SgMul (new_mul_sender setbytes gshake lb (sa_seeds a) id0)) (fun s0 =>
    let '(t2, id1) := extract ext t1 "multiply receiver id 1" in
    rbind (lift_err SgMul (new_mul_sender setbytes gshake lb (sa_seeds a) id1)) (fun s1 =>
    let RPrime := kPA *: g2_DB m2 in
    rbind (hash_point RPrime) (fun h =>
    let kA := h + kPA in
    let '(t3, ids) := extract ext t2 "schnorr proof for R" in
    rbind (lift_err SgSchnorr (sch_prove G enc setbytes H (Some (g2_DB m2)) ids kA nonce)) (fun pf =>
    let r := pr_X pf in
    if kA == 0 then Panic
    else
    let kAInv := 1 / kA in
    rbind (lift_err SgMul (mul_round2 sbytes setbytes H shake ext lb eb s0 (phi + kAInv) ah0 (g2_kos0 m2))) (fun q0 =>
    rbind (lift_err SgMul (mul_round2 sbytes setbytes H shake ext lb eb s1 (sa_sk a * kAInv) ah1 (g2_kos1 m2))) (fun q1 =>
    let share0 := ms_share q0.1 in
    let share1 := ms_share q1.1 in
    let g1 := (kA * phi + 1) *: G + (- share0) *: r in
    rbind (hash_point g1) (fun h1 =>
    let etaPhi := h1 + phi in
    rbind (of_option SgSetBytes (setbytes (hm message))) (fun m =>
    rbind (nonce_x r) (fun rX =>
    let sigA := m * share0 + rX * share1 in
    let g2 := share0 *: sa_pk a + (- share1) *: G in
    rbind (hash_point g2) (fun h2 =>
      Ok (SignAlice (sa_seeds a) (sa_sk a) (sa_pk a) t3, SignMsg3 q0.2 q1.2 pf RPrime etaPhi (h2 + sigA)))))))))))).

  (** sign.go:335-339: bit 255 of the integer S is the top bit of its first byte *)
  Definition bit255 (s : F) : bool := N.testbit (nth 0%num (sbytes s) 0) 7.
  Definition normalise_s (v : bool) (s : F) : bool * F := if bit255 s then (~~ v, - s) else (v, s).

  (** sign.go:272-358 Round4Final; the result is Bob.Signature *)
  Definition sign_round4 (b : sign_bob) (message : bytes) (m3 : sign_msg3) : res sign_err ecdsa_sig :=
    match sb_mul0 b, sb_mul1 b with
    | Some r0, Some r1 =>
        rbind (lift_err SgMul (mul_round3 sbytes setbytes shake ext lb r0 (g3_mul0 m3))) (fun r0' =>
        rbind (lift_err SgMul (mul_round3 sbytes setbytes shake ext lb r1 (g3_mul1 m3))) (fun r1' =>
        rbind (hash_point (g3_RPrime m3)) (fun h =>
        let r := h *: sb_dB b + g3_RPrime m3 in
        let pf := SProof (pr_C (g3_proof m3)) (pr_S (g3_proof m3)) r in
        let '(t, ids) := extract ext (sb_tr b) "schnorr proof for R" in
        rbind (lift_err SgSchnorr (sch_verify G enc sbytes H pf (Some (sb_dB b)) ids)) (fun _ =>
        rbind (nonce_x r) (fun rX =>
        let rY := N.testbit (nth 0%num (enc r) 0) 0 in
        let share0 := mr_share r0' in
        let share1 := mr_share r1' in
        rbind (hash_point (share0 *: r)) (fun h1 =>
        let phi := g3_etaPhi m3 - h1 in
        if sb_kB b == 0 then Panic
        else
        let theta := share0 - phi / sb_kB b in
        rbind (of_option SgSetBytes (setbytes (hm message))) (fun m =>
        let sigB := m * theta + rX * share1 in
        let g2 := share1 *: G + (- theta) *: sb_pk b in
        rbind (hash_point g2) (fun h2 =>
        let s := sigB + (g3_etaSig m3 - h2) in
        let '(v, s') := normalise_s rY s in
        if ecdsa_verify (sb_pk b) m rX s' then Ok (EcdsaSig v rX s') else Err SgVerify))))))))
    | _, _ => Panic
    end.
End Sign.
