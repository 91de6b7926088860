{
 "C01": {
  "note": "state machine over all message/query histories"
 },
 "C02": {
  "note": ""
 },
 "C03": {
  "note": "refuted: AppModule.InitGenesis discards the imported state and installs the defaults; the partial theorem says it survives exactly when the exported params are the defaults"
 },
 "C04": {
  "note": "never-overwrites and frame are proved in full; 'stores what it carried' is refuted by a concrete well-formed message (the handler looks the row up and only errors or continues without inserting); partial: rows present after success"
 },
 "C05": {
  "note": ""
 },
 "C06": {
  "note": "callbacks are transparent; SendPacket passes the channel as port (refuted for port <> channel)"
 },
 "C07": {
  "note": "partial: ordered-set refinement for histories without duplicate linking; uniqueness, no-panic and remove-all are refuted by concrete histories"
 },
 "C12": {
  "note": "strict codecs proved; refresh codecs accept every version above 200 (refuted), the rest is partial"
 },
 "C13": {
  "note": "round trip and length proved for every in-range value; out-of-range values are silently encoded as their high bytes (refuted)"
 },
 "C14": {
  "status": "proved",
  "note": "round trip in both directions; the _refuted theorem shows the bound on R cannot be dropped"
 },
 "C15": {
  "note": "round trips proved; the binary decoder's missing length/curve check and Neg of the identity are refuted"
 },
 "C17": {
  "note": "multiple-of-hash-size lengths give the standard stream; every other length panics (refuted, with an iff)"
 },
 "C64": {
  "note": "binding proved up to sign; FiatShamir drops the sign of its inputs (refuted)"
 },
 "C65": {
  "status": "proved",
  "note": "the _refuted theorem shows the 255-byte bound on the DST cannot be dropped"
 },
 "C21": {
  "note": "refuted as written (concrete counterexample in the theorem); the partial theorem is the round trip for the layout the two functions would need to share"
 },
 "C22": {
  "note": "for every field with 1..255 distinct and non-zero; also LagrangeCoeffs for every map iteration order"
 },
 "C27": {
  "status": "proved",
  "note": "the _refuted theorem shows the 'no leading zero byte' condition cannot be dropped"
 },
 "C45": {
  "note": "unbounded integers; safe/any distinct primes, gcd condition as in the statement"
 },
 "C46": {
  "note": ""
 },
 "C47": {
  "note": "completeness for every modulus and every challenge expansion"
 },
 "C49": {
  "note": "honest runs (any randomness), the dealer, liveness, and what each party checks of a malicious peer"
 },
 "C50": {
  "note": "honest runs: exact outcomes and correctness; per-round iff for arbitrary peers; short messages panic"
 },
 "C51": {
  "note": "honest runs with any seeds satisfying C50's contract"
 },
 "C52": {
  "note": "honest runs; output shares add up to alpha*beta and the check passes"
 },
 "C53": {
  "note": "output validity holds against any Alice; correctness for honest sessions of any key history"
 },
 "C54": {
  "note": "refuted: only bit 255 of S is inspected, so for every group order above 2^255 (secp256k1's included) some session keeps a high S; partial: holds for orders below 2^255"
 },
 "C55": {
  "note": "any history of dkg/deal followed by any number of refreshes"
 },
 "C61": {
  "note": "model of the interleaved-word multiplication equals the polynomial product mod the reduction polynomial"
 },
 "C67": {
  "status": "partial",
  "note": "refuted: only the first 256 rows of tau enter the transcript, rows from 256 on can be changed freely without changing the challenge"
 },
 "C68": {
  "status": "partial",
  "note": "refuted: a peer with key share 0 and a valid proof is accepted and the joint key is the identity"
 },
 "C34": {
  "note": "usual_bls and (groups exchanged) tiny_bls; bilinear non-degenerate pairing; hash-to-curve arbitrary, points outside the subgroup represented"
 },
 "C35": {
  "note": "threshold signatures proved for every subset and order; 'zero identifiers are refused' is refuted (identifier 0 is accepted and overrides the rest); one share short is accepted but wrong (C35_one_short)"
 },
 "C36": {
  "note": "every signature of Sign verifies (C36_sign_verifies, exact condition in C36_sign_verify_iff); 'another length is refused' is refuted: with spare generators the list with message 0 appended verifies too (C36_other_length_refused_refuted)"
 },
 "C37": {
  "note": "refuted: Get hashes msgg.state instead of the copy carrying the index, so all message generators equal h0; every permutation verifies and from one signature anyone computes a signature on any list (C37_forgery_refuted). Partial: two lists under one signature are a linear relation between the generators"
 },
 "C38": {
  "status": "proved",
  "note": "completeness for every disclosure pattern, map order, transcript and challenge; special soundness added. C38_disclose_anything_refuted shows what the equal generators (C37) cost; it does not contradict the English property, which is about honest proofs"
 },
 "C39": {
  "status": "proved",
  "note": "complete for every split and map order with the generators Init makes (the order would matter with distinct generators); for a key index equal to the length both sides panic (C39_index_length_panics)"
 },
 "C56": {
  "note": "acceptance for every commitment is decided exactly (equal to the commitment to the vectors); success of the prover under the assumption that every hash challenge is a nonzero scalar; length below 2^63"
 },
 "C57": {
  "note": "proved for curves with little-endian scalars (ed25519, pallas), n = 2^k from 2 to 256; refuted for big-endian curves (k256, p256, bls12381, bls12377): every nonzero value is rejected for n <= 128; n < 2 panics",
  "status": "partial"
 },
 "C58": {
  "note": "values above 2^n are refused; refuted at the boundary: v = 2^n is accepted by Prove, which returns a proof the verifier rejects",
  "status": "partial"
 },
 "C59": {
  "note": "proved for little-endian curves; refuted for big-endian ones; a batch of one panics",
  "status": "partial"
 },
 "C60": {
  "note": "all three implementations proved for all lists of 256-bit scalars; pallas returns a non-nil Point without value for unequal lengths, bls12377 panics on empty lists; ed25519 delegates to filippo.io/edwards25519, not modelled",
  "status": "partial"
 },
 "C69": {
  "note": "inner product verifier: answers for fewer than 63 rounds, panics from 63; range verifier panics when the number of rounds does not fit n",
  "status": "partial"
 },
 "C81": {
  "status": "partial",
  "note": "holds on four fields and on non-zero BLS12-381 scalars; refuted for the BLS12-381 scalar 0: -0 is the modulus, which is not zero to IsZero, Equal and Invert"
 },
 "C83": {
  "status": "partial",
  "note": "equality tests proved; Cmp is 0 exactly on equal values, but orders Montgomery residues, not values (refuted)"
 },
 "C86": {
  "status": "partial",
  "note": "exact set of accepted strings proved; refuted as stated: SetBytes accepts non-canonical strings and refuses the encodings of a block of valid elements (for instance -2^63), where SetBigInt silently leaves the receiver unchanged"
 },
 "C87": {
  "status": "partial",
  "note": "Equal, IsZero, IsOne, IsOdd proved; Cmp refuted (limb differences of 2^63 and more are misread)"
 },
 "C79": {
  "status": "proved",
  "note": "all methods of fp.go except Hash and Random; remark: Cmp orders the stored Montgomery arrays, not the values (C79_cmp and the refutation of the numeric reading); CNeg with choice 0 gives the receiver's old value, not the argument"
 },
 "C89": {
  "status": "partial",
  "note": "proved: format, acceptance set, value and both compositions for every curve point (C89_*). Refuted parts: an x without a point decodes to the identity instead of an error; on P-256 the identity encodes to 02||0, which decodes to (0, sqrt b)"
 },
 "C90": {
  "status": "partial",
  "note": "proved: format, acceptance set, value and both compositions for every non-identity pair. Refuted parts: pairs off the curve are accepted; the identity decodes to the pair (0,0)"
 },
 "C91": {
  "status": "partial",
  "note": "everything proved except the reading of IsNegative: it is the parity of the Montgomery residue (splits P and -P, C91_is_negative_splits_pairs) and disagrees with the sign byte (refuted); IsOnCurve is false at infinity"
 },
 "C88": {
  "status": "proved",
  "note": "no hypothesis on the curve: primality of p, n and the absence of a point of order two are proved by certificates; the specification (CurveSpec) is chords and tangents over the integers modulo p"
 },
 "C92": {
  "status": "partial",
  "note": "All operations proved at all three levels on limb arrays; IsOne of fp6/fp12/Gt is characterised exactly (C92_is_one6, C92_is_one12) and refuted (C92_is_one_refuted)."
 },
 "C93": {
  "status": "proved",
  "note": "Constants and exponents checked inside the proofs."
 },
 "C94": {
  "status": "proved",
  "note": ""
 },
 "C95": {
  "status": "partial",
  "note": "Add, Double proved; Neg, Sub, Square, IsOne proved on the cyclotomic subgroup and Square characterised exactly; scalar Mul refuted (always zero), Neg/Sub/Square refuted outside the subgroup."
 },
 "C96": {
  "status": "proved",
  "note": ""
 },
 "C97": {
  "status": "proved",
  "note": "Bilinearity of the ate pairing itself is not part of the statement and is not proved: it would need the theory of divisors on the curve."
 },
 "C98": {
  "status": "proved",
  "note": ""
 },
 "C99": {
  "status": "proved",
  "note": ""
 },
 "C100": {
  "status": "proved",
  "note": "Order by an addition chain with slope certificates (tools/gen_blscert.py) checked in the kernel, primality of r from PrimeBls."
 },
 "C101": {
  "status": "proved",
  "note": "That ClearCofactor sends every point of the curve into the subgroup needs the number of points of the twist over Fp2 and is not part of the statement."
 },
 "C102": {
  "status": "partial",
  "note": "All proved, except uniqueness of encodings at the identity, which fails: FromCompressed accepts any string whose two top bits are set (C102_g1_infinity_refuted, C102_g2_infinity_refuted)."
 },
 "C103": {
  "status": "partial",
  "note": "Acceptance is proved as the code has it; strictness fails: the compressed and sort flags of the first byte are ignored, so a point has four encodings (C103_g1_flags_refuted, C103_g2_flags_refuted), and any string with the infinity flag is the identity."
 },
 "C104": {
  "status": "partial",
  "note": "Proved for G1. For G2 BigInt reads an uninitialised local instead of the receiver: it returns the same pair for every point (C104_g2_big_int_refuted) and SetBigInt of that pair is the identity (C104_g2_roundtrip_refuted). C104_g2_set gives what SetBigInt does for well-formed coordinates; larger integers panic in FillBytes."
 },
 "C105": {
  "note": "C105_append_refuted: appending to a vector of 2^32 bits wraps its length to 0 (uint32 length)."
 },
 "C106": {
  "note": "C106_fields_refuted: inputs of different lengths collide in Fields: a byte string and the same followed by a zero byte."
 },
 "C107": {
  "note": "C107_roundtrip_partial needs abscissas below 2^254 (SetBytes of the base field refuses some larger ones, C86). Refuted: memos over 32 bytes are cut before hashing (C107_memo_refuted); UnmarshalBinary panics when the memo length byte is over 117 (C107_unmarshal_refuted)."
 },
 "C108": {
  "note": "Completeness, the exact acceptance condition, order of the generator and injectivity of the nonce input are proved on the limb-level Pallas field. Refuted: verification panics on transactions of a network other than 0, 1, 2, which UnmarshalBinary accepts (C108_network_refuted); a signature of a message of at most 30 bytes is one of the message followed by a zero byte (C108_message_refuted). The Poseidon constants and BLAKE2b are parameters."
 },
 "C109": {
  "note": "Round trips for abscissas and scalars below 2^254 (see C86). Refuted: a key has 128 valid addresses, since only the low bit of the parity byte is read (C109_address_refuted). Base58 is not modelled."
 },
 "C110": {
  "note": "The constants are parameters of the declared sizes. C110_derive_challenge_partial: DeriveChallenge gives the challenge of the main network; C110_derive_challenge_refuted: also for transactions of the test network, which VerifyTransaction checks with the other initial state."
 },
 "C29": {
  "note": "refuted: Round2 looks the commitments up under the sender's key but never compares the identifier inside the received share with the receiver's own (C29_foreign_share_accepted_refuted gives an accepted run with a share that is off the committed polynomials); partial: success implies consistency at the share's own identifier, and the share matches when the identifier is the receiver's"
 },
 "C30": {
  "note": "proved for curves whose challenge does not depend on the sign of R; refuted for two configurations the API accepts: more cosigners than the threshold (SignRound2 never succeeds) and a challenge that changes with the sign of R (SignRound3 refuses the honest run)"
 },
 "C31": {
  "note": "agreement on the public key and interpolation of the secret shares are proved; the third clause is refuted: Round4 publishes a wrong public share in an honest run (C31_public_share_refuted); C31_round4_value says what it does publish"
 },
 "C32": {
  "note": "proved for identifiers up to 255; refuted for identifiers that are multiples of 256, which TSign truncates to the byte 0 (C32_identifier_256_refuted)"
 },
 "C33": {
  "note": "refuted: VerifyVSS truncates powers of the identifier to a byte, so an honest share of holder 16 with threshold 3 is refused; partial: exact whenever id^(t-1) < 256"
 },
 "C43": {
  "note": "proved for batches with at least one change; refuted for an empty batch, on which the update panics (C43_empty_batch_refuted)"
 },
 "C78": {
  "note": "proved when the receiver is neither operand or is the left one; refuted for the right operand: Add copies the left operand into the receiver first, so p.Add(q, p) leaves q + q in p (C78_add_to_right_operand, C78_alias_refuted)"
 },
 "C111": {
  "status": "partial",
  "note": "the equation, honest signatures and the length check on signatures are proved; refuted: keys shorter than 33 bytes and compressed keys panic instead of giving false, the prefix byte is ignored and the ordinate may be padded (unequal keys verifying the same signatures), and the all-zero key is the identity, for which anyone can sign. The Go library's generic ECDSA verifier is modelled over an arbitrary group with coordinates"
 }
}