{"id": "C01", "title": "Only the authority changes x/did params, and a query returns the last accepted value", "statement": "Over any sequence of UpdateParams messages and Params queries, a query answers with the params of the latest UpdateParams whose Authority equals the keeper's authority (or the genesis params if there was none); an UpdateParams with any other Authority returns an error and changes nothing in the store.", "quantifier": "every initial params value, every authority string, every finite history of update and query calls", "why_tests_cant": "the claim is about every interleaving of accepted and rejected updates; tests fix one history", "anchors": ["x/did/keeper/server.go: msgServer.UpdateParams", "x/did/keeper/querier.go: Querier.Params", "x/did/keeper/keeper.go: NewKeeper"]}
{"id": "C02", "title": "x/did keeper genesis export/import round trip", "statement": "For every genesis state accepted by the keeper's InitGenesis, ExportGenesis afterwards returns the same params; exporting before params were ever set panics.", "quantifier": "every genesis value and every prior store contents", "why_tests_cant": "must hold for every params value, not the default one used by tests", "anchors": ["x/did/keeper/genesis.go: InitGenesis, ExportGenesis"]}
{"id": "C03", "title": "x/did module genesis import keeps the exported state", "statement": "A chain exported with ExportGenesis and restarted from that file through the module's InitGenesis has the same params.", "quantifier": "every exported params value", "why_tests_cant": "tests use the default params, the one value for which the module's behaviour is right", "anchors": ["x/did/module.go: AppModule.InitGenesis", "x/did/keeper/genesis.go"]}
{"id": "C04", "title": "InitializeController stores what a successful message carried", "statement": "When InitializeController returns success for well-formed lists, each assertion, keyshare and verification of the message is stored under its primary key; nothing already stored is overwritten; on error nothing outside the message's keys changes.", "quantifier": "every store contents and every message", "why_tests_cant": "depends on the decode outcome of every list and on every store contents", "anchors": ["x/did/keeper/server.go: msgServer.InitializeController"]}
{"id": "C05", "title": "A filtered message type cannot enter a transaction at any nesting depth", "statement": "With the message filter decorator installed, a transaction is handed to the next ante handler exactly when no message of a blocked type occurs in it directly or inside authz MsgExec wrappers nested to any depth (and every MsgExec can be unpacked); otherwise an unauthorized error is returned and the next handler is not called.", "quantifier": "every transaction, every nesting depth, every blocked-type list", "why_tests_cant": "nesting depth and breadth are unbounded", "anchors": ["app/decorators/msg_filter_template.go: FilterDecorator.AnteHandle, HasDisallowedMessage"]}
{"id": "C06", "title": "The oracle IBC middleware is transparent", "statement": "Every IBC callback and channel call made on the middleware reaches the wrapped application or channel exactly once with the same arguments, and its result is returned unchanged.", "quantifier": "every callback, every argument tuple, every wrapped implementation", "why_tests_cant": "quantifies over all wrapped modules and all arguments", "anchors": ["x/oracle/ibc_middleware.go: IBCMiddleware"]}
{"id": "C07", "title": "Linking and unlinking WebAuthn credentials behaves like a set keyed by credential ID", "statement": "After any sequence of link and unlink calls, the list returned for the user has no two entries with one ID among those linked through LinkCredential; unlinking a present credential removes exactly the entries with its ID and keeps every other entry in order; unlinking never panics.", "quantifier": "every starting credential list and every sequence of calls", "why_tests_cant": "the failures depend on the position and multiplicity of entries", "anchors": ["internal/motr/models/credential.go: LinkCredential, GetCredentials, UnlinkCredential"]}
{"id": "C08", "title": "A replayed or cloned authenticator counter is flagged and never rewinds", "statement": "UpdateCounter stores the received counter only if it is greater than the stored one (or both are zero); otherwise the stored counter stays and the clone warning is set and never cleared by later updates; so the stored counter never decreases.", "quantifier": "every stored counter and every sequence of received counters", "why_tests_cant": "an arbitrary history of 32-bit counters", "anchors": ["internal/motr/models/authenticator.go: Authenticator.UpdateCounter"]}
{"id": "C09", "title": "Identifier validation accepts exactly the documented syntax", "statement": "GetPhoneDID succeeds exactly on '+' followed by a non-zero digit and 1 to 14 digits; the identifier produced is the scheme prefix followed by the lower-case hex of the 32-byte digest; two identifiers that differ only in ASCII letter case are Equal.", "quantifier": "every input string", "why_tests_cant": "the set of strings is infinite", "anchors": ["pkg/did/identifier.go: GetPhoneDID, GetEmailDID, Equals"]}
{"id": "C10", "title": "Protocol iterators step, retry and finish exactly once", "statement": "Every two-party protocol object runs its steps in order, one per successful Next call; a failing step is not skipped and can be retried with another input; after the last step every further Next returns ErrProtocolFinished without running anything, and Result returns no value before that point.", "quantifier": "every number of steps, every step function, every sequence of inputs", "why_tests_cant": "all call histories, including retries after errors", "anchors": ["crypto/tecdsa/dklsv1/protocol.go: protoStepper", "crypto/tecdsa/dklsv1/boilerplate.go"]}
{"id": "C11", "title": "RunProtocol delivers each message to the other party in order until both finish", "statement": "RunProtocol run on two honest iterators of any lengths that differ by at most one and start with the right party feeds each party's k-th output as the other's next input, returns once both report finished, and returns the first error other than ErrProtocolFinished with no further delivery.", "quantifier": "every pair of iterators, every error position", "why_tests_cant": "all schedules of errors and lengths", "anchors": ["crypto/mpc/mpc.go: RunProtocol, CheckIteratedErrors"]}
{"id": "C12", "title": "Messages of another protocol version are refused", "statement": "Every decode/encode helper of the DKLS protocol refuses a message whose version is not 200, and a decoded message yields the value encoded.", "quantifier": "every message and version number", "why_tests_cant": "every version number", "anchors": ["crypto/tecdsa/dklsv1/dkgserializers.go", "crypto/tecdsa/dklsv1/signserializers.go", "crypto/tecdsa/dklsv1/refreshserializers.go", "crypto/core/protocol/protocol.go"]}
{"id": "C13", "title": "I2OSP and OS2IP", "statement": "OS2IP(I2OSP(x, n)) = x for every 0 <= x < 256^n, the output always has n bytes, and a value that does not fit is never silently encoded as another one.", "quantifier": "every integer and length", "why_tests_cant": "unbounded integers", "anchors": ["crypto/core/hash.go: I2OSP, OS2IP"]}
{"id": "C14", "title": "ECDSA signature serialization round trip", "statement": "Deserialize(Serialize(sig)) = sig for every recovery id below 256, R below 2^256 and S below 2^264, and the encoding always has 66 bytes.", "quantifier": "every signature in range", "why_tests_cant": "2^520 signatures", "anchors": ["crypto/signatures/ecdsa/ecdsa_signature.go: SerializeSecp256k1Signature, DeserializeSecp256k1Signature"]}
{"id": "C15", "title": "EC point binary encodings round trip", "statement": "UnmarshalBinary(MarshalBinary(P)) = P for every point with 256-bit coordinates on a supported curve, and PointFromBytesUncompressed(P.Bytes()) = P; buffers of the wrong length never decode silently.", "quantifier": "every pair of 256-bit coordinates", "why_tests_cant": "2^512 points", "anchors": ["crypto/core/curves/ec_point.go: MarshalBinary, UnmarshalBinary, Bytes, PointFromBytesUncompressed"]}
{"id": "C16", "title": "Byte-string helpers", "statement": "ReverseScalarBytes is an involution; bytesToHexString prints two lower-case hex digits per byte and decodes back; int2octets yields exactly the requested length and is the big-endian value modulo 256^len; bits2octets is the hash integer reduced modulo the order; repeated ByteSub from all-0xFF never revisits a value before wrapping.", "quantifier": "every byte string", "why_tests_cant": "every length and content", "anchors": ["crypto/internal/point.go: ReverseScalarBytes", "crypto/data.go: int2octets, bytesToHexString", "crypto/internal/hash.go: ByteSub"]}
{"id": "C17", "title": "HMAC-DRBG fills every requested length", "statement": "Read fills the whole destination for every length with the standard HMAC-DRBG stream.", "quantifier": "every destination length", "why_tests_cant": "every length", "anchors": ["crypto/signatures/common/hmacdrbg.go: Read"]}
{"id": "C18", "title": "AES-SIV decrypts what it encrypted", "statement": "For every key, plaintext and associated data, Decrypt(Encrypt(pt, ad), ad) = pt, and the ciphertext is 16 bytes longer than the plaintext.", "quantifier": "every key, plaintext and associated-data length and content", "why_tests_cant": "the length classes and carry boundaries of the counter are unbounded", "anchors": ["crypto/daed/aes_siv.go: Encrypt, Decrypt, ctrCrypt, s2v, cmac"]}
{"id": "C19", "title": "AES-SIV accepts only ciphertexts whose tag is the S2V of the result", "statement": "If Decrypt(ct, ad) succeeds with pt then ct = Encrypt(pt, ad); in particular every ciphertext shorter than 16 bytes or with a changed tag is rejected, and at most one ciphertext decrypts to a given plaintext under given associated data.", "quantifier": "every byte string offered as ciphertext", "why_tests_cant": "every possible tampering", "anchors": ["crypto/daed/aes_siv.go: Decrypt"]}
{"id": "C20", "title": "The streaming CMAC used by AES-SIV equals CMAC of the xor-end string", "statement": "For every message of at least 16 bytes, the long-message MAC equals CMAC of the message with the 16-byte mask xored into its last 16 bytes.", "quantifier": "every message length", "why_tests_cant": "every alignment and number of blocks", "anchors": ["crypto/daed/aes_siv.go: cmacLong, cmac, s2v"]}
{"id": "C21", "title": "Witness-encrypted secrets decrypt", "statement": "Decrypt(Encrypt(msg)) = msg for the holder of a valid witness.", "quantifier": "every message", "why_tests_cant": "every message and accumulator", "anchors": ["crypto/secret/encrypt.go: Encrypt, Decrypt"]}
{"id": "C22", "title": "Any threshold of Shamir shares recovers the secret", "statement": "For every threshold t >= 2 and limit n <= 255, Combine on any t or more distinct non-zero-valued shares of a Split, in any order, returns the secret; CombinePoints returns the secret times the point.", "quantifier": "every field secret, polynomial, t, n, subset and order of shares", "why_tests_cant": "subsets and field elements are unbounded", "anchors": ["crypto/sharing/shamir.go: Shamir.Split, Combine, CombinePoints, interpolate, LagrangeCoeffs"]}
{"id": "C23", "title": "Combine rejects unusable share sets", "statement": "Combine and CombinePoints return an error when fewer than threshold shares are given, when an identifier is zero, above the limit or repeated, or when a value does not decode.", "quantifier": "every list of shares", "why_tests_cant": "every malformed list", "anchors": ["crypto/sharing/shamir.go: Combine, CombinePoints, ShamirShare.Validate"]}
{"id": "C24", "title": "Fewer than threshold shares say nothing about the secret", "statement": "For every set of at most t-1 identifiers and every candidate secret there is exactly one way to choose the remaining coefficients giving the observed shares (when exactly t-1), so the shares' distribution is independent of the secret.", "quantifier": "every share set of size t-1 and every candidate secret", "why_tests_cant": "an information-theoretic statement over all secrets", "anchors": ["crypto/sharing/polynomial.go: Polynomial.Init, Evaluate", "crypto/sharing/shamir.go: getPolyAndShares"]}
{"id": "C25", "title": "Feldman verification accepts exactly the dealt shares", "statement": "FeldmanVerifier.Verify, with the commitments of a Split, accepts a share with identifier i if and only if i is not zero and its value is a non-zero scalar equal to the committed polynomial at i (so every dealt share is accepted unless its value is zero); any threshold of shares that verify against one commitment vector combine to the committed public value.", "quantifier": "every polynomial, identifier and claimed value", "why_tests_cant": "soundness over all forged values", "anchors": ["crypto/sharing/feldman.go: Verify, Split"]}
{"id": "C26", "title": "Pedersen verification accepts dealt shares and binds them", "statement": "PedersenVerifier.Verify accepts every pair of dealt non-zero shares with one identifier; any two different accepted openings for one identifier yield the discrete logarithm between the two generators; the commitments are consistent with every secret.", "quantifier": "every polynomial pair, identifier and forged opening", "why_tests_cant": "binding over all forgeries", "anchors": ["crypto/sharing/pedersen.go: Verify, Split"]}
{"id": "C27", "title": "The v1 Shamir API recovers the secret and adds homomorphically", "statement": "Combine of the v1 API on a list whose first t shares are distinct shares of one Split returns the secret without its leading zero bytes (so exactly the secret iff it has none), whatever follows them; adding shares of equal identifiers yields shares of the sum of secrets and of different ones panics; a repeated identifier among the first t, an identifier outside 1..limit or a short list makes Combine fail.", "quantifier": "every field, threshold, share list", "why_tests_cant": "unbounded", "anchors": ["crypto/sharing/v1/shamir.go: Combine, Interpolate, ShamirShare.Add, ComputeL"]}
{"id": "C28", "title": "FROST DKG: all honest participants agree on one key", "statement": "After both rounds among honest participants everyone holds the same verification key, each participant's verification share is its secret share times the generator, and any threshold of secret shares interpolates to the discrete logarithm of that key.", "quantifier": "every threshold, number of participants, secrets and polynomials", "why_tests_cant": "all sizes and secrets", "anchors": ["crypto/dkg/frost/dkg_round1.go", "crypto/dkg/frost/dkg_round2.go"]}
{"id": "C29", "title": "FROST DKG rejects inconsistent dealers", "statement": "Round 2 returns an error when a received share does not lie on the sender's committed polynomial or when the sender's proof of knowledge does not verify; if it returns success all received shares lie on the committed polynomials.", "quantifier": "every broadcast and share, honest or not", "why_tests_cant": "all adversarial messages", "anchors": ["crypto/dkg/frost/dkg_round2.go: Round2"]}
{"id": "C30", "title": "FROST threshold signing yields a valid Schnorr signature", "statement": "When a threshold set of signers with DKG shares runs the three rounds honestly, each obtains the same (Z, C) and Verify accepts it under the group key.", "quantifier": "every signer set, nonce, message and challenge function", "why_tests_cant": "all signer sets and nonces", "anchors": ["crypto/ted25519/frost/round1.go", "crypto/ted25519/frost/round2.go", "crypto/ted25519/frost/round3.go"]}
{"id": "C31", "title": "Gennaro DKG agreement and public shares", "statement": "After round 4 all participants hold the same public key, secret shares interpolate to its discrete logarithm, and the public share published for participant j is j's secret share times the generator.", "quantifier": "every threshold, size and polynomial", "why_tests_cant": "all sizes", "anchors": ["crypto/dkg/gennaro/round3.go", "crypto/dkg/gennaro/round4.go"]}
{"id": "C32", "title": "Threshold Ed25519 partial signatures aggregate to a valid signature", "statement": "Aggregate of at least t partial signatures over a common nonce equals the (R, s) with s = r + c*sk that standard verification accepts.", "quantifier": "every threshold, subset, nonce sharing and message", "why_tests_cant": "all subsets", "anchors": ["crypto/ted25519/ted25519/sigagg.go: Aggregate", "crypto/ted25519/ted25519/partialsig.go: TSign", "crypto/ted25519/ted25519/ext.go: ThresholdSign"]}
{"id": "C33", "title": "Ed25519 VSS verification accepts honest shares", "statement": "VerifyVSS returns true for every share produced by the key generator with its commitments.", "quantifier": "every identifier and threshold", "why_tests_cant": "fails only from identifier 16 on", "anchors": ["crypto/ted25519/ted25519/keygen.go: KeyShare.VerifyVSS"]}
{"id": "C34", "title": "BLS signatures verify and aggregate", "statement": "Every signature made by a key verifies under its public key and message and no other point verifies; an aggregate of signatures verifies under AggregateVerify / FastAggregateVerify for exactly the signed messages; identity keys and signatures are refused.", "quantifier": "every key set, message list and group", "why_tests_cant": "all sizes of aggregates", "anchors": ["crypto/signatures/bls/bls_sig/usual_bls_sig.go", "crypto/signatures/bls/bls_sig/usual_bls.go"]}
{"id": "C35", "title": "BLS threshold signatures equal the plain signature", "statement": "Combining at least threshold partial signatures with distinct identifiers gives the signature of the shared key, whatever subset is used; fewer than two, zero or repeated identifiers are refused.", "quantifier": "every threshold, subset, key, message", "why_tests_cant": "all subsets", "anchors": ["crypto/signatures/bls/bls_sig/usual_bls_sig.go: combineSigs, partialSign", "crypto/signatures/bls/bls_sig/lib.go: thresholdizeSecretKey"]}
{"id": "C36", "title": "BBS+ signatures verify", "statement": "Every signature produced by Sign verifies under the matching public key, generators and message list; a signature over a list of another length is refused.", "quantifier": "every key, message list, nonce pair", "why_tests_cant": "all lists", "anchors": ["crypto/signatures/bbs/secret_key.go: Sign", "crypto/signatures/bbs/public_key.go: Verify"]}
{"id": "C37", "title": "A BBS+ signature binds every message position", "statement": "A signature that verifies for one message list does not verify for a different list of the same length obtained without knowledge of discrete logarithms, e.g. a permutation.", "quantifier": "every message list", "why_tests_cant": "binding over all lists", "anchors": ["crypto/signatures/bbs/message_generators.go: Get"]}
{"id": "C38", "title": "BBS+ selective disclosure proofs verify", "statement": "A proof of knowledge generated from a valid signature for any choice of hidden and revealed messages verifies for the same revealed messages, challenge and nonce.", "quantifier": "every disclosure pattern, signature and challenge", "why_tests_cant": "all subsets of messages", "anchors": ["crypto/signatures/bbs/pok_signature.go", "crypto/signatures/bbs/pok_signature_proof.go"]}
{"id": "C39", "title": "BBS+ blind issuance yields a valid signature", "statement": "A commitment context built by a holder verifies at the issuer, and the issued blind signature, unblinded with the holder's blinding factor, is a valid signature on the combined message list.", "quantifier": "every split of messages into hidden and known", "why_tests_cant": "all splits", "anchors": ["crypto/signatures/bbs/blind_signature_context.go", "crypto/signatures/bbs/blind_signature.go: ToUnblinded"]}
{"id": "C40", "title": "Schnorr proof of discrete logarithm: completeness and special soundness", "statement": "Verify accepts every proof made by Prove; two accepted proofs with one commitment and different challenges determine the discrete logarithm of the statement; commitment openings accept only the committed proof.", "quantifier": "every group, generator, witness and transcript", "why_tests_cant": "all witnesses and adversarial transcripts", "anchors": ["crypto/zkp/schnorr/schnorr.go"]}
{"id": "C41", "title": "Accumulator add and remove are inverse and order-independent", "statement": "Adding elements in any order or batch gives one value; removing an added element restores the previous value; Update equals the removals and additions done one at a time.", "quantifier": "every key, element multiset and order", "why_tests_cant": "all orders and batches", "anchors": ["crypto/accumulator/accumulator.go", "crypto/accumulator/key.go: BatchAdditions, BatchDeletions"]}
{"id": "C42", "title": "Issued membership witnesses verify and are unique", "statement": "A witness issued for an element verifies against the accumulator it was issued for; for a fixed accumulator and element the accepted witness is unique.", "quantifier": "every element set and key", "why_tests_cant": "all sets", "anchors": ["crypto/accumulator/witness.go: New, Verify"]}
{"id": "C43", "title": "Batch-updated witnesses stay valid", "statement": "A valid witness of an element not deleted, updated with the published additions, deletions and coefficients, verifies against the new accumulator; updating through a list of batches equals updating through them one by one; if the element itself was deleted the update fails.", "quantifier": "every batch and sequence of batches", "why_tests_cant": "all batches", "anchors": ["crypto/accumulator/witness.go: BatchUpdate, MultiBatchUpdate, evaluateDeltas", "crypto/accumulator/key.go: CreateCoefficients"]}
{"id": "C44", "title": "Accumulator membership proofs are complete", "statement": "A zero-knowledge membership proof built from a valid witness is accepted: the verifier recomputes the prover's commitments and hence the same challenge.", "quantifier": "every witness, blinding and challenge", "why_tests_cant": "all randomness", "anchors": ["crypto/accumulator/proof.go"]}
{"id": "C45", "title": "Paillier decrypts what it encrypts", "statement": "For distinct primes p, q with gcd(pq,(p-1)(q-1)) = 1, Decrypt(Encrypt(m)) = m for every 0 <= m < N and every nonce coprime to N.", "quantifier": "every key, message and nonce", "why_tests_cant": "number-theoretic statement over all keys", "anchors": ["crypto/paillier/paillier.go: NewSecretKey, Encrypt, Decrypt"]}
{"id": "C46", "title": "Paillier is additively homomorphic", "statement": "Decrypt(Add(c1,c2)) is the sum and Decrypt(Mul(a,c)) the product modulo N, and out-of-range arguments are refused.", "quantifier": "every pair of ciphertexts and every factor", "why_tests_cant": "all ciphertexts", "anchors": ["crypto/paillier/paillier.go: Add, Mul"]}
{"id": "C47", "title": "The square-free proof is complete", "statement": "Every proof produced by Prove with the real factors verifies.", "quantifier": "every N coprime to its totient and every challenge list", "why_tests_cant": "all moduli", "anchors": ["crypto/paillier/psf.go: Prove, Verify"]}
{"id": "C48", "title": "Field element operations implement the prime field", "statement": "Add, Sub, Neg, Mul, Div, Invert, Pow on elements of one field return the reduced result in range, agree with the integers modulo p, and panic on elements of different fields.", "quantifier": "every modulus and pair of elements", "why_tests_cant": "all moduli", "anchors": ["crypto/core/curves/field.go"]}
{"id": "C49", "title": "DKLS key generation yields one joint key", "statement": "After an honest DKG both parties hold the same public key, equal to the product of their key shares times the generator, and the seed-OT outputs of the two sides match for Bob's choice bits.", "quantifier": "every pair of shares, OT randomness", "why_tests_cant": "all randomness", "anchors": ["crypto/tecdsa/dklsv1/dkg/dkg.go", "crypto/tecdsa/dklsv1/dealer/dealer.go"]}
{"id": "C50", "title": "Seed OT correctness", "statement": "After the six rounds between honest parties, for each instance the receiver's key is the sender's key selected by its choice bit, and decrypting the sender's pair of ciphertexts gives the chosen message.", "quantifier": "every batch size, choice vector and randomness", "why_tests_cant": "all choice vectors", "anchors": ["crypto/ot/base/simplest/ot.go"]}
{"id": "C51", "title": "OT extension correctness", "statement": "After a completed cOT extension with honest parties, for every index the two outputs add up to the sender's input if the receiver's choice bit is 1 and to zero otherwise, and the consistency check passes.", "quantifier": "every choice vector, input and seed OT result", "why_tests_cant": "all choice vectors", "anchors": ["crypto/ot/extension/kos/kos.go"]}
{"id": "C52", "title": "Multiplicative-to-additive conversion correctness", "statement": "After an honest run of the two-party multiplication the two output shares add up to alpha*beta.", "quantifier": "every alpha, beta, gadget and randomness", "why_tests_cant": "all scalars", "anchors": ["crypto/tecdsa/dklsv1/sign/multiply.go"]}
{"id": "C53", "title": "DKLS signing yields a valid ECDSA signature", "statement": "An honest signing session outputs an (R,S) that standard ECDSA verification accepts for the joint public key and the message digest; Bob's session never outputs a signature that does not verify.", "quantifier": "every share pair, nonce and message", "why_tests_cant": "all nonces", "anchors": ["crypto/tecdsa/dklsv1/sign/sign.go"]}
{"id": "C54", "title": "DKLS signatures are in canonical low-S form", "statement": "The S returned by a signing session is at most half the group order.", "quantifier": "every session", "why_tests_cant": "the failing range has relative size 2^-128", "anchors": ["crypto/tecdsa/dklsv1/sign/sign.go: Round4Final"]}
{"id": "C55", "title": "Key refresh keeps the key", "statement": "Any number of refreshes changes the two key shares but keeps the joint secret key and public key, and the refreshed shares still sign for the same public key.", "quantifier": "every refresh multiplier and number of refreshes", "why_tests_cant": "all histories", "anchors": ["crypto/tecdsa/dklsv1/refresh/refresh.go"]}
{"id": "C56", "title": "Inner product proofs verify", "statement": "For vectors of any power-of-two length, Verify accepts the proof produced by Prove for the commitment to the vectors and their inner product.", "quantifier": "every length, vector, generator family, transcript", "why_tests_cant": "all lengths", "anchors": ["crypto/bulletproof/ipp_prover.go", "crypto/bulletproof/ipp_verifier.go"]}
{"id": "C57", "title": "Range proofs verify for every value in range", "statement": "For every n (power of two) and 0 <= v < 2^n with n at least 2, the verifier accepts the honest range proof.", "quantifier": "every v, n, blinding", "why_tests_cant": "all values", "anchors": ["crypto/bulletproof/range_prover.go", "crypto/bulletproof/range_verifier.go"]}
{"id": "C58", "title": "The prover refuses out-of-range values", "statement": "Prove returns an error for every v outside [0, 2^n).", "quantifier": "every v and n", "why_tests_cant": "the boundary value", "anchors": ["crypto/bulletproof/range_prover.go: checkRange, Prove"]}
{"id": "C59", "title": "Batched range proofs verify", "statement": "For every batch size that is a power of two and at least 2 and values all in range, VerifyBatched accepts the proof of BatchProve.", "quantifier": "every batch", "why_tests_cant": "all batches", "anchors": ["crypto/bulletproof/range_batch_prover.go", "crypto/bulletproof/range_batch_verifier.go"]}
{"id": "C60", "title": "Multi-scalar multiplication equals the sum of products", "statement": "SumOfProducts returns the sum of scalar multiples for all equal-length inputs and nil for unequal lengths.", "quantifier": "every list of points and scalars", "why_tests_cant": "all lists", "anchors": ["crypto/core/curves/curve.go: sumOfProductsPippenger"]}
{"id": "C61", "title": "Binary field multiplication used by the OT extension is the GF(2^256) product", "statement": "The product function is the carry-less product reduced modulo X^256+X^10+X^5+X^2+1; in particular it is bilinear over xor and commutative.", "quantifier": "every pair of 256-bit strings", "why_tests_cant": "2^512 pairs", "anchors": ["crypto/ot/extension/kos/kos.go: binaryFieldMul"]}
{"id": "C62", "title": "Compact signatures carry R, S and the right recovery id", "statement": "SignCompact returns header byte 27+j(+4) followed by the 32-byte R and S where j is the least of 0..3 whose recovered key is the given public key, and fails exactly when no j does.", "quantifier": "all r, s below 2^256, keys, hashes and recovery functions", "why_tests_cant": "R and S range over 2^512 values, short encodings need padding", "anchors": ["crypto/data.go: SignCompact"]}
{"id": "C63", "title": "Modular arithmetic helpers", "statement": "Add, Mul, Neg, Exp return the representative in [0,m) of the integer result; Inv returns the inverse or an error exactly when none exists; In accepts exactly 0 <= x < m; ConstantTimeEq is equality.", "quantifier": "all integers x, y and all moduli m > 0 (m > 1 for Inv)", "why_tests_cant": "unbounded integers, sign cases", "anchors": ["crypto/core/mod.go: Add, Mul, Neg, Exp, Inv, In, ConstantTimeEq"]}
{"id": "C64", "title": "Iterated KDF challenges bind their inputs", "statement": "Two different value lists with equal Hash/FiatShamir results exhibit a collision (or zero preimage) of the 32-byte KDF; nil values are refused.", "quantifier": "all value lists of up to 255^32 entries of any length, any KDF", "why_tests_cant": "needs all list pairs and every hash function", "anchors": ["crypto/internal/hash.go: Hash, ByteSub", "crypto/core/hash.go: FiatShamir"]}
{"id": "C65", "title": "ExpandMessageXmd is RFC 9380 expand_message_xmd", "statement": "For every message, DST of at most 255 bytes and 1 <= len <= 255*hash size the output is the RFC value and has len bytes; longer requests are errors; message, DST and length are encoded injectively.", "quantifier": "all messages, DSTs, lengths and hash functions", "why_tests_cant": "unbounded inputs and block counts", "anchors": ["crypto/core/hash.go: ExpandMessageXmd, hashToField"]}
{"id": "C66", "title": "Hash commitments open only for what was committed", "statement": "Open(Commit(m)) is true; two distinct witnesses accepted for one commitment exhibit an HMAC collision; commitments of the wrong length are errors.", "quantifier": "all messages, nonces, commitments, witnesses, any HMAC", "why_tests_cant": "binding quantifies over all adversarial witnesses", "anchors": ["crypto/core/commit.go: Commit, Open"]}
{"id": "C67", "title": "The multiplication check binds the sender's whole message", "statement": "Each row of the sender's transfer message is covered by the challenge of the consistency check: changing any row of a message changes the transcript the challenge is drawn from.", "quantifier": "all messages tau, all rows, all encodings", "why_tests_cant": "the challenge must depend on every row of every message an adversary may send", "anchors": ["crypto/tecdsa/dklsv1/sign/multiply.go: Round2Multiply, Round3Multiply"]}
{"id": "C68", "title": "The joint public key is never the identity", "statement": "Alice's round 4 of key generation does not accept a peer key that makes the joint public key the point at infinity.", "quantifier": "all peer messages and proofs", "why_tests_cant": "quantifies over every message a malicious peer may send", "anchors": ["crypto/tecdsa/dklsv1/dkg/dkg.go: Round4VerifyAndReveal, Round5DecommitmentAndStartOt"]}
{"id": "C69", "title": "Bulletproof verifiers answer on every proof", "statement": "The inner product verifier and the range proof verifier return true, false or an error for every proof, including malformed ones; they do not panic.", "quantifier": "all proofs: any number of L and R points, any scalars", "why_tests_cant": "quantifies over every proof an adversary may send", "anchors": ["crypto/bulletproof/ipp_verifier.go: Verify, VerifyFromRangeProof", "crypto/bulletproof/range_verifier.go: Verify"]}
{"id": "C70", "title": "secp256k1 and P-256 point arithmetic computes the curve's group law", "statement": "Add, Double, Neg and Sub on secp256k1 and P-256 points return the sum, double, opposite and difference given by the chord-and-tangent group law, for every pair of points of the curve in any projective representation, including the identity, equal and opposite operands; results are again points of the curve.", "quantifier": "all points of the curve and all their projective representations", "why_tests_cant": "the exceptional cases of addition formulas form a vanishing fraction of the inputs and any sample misses them", "anchors": ["crypto/core/curves/native/k256/point.go: Add, Double", "crypto/core/curves/native/p256/point.go: Add, Double", "crypto/core/curves/native/point.go: Neg, Sub"]}
{"id": "C71", "title": "BLS12-381 G1 and G2 point arithmetic computes the curve's group law", "statement": "Add, Double, Neg, Sub and Identity of G1 and G2 compute the chord-and-tangent group law for every pair of points of the curve, and IsOnCurve accepts exactly the representations of points of the curve.", "quantifier": "all points of the curve and all their projective representations", "why_tests_cant": "quantifies over every pair of field-sized points, including exceptional ones", "anchors": ["crypto/core/curves/native/bls12381/g1.go: Add, Double, Neg, Sub, IsOnCurve", "crypto/core/curves/native/bls12381/g2.go: Add, Double, Neg, Sub, IsOnCurve"]}
{"id": "C72", "title": "Pallas point arithmetic computes the curve's group law", "statement": "Add, Double, Neg and Sub on Pallas points (Jacobian coordinates) compute the chord-and-tangent group law for every pair of points of the curve, exceptional cases included, and IsOnCurve accepts exactly the points of the curve.", "quantifier": "all points of the curve and all their Jacobian representations", "why_tests_cant": "quantifies over every pair of points, including equal, opposite and identity operands", "anchors": ["crypto/core/curves/pallas_curve.go: Ep.Add, Ep.Double, Ep.Neg, Ep.Sub, Ep.IsOnCurve"]}
{"id": "C73", "title": "Scalar multiplication is the n-fold sum", "statement": "Multiplying a point by a scalar gives the scalar's integer value many copies of the point added up, for every scalar byte string and every point, on secp256k1, P-256, G1, G2 and Pallas.", "quantifier": "all scalars, all points of the curves", "why_tests_cant": "2^256 scalars per point", "anchors": ["crypto/core/curves/native/point.go: Mul", "crypto/core/curves/native/bls12381/g1.go: multiply", "crypto/core/curves/native/bls12381/g2.go: multiply", "crypto/core/curves/pallas_curve.go: Ep.Mul"]}
{"id": "C74", "title": "Equal and IsIdentity decide equality of points, not of representations", "statement": "Equal answers true exactly when the two arguments represent the same point of the curve, and IsIdentity exactly when the argument is the identity, whatever the projective representation.", "quantifier": "all pairs of representations", "why_tests_cant": "each point has as many representations as the field has nonzero elements", "anchors": ["crypto/core/curves/native/point.go: Equal, IsIdentity", "crypto/core/curves/native/bls12381/g1.go: Equal", "crypto/core/curves/native/bls12381/g2.go: Equal", "crypto/core/curves/pallas_curve.go: Ep.Equal"]}
{"id": "C75", "title": "Importing affine coordinates accepts exactly the curve's points", "statement": "Setting a point from two coordinates succeeds exactly when they satisfy the curve equation (or are both zero, giving the identity); exporting a point and importing it again gives the same point; for G1 the import additionally demands the prime order subgroup.", "quantifier": "all coordinate pairs", "why_tests_cant": "an adversary chooses the coordinates", "anchors": ["crypto/core/curves/native/point.go: SetBigInt, BigInt", "crypto/core/curves/native/k256/point.go: ToAffine, IsOnCurve, RhsEq", "crypto/core/curves/native/p256/point.go: ToAffine, IsOnCurve, RhsEq", "crypto/core/curves/native/bls12381/g1.go: SetBigInt"]}
{"id": "C76", "title": "Cofactor clearing and the subgroup test", "statement": "MulByX multiplies by the BLS parameter, G1 ClearCofactor multiplies by 1 - x, the subgroup test accepts exactly the points killed by the group order, and on a curve whose exponent divides (1-x)*r a cleared point passes the test.", "quantifier": "all points of the curve", "why_tests_cant": "quantifies over every point, in and out of the subgroup", "anchors": ["crypto/core/curves/native/bls12381/g1.go: MulByX, ClearCofactor, InCorrectSubgroup", "crypto/core/curves/native/bls12381/g2.go: MulByX, InCorrectSubgroup"]}
{"id": "C77", "title": "Points form an abelian group up to Equal", "statement": "For points of the curve, addition is associative and commutative with the identity as neutral element and Neg as inverse, as observed through Equal, on all the Weierstrass curves.", "quantifier": "all triples of points and all their representations", "why_tests_cant": "associativity of the group law quantifies over all triples of points", "anchors": ["crypto/core/curves/native/point.go: Add, Neg, Equal", "crypto/core/curves/native/bls12381/g1.go: Add, Neg, Equal", "crypto/core/curves/pallas_curve.go: Ep.Add, Ep.Equal"]}
{"id": "C78", "title": "Point addition gives the same result whichever variable receives it", "statement": "p.Add(l, r) and p.Sub(l, r) give l + r and l - r also when the receiver is one of the operands.", "quantifier": "all points, all aliasings of receiver and operands", "why_tests_cant": "the API advertises in-place use; quantifies over all values and aliasings", "anchors": ["crypto/core/curves/native/point.go: Add, Sub"]}
{"id": "C80", "title": "Field elements compute exactly modulo the field's prime", "statement": "SetUint64, SetOne, SetZero, Add, Double, Sub, Mul, Square and CMove on the 64-bit limbs give the canonical element of the exact result modulo the prime, for every pair of elements; canonical limb arrays and residues correspond one to one.", "quantifier": "all elements of the five fields built on native.Field (secp256k1 base and scalar, P-256 base and scalar, BLS12-381 scalar)", "why_tests_cant": "carries propagate through limbs on a vanishing fraction of the 2^512 pairs", "anchors": ["crypto/core/curves/native/field.go", "crypto/core/curves/native/k256/fp/fp.go, k256/fp/secp256k1_fp.go", "crypto/core/curves/native/k256/fq/fq.go, k256/fq/secp256k1_fq.go", "crypto/core/curves/native/p256/fp/fp.go, p256/fp/p256_fp.go", "crypto/core/curves/native/p256/fq/fq.go, p256/fq/p256_fq.go", "crypto/core/curves/native/bls12381/fq.go"]}
{"id": "C81", "title": "Negating a field element gives its opposite", "statement": "Neg returns the canonical element of -v for every element v, so that zero stays zero.", "quantifier": "all elements of the five fields built on native.Field (secp256k1 base and scalar, P-256 base and scalar, BLS12-381 scalar)", "why_tests_cant": "the failing input is a single element out of 2^256", "anchors": ["crypto/core/curves/native/field.go", "crypto/core/curves/native/k256/fp/fp.go, k256/fp/secp256k1_fp.go", "crypto/core/curves/native/k256/fq/fq.go, k256/fq/secp256k1_fq.go", "crypto/core/curves/native/p256/fp/fp.go, p256/fp/p256_fp.go", "crypto/core/curves/native/p256/fq/fq.go, p256/fq/p256_fq.go", "crypto/core/curves/native/bls12381/fq.go"]}
{"id": "C82", "title": "Field encodings are canonical and lossless", "statement": "SetBytes accepts exactly the 32-byte little-endian strings below the prime, Bytes is its inverse, SetBytesWide and SetBigInt reduce every 64-byte string and every integer modulo the prime, BigInt and Raw return the value.", "quantifier": "all elements, all 32- and 64-byte strings, all integers", "why_tests_cant": "the boundary at the prime and the wide reduction cover 2^256 and 2^512 inputs", "anchors": ["crypto/core/curves/native/field.go", "crypto/core/curves/native/k256/fp/fp.go, k256/fp/secp256k1_fp.go", "crypto/core/curves/native/k256/fq/fq.go, k256/fq/secp256k1_fq.go", "crypto/core/curves/native/p256/fp/fp.go, p256/fp/p256_fp.go", "crypto/core/curves/native/p256/fq/fq.go, p256/fq/p256_fq.go", "crypto/core/curves/native/bls12381/fq.go"]}
{"id": "C83", "title": "Field comparisons decide equality of values", "statement": "Equal, IsZero, IsNonZero and IsOne answer 1 exactly on equal, zero, non-zero and one values; Cmp orders the values.", "quantifier": "all elements of the five fields built on native.Field (secp256k1 base and scalar, P-256 base and scalar, BLS12-381 scalar)", "why_tests_cant": "quantifies over all pairs of field elements", "anchors": ["crypto/core/curves/native/field.go", "crypto/core/curves/native/k256/fp/fp.go, k256/fp/secp256k1_fp.go", "crypto/core/curves/native/k256/fq/fq.go, k256/fq/secp256k1_fq.go", "crypto/core/curves/native/p256/fp/fp.go, p256/fp/p256_fp.go", "crypto/core/curves/native/p256/fq/fq.go, p256/fq/p256_fq.go", "crypto/core/curves/native/bls12381/fq.go"]}
{"id": "C84", "title": "Field powers, inverses and square roots are right, and missing ones are reported", "statement": "Exp(x, e) is x^e; Invert returns the inverse of every non-zero element, and reports failure leaving the receiver as it was for zero; Sqrt returns a root of every square and reports failure, leaving the receiver as it was, for every non-square.", "quantifier": "all elements of the five fields built on native.Field (secp256k1 base and scalar, P-256 base and scalar, BLS12-381 scalar)", "why_tests_cant": "correctness of addition chains and Tonelli-Shanks over the whole field, needs primality of the moduli", "anchors": ["crypto/core/curves/native/field.go", "crypto/core/curves/native/k256/fp/fp.go, k256/fp/secp256k1_fp.go", "crypto/core/curves/native/k256/fq/fq.go, k256/fq/secp256k1_fq.go", "crypto/core/curves/native/p256/fp/fp.go, p256/fp/p256_fp.go", "crypto/core/curves/native/p256/fq/fq.go, p256/fq/p256_fq.go", "crypto/core/curves/native/bls12381/fq.go"]}
{"id": "C85", "title": "Pasta field elements compute exactly modulo the field's prime", "statement": "SetUint64, SetBool, Add, Double, Sub, Neg, Mul, Square, CMove and Exp give the canonical element of the exact result modulo the prime; Invert returns the inverse and true for every non-zero element and (0, false) for zero; Sqrt returns a root and true for every square and false for every non-square.", "quantifier": "all elements of the two Pasta fields", "why_tests_cant": "carry chains, exponent constants and Tonelli-Shanks over 2^254 elements", "anchors": ["crypto/core/curves/native/pasta/fp/fp.go, fp/pasta_fp.go", "crypto/core/curves/native/pasta/fq/fq.go, fq/pasta_fq.go"]}
{"id": "C86", "title": "Pasta encodings are canonical and lossless", "statement": "SetBytes accepts exactly the 32-byte little-endian strings below the prime, Bytes is its inverse, SetBytesWide and SetBigInt reduce every 64-byte string and every integer modulo the prime, BigInt and ToRaw return the value.", "quantifier": "all elements, all 32- and 64-byte strings, all integers", "why_tests_cant": "the failing encodings of valid elements are a 2^-191 fraction of the field", "anchors": ["crypto/core/curves/native/pasta/fp/fp.go, fp/pasta_fp.go", "crypto/core/curves/native/pasta/fq/fq.go, fq/pasta_fq.go"]}
{"id": "C87", "title": "Pasta comparisons decide equality, order and parity of values", "statement": "Equal, IsZero, IsOne and IsOdd answer for the value; Cmp is the numeric order.", "quantifier": "all elements of the two Pasta fields", "why_tests_cant": "quantifies over all pairs of field elements", "anchors": ["crypto/core/curves/native/pasta/fp/fp.go, fp/pasta_fp.go", "crypto/core/curves/native/pasta/fq/fq.go, fq/pasta_fq.go"]}
{"id": "C79", "title": "The BLS12-381 base field computes exactly modulo its prime", "statement": "Add, Double, Sub, Neg, Mul, Square, MulBy3b, SetUint64, SetLimbs, CMove, Exp give the exact result modulo p in reduced form; CNeg negates when the choice is 1; Invert and Sqrt return an inverse and a root exactly when one exists and keep the old value otherwise; Equal, IsZero, IsOne, Sgn0 and LexicographicallyLargest answer for the integer value; SetBytes accepts exactly the 48-byte strings below p and Bytes is its inverse; SetBytesWide and SetBigInt reduce every input.", "quantifier": "all elements of the base field, all 48- and 96-byte strings, all integers", "why_tests_cant": "six-limb carry chains over 2^381 elements; a missed carry shows on a 2^-64 fraction of the inputs", "anchors": ["crypto/core/curves/native/bls12381/fp.go (fp)"]}
{"id": "C89", "title": "Compressed secp256k1 and P-256 points round-trip and name one point", "statement": "ToAffineCompressed gives 02/03 by the parity of y followed by x; FromAffineCompressed accepts exactly 33-byte strings with first byte 2 or 3 and x below p, and gives the point with that x and parity; encoding then decoding gives an equal point, and decoding then encoding gives back the bytes, for every point of the curve; the identity survives, and an x without a point is rejected.", "quantifier": "all curve points in any projective representation, all byte strings", "why_tests_cant": "2^256 x-coordinates, half of them without a point; representations differ by any Z", "anchors": ["crypto/core/curves/k256_curve.go (PointK256)", "crypto/core/curves/p256_curve.go (PointP256)", "crypto/core/curves/native/point.go"]}
{"id": "C90", "title": "Uncompressed secp256k1 and P-256 points round-trip and are on the curve", "statement": "ToAffineUncompressed gives 04, x, y; FromAffineUncompressed accepts exactly such strings with x, y below p and on the curve; both compositions are the identity, also for the point at infinity.", "quantifier": "all curve points in any representation, all byte strings", "why_tests_cant": "invalid-curve inputs are a vanishing fraction of what a test samples from valid points", "anchors": ["crypto/core/curves/k256_curve.go (PointK256)", "crypto/core/curves/p256_curve.go (PointP256)", "crypto/core/curves/native/point.go"]}
{"id": "C91", "title": "secp256k1 and P-256 points read and compare as points of the curve", "statement": "Set accepts exactly the coordinates on the curve (and (0,0) as the identity) after reduction, BigInt gives the coordinates back, Equal decides equality of points in any projective representation, IsOnCurve decides the equation, Neg is the inverse, IsIdentity decides infinity, and IsNegative tells y and -y apart as the sign byte does.", "quantifier": "all triples of reduced coordinate arrays, all integers", "why_tests_cant": "every point has p-1 representations", "anchors": ["crypto/core/curves/k256_curve.go (PointK256)", "crypto/core/curves/p256_curve.go (PointP256)", "crypto/core/curves/native/point.go"]}
{"id": "C88", "title": "secp256k1 and P-256 point arithmetic on limb arrays is the group of the curve", "statement": "On the actual Montgomery limb arrays, in any projective representation, Add, Double, Neg, Sub and Mul return the chord-and-tangent sum, double, opposite, difference and the k-fold sum for the integer k the scalar represents, for every pair of points of the curve (equal, opposite and infinite ones included); those sums form a commutative group on the points with coordinates modulo p, and multiples add and multiply as integers do.", "quantifier": "all curve points in every projective representation, all scalars", "why_tests_cant": "2^256 points, 2^256 scalars and p-1 representations of each point; exceptional pairs have vanishing probability in random tests", "anchors": ["crypto/core/curves/k256_curve.go (PointK256)", "crypto/core/curves/p256_curve.go (PointP256)", "crypto/core/curves/native/point.go (Add, Double, Neg, Sub, Mul, getBits)", "crypto/core/curves/native/k256/point.go (Add, Double)", "crypto/core/curves/native/p256/point.go (Add, Double)"]}
{"id": "C92", "title": "Extension-field arithmetic of BLS12-381 is exact", "statement": "On the six-limb base field, every operation of the quadratic, sextic and dodecic extensions (Add, Sub, Neg, Double, Mul, Square, MulByNonResidue, the sparse products used by the pairing, Invert, Equal, IsZero, IsOne) computes the corresponding operation of Fp[u]/(u^2+1), Fp2[v]/(v^3-(1+u)), Fp6[w]/(w^2-v); those polynomials are irreducible, so the three rings are fields and Invert fails only on zero, keeping its receiver.", "quantifier": "all elements of the three extensions (all reduced limb arrays)", "why_tests_cant": "Each operation is a Karatsuba-style formula over up to 12 coordinates of 381 bits; tests sample points and cannot establish a polynomial identity or irreducibility. Found: IsOne of the sextic and dodecic extensions never looks at one coordinate and accepts 1 + c v^2.", "anchors": ["crypto/core/curves/native/bls12381/fp2.go: Add, Sub, Mul, Square, Invert, MulByNonResidue", "crypto/core/curves/native/bls12381/fp6.go: Mul, MulByB, MulByAB, Square, Invert, IsOne", "crypto/core/curves/native/bls12381/fp12.go: Mul, MulByABD, Square, Invert, IsOne"]}
{"id": "C93", "title": "FrobeniusMap is the p-th power", "statement": "FrobeniusMap at each level of the tower returns the p-th power of its argument (with the three hard-coded constants), Conjugate of the dodecic extension the p^6-th power, and every non-zero element has order dividing p^12-1.", "quantifier": "all elements", "why_tests_cant": "The p-th power has a 381-bit exponent and the law must hold for every element; a wrong constant would only show in a few coordinates.", "anchors": ["crypto/core/curves/native/bls12381/fp2.go: FrobeniusMap, Conjugate", "crypto/core/curves/native/bls12381/fp6.go: FrobeniusMap", "crypto/core/curves/native/bls12381/fp12.go: FrobeniusMap, Conjugate"]}
{"id": "C94", "title": "Square roots in the quadratic extension", "statement": "Sqrt of the quadratic extension returns a square root and 1 for every square (including zero and the elements of Fp that are not squares in Fp), and 0 with the receiver unchanged for every non-square.", "quantifier": "all elements", "why_tests_cant": "Completeness quantifies over all squares; the algorithm has three branches, two of them reached by a negligible fraction of inputs.", "anchors": ["crypto/core/curves/native/bls12381/fp2.go: Sqrt, pow"]}
{"id": "C95", "title": "The target group", "statement": "Add multiplies and Double squares, for all elements; Neg, Sub, Square and IsOne are the inverse, the quotient, the square and the test for one exactly on the cyclotomic subgroup, where every pairing result lies. Multiplying a target-group element by a scalar returns the power.", "quantifier": "all elements and scalars", "why_tests_cant": "The formulas are valid only on a subgroup of negligible density; which elements they are right on is an algebraic statement. Found: multiplication by a scalar returns zero for every element and scalar; Neg, Sub and Square are wrong on elements outside the subgroup, which Random and SetBytes return.", "anchors": ["crypto/core/curves/native/bls12381/gt.go: Add, Double, Sub, Neg, Mul, Square, IsOne, cyclotomicSquare", "crypto/core/curves/native/bls12381/fp6.go: IsOne"]}
{"id": "C96", "title": "Final exponentiation", "statement": "FinalExponentiation raises every non-zero element to a fixed exponent e with e*r = 3(p^12-1): its image has order dividing r and is in the cyclotomic subgroup, it is multiplicative, it sends every non-zero element of the sextic subfield to one, and on zero it leaves the receiver unchanged.", "quantifier": "all elements of Fp12", "why_tests_cant": "The exponent has over 4300 bits and is computed by an addition chain with Frobenius maps and cyclotomic squarings valid only on part of the inputs.", "anchors": ["crypto/core/curves/native/bls12381/gt.go: FinalExponentiation, cyclotomicSquare, cyclotomicExp, fp4Square"]}
{"id": "C97", "title": "The pairing engine computes products of reduced ate pairings", "statement": "Result is the product of the results of the pairs added, whatever their order; pairs with an identity point contribute nothing, no pairs give one; AddPairInvG1 and AddPairInvG2 contribute the inverse; for a point of G1 and a point of order r of G2 the contribution is the textbook ate pairing (Miller's function of the untwisted point at P, conjugated) to the power 3(p^12-1)/r, it is not zero and has order dividing r; Check holds exactly when Result is one, and (P,Q),(-P,Q) passes it.", "quantifier": "all lists of pairs of points, all points", "why_tests_cant": "Quantifies over all point pairs and lists; the loop shares one accumulator between pairs, uses projective lines scaled by factors that only the final exponentiation removes, and skips the identity by conditional moves.", "anchors": ["crypto/core/curves/native/bls12381/pairings.go: Engine, AddPair, AddPairInvG1, AddPairInvG2, Check, Result, pairing, millerLoop, computeCoeffs, ell", "crypto/core/curves/native/bls12381/gt.go: FinalExponentiation"]}
{"id": "C98", "title": "Miller loop steps", "statement": "doublingStep and additionStep map Jacobian coordinates of T to those of 2T and T+Q on the twist, and return the coefficients of a non-zero multiple of the tangent at T and of the chord through T and Q.", "quantifier": "all points T of the curve, all affine points Q with another abscissa", "why_tests_cant": "Polynomial identities over Fp2 in up to five variables; the coefficients are projective and their scaling is invisible to tests of the final pairing.", "anchors": ["crypto/core/curves/native/bls12381/pairings.go: doublingStep, additionStep"]}
{"id": "C99", "title": "Every operation on G1 and G2 is the curve's group operation", "statement": "On the library's own limb arrays, Add, Double, Neg, Sub, Mul by a 32-byte scalar, Identity, Equal, IsIdentity and InCorrectSubgroup of G1 (y^2=x^3+4 over Fp) and of G2 (y^2=x^3+4(1+u) over Fp2) are the operations of the elliptic-curve group; both curves have no point of order two, so the complete formulas never fail.", "quantifier": "all pairs of points of the curve in any projective representation, all 32-byte scalars", "why_tests_cant": "Quantifies over all points; the exceptional cases (P=Q, P=-Q, identity) and all representatives of a point must agree.", "anchors": ["crypto/core/curves/native/bls12381/g1.go: Add, Double, Neg, Sub, Mul, Equal, IsIdentity, InCorrectSubgroup", "crypto/core/curves/native/bls12381/g2.go: Add, Double, Neg, Sub, Mul, Equal, IsIdentity, InCorrectSubgroup", "crypto/core/curves/native/bls12381/fp.go: MulBy3b"]}
{"id": "C100", "title": "The generators have order r", "statement": "The published generators of G1 and G2 are on their curves and have order exactly r; two scalars give the same multiple exactly when they agree modulo r; every multiple passes InCorrectSubgroup; the pairing of multiples that are not the identity is non-zero, has order dividing r, and cancels against either of its inverses.", "quantifier": "all scalars (32-byte strings)", "why_tests_cant": "The order is a 255-bit number and injectivity ranges over all pairs of scalars.", "anchors": ["crypto/core/curves/native/bls12381/g1.go: Generator, g1x, g1y, InCorrectSubgroup", "crypto/core/curves/native/bls12381/g2.go: Generator, g2x, g2y, InCorrectSubgroup", "crypto/core/curves/native/bls12381/pairings.go: AddPair, AddPairInvG1, AddPairInvG2, Check"]}
{"id": "C101", "title": "The endomorphism psi and ClearCofactor on G2", "statement": "psi is the untwist-Frobenius-twist map: it maps curve points to curve points, is additive, psi2 is psi applied twice and psi^4 - psi^2 + 1 = 0 on the whole curve; ClearCofactor is the additive map [x^2-x-1] + [x-1]psi + [2]psi^2; on the multiples of the generator psi is multiplication by the curve parameter and ClearCofactor multiplication by 4x^2-2x-1; a point on which psi is multiplication by the parameter passes InCorrectSubgroup.", "quantifier": "all points of the twist", "why_tests_cant": "The map uses three hard-coded field constants and a chain of point operations; its correctness is an identity between endomorphisms of the curve.", "anchors": ["crypto/core/curves/native/bls12381/g2.go: psi, psi2, ClearCofactor, psiCoeffX, psiCoeffY, psi2CoeffX"]}
{"id": "C102", "title": "Compressed encodings of G1 and G2 points", "statement": "ToCompressed writes the standard 48/96-byte form: big-endian x (the u component first for G2) with the compressed, infinity and sort flags in the top bits, the sort flag set exactly when y is the larger of y and -y. FromCompressed accepts exactly the strings with the compressed flag whose infinity flag is set, or whose x is below p and is the x of a curve point in the order-r subgroup, and returns the point with the y the sort flag names. Decoding an encoded subgroup point gives an equal point, and encoding a decoded point other than the identity gives the same bytes back.", "quantifier": "all points in any projective representation; all 48-byte (96-byte) strings", "why_tests_cant": "Exactness of acceptance ranges over all byte strings (x not below p, x off the curve, x outside the subgroup), and the sign choice over all points.", "anchors": ["crypto/core/curves/native/bls12381/g1.go: ToCompressed, FromCompressed", "crypto/core/curves/native/bls12381/g2.go: ToCompressed, FromCompressed", "crypto/core/curves/native/bls12381/fp.go: LexicographicallyLargest, Sqrt, CNeg, SetBytes, Bytes", "crypto/core/curves/native/bls12381/fp2.go: LexicographicallyLargest, Sqrt, CNeg"]}
{"id": "C103", "title": "Uncompressed encodings of G1 and G2 points", "statement": "ToUncompressed writes x and y big-endian (or 0x40 and zeros for the identity). FromUncompressed accepts exactly the strings with the infinity flag, or whose coordinates are below p and form a curve point of the order-r subgroup; decoding an encoded subgroup point gives an equal point, and a point other than the identity has one encoding up to the flag bits.", "quantifier": "all points; all 96-byte (192-byte) strings", "why_tests_cant": "Exactness of acceptance ranges over all byte strings.", "anchors": ["crypto/core/curves/native/bls12381/g1.go: ToUncompressed, FromUncompressed", "crypto/core/curves/native/bls12381/g2.go: ToUncompressed, FromUncompressed"]}
{"id": "C104", "title": "Affine coordinates as big integers", "statement": "BigInt returns the affine coordinates below p (0, 0 for the identity); SetBigInt accepts exactly the pairs whose residues are (0, 0) or a subgroup point, and inverts BigInt.", "quantifier": "all points; all pairs of integers", "why_tests_cant": "Ranges over all integers, including negative ones and those above p, and all projective representations.", "anchors": ["crypto/core/curves/native/bls12381/g1.go: BigInt, SetBigInt", "crypto/core/curves/native/bls12381/g2.go: BigInt, SetBigInt"]}
{"id": "C105", "title": "Mina bit vectors", "statement": "A bit vector behaves as the list of the bits put into it: New is empty or the given bits, Append adds one at the end, Element reads, Set replaces, Insert and Delete shift the tail, and out-of-range indices are refused, with no effect of stale bits in the last byte.", "quantifier": "all bit vectors up to 2^32 bits, all indices and bits", "why_tests_cant": "Ranges over all contents, lengths and histories of operations, including every alignment within a byte.", "anchors": ["crypto/signatures/schnorr/mina/bitvector.go: NewBitVector, Append, Element, Set, Insert, Delete"]}
{"id": "C106", "title": "Mina random-oracle input", "statement": "The roinput collects field elements and bits in order: AddFp, AddFq (255 bits), AddUint32, AddUint64, AddBit, AddBytes append exactly these; Bytes and Fields are the specified packings and are injective on inputs of the same shape.", "quantifier": "all inputs, all sequences of additions within 2^32 bits", "why_tests_cant": "Injectivity is a statement on all pairs of inputs; packing across 254-bit groups depends on every alignment.", "anchors": ["crypto/signatures/schnorr/mina/roinput.go: Init, AddFp, AddFq, AddUint32, AddUint64, AddBit, AddBytes, Bytes, Fields"]}
{"id": "C107", "title": "Mina transactions", "statement": "UnmarshalBinary inverts MarshalBinary; what is hashed of a transaction is its fields in the order of the specification and determines the transaction; decoding never panics.", "quantifier": "all transactions with numbers in their Go types, any keys in any coordinates; all byte strings", "why_tests_cant": "Ranges over all transactions, all pairs for injectivity, and all byte strings for panics.", "anchors": ["crypto/signatures/schnorr/mina/txn.go: MarshalBinary, UnmarshalBinary, addRoInput"]}
{"id": "C108", "title": "Mina signatures", "statement": "A signature made by SignTransaction or SignMessage verifies under the public key of the secret key; verification accepts exactly the solutions of the Schnorr equation s G = R + e P with R of even ordinate; the nonce input determines key, transaction and network; a signature is for one message.", "quantifier": "all secret keys, transactions, messages, networks, signatures and points of the curve", "why_tests_cant": "Ranges over all keys and messages and over forged signatures; needs the group law and the order of the generator.", "anchors": ["crypto/signatures/schnorr/mina/keys.go: SignTransaction, SignMessage, VerifyTransaction, VerifyMessage, finishSchnorrSign, finishSchnorrVerify, msgHash, msgDerive, GetPublicKey"]}
{"id": "C109", "title": "Mina encodings", "statement": "Compressed keys, addresses and signatures are read back as what was written, and a key has one address.", "quantifier": "all keys, signatures; all address payloads", "why_tests_cant": "Ranges over all points in all coordinates and all byte strings.", "anchors": ["crypto/signatures/schnorr/mina/keys.go: GenerateAddress, ParseAddress, MarshalBinary, UnmarshalBinary", "crypto/signatures/schnorr/mina/signature.go: MarshalBinary, UnmarshalBinary", "crypto/core/curves/pallas_curve.go: ToAffineCompressed, FromAffineCompressed"]}
{"id": "C110", "title": "Mina Poseidon hash and challenge derivation", "statement": "Permute is the Poseidon permutation for each parameter set, Init/Update/Digest is the sponge over it for inputs of any length however they are split, and DeriveChallenge gives the challenge VerifyTransaction uses.", "quantifier": "all constants of the declared sizes, all inputs of any length, all networks, transactions and points", "why_tests_cant": "Inputs are of unbounded length with any split between Update calls.", "anchors": ["crypto/signatures/schnorr/mina/poseidon_config.go: Permute, SBox.Exp", "crypto/signatures/schnorr/mina/poseidon_hash.go: Init, Update, Digest", "crypto/signatures/schnorr/mina/challenge_derive.go: DeriveChallenge"]}
{"id": "C111", "title": "Signature verification with x/did public keys", "statement": "For a key made of a prefix byte and two 32-byte coordinates of a curve point, VerifySignature answers exactly whether the 66-byte signature satisfies the ECDSA equation for the SHA3-256 of the message, so a signature made with the key's secret verifies; malformed keys and signatures give false; two keys verify the same signatures only if they are Equal.", "quantifier": "all groups with coordinates, keys, messages and signatures", "why_tests_cant": "Ranges over all keys, messages, nonces and byte strings of every length.", "anchors": ["x/did/types/pubkey.go: VerifySignature, BuildEcPoint, Equals", "crypto/signatures/ecdsa/ecdsa_signature.go: DeserializeSecp256k1Signature", "crypto/core/curves/ecdsa.go: VerifyEcdsa"]}
