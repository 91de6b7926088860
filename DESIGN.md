# Formal model of di-dao/sonr in Rocq (Coq 8.16.1)

## Layout

`rocq/theories/` (one flat directory, logical name `Verif`)

* `*Model.v`  executable, total Gallina model, function by function, each definition
  citing the file and lines of /repo it models (line numbers of the pinned commit).
* `*Spec.v`   the small independent specifications the theorems are stated with
  (curve group law, representation of a field value by limbs, encodings, ...).
* `*Proofs.v` and files with other names: lemmas.
* `*Props.v`  the property theorems, named `Cnn_*`, with non-vacuity `Example`s next to
  them. `Cnn_*_refuted` proves that the English claim fails of the modelled code, with a
  concrete (or universally quantified) witness; `Cnn_*_partial` proves a part.

Two styles are used, never mixed in one file: stdlib (`List`, `ZArith`, `lia`) for
state machines, bytes, big integers, limbs and curves; mathcomp (`fieldType`,
`lmodType`, `poly`, `bigop`) for the algebraic protocols.

Generated files carry their generator's name in the first line; the generators are in
`tools/` (`gen_ecalg.py` field identities of the group law, `gen_limbs.py` the fiat/
assembly-style limb functions transcribed from the Go text and their proofs,
`gen_primes.py` Pocklington certificates, `gen_points.py`, `gen_tower.py` the tower and
curve functions transcribed statement by statement, `gen_blscert.py` slope certificates
for the generator orders). What they emit is ordinary Coq source that the kernel
checks like everything else; the generators themselves are trusted only as far as a
hand transcription would be (the emitted model text is what must agree with /repo).

## Modelling conventions

* Go `error` results: `option`/`result` values. `panic`: a separate constructor
  (`Panic`) wherever the property is about it. `nil` is an explicit case.
* Scalars of a curve are elements of an arbitrary `fieldType` F; points of the
  prime-order group are elements of an arbitrary `lmodType F`  (a group of prime
  order p is exactly a one-dimensional vector space over F_p; nothing uses the
  dimension unless a hypothesis says so: "generator G has no torsion", i.e.
  `s *: G = 0 -> s = 0`, true for every non-identity point). Scalar and point byte
  encodings are modelled where the code can observe them (shares carry bytes that
  may fail to decode).
* Pairings: a bilinear map into an additive group, section hypotheses, discharged
  into the theorem statement. `F^o` with multiplication is given as an instance.
* Hash functions, HMAC, AES, random sources, gob: arbitrary functions
  (section variables), so theorems hold for every such function. No security
  assumption (collision resistance, discrete log) is ever assumed; soundness
  claims are stated as extraction ("two accepting openings yield the dlog").
* Random choices are explicit arguments: theorems quantify over all of them.

## Per-property plan

| id | modelled | how proved |
|----|----------|-----------|
| C01 | did keeper as state + step over messages | refinement to "last accepted value", induction on history |
| C02 | keeper Init/ExportGenesis | round trip |
| C03 | AppModule.InitGenesis (ignores its input) | `_refuted` with witness; holds exactly for default params |
| C04 | InitializeController with decode oracles and ORM insert | never overwrites (proved); "stores what it carried" `_refuted` |
| C05 | message tree, HasDisallowedMessage, AnteHandle | induction on trees vs inductive "occurs in" |
| C06 | middleware over an abstract wrapped app | per-callback equality; SendPacket `_refuted` (port := channel) |
| C07 | slices with backing array for Unlink's range loop | partial for unique lists, `_refuted` for duplicates/panic |
| C08 | UpdateCounter | invariant over histories |
| C09 | regex as explicit recognizer, hex, EqualFold on ASCII | equivalence with declarative grammar |
| C10 | protoStepper | invariants over call histories |
| C11 | RunProtocol with fuel = while(true) loop | induction on lengths |
| C12 | serializers over abstract gob | case analysis |
| C13-C16 | byte functions on lists of Z/N | induction |
| C17 | Read loop with Go index panics | multiple-of-32 lengths proved, other lengths `_refuted` |
| C18-C20 | AES-SIV over an arbitrary block permutation function | induction on blocks |
| C21 | layout of Encrypt/Decrypt | `_refuted` layout mismatch |
| C22-C27 | Shamir/Feldman/Pedersen over fieldType | Lagrange interpolation, polynomial root bound |
| C28-C33 | DKG/threshold signatures | built on the Shamir lemmas |
| C34-C39 | BLS, BBS+ over bilinear map | algebra, bigop |
| C40 | Schnorr | algebra |
| C41-C44 | accumulator | polynomial identities |
| C45-C47 | Paillier | number theory in mathcomp nat/Z_n |
| C48 | Field/Element over Z mod p | Znumtheory |
| C49-C55 | DKLS | algebra over F and booleans |
| C56-C59 | bulletproofs | induction on log2 length, bigop |
| C60 | Pippenger on Z scalars, zmodType points | digit decomposition |
| C61 | binaryFieldMul on 64-bit words | N bit operations vs GF(2)[X] |
| C62, C63 | Compact signatures, modular helpers | integers modulo, case analysis |
| C64-C66 | hash-based challenges, ExpandMessageXmd, commitments over an arbitrary hash | injectivity of the framing; commitments: a second opening exhibits a collision |
| C67-C69 | multiplication check transcript, joint key, bulletproof verifier robustness | `_refuted` witnesses, exact panic conditions |
| C70-C78 | native point formulas (k256, p256, G1, Pallas) over an arbitrary field | completeness of the formulas from generated field identities (`EcAlg.v`); group axioms of the chord-tangent law proved in `EcProofs.v` |
| C79-C84 | the five 4- and 6-limb Montgomery fields as limb code | carry-chain lemmas: every limb function equals the integer operation mod p; exponent chains by `pow` lemmas; primality by Pocklington |
| C85-C87 | the pasta fields | same |
| C88 | k256/p256 limb code + point formulas | instance of C70.. at the limb field (`LimbField`: the field of reduced limb arrays) |
| C89-C91 | SEC1 encodings of k256/p256 points, sign, comparison | acceptance as iff, both compositions |
| C92-C98 | Fp2/Fp6/Fp12, Frobenius, Gt, final exponentiation, Miller loop and engine | tower of quadratic/cubic extensions over a field where the non-residues have no roots; exponent arithmetic; Miller loop against the affine line functions (`MillerSpec.v`) |
| C99-C101 | G1, G2, generators, psi, ClearCofactor | instances of C71/C73/C76; order by certified addition chain; psi as conjugation by the twist |
| C105, C106 | Mina bit vectors and random-oracle inputs (MinaBits*.v) | bytes versus lists of bits; packing and its injectivity; `_refuted` for Append at 2^32 bits and Fields of inputs of different lengths |
| C107-C110 | Mina transactions, Schnorr signatures, addresses, Poseidon sponge (Mina*.v) | generic over a codec of a field of p elements, then instantiated at the limb-level Pallas field (MinaInstance.v); the generator's order by an addition chain certificate (PallasCert.v, tools/gen_pallascert.py); Poseidon constants, BLAKE2b and SHA-256 are universally quantified |
| C111 | x/did public keys (DidPubkey*.v) | group with coordinates as a record of laws; key bytes through the codec of C14; Bezout for the modular inverse |
| C102-C104 | Zcash encodings and BigInt/SetBigInt of G1, G2 | acceptance as iff, both compositions, `_refuted` for G2.BigInt and non-canonical flags |

Per-property status, theorem names and what is missing: `MANIFEST.json`.

### What the refutations say about the code

Each is a theorem about the modelled code, so a reader can replay the witness in Go.
C03 genesis import discards state; C04 controller initialisation reports success
without storing; C06 SendPacket passes the channel as port; C07 duplicates survive
Unlink / index panic; C12 refresh accepts other versions; C13, C15, C17, C21 missing
range checks, HMAC-DRBG panics off the hash size, witness encryption cannot decrypt;
C29, C31 Gennaro/FROST do not check a share's identifier; C30 more cosigners than the
threshold; C32, C33 identifiers truncated to a byte; C35 identifier zero; C36, C37 BBS+
generators all equal; C43 empty batch panics; C54 high-S for order above 2^255; C57,
C59 big-endian scalars in range proofs; C58 v = 2^n accepted by the prover; C60 length
mismatch; C64 sign dropped; C67 rows of tau unbound; C68 identity joint key; C69
verifier panics; C78 aliasing of Add; C81 -0; C83, C87 Cmp; C86 encodings; C89-C91
off-curve points and IsNegative; C92 IsOne; C95 Gt.Mul is constant; C102, C103 several
encodings of one point; C104 G2.BigInt does not read its receiver.

## Trusted base

* Coq's kernel including its VM (`vm_compute` is used for certificate checks and
  constants; coqchk re-checks them with the lazy machine), and coqchk.
* The reading of the Go source into the model. Every definition cites its lines.
* `Print Assumptions` of every theorem in MANIFEST.json: `Closed under the global context` for all of
  them, i.e. no axiom at all, of the standard library or otherwise (`tools/assumptions.py` re-runs the check).
* No axiom of our own, no `Admitted`, no functor or module type of our own, no kernel
  check switched off. mathcomp seals some definitions (`locked_with` keys, `Module
  Type` signatures in `ssrbool`/`bigop`/`matrix`); vcheck's list `library_axioms`
  names those sealed constants: they are definitions behind a signature, not
  assumptions of the theorems.

### Modelled by contract rather than by code

`math/big`, `math/bits` (Add64, Mul64 as exact integer operations on words),
`encoding/binary`, `crypto/*` hashes, HMAC, AES block cipher, gob, `filippo.io/
edwards25519`, btcec and the stdlib elliptic package: each by its documented contract;
hashes and block ciphers are arbitrary functions. Results are returned rather than
written through pointers, except where aliasing is the property (C78, C07).
In the algebraic protocol files the group is an arbitrary `lmodType` over the scalar
field; C70-C91, C99-C100 justify that for the native curves (group axioms, generator
orders of G1 and G2).

### Not proved

Bilinearity of the pairing (C97 proves product structure, order, inverses, invariance
under representation); that ClearCofactor maps every curve point into the subgroup (needs the number
of points over Fp2, C101); order of the k256/p256/pallas generators; computational
security of any protocol.

## Seeded errors

`seeded/LOG.jsonl`: one line per seeded error. A scratch copy of the theories has one
definition edited the way a bug would change it; everything that depends on it is
rebuilt (proof bodies of failing lemmas are admitted in the scratch copy so that
later theorems are still tried) and the theorems that no longer check are recorded. An edit that
makes an English claim false while its theorem still checks led to a stronger theorem
(`tightened`); `equivalent` marks edits that do not change what the function computes.

## Not modelled

Networking, goroutines of the Cosmos SDK node, protobuf code generation, UI templates,
IPFS, constant-time behaviour, memory zeroisation, random number quality, performance.
