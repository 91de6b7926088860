#!/usr/bin/env python3
"""Generate rocq/theories/Prime*.v: Pocklington certificates for the field moduli.

CERT maps a number n to (a, [(q, e), ...]): a witness and prime powers q^e dividing n - 1, each q
itself certified (below 10^4: by trial division).  The Coq checker (Pockl.v) verifies everything;
nothing here is trusted."""
import os, math
CERT = {
    4002409555221667393417789825735904156556882819939007885332058136124031650490837864442687629129015664037894272559787: (2, [(2584487767265781317813, 1), (52437899, 1), (859267, 1), (10177, 1)]),
    2584487767265781317813: (2, [(7259797099061183477, 1)]),
    7259797099061183477: (2, [(1928745244171409, 1)]),
    1928745244171409: (2, [(9272813673901, 1)]),
    9272813673901: (2, [(582767, 1), (7577, 1)]),
    582767: (2, [(4349, 1)]),
    52437899: (2, [(609743, 1)]),
    609743: (2, [(449, 1), (97, 1)]),
    859267: (2, [(47737, 1)]),
    47737: (3, [(3, 3), (17, 1)]),
    10177: (5, [(2, 6), (53, 1)]),
    115792089237316195423570985008687907853269984665640564039457584007908834671663: (2, [(205115282021455665897114700593932402728804164701536103180137503955397371, 1)]),
    205115282021455665897114700593932402728804164701536103180137503955397371: (2, [(255515944373312847190720520512484175977, 1)]),
    255515944373312847190720520512484175977: (2, [(107590001, 1), (7240687, 1), (96557, 1)]),
    107590001: (2, [(5, 4), (53, 1)]),
    7240687: (2, [(1206781, 1)]),
    1206781: (2, [(20113, 1)]),
    20113: (2, [(419, 1)]),
    96557: (2, [(239, 1), (101, 1)]),
    115792089237316195423570985008687907852837564279074904382605163141518161494337: (2, [(341948486974166000522343609283189, 1), (174723607534414371449, 1)]),
    341948486974166000522343609283189: (2, [(29047611873442575647497758179, 1)]),
    29047611873442575647497758179: (2, [(297159362677, 1), (545358713, 1)]),
    297159362677: (2, [(1627771, 1)]),
    1627771: (2, [(1871, 1)]),
    545358713: (2, [(28181, 1)]),
    28181: (2, [(1409, 1)]),
    174723607534414371449: (2, [(44706919, 1), (120233, 1)]),
    44706919: (2, [(9349, 1)]),
    120233: (2, [(113, 1), (19, 1)]),
    115792089210356248762697446949407573530086143415290314195533631308867097853951: (2, [(835945042244614951780389953367877943453916927241, 1)]),
    835945042244614951780389953367877943453916927241: (2, [(774023187263532362759620327192479577272145303, 1)]),
    774023187263532362759620327192479577272145303: (2, [(46076956964474543, 1), (11290956913871, 1)]),
    46076956964474543: (2, [(704251, 1), (78283, 1)]),
    704251: (2, [(313, 1), (5, 3)]),
    78283: (2, [(4349, 1)]),
    11290956913871: (2, [(66417393611, 1)]),
    66417393611: (2, [(3677, 1), (197, 1)]),
    115792089210356248762697446949407573529996955224135760342422259061068512044369: (2, [(2624747550333869278416773953, 1), (1002328039319, 1)]),
    2624747550333869278416773953: (2, [(208150935158385979, 1)]),
    208150935158385979: (2, [(191039911, 1), (3023, 1)]),
    191039911: (2, [(155317, 1)]),
    155317: (2, [(43, 2)]),
    1002328039319: (2, [(3969899, 1)]),
    3969899: (2, [(104471, 1)]),
    104471: (2, [(337, 1)]),
    52435875175126190479447740508185965837690552500527637822603658699938581184513: (5, [(254760293, 2), (906349, 2), (2, 32)]),
    254760293: (2, [(63690073, 1)]),
    63690073: (2, [(2653753, 1)]),
    2653753: (2, [(110573, 1)]),
    110573: (2, [(359, 1)]),
    906349: (2, [(1607, 1)]),
    28948022309329048855892746252171976963363056481941560715954676764349967630337: (2, [(8999194758858563409123804352480028797519453, 1)]),
    8999194758858563409123804352480028797519453: (2, [(325086459374267, 1), (22160661629, 1)]),
    325086459374267: (2, [(772231, 1), (413527, 1)]),
    772231: (2, [(25741, 1)]),
    25741: (3, [(13, 1), (11, 1), (3, 2)]),
    413527: (2, [(41, 3)]),
    22160661629: (2, [(41655379, 1)]),
    41655379: (2, [(6942563, 1)]),
    6942563: (2, [(977, 1), (19, 1)]),
    28948022309329048855892746252171976963363056481941647379679742748393362948097: (2, [(10427374428728808478656897599072717, 1), (1690502597179744445941507, 1)]),
    10427374428728808478656897599072717: (2, [(5239247429827, 1), (399082391, 1)]),
    5239247429827: (2, [(31649, 1), (12149, 1)]),
    31649: (3, [(43, 1), (2, 5)]),
    12149: (2, [(3037, 1)]),
    399082391: (2, [(5701177, 1)]),
    5701177: (2, [(6091, 1)]),
    1690502597179744445941507: (2, [(5247740253619, 1)]),
    5247740253619: (2, [(80513981, 1)]),
    80513981: (2, [(4025699, 1)]),
    4025699: (2, [(2012849, 1)]),
    2012849: (2, [(125803, 1)]),
    125803: (2, [(241, 1), (29, 1)]),
    7237005577332262213973186563042994240857116359379907606001950938285454250989: (2, [(276602624281642239937218680557139826668747, 1)]),
    276602624281642239937218680557139826668747: (2, [(19757330305831588566944191468367130476339, 1)]),
    19757330305831588566944191468367130476339: (2, [(172054593956031949258510691, 1)]),
    172054593956031949258510691: (2, [(4434155615661930479, 1)]),
    4434155615661930479: (2, [(1257559732178653, 1)]),
    1257559732178653: (2, [(1224481, 1), (531581, 1)]),
    1224481: (2, [(2551, 1)]),
    531581: (2, [(3797, 1)]),
}
FILES = {
  "PrimeK256": [("k256_p_prime", 2**256 - 2**32 - 977),
                ("k256_n_prime", 0xfffffffffffffffffffffffffffffffebaaedce6af48a03bbfd25e8cd0364141)],
  "PrimeP256": [("p256_p_prime", 0xffffffff00000001000000000000000000000000ffffffffffffffffffffffff),
                ("p256_n_prime", 0xffffffff00000000ffffffffffffffffbce6faada7179e84f3b9cac2fc632551)],
  "PrimeBls": [("bls_r_prime", 0x73eda753299d7d483339d80809a1d80553bda402fffe5bfeffffffff00000001)],
  "PrimeBlsP": [("bls_p_prime", 0x1a0111ea397fe69a4b1ba7b6434bacd764774b84f38512bf6730d2a0f6b0f6241eabfffeb153ffffb9feffffffffaaab)],
  "PrimePasta": [("pallas_p_prime", 0x40000000000000000000000000000000224698fc094cf91b992d30ed00000001),
                 ("pallas_q_prime", 0x40000000000000000000000000000000224698fc0994a8dd8c46eb2100000001)],
}
def emit(n, done, out):
    if n in done: return
    done.add(n)
    if n < 10**4:
        out.append("Local Lemma pr_%d : prime %d.\nProof. apply (trial_ok _ %d). vm_compute. reflexivity. Qed." % (n, n, math.isqrt(n) + 1))
        return
    a, fs = CERT[n]
    Q = 1
    for q, e in fs:
        emit(q, done, out); Q *= q
    L = n.bit_length(); k1, k2 = max(L - 6, 0), L + 14
    mu = 2**(k1 + k2) // n
    assert (n - 1) % Q == 0
    out.append("Local Lemma pr_%d : prime %d.\nProof.\n  apply (pock_check_ok _ %d %d %d %d\n    %d [%s]).\n  - vm_compute. reflexivity.\n  - repeat (apply Forall_cons; [cbn [fst]; %s|]); apply Forall_nil.\nQed." % (
        n, n, a, mu, k1, k2, (n - 1) // Q, "; ".join("(%d, %d)" % f for f in fs),
        "first [" + " | ".join("exact pr_%d" % q for q, e in fs) + "]"))
for f, ps in FILES.items():
    out, done = [], set()
    out.append("(** * GENERATED by tools/gen_primes.py: primality of %s, by Pocklington certificates. *)\nFrom Coq Require Import ZArith List Znumtheory.\nFrom Verif Require Import Pockl.\nImport ListNotations.\nOpen Scope Z_scope.\n" % ", ".join(hex(n) for _, n in ps))
    for name, n in ps:
        emit(n, done, out)
        out.append("Lemma %s : prime %d.\nProof. exact pr_%d. Qed.\n" % (name, n, n))
    open(os.path.join(os.path.dirname(__file__), "..", "rocq", "theories", f + ".v"), "w").write("\n".join(out))
