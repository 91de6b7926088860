"""Generates BlsG2Cert.v and BlsG1Cert.v: slopes and intermediate points of [|x|]G for the generators of G2 and G1.
Nothing here is trusted: GenChain.v checks every step."""
p = 0x1a0111ea397fe69a4b1ba7b6434bacd764774b84f38512bf6730d2a0f6b0f6241eabfffeb153ffffb9feffffffffaaab
X = 0xd201000000010000
Ri = pow(2**384, -1, p)
def L(*l): return sum(v << (64*i) for i, v in enumerate(l)) * Ri % p
g2x = (L(0xf5f28fa202940a10,0xb3f5fb2687b4961a,0xa1a893b53e2ae580,0x9894999d1a3caee9,0x6f67b7631863366b,0x058191924350bcd7),
       L(0xa5a9c0759e23f606,0xaaa0c59dbccd60c3,0x3bb17e18e2867806,0x1b1ab6cc8541b367,0xc2b6ed0ef2158547,0x11922a097360edf3))
g2y = (L(0x4c730af860494c4a,0x597cfa1f5e369c5a,0xe7e6856caa0a635a,0xbbefb5e96e0d495f,0x07d3a975f0ef25a2,0x0083fd8e7e80dae5),
       L(0xadc0fc92df64b05d,0x18aa270a2b1461dc,0x86adac6a3be4eba0,0x79495c4ec93da33a,0xe7175850a43ccaed,0x0b2bc2a163de1bf2))
g1x = L(0x5cb38790fd530c16,0x7817fc679976fff5,0x154f95c7143ba1c1,0xf0ae6acdf3d0e747,0xedce6ecc21dbf440,0x120177419e0bfb75)
g1y = L(0xbaac93d50ce72271,0x8c22631a7918fd8e,0xdd595f13570725ce,0x51ac582950405194,0x0e1c8c3fad0059c0,0x0bbc3efc5008a26a)

class F2:
    add = staticmethod(lambda a, b: (a[0]+b[0], a[1]+b[1]))
    sub = staticmethod(lambda a, b: (a[0]-b[0], a[1]-b[1]))
    mul = staticmethod(lambda a, b: (a[0]*b[0]-a[1]*b[1], a[0]*b[1]+a[1]*b[0]))
    red = staticmethod(lambda a: (a[0] % p, a[1] % p))
    @staticmethod
    def inv(a):
        n = pow(a[0]*a[0]+a[1]*a[1], -1, p)
        return (a[0]*n % p, -a[1]*n % p)
    @staticmethod
    def k(a, b):
        d = F2.sub(a, b); assert d[0] % p == 0 and d[1] % p == 0
        return (d[0]//p, d[1]//p)
    show = staticmethod(lambda a: "(%s,%s)" % (h(a[0]), h(a[1])))
class F1:
    add = staticmethod(lambda a, b: a+b)
    sub = staticmethod(lambda a, b: a-b)
    mul = staticmethod(lambda a, b: a*b)
    red = staticmethod(lambda a: a % p)
    inv = staticmethod(lambda a: pow(a, -1, p))
    @staticmethod
    def k(a, b):
        assert (a-b) % p == 0
        return (a-b)//p
    show = staticmethod(lambda a: h(a))
def h(v): return ("-0x%x" % -v if v < 0 else "0x%x" % v)

def chain(F, g):
    gx, gy = g
    x, y = g
    out = []
    for bit in bin(X)[3:]:
        xx = F.mul(x, x); num = F.add(F.add(xx, xx), xx); den = F.add(y, y)
        l = F.red(F.mul(F.red(num), F.inv(F.red(den))))
        k1 = F.k(F.mul(F.add(y, y), l), num)
        e2 = F.sub(F.sub(F.mul(l, l), x), x); x1 = F.red(e2); k2 = F.k(x1, e2)
        e3 = F.sub(F.mul(l, F.sub(x, x1)), y); y1 = F.red(e3); k3 = F.k(y1, e3)
        out.append(("false", l, x1, y1, k1, k2, k3)); x, y = x1, y1
        if bit == "1":
            l = F.red(F.mul(F.red(F.sub(y, gy)), F.inv(F.red(F.sub(x, gx)))))
            k1 = F.k(F.mul(F.sub(x, gx), l), F.sub(y, gy))
            e2 = F.sub(F.sub(F.mul(l, l), x), gx); x1 = F.red(e2); k2 = F.k(x1, e2)
            e3 = F.sub(F.mul(l, F.sub(x, x1)), y); y1 = F.red(e3); k3 = F.k(y1, e3)
            out.append(("true", l, x1, y1, k1, k2, k3)); x, y = x1, y1
    return out, (x, y)

HEAD = """(** Generated by tools/gen_blscert.py: slopes, points and quotients, checked step by step by [run] of GenChain.v. *)
From Coq Require Import ZArith List.
From Verif Require Import GenChain.
Import ListNotations.
Local Open Scope Z_scope.

"""
def emit(name, F, ty, ch):
    s = "Definition %s : list (chain_step %s) := [\n" % (name, ty)
    s += ";\n".join("  Step %s %s" % (a, " ".join(("(%s)" if v_ == "F1" else "%s") % t for v_, t in ((F.__name__, F.show(v)) for v in vs))) for a, *vs in ch)
    return s + "].\n"
if __name__ == "__main__":
    import sys, os
    d = os.path.join(os.path.dirname(os.path.abspath(__file__)), "..", "rocq", "theories")
    assert F2.red(F2.sub(F2.mul(g2y, g2y), F2.add(F2.mul(F2.mul(g2x, g2x), g2x), (4, 4)))) == (0, 0)
    c, (x, y) = chain(F2, (g2x, g2y))
    with open(os.path.join(d, "BlsG2Cert.v"), "w") as f:
        f.write(HEAD)
        for n, v in (("g2_gx", g2x), ("g2_gy", g2y), ("g2_xx", x), ("g2_xy", y)):
            f.write("Definition %s : Z * Z := %s.\n" % (n, F2.show(v)))
        f.write(emit("g2_chain", F2, "(Z * Z)", c))
    assert (g1y*g1y - g1x**3 - 4) % p == 0
    c1, m = chain(F1, (g1x, g1y))
    c2, e = chain(F1, m)
    with open(os.path.join(d, "BlsG1Cert.v"), "w") as f:
        f.write(HEAD)
        for n, v in (("g1_gx", g1x), ("g1_gy", g1y), ("g1_mx", m[0]), ("g1_my", m[1]), ("g1_ex", e[0]), ("g1_ey", e[1])):
            f.write("Definition %s : Z := %s.\n" % (n, h(v)))
        f.write(emit("g1_chain1", F1, "Z", c1))
        f.write(emit("g1_chain2", F1, "Z", c2))
    print("G2", len(c), "G1", len(c1)+len(c2), hex(x[0]), "beta", hex(e[0]*pow(g1x,-1,p)%p), e[1]==g1y, (e[1]+g1y)%p==0)
