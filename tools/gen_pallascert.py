"""Generates PallasCert.v: slopes and intermediate points of [q-1]G for the generator of Pallas, with q its order.
Nothing here is trusted: GenChain.v checks every step."""
import os
p = 0x40000000000000000000000000000000224698fc094cf91b992d30ed00000001
q = 0x40000000000000000000000000000000224698fc0994a8dd8c46eb2100000001
gx = 1
gy = sum(x << (64*i) for i, x in enumerate([0x2f474795455d409d, 0xb443b9b74b8255d9, 0x270c412f2c9a5d66, 0x8e00f71ba43dd6b])) * pow(2, -256, p) % p
assert gy * gy % p == 6
def h(v): return "(-0x%x)" % -v if v < 0 else "0x%x" % v
out = []
x, y = gx, gy
def step(add, num, den, x, y, x2):
    l = num * pow(den, -1, p) % p
    k1 = (den * l - num) // p
    e2 = l*l - x - x2; x1 = e2 % p
    e3 = l*(x-x1) - y; y1 = e3 % p
    assert (den*l - num) % p == 0
    out.append((add, l, x1, y1, k1, (x1-e2)//p, (y1-e3)//p))
    return x1, y1
for b in bin(q-1)[3:]:
    x, y = step("false", 3*x*x, 2*y, x, y, x)
    if b == "1":
        x, y = step("true", y-gy, x-gx, x, y, gx)
assert (x, y) == (gx, p-gy)
d = os.path.join(os.path.dirname(os.path.abspath(__file__)), "..", "rocq", "theories")
with open(os.path.join(d, "PallasCert.v"), "w") as f:
    f.write("""(** Generated by tools/gen_pallascert.py: slopes, points and quotients, checked step by step by [run] of GenChain.v. *)
From Coq Require Import ZArith List.
From Verif Require Import GenChain.
Import ListNotations.
Local Open Scope Z_scope.

""")
    f.write("Definition pallas_gx : Z := %s.\nDefinition pallas_gy : Z := %s.\n" % (h(gx), h(gy)))
    f.write("Definition pallas_chain : list (chain_step Z) := [\n")
    f.write(";\n".join("  Step %s %s" % (s[0], " ".join(h(v) for v in s[1:])) for s in out))
    f.write("].\n")
print(len(out))
