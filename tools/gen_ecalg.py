#!/usr/bin/env python3
"""Generates rocq/theories/EcAlg.v: normal forms of the complete addition formulas modulo the curve
equations, and from them the associativity cross products. The polynomials are computed here; Coq's ring
re-derives every one of them."""
import sys, os
from collections import defaultdict
N = 8
names = ['x1', 'y1', 'x2', 'y2', 'x3', 'y3', 'a', 'b']
def V(i):
    e = [0] * N; e[i] = 1; return {tuple(e): 1}
def C(c): return {tuple([0] * N): c} if c else {}
x = [V(0), V(2), V(4)]; y = [V(1), V(3), V(5)]; a = V(6); b = V(7)
def add(p, q, s=1):
    r = defaultdict(int, p)
    for k, v in q.items(): r[k] += s * v
    return {k: v for k, v in r.items() if v}
def rawmul(p, q):
    r = defaultdict(int)
    for k, v in p.items():
        for l, w in q.items(): r[tuple(map(int.__add__, k, l))] += v * w
    return {k: v for k, v in r.items() if v}
cache = {}
def powrhs(i, n):
    if (i, n) not in cache:
        cache[(i, n)] = C(1) if n == 0 else rawmul(powrhs(i, n - 1), add(add(rawmul(rawmul(x[i], x[i]), x[i]), rawmul(a, x[i])), b))
    return cache[(i, n)]
def red(p):
    out = defaultdict(int)
    for k, v in p.items():
        k = list(k); q = C(v)
        for i in range(3):
            e = k[2 * i + 1]
            if e >= 2: q = rawmul(q, powrhs(i, e // 2)); k[2 * i + 1] = e % 2
        for kk, vv in q.items(): out[tuple(map(int.__add__, kk, tuple(k)))] += vv
    return {k: v for k, v in out.items() if v}
def mul(p, q): return red(rawmul(p, q))
def s(c, p): return {k: c * v for k, v in p.items()}
def cadd(P, Q):
    X1, Y1, Z1 = P; X2, Y2, Z2 = Q
    xx = mul(X1, X2); yy = mul(Y1, Y2); zz = mul(Z1, Z2)
    xy = add(mul(X1, Y2), mul(X2, Y1)); xz = add(mul(X1, Z2), mul(X2, Z1)); yz = add(mul(Y1, Z2), mul(Y2, Z1))
    u = add(mul(a, xz), s(3, mul(b, zz)))
    w = add(add(mul(a, xx), s(3, mul(b, xz))), mul(mul(a, a), zz), -1)
    t = add(s(3, xx), mul(a, zz)); m = add(yy, u, -1); p = add(yy, u)
    return (add(mul(xy, m), mul(yz, w), -1), add(mul(t, w), mul(p, m)), add(mul(yz, p), mul(xy, t)))
P = [(x[i], y[i], C(1)) for i in range(3)]
S = cadd(P[0], P[1]); T = cadd(P[1], P[2]); L = cadd(S, P[2]); M = cadd(P[0], T)
def num(n): return '1' if n == 1 else ('(2*%s)' if n % 2 == 0 else '(1+2*%s)') % num(n // 2)
def show(p):
    out = []
    for k in sorted(p):
        v = p[k]; m = [n for n, e in zip(names, k) for _ in range(e)]; c = abs(v)
        out.append(('-' if v < 0 else '+') + ' ' + '*'.join(([num(c)] if c != 1 or not m else []) + m))
    r = ' '.join(out)
    r = r[2:] if r.startswith('+') else '0 ' + r
    lines = []; cur = ''
    for t in r.split(' '):
        if len(cur) + len(t) > 110: lines.append(cur); cur = ''
        cur += (' ' if cur else '') + t
    return '\n    '.join(lines + [cur])
w = []
w.append('''(** Generated by tools/gen_ecalg.py. The complete addition formulas of Renes, Costello and Batina (2015/1060) for
    y^2 = x^3 + a x + b, and polynomial identities for them modulo the curve equations, all checked by [ring]. *)
From Coq Require Import Ring Field.
From Verif Require Import EcField.
Local Open Scope fld_scope.

Section Formula.
  Variable F : field.
  Implicit Types a b : F.
  Definition cx a b X1 Y1 Z1 X2 Y2 Z2 : F :=
    (X1*Y2+X2*Y1)*(Y1*Y2-a*(X1*Z2+X2*Z1)-3*b*(Z1*Z2)) - (Y1*Z2+Y2*Z1)*(a*(X1*X2)+3*b*(X1*Z2+X2*Z1)-a*a*(Z1*Z2)).
  Definition cy a b X1 Y1 Z1 X2 Y2 Z2 : F :=
    (3*(X1*X2)+a*(Z1*Z2))*(a*(X1*X2)+3*b*(X1*Z2+X2*Z1)-a*a*(Z1*Z2))
    + (Y1*Y2+a*(X1*Z2+X2*Z1)+3*b*(Z1*Z2))*(Y1*Y2-a*(X1*Z2+X2*Z1)-3*b*(Z1*Z2)).
  Definition cz a b X1 Y1 Z1 X2 Y2 Z2 : F :=
    (Y1*Z2+Y2*Z1)*(Y1*Y2+a*(X1*Z2+X2*Z1)+3*b*(Z1*Z2)) + (X1*Y2+X2*Y1)*(3*(X1*X2)+a*(Z1*Z2)).
End Formula.

Section Alg.
  Variable F : field.
  Add Field fF2 : (fth F).
  Variables a b x1 y1 x2 y2 x3 y3 : F.
  Hypothesis H1 : y1*y1 = x1*x1*x1+a*x1+b.
  Hypothesis H2 : y2*y2 = x2*x2*x2+a*x2+b.
  Hypothesis H3 : y3*y3 = x3*x3*x3+a*x3+b.
''')
for nm, Q in (('S', S), ('T', T), ('L', L), ('M', M)):
    for c, p in zip('xyz', Q): w.append('  Definition %s%s : F :=\n    %s.\n' % (nm, c, show(p)))
for c in 'xyz':
    w.append('  Lemma S%s_ok : cx F a b x1 y1 1 x2 y2 1 = S%s.\n  Proof. unfold cx, S%s. ring [H1 H2]. Qed.\n'.replace('cx', 'c' + c) % (c, c, c))
    w.append('  Lemma T%s_ok : cx F a b x2 y2 1 x3 y3 1 = T%s.\n  Proof. unfold cx, T%s. ring [H2 H3]. Qed.\n'.replace('cx', 'c' + c) % (c, c, c))
for c in 'xyz':
    w.append('  Lemma L%s_ok : cx F a b Sx Sy Sz x3 y3 1 = L%s.\n  Proof. unfold cx, L%s, Sx, Sy, Sz. ring [H1 H2 H3]. Qed.\n'.replace('cx', 'c' + c) % (c, c, c))
    w.append('  Lemma M%s_ok : cx F a b x1 y1 1 Tx Ty Tz = M%s.\n  Proof. unfold cx, M%s, Tx, Ty, Tz. ring [H1 H2 H3]. Qed.\n'.replace('cx', 'c' + c) % (c, c, c))
for c, d in ('xz', 'yz', 'xy'):
    w.append('  Lemma LM_%s%s : L%s * M%s = L%s * M%s.\n  Proof. unfold L%s, M%s, L%s, M%s. ring [H1 H2 H3]. Qed.\n' % (c, d, c, d, d, c, c, d, d, c))
w.append('End Alg.\n')
open(os.path.join(os.path.dirname(os.path.abspath(__file__)), '../rocq/theories/EcAlg.v'), 'w').write(''.join(w))
