#!/usr/bin/env python3
"""Translate the straight-line uint64 code of /repo's native fields into Gallina.

Every statement of the Go function becomes one `let`; array cells become
variables (r[3] -> r_3), re-assignment becomes shadowing, Go's operators become
the wrap-around word operators of LimbBase.v.  Nothing is re-ordered,
simplified or merged.  Statements outside the tiny grammar below make the
generator fail instead of being skipped.
"""
import os, re, sys

REPO = '/repo/crypto/core/curves/native/'

# ---------------------------------------------------------------- expressions
TOK = re.compile(r'\s*(0x[0-9a-fA-F_]+|\d+|[A-Za-z_][A-Za-z_0-9]*(?:\.[A-Za-z_0-9]+)?|<<|>>|&\^|[-+*|&^()\[\],])')
PREC = {'*': 5, '<<': 5, '>>': 5, '&': 5, '&^': 5, '+': 4, '-': 4, '|': 4, '^': 4}
OPN = {'*': 'wmul', '<<': 'wshl', '>>': 'wshr', '&': 'wand', '&^': 'wandnot',
       '+': 'wadd', '-': 'wsub', '|': 'wor', '^': 'wxor'}
CASTS = {'uint64', 'uint1', 'fiat_pasta_fp_uint1', 'fiat_pasta_fq_uint1'}


class P:
    def __init__(self, s, names):
        self.t = []
        i = 0
        while i < len(s):
            m = TOK.match(s, i)
            if not m:
                if s[i:].strip() == '':
                    break
                raise SystemExit('cannot tokenise: ' + s)
            self.t.append(m.group(1))
            i = m.end()
        self.i = 0
        self.names = names

    def peek(self):
        return self.t[self.i] if self.i < len(self.t) else None

    def next(self):
        self.i += 1
        return self.t[self.i - 1]

    def expect(self, x):
        y = self.next()
        if y != x:
            raise SystemExit('expected %s got %s in %s' % (x, y, self.t))

    def expr(self, p=0):
        l = self.unary()
        while self.peek() in PREC and PREC[self.peek()] > p:
            o = self.next()
            r = self.expr(PREC[o])
            l = '(%s %s %s)' % (OPN[o], l, r)
        return l

    def unary(self):
        t = self.peek()
        if t == '-':
            self.next()
            return '(wneg %s)' % self.unary()
        if t == '^':
            self.next()
            return '(wnot %s)' % self.unary()
        if t == '(':
            self.next()
            e = self.expr()
            self.expect(')')
            return e
        t = self.next()
        if t[0].isdigit():
            return str(int(t.replace('_', ''), 0))
        if self.peek() == '[':
            self.next()
            i = self.next()
            self.expect(']')
            if t in self.names.get('bytes', ()):
                return '(nth %s %s 0)' % (i, t)
            return self.names.get(t + '[]', t) + '_' + i
        if t in CASTS:
            self.expect('(')
            e = self.expr()
            self.expect(')')
            return e
        if t == 'uint8':
            self.expect('(')
            e = self.expr()
            self.expect(')')
            return '(wbyte %s)' % e
        if self.peek() == '(':
            raise SystemExit('call in expression: %s' % t)
        return self.names.get(t, t)

    def args(self):
        out = []
        self.expect('(')
        while True:
            out.append(self.expr())
            if self.peek() == ',':
                self.next()
                continue
            self.expect(')')
            return out


def lhs(s, names):
    s = s.strip()
    if s == '_':
        return '_'
    m = re.fullmatch(r'([A-Za-z_0-9]+)\[(\d+)\]', s)
    if m:
        return names.get(m.group(1) + '[]', m.group(1)) + '_' + m.group(2)
    if not re.fullmatch(r'[A-Za-z_0-9]+', s):
        raise SystemExit('bad lhs ' + s)
    return names.get(s, s)


FN = {'mac': 'mac', 'adc': 'adc', 'sbb': 'sbb', 'bits.Mul64': 'mul64',
      'bits.Add64': 'add64', 'bits.Sub64': 'sub64',
      'fiat_pasta_fp_addcarryx_u64': 'add64', 'fiat_pasta_fp_subborrowx_u64': 'sub64',
      'fiat_pasta_fq_addcarryx_u64': 'add64', 'fiat_pasta_fq_subborrowx_u64': 'sub64'}


def body(fname, func, recv=None):
    """lines of the body of func in file, with line numbers"""
    src = open(REPO + fname).read().split('\n')
    pat = re.compile(r'^func (\([^)]*\) )?%s\(' % re.escape(func))
    for i, l in enumerate(src):
        if pat.match(l) and (recv is None or recv in l):
            j = i
            while src[j] != '}':
                j += 1
            return i + 1, j + 1, src[i + 1:j]
    raise SystemExit('no %s in %s' % (func, fname))


def translate(lines, names, tails):
    """returns list of let lines and the result expression.
    tails: list of (regex, function(match)->result expression)"""
    out = []
    for l in lines:
        l = re.sub(r'//.*', '', l).strip()
        if not l or l.startswith('var '):
            continue
        done = False
        for rx, f in tails:
            m = re.fullmatch(rx, l)
            if m:
                r = f(m)
                if r is None:
                    done = True
                    break
                return out, r
        if done:
            continue
        m = re.fullmatch(r'(?:fiat_pasta_f[pq]_)?cmovznz(?:U64|_u64)\(&(\w+), (.*)\)', l)
        if m:
            a = P('(' + m.group(2) + ')', names).args()
            out.append('let %s := cmovznz %s in' % (lhs(m.group(1), names), ' '.join(a)))
            continue
        m = re.fullmatch(r'([^=:]+?),([^=:]+?)\s*:?=\s*([\w.]+)(\(.*\))', l)
        if m and m.group(3) in FN:
            a = P(m.group(4), names).args()
            out.append("let '(%s, %s) := %s %s in" % (lhs(m.group(1), names), lhs(m.group(2), names), FN[m.group(3)], ' '.join(a)))
            continue
        m = re.fullmatch(r'([^=:,]+?)\s*:?=\s*(.*)', l)
        if m:
            out.append('let %s := %s in' % (lhs(m.group(1), names), P(m.group(2), names).expr()))
            continue
        raise SystemExit('cannot translate: ' + l)
    return out, None


def cells(v, n):
    return ' '.join('%s_%d' % (v, i) for i in range(n))


def emit(o, name, params, cite, lets, res, rty):
    o.append('(** %s *)' % cite)
    o.append('Definition %s %s : %s :=' % (name, params, rty))
    for l in lets:
        o.append('  ' + l)
    o.append('  %s.' % res)
    o.append('')


def limb_consts(fname, var, n):
    src = open(REPO + fname).read()
    m = re.search(r'%s\s*[=:]\s*(?:\[[^\]]*\]uint64|fp)\s*\{([^}]*)\}' % var, src)
    v = [int(x.strip().replace('_', ''), 0) for x in m.group(1).split(',') if x.strip()]
    assert len(v) == n, (var, v)
    return v


def line_of(fname, text):
    for i, l in enumerate(open(REPO + fname).read().split('\n')):
        if text in l:
            return i + 1
    raise SystemExit(text)


def bls():
    o = ['(** * GENERATED by tools/gen_limbs.py from',
         '    crypto/core/curves/native/bls12381/{fp,fq}.go - do not edit by hand.',
         '',
         '    Straight-line limb code of the BLS12-381 base field (fp, six limbs) and',
         '    scalar field (Fq, four limbs).  One [let] per Go statement; the only',
         '    simplification is that the methods return the new limbs instead of',
         '    writing them through the receiver/out pointer after the last read. *)',
         'From Coq Require Import ZArith.',
         'From Verif Require Import LimbBase.',
         'Open Scope Z_scope.', '']
    f = 'bls12381/fp.go'
    for v, nm in (('modulus', 'fp_modulus'), ('halfModulus', 'fp_half_modulus'), ('r', 'fp_r'), ('r2', 'fp_r2'), ('r3', 'fp_r3')):
        c = limb_consts(f, r'\n\t' + v, 6)
        o.append('(** bls12381/fp.go:%d [%s]. *)' % (line_of(f, '\t%s = fp{' % v), v))
        for i in range(6):
            o.append('Definition %s_%d : Z := %d.' % (nm, i, c[i]))
        o.append('Definition %s : limbs6 := L6 %s.' % (nm, cells(nm, 6)))
        o.append('')
    src = open(REPO + f).read()
    inv = int(re.search(r'inv\s*=\s*(0x[0-9a-f_]+)', src).group(1).replace('_', ''), 16)
    o.append('(** bls12381/fp.go:%d [inv]. *)' % line_of(f, 'inv       ='))
    o.append('Definition fp_inv : Z := %d.' % inv)
    o.append('')

    def go6(func, args, names, tails, name, params, res=None, rty='limbs6'):
        a, b, ls = body(f, func, 'fp)')
        lets, r = translate(ls, names, tails)
        pre = ["let '(L6 %s) := %s in" % (cells(x, 6), x) for x in args]
        emit(o, name, params, 'bls12381/fp.go:%d-%d [%s].' % (a, b, func), pre + lets, r or res, rty)
    mod = {'modulus[]': 'fp_modulus', 'inv': 'fp_inv'}
    wr = lambda pre: [(r'f\[\d\] = \w+', lambda m: None), (r'return f', lambda m: 'L6 ' + pre)]
    go6('Sub', ['arg1', 'arg2'], mod, wr('d0 d1 d2 d3 d4 d5'), 'fp_sub', '(arg1 arg2 : limbs6)')
    go6('Add', ['arg1', 'arg2'], mod, [(r'return f\.Sub\(&t, &modulus\)', lambda m: 'fp_sub (L6 %s) fp_modulus' % cells('t', 6))],
        'fp_add', '(arg1 arg2 : limbs6)')
    go6('Neg', ['a'], dict(mod, **{'f[]': 'f'}), [(r'return f', lambda m: 'L6 ' + cells('f', 6))], 'fp_neg', '(a : limbs6)')
    go6('montReduce', [], mod, [(r'return f\.Sub\(&rr, &modulus\)', lambda m: 'fp_sub (L6 %s) fp_modulus' % cells('rr', 6))],
        'fp_mont_reduce', '(%s : Z)' % cells('r', 12))
    red = [(r'return f\.montReduce\(&r\)', lambda m: 'fp_mont_reduce ' + cells('r', 12))]
    go6('Square', ['a'], mod, red, 'fp_square', '(a : limbs6)')
    go6('Mul', ['arg1', 'arg2'], mod, red, 'fp_mul', '(arg1 arg2 : limbs6)')
    go6('CMove', ['arg1', 'arg2'], mod, [(r'mask := uint64\(-choice\)', lambda m: None),
                                        (r'return f', lambda m: 'L6 ' + cells('f', 6))],
        'fp_cmove_mask', '(arg1 arg2 : limbs6) (mask : Z)')

    f = 'bls12381/fq.go'
    for v, nm in (('fqModulus', 'fq_modulus'), ('fqGenerator', 'fq_generator'), ('R', 'fq_r'), ('R2', 'fq_r2'), ('R3', 'fq_r3'), ('Modulus', 'fq_params_modulus')):
        c = limb_consts(f, r'\b' + v + r'\b', 4)
        o.append('(** bls12381/fq.go [%s]. *)' % v)
        for i in range(4):
            o.append('Definition %s_%d : Z := %d.' % (nm, i, c[i]))
        o.append('Definition %s : limbs4 := L4 %s.' % (nm, cells(nm, 4)))
        o.append('')
    inv = int(re.search(r'qInv\s*=\s*(0x[0-9a-f_]+)', open(REPO + f).read()).group(1), 16)
    o.append('(** bls12381/fq.go:%d [qInv]. *)' % line_of(f, 'const qInv'))
    o.append('Definition fq_inv : Z := %d.' % inv)
    o.append('')

    def go4(func, args, names, tails, name, params, rty='limbs4'):
        a, b, ls = body(f, func, 'bls12381FqArithmetic)')
        lets, r = translate(ls, names, tails)
        if r is None:
            r = 'L4 ' + cells('out', 4)
        pre = ["let '(L4 %s) := %s in" % (cells(x, 4), x) for x in args]
        emit(o, name, params, 'bls12381/fq.go:%d-%d [%s].' % (a, b, func), pre + lets, r, rty)
    mod = {'fqModulus[]': 'fq_modulus', 'qInv': 'fq_inv'}
    go4('Sub', ['arg1', 'arg2'], mod, [], 'fq_sub', '(arg1 arg2 : limbs4)')
    go4('Add', ['arg1', 'arg2'], mod, [(r'f\.Sub\(out, &t, &fqModulus\)', lambda m: 'fq_sub (L4 %s) fq_modulus' % cells('t', 4))],
        'fq_add', '(arg1 arg2 : limbs4)')
    go4('Neg', ['arg'], mod, [], 'fq_neg', '(arg : limbs4)')
    go4('montReduce', [], mod, [(r'f\.Sub\(out, &rr, &fqModulus\)', lambda m: 'fq_sub (L4 %s) fq_modulus' % cells('rr', 4))],
        'fq_mont_reduce', '(%s : Z)' % cells('r', 8))
    red = [(r'f\.montReduce\(out, &r\)', lambda m: 'fq_mont_reduce ' + cells('r', 8))]
    go4('Square', ['arg'], mod, red, 'fq_square', '(arg : limbs4)')
    go4('Mul', ['arg1', 'arg2'], mod, red, 'fq_mul', '(arg1 arg2 : limbs4)')
    go4('Selectznz', ['arg1', 'arg2'], mod, [(r'b := uint64\(-choice\)', lambda m: None)], 'fq_select_mask', '(arg1 arg2 : limbs4) (b : Z)')
    return '\n'.join(o) + '\n'


FIAT = [  # module, go file, prefix of the Go functions, coq prefix, arithmetic file
    ('LimbK256Fp', 'k256/fp/secp256k1_fp.go', '', 'k256fp', 'k256/fp/fp.go'),
    ('LimbK256Fq', 'k256/fq/secp256k1_fq.go', '', 'k256fq', 'k256/fq/fq.go'),
    ('LimbP256Fp', 'p256/fp/p256_fp.go', '', 'p256fp', 'p256/fp/fp.go'),
    ('LimbP256Fq', 'p256/fq/p256_fq.go', '', 'p256fq', 'p256/fq/fq.go'),
    ('LimbPastaFp', 'pasta/fp/pasta_fp.go', 'fiat_pasta_fp_', 'pastafp', 'pasta/fp/fp.go'),
    ('LimbPastaFq', 'pasta/fq/pasta_fq.go', 'fiat_pasta_fq_', 'pastafq', 'pasta/fq/fq.go')]
GO = {'mul': 'Mul', 'square': 'Square', 'add': 'Add', 'sub': 'Sub', 'opp': 'Opp',
      'from_montgomery': 'FromMontgomery', 'to_montgomery': 'ToMontgomery',
      'selectznz': 'Selectznz', 'to_bytes': 'ToBytes', 'from_bytes': 'FromBytes'}


def fiat(mod, f, pre, cp, af):
    o = ['(** * GENERATED by tools/gen_limbs.py from',
         '    crypto/core/curves/native/%s - do not edit by hand.' % f,
         '    One [let] per Go statement; results are returned instead of written through',
         '    the out pointer (which the Go code writes only after its last read). *)',
         'From Coq Require Import ZArith List.',
         'From Verif Require Import LimbBase.',
         'Import ListNotations.',
         'Open Scope Z_scope.', '']
    n, m, ls = body(f, pre + ('cmovznz_u64' if pre else 'cmovznzU64'))
    ls = [l.replace(pre + 'int1', 'uint64') for l in ls]
    lets, r = translate(ls, {}, [(r'\*out1 = (\w+)', lambda m: m.group(1))])
    emit(o, 'cmovznz', '(arg1 arg2 arg3 : Z)', '%s:%d-%d [%s].' % (f, n, m, 'cmovznz'), lets, r, 'Z')
    for op in ('mul', 'square', 'add', 'sub', 'opp', 'from_montgomery', 'to_montgomery', 'selectznz', 'to_bytes', 'from_bytes'):
        go = pre + op if pre else GO[op]
        n, m, ls = body(f, go)
        args = {'mul': ['arg1', 'arg2'], 'add': ['arg1', 'arg2'], 'sub': ['arg1', 'arg2'], 'selectznz': ['arg2', 'arg3']}.get(op, ['arg1'])
        names = {}
        params = '(%s : limbs4)' % ' '.join(args)
        rty = 'limbs4'
        if op == 'selectznz':
            params = '(arg1 : Z) (arg2 arg3 : limbs4)'
        outs = {}

        def w(mm):
            outs[int(mm.group(1))] = mm.group(2)
            return None
        if op == 'from_bytes':
            params = '(arg1 : list Z)'
            names['bytes'] = ('arg1',)
            args = []
        lets, r = translate(ls, names, [(r'out1\[(\d+)\] = (\w+)', w)])
        if op == 'to_bytes':
            assert sorted(outs) == list(range(32))
            res = '[' + '; '.join(outs[i] for i in range(32)) + ']'
            rty = 'list Z'
        else:
            assert sorted(outs) == list(range(4))
            res = 'L4 ' + ' '.join(outs[i] for i in range(4))
        pres = ["let '(L4 %s) := %s in" % (cells(x, 4), x) for x in args]
        emit(o, '%s_%s' % (cp, op), params, '%s:%d-%d [%s].' % (f, n, m, go), pres + lets, res, rty)
    return '\n'.join(o).replace('cmovznz ', cp + '_cmovznz ') + '\n'

# --- proof files of the six fiat fields: one template, six moduli --------------------------------
def proofs():
    t = open(os.path.join(os.path.dirname(os.path.abspath(__file__)), 'limbproofs.tmpl')).read()
    F = {
        'K256Fp': ('k256fp', 2**256 - 2**32 - 977, 'k256/fp/secp256k1_fp.go'),
        'K256Fq': ('k256fq', 0xfffffffffffffffffffffffffffffffebaaedce6af48a03bbfd25e8cd0364141, 'k256/fq/secp256k1_fq.go'),
        'P256Fp': ('p256fp', 2**256 - 2**224 + 2**192 + 2**96 - 1, 'p256/fp/p256_fp.go'),
        'P256Fq': ('p256fq', 0xffffffff00000000ffffffffffffffffbce6faada7179e84f3b9cac2fc632551, 'p256/fq/p256_fq.go'),
        'PastaFp': ('pastafp', 0x40000000000000000000000000000000224698fc094cf91b992d30ed00000001, 'pasta/fp/pasta_fp.go'),
        'PastaFq': ('pastafq', 0x40000000000000000000000000000000224698fc0994a8dd8c46eb2100000001, 'pasta/fq/pasta_fq.go'),
    }
    for m, (p, M, src) in F.items():
        s = (t.replace('@SRC@', 'crypto/core/curves/native/' + src).replace('@P@', p).replace('@MOD@', m)
              .replace('@M@', str(M)).replace('@R2@', str(pow(2, 512, M))))
        open('/verif/rocq/theories/Limb%sProofs.v' % m, 'w').write(s)


# --- inversion addition chains ------------------------------------------------------------------
def chain(f, name):
    ls = open(REPO + f).read().split('\n')
    n = next(i for i, l in enumerate(ls) if ') Invert(' in l)
    m = next(i for i in range(n, len(ls)) if ls[i] == '}')
    lets, last = [], None
    var = r'(?:\(\*MontgomeryDomainFieldElement\)\()?&?(\w+)\)?'
    for l in ls[n + 1:m]:
        l = l.split('//')[0].strip()
        if not l or l.startswith('var '):
            continue
        if '*wasInverted' in l or l.startswith('tv := &native.Field'):
            break
        for pat, out in (
                (r'native\.Pow2k\(%s, %s, (\d+), f\)' % (var, var), 'let {0} := pow2k A {1} {2} in'),
                (r'(?:f\.)?Mul\(%s, %s, %s\)' % (var, var, var), 'let {0} := fa_mul A {1} {2} in'),
                (r'f\.Square\(%s, %s\)' % (var, var), 'let {0} := fa_square A {1} in'),
                (r'copy\((\w+)\[:\], (\w+)\[:\]\)', 'let {0} := {1} in')):
            k = re.fullmatch(pat, l)
            if k:
                lets.append(out.format(*k.groups()))
                last = k.group(1)
                break
        else:
            raise SystemExit('chain: %s: %s' % (f, l))
    tail = ' '.join(x.strip() for x in ls[n + 1:m])
    assert re.search(r'Selectznz\(out, (uint1\(\*wasInverted\), )?out, &%s' % last, tail), (f, last)
    return ['', '(** %s:%d-%d [Invert], the addition chain (up to the assignment of *wasInverted). *)' % (f, n + 1, m + 1),
            'Definition %s_inv_chain (A : field_arith) (arg : limbs4) : limbs4 :=' % name] + \
           ['  ' + x for x in lets] + ['  %s.' % last]


def chains():
    o = ['(** * GENERATED by tools/gen_limbs.py from crypto/core/curves/native/{k256/fp,k256/fq,p256/fq}/f*.go and',
         '    bls12381/fq.go - do not edit by hand.  The addition chains of [Invert], one [let] per statement;',
         '    [A] is the arithmetic of the same package ([f], or the package functions it wraps). *)',
         'From Coq Require Import ZArith.', 'From Verif Require Import LimbBase NativeField.']
    for f, n in (('k256/fp/fp.go', 'k256fp'), ('k256/fq/fq.go', 'k256fq'), ('p256/fq/fq.go', 'p256fq'), ('bls12381/fq.go', 'blsfq')):
        o += chain(f, n)
    open('/verif/rocq/theories/NativeChains.v', 'w').write('\n'.join(o) + '\n')


if __name__ == '__main__':
    open('/verif/rocq/theories/LimbBls.v', 'w').write(bls())
    for a in FIAT:
        open('/verif/rocq/theories/%s.v' % a[0], 'w').write(fiat(*a))
    proofs()
    chains()
