"""Translate the straight-line methods of native/bls12381/{fp2,fp6,fp12,gt,pairings}.go into Coq lets.

usage: gen_tower.py  > (text between the BEGIN/END marks of rocq/theories/TowerModel.v)
Each assignment x.Op(args) becomes `let x := op args in`; a write to a field f.A becomes `let f_A := ...`,
and later reads of f.A see f_A.  A set whose receiver keeps its old value on failure (Invert) takes it as an argument."""
import re
R="/repo/crypto/core/curves/native/bls12381/"
FIELDS={'fp2':['A','B'],'fp6':['A','B','C'],'fp12':['A','B'],'G2':['x','y','z'],'G1':['x','y','z'],'coef':['a','b','c']}
SUB={('fp2','A'):'fp',('fp2','B'):'fp',('fp6','A'):'fp2',('fp6','B'):'fp2',('fp6','C'):'fp2',('fp12','A'):'fp6',('fp12','B'):'fp6',
     ('G2','x'):'fp2',('G2','y'):'fp2',('G2','z'):'fp2',('G1','x'):'fp',('G1','y'):'fp',('G1','z'):'fp',
     ('coef','a'):'fp2',('coef','b'):'fp2',('coef','c'):'fp2'}
PROJ={('fp2','A'):'qu_a',('fp2','B'):'qu_b',('fp12','A'):'qu_a',('fp12','B'):'qu_b',('fp6','A'):'cu_a',('fp6','B'):'cu_b',('fp6','C'):'cu_c',
      ('G2','x'):'jx',('G2','y'):'jy',('G2','z'):'jz',('G1','x'):'px',('G1','y'):'py',('G1','z'):'pz',('coef','a'):'co_a',('coef','b'):'co_b',('coef','c'):'co_c'}
MK={'fp2':'Quad','fp6':'Cubic','fp12':'Quad','G2':'Jpt','G1':'Pt'}
OPS={'Add':'add','Sub':'sub','Mul':'mul','Neg':'neg','Double':'double','Square':'square','Set':None,'MulByNonResidue':'mul_nr',
     'FrobeniusMap':'frobenius','Conjugate':'conjugate','MulByB':'mul_by_b','MulByAB':'mul_by_ab','MulByABD':'mul_by_abd',
     'cyclotomicSquare':'cyclotomic_square','cyclotomicExp':'cyclotomic_exp'}
FP={'add':'fadd','sub':'fsub','mul':'fmul','neg':'fopp','double':'fp_double','square':'fp_square'}
def opname(ty,op):
    o=OPS[op]
    return FP[o] if ty=='fp' else '%s_%s'%(ty,o)
class Fn:
    def __init__(s,env): s.env=dict(env); s.done=set(); s.out=[]
    def path(s,e):
        e=e.strip().lstrip('&')
        e=re.sub(r'\(\*(fp12|Gt)\)\((\w+)\)',r'\2',e)
        return e.split('.')
    def ty(s,parts):
        t=s.env[parts[0]]
        for f in parts[1:]: t=SUB[(t,f)]
        return t
    def rd(s,e):
        e=e.strip()
        m=re.match(r'new\((\w+)\)\.(\w+)\((.*)\)$',e)
        if m: return '(%s %s)'%(opname(m.group(1),m.group(2)),s.rd(m.group(3)))
        p=s.path(e)
        cur=p[0]; t=s.env[p[0]]; i=1
        key=p[0]
        for f in p[1:]:
            key=key+'_'+f
            if key in s.done: cur=key
            else: cur='(%s %s)'%(PROJ[(t,f)],cur)
            t=SUB[(t,f)]
        # whole value of a struct some fields of which have been written
        if t in FIELDS and t in MK and any(('%s_%s'%(key,f)) in s.done for f in FIELDS[t]):
            return '(%s %s)'%(MK[t],' '.join(s.rd('.'.join(p+[f])) for f in FIELDS[t]))
        return cur
    def args(s,a):
        out=[];d=0;cur=''
        for c in a:
            if c=='(':d+=1
            if c==')':d-=1
            if c==',' and d==0: out.append(cur);cur=''
            else: cur+=c
        if cur.strip(): out.append(cur)
        return [s.rd(x) for x in out]
    def wr(s,p):
        k='_'.join(p)
        if len(p)>1: s.done.add(k)
        return k
    def line(s,l):
        l=l.split('//')[0].strip()
        l=re.sub(r'\(\*fp12\)\((\w+)\)',r'\1',l)
        if not l: return
        m=re.match(r'var ([\w, ]+) (fp\d*)$',l)
        if m:
            for v in m.group(1).split(','): s.env[v.strip()]=m.group(2)
            return
        m=re.match(r'_, wasInverted := (\w+)\.Invert\((.*)\)$',l)
        if m:
            t=s.env[m.group(1)]; a=s.rd(m.group(2))
            if t=='fp': s.out.append("let %s := finv %s in let wasInverted := nonzero %s in"%(m.group(1),a,a))
            else: s.out.append("let '(%s, wasInverted) := %s_invert %s %s in"%(m.group(1),t,s.rd(m.group(1)) if m.group(1) in s.live else '%s_zero'%t,a))
            s.live.add(m.group(1)); return
        m=re.match(r'([\w.]+)\.CMove\((.*)\)$',l)
        if m:
            p=m.group(1).split('.')
            a1,a2,ch=m.group(2).split(',')
            r="cmove %s %s %s"%(s.rd(a1),s.rd(a2),ch.strip())
            s.out.append("let %s := %s in"%(s.wr(p),r)); return
        m=re.match(r'fp4Square\((.*)\)$',l)
        if m:
            a,b,c,d=[x.strip().lstrip('&') for x in m.group(1).split(',')]
            s.out.append("let '(%s, %s) := fp4_square %s %s in"%(a,b,c,d)); s.live|={a,b}; return
        m=re.match(r'([\w.]+)\.(\w+)\((.*)\)$',l)
        if m and m.group(2) in OPS:
            p=m.group(1).split('.'); t=s.ty(p); a=s.args(m.group(3))
            o=OPS[m.group(2)]
            r=a[0] if o is None else '%s %s'%(opname(t,m.group(2)),' '.join(a))
            s.live.add('.'.join(p))
            s.out.append('let %s := %s in'%(s.wr(p),r)); return
        m=re.match(r'return f\.Add\(arg, arg\)$',l)
        if m: s.out.append('RET'); return
        if l.startswith('return') or l in('}',): return
        print('(* UNHANDLED',l,'*)')
    live=set()
def func(file,name,recv,args,env,ret,coqname,coqargs,rtype,skip=()):
    L=open(R+file).read().split('\n')
    i=[k for k,l in enumerate(L) if re.match(r'func (\(\w+ \*?\w+\) )?%s\('%name,l)][0]
    j=i
    while L[j]!='}': j+=1
    f=Fn(env); f.live=set(env)
    const=False
    for l in L[i+1:j]:
        if any(x in l for x in skip): continue
        if const:
            if re.match(r'\t}',l): const=False
            continue
        if re.search(r'(:=|=) fp2\{$',l): const=True; continue
        f.line(l)
    print('  (** %s:%d-%d [%s] *)'%(file,i+1,j+1,name))
    print('  Definition %s %s : %s :='%(coqname,coqargs,rtype))
    for o in f.out:
        if o!='RET': print('    '+o)
    print('    %s.'%(ret(f) if callable(ret) else ret))
def q(ty): return lambda f: '%s %s'%(MK[ty],' '.join(f.rd('f.'+x) for x in FIELDS[ty]))
def go():
    e2={'f':'fp2','a':'fp2','arg':'fp2','arg1':'fp2','arg2':'fp2'}
    F='fp2.go'
    func(F,'Conjugate','f','a',{'f':'fp2','a':'fp2'},q('fp2'),'fp2_conjugate','(a : fp2)','fp2')
    print('  (** fp2.go:96-100 [FrobeniusMap] *)\n  Definition fp2_frobenius (a : fp2) : fp2 := fp2_conjugate a.')
    func(F,'MulByNonResidue','f','a',{'f':'fp2','a':'fp2'},q('fp2'),'fp2_mul_nr','(a : fp2)','fp2')
    func(F,'Square','f','arg',{'f':'fp2','arg':'fp2'},q('fp2'),'fp2_square','(arg : fp2)','fp2')
    func(F,'Add','f','',e2,q('fp2'),'fp2_add','(arg1 arg2 : fp2)','fp2')
    func(F,'Double','f','',e2,q('fp2'),'fp2_double','(a : fp2)','fp2')
    func(F,'Sub','f','',e2,q('fp2'),'fp2_sub','(arg1 arg2 : fp2)','fp2')
    func(F,'Mul','f','',e2,q('fp2'),'fp2_mul','(arg1 arg2 : fp2)','fp2')
    func(F,'Mul0','f','',{'f':'fp2','arg1':'fp2','arg2':'fp'},q('fp2'),'fp2_mul0','(arg1 : fp2) (arg2 : F)','fp2')
    func(F,'Neg','f','',e2,q('fp2'),'fp2_neg','(a : fp2)','fp2')
    func(F,'Invert','f','',{'f':'fp2','arg':'fp2'},lambda f:'(Quad f_A f_B, wasInverted)','fp2_invert','(f arg : fp2)','fp2 * bool')
    F='fp6.go'
    e6={'f':'fp6','a':'fp6','arg':'fp6','arg1':'fp6','arg2':'fp6'}
    ea={'f':'fp6','arg':'fp6'}
    func(F,'Add','f','',e6,q('fp6'),'fp6_add','(arg1 arg2 : fp6)','fp6')
    print('  (** fp6.go:80-82 [Double] *)\n  Definition fp6_double (arg : fp6) : fp6 := fp6_add arg arg.')
    func(F,'Sub','f','',e6,q('fp6'),'fp6_sub','(arg1 arg2 : fp6)','fp6')
    func(F,'Mul','f','',e6,q('fp6'),'fp6_mul','(arg1 arg2 : fp6)','fp6')
    func(F,'MulByB','f','',dict(ea,b='fp2'),q('fp6'),'fp6_mul_by_b','(arg : fp6) (b : fp2)','fp6')
    func(F,'MulByAB','f','',dict(ea,a='fp2',b='fp2'),q('fp6'),'fp6_mul_by_ab','(arg : fp6) (a b : fp2)','fp6')
    func(F,'MulByNonResidue','f','',ea,q('fp6'),'fp6_mul_nr','(arg : fp6)','fp6')
    func(F,'FrobeniusMap','f','',dict(ea,pm1Div3='fp2',p2m2Div3='fp2'),q('fp6'),'fp6_frobenius','(arg : fp6)','fp6')
    func(F,'Square','f','',ea,q('fp6'),'fp6_square','(arg : fp6)','fp6')
    func(F,'Neg','f','',ea,q('fp6'),'fp6_neg','(arg : fp6)','fp6')
    func(F,'Invert','f','',ea,lambda f:'(Cubic f_A f_B f_C, wasInverted)','fp6_invert','(f arg : fp6)','fp6 * bool')
    F='fp12.go'
    e12={'f':'fp12','arg1':'fp12','arg2':'fp12'}; eb={'f':'fp12','arg':'fp12'}
    func(F,'Square','f','',eb,q('fp12'),'fp12_square','(arg : fp12)','fp12')
    func(F,'Invert','f','',eb,lambda f:'(Quad f_A f_B, wasInverted)','fp12_invert','(f arg : fp12)','fp12 * bool')
    func(F,'Add','f','',e12,q('fp12'),'fp12_add','(arg1 arg2 : fp12)','fp12')
    func(F,'Sub','f','',e12,q('fp12'),'fp12_sub','(arg1 arg2 : fp12)','fp12')
    func(F,'Mul','f','',e12,q('fp12'),'fp12_mul','(arg1 arg2 : fp12)','fp12')
    func(F,'Neg','f','',eb,q('fp12'),'fp12_neg','(arg : fp12)','fp12')
    func(F,'MulByABD','f','',dict(eb,a='fp2',b='fp2',d='fp2'),q('fp12'),'fp12_mul_by_abd','(arg : fp12) (a b d : fp2)','fp12')
    func(F,'Conjugate','f','',eb,q('fp12'),'fp12_conjugate','(arg : fp12)','fp12')
    L=open(R+F).read()
    func(F,'FrobeniusMap','f','',dict(eb,up1epm1div6='fp6'),q('fp12'),'fp12_frobenius','(arg : fp12)','fp12',skip=('var a, b, up1epm1div6 fp6',)) if False else None
    print('''  (** fp12.go:176-208 [FrobeniusMap] *)
  Definition fp12_frobenius (arg : fp12) : fp12 :=
    let up1epm1div6 := Cubic pm1Div6 fp2_zero fp2_zero in
    let a := fp6_frobenius (qu_a arg) in
    let b := fp6_frobenius (qu_b arg) in
    let b := fp6_mul b up1epm1div6 in
    let f_A := a in
    let f_B := b in
    Quad f_A f_B.''')
    F='gt.go'
    func(F,'fp4Square','','',{'a':'fp2','b':'fp2','arg1':'fp2','arg2':'fp2'},'(a, b)','fp4_square','(arg1 arg2 : fp2)','fp2 * fp2')
    global FIELDS
    func(F,'cyclotomicSquare','f','',{'f':'fp12','a':'fp12'},'Quad (Cubic f_A_A f_A_B f_A_C) (Cubic f_B_A f_B_B f_B_C)','fp12_cyclotomic_square','(a : fp12)','fp12')
    print('@CYCEXP@')
    func(F,'FinalExponentiation','gt','',{'gt':'fp12','a':'fp12'},'gt','gt_final_exponentiation','(gt a : fp12)','fp12')
    F='pairings.go'
    func(F,'ell','','',{'f':'fp12','coeffs':'coef','p':'G1'},'f','ell','(f : fp12) (coeffs : coefficients) (p : pt F)','fp12')
    func(F,'doublingStep','','',{'p':'G2'},'(Jpt p_x p_y p_z, Coef t0 t3 t6)','doubling_step','(p : g2pt)','g2pt * coefficients',skip=('return','a: t0','\t}'))
    func(F,'additionStep','','',{'r':'G2','q':'G2'},'(Jpt r_x r_y r_z, Coef t10 t1 t9)','addition_step','(r q : g2pt)','g2pt * coefficients',skip=('return','a: t10','\t}'))
go()
