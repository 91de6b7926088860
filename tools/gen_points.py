import re,sys
# translate straight-line f.Op(&dst,&a,&b) Go code into Coq lets
def tr(lines, names):
    out=[]
    for l in lines:
        l=l.strip()
        m=re.match(r'f\.(\w+)\(&(\w+), (.*)\)$',l)
        if not m: continue
        op,d,args=m.groups()
        args=[names(a.strip()) for a in args.split(',')]
        o={'Mul':'nf_mul F','Square':'nf_square F','Add':'nf_add F','Sub':'nf_sub F','Neg':'nf_neg F','Selectznz':'sel'}[op]
        if op=='Selectznz':
            a1,a2,c=args
            out.append('let %s := nf_cmove F %s %s %s in'%(d,a1,a2,c))
        else: out.append('let %s := %s %s in'%(d,o,' '.join(args)))
    return out
def names(a):
    a=a.lstrip('&')
    m=re.match(r'(arg\d?)\.(X|Y|Z)\.Value$',a)
    if m: return '(np_%s %s)'%(m.group(2).lower(),m.group(1))
    if a.endswith('Params.B.Value'): return 'b'
    return a
def body(f,lo,hi):
    L=open(f).read().split('\n')[lo-1:hi]
    i=[k for k,l in enumerate(L) if 'e1 :=' in l]
    if i:
        i=i[0]
        return tr(L[:i],names)+['let e1 := nf_is_zero (np_z arg1) in','let e2 := nf_is_zero (np_z arg2) in']+tr(L[i:],names)
    return tr(L,names)
R="/repo/crypto/core/curves/native/"
def D(name,args,f,lo,hi,cite):
    print('  (** %s *)'%cite)
    print('  Definition %s %s : npoint :='%(name,args))
    for l in body(R+f,lo,hi): print('    '+l)
    print('    NP x y z.')
D('np_k256_double','(arg : npoint)','k256/point.go',279,321,'native/k256/point.go:279-321: Double')
D('np_k256_add','(arg1 arg2 : npoint)','k256/point.go',323,408,'native/k256/point.go:323-408: Add')
D('np_p256_double','(arg : npoint)','p256/point.go',134,194,'native/p256/point.go:134-194: Double')
D('np_p256_add','(arg1 arg2 : npoint)','p256/point.go',196,278,'native/p256/point.go:196-278: Add')
