#!/usr/bin/env python3
"""Print Assumptions of every theorem of MANIFEST.json, per file (run in /verif after a build)."""
import json,re,subprocess,glob,os,tempfile,collections
th='rocq/theories'
names={t for c in json.load(open('MANIFEST.json'))['claims'] for t in c['theorems']}
where={}
for f in sorted(glob.glob(th+'/*Props*.v')):
    for m in re.finditer(r'^\s*(?:Theorem|Lemma|Corollary)\s+(C\d+\w*)',open(f).read(),re.M): where[m.group(1)]=os.path.basename(f)[:-2]
by=collections.defaultdict(list)
for n in sorted(names): by[where[n]].append(n)
res=collections.defaultdict(list)
for f,ns in by.items():
    src='From Verif Require %s.\n'%f
    # names may sit inside sections only, never modules
    for n in ns: src+='Check tt. Print Assumptions Verif.%s.%s.\n'%(f,n)
    with tempfile.NamedTemporaryFile('w',suffix='.v',delete=False) as t: t.write(src)
    out=subprocess.run(['coqc','-w','none','-Q',th,'Verif',t.name],capture_output=True,text=True)
    if out.returncode: print(f,'ERROR',out.stderr[-500:]); continue
    for n,o in zip(ns,re.split(r'tt\s*:\s*unit\s*',out.stdout)[1:]): res[o.strip()].append(n)
for k,v in res.items(): print(len(v),'theorems:',k if len(v)>40 else k+'\n   '+' '.join(v))
