#!/usr/bin/env python3
"""Writes Coq files that run the model on the fixtures of /repo (tests/*.rs give the expected
format).  Usage: gen_conformance.py OUT.v [max_total_bytes_per_fixture]
Every case is: model(from_bytes, all reader features) = format asserted by the Rust test; and,
when the Rust test is not behind cfg(feature), the same with no reader feature."""
import re,sys,os
repo='/repo'
out=sys.argv[1]; maxlen=int(sys.argv[2]) if len(sys.argv)>2 else 1<<30
cases=[]
for t in sorted(os.listdir(repo+'/tests')):
    src=open(repo+'/tests/'+t).read()
    for m in re.finditer(r'((?:#\[[^\]]*\]\s*)+)fn (\w+)\(\) \{(.*?)\n\}',src,re.S):
        attrs,fn,body=m.groups()
        feats=re.findall(r'feature = "reader-(\w+)"',attrs)
        p=re.search(r'from_file\(\s*"([^"]+)"',body); f=re.search(r'FileFormat::(\w+)\)',body)
        if not p or not f: print('SKIP',t,fn); continue
        cases.append((fn,feats,p.group(1),f.group(1)))
def segs(b):
    res=[];i=0;lit=b''
    n=len(b)
    while i<n:
        j=i
        while j<n and b[j]==b[i]: j+=1
        if j-i>=24:
            if lit: res.append(('L',lit)); lit=b''
            res.append(('R',j-i,b[i]))
        else: lit+=b[i:j]
        i=j
    if lit: res.append(('L',lit))
    return res
def coq(b):
    o=[]
    for s in segs(b):
        if s[0]=='L': o+=['L "%s"'%s[1][i:i+256].hex() for i in range(0,len(s[1]),256)]
        else: o.append('R %d x%02x'%(s[1],s[2]))
    return '['+'; '.join(o)+']'
with open(out,'w') as w:
    w.write('''(** GENERATED by tools/gen_conformance.py from /repo/tests and /repo/fixtures.  Tests, not
    proofs: the model evaluated on the fixtures gives the formats the Rust tests assert. *)
From Coq Require Import List NArith Bool String.
From Verif Require Import Base Formats IO Lib Conf.
Local Open Scope N_scope.
''')
    k=0
    for fn,feats,p,f in cases:
        b=open(repo+'/'+p,'rb').read()
        enc=sum(len(s[1]) if s[0]=='L' else 1 for s in segs(b))
        if enc>maxlen: continue
        k+=1
        w.write('Definition case%d := (* %s *)\n  mkcase %s %s %s.\n'%(k,p,'true' if feats else 'false',f,coq(b)))
    w.write('Definition cases : list conf_case :=\n  ['+'; '.join('case%d'%i for i in range(1,k+1))+'].\n')
    w.write('''
(** Evaluated when this file is compiled; a mismatch stops the build.  (The result is a test
    outcome, so no proof term is kept.) *)
Definition conformance_checked : unit :=
  ltac:(let r := eval vm_compute in (forallb case_ok cases) in
        match r with true => exact tt end).
''')
    print(k,'of',len(cases),'cases')
