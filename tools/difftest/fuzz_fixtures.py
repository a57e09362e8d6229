import random,struct,subprocess,sys,os,glob
sys.path.insert(0,'/verif/tools/difftest')
from port import *
seed=int(sys.argv[1]); N=int(sys.argv[2]); random.seed(seed)
fx=[]
for root,_,fs in os.walk('/repo/fixtures'):
    for f in fs:
        d=open(os.path.join(root,f),'rb').read()
        fx.append((f,d))
fx.sort()
rd=[(f,d) for f,d in fx if (sig(d[:36870]) in RD)]
print(len(fx),len(rd),file=sys.stderr)
INTS=[0,1,2,3,4,7,8,9,19,20,21,22,23,24,25,26,27,39,40,41,63,64,65,127,128,255,256,0x7fff,0x8000,0xffff,0x7fffffff,0x80000000,0xffffffff,2**63-1,2**63,2**64-1,2**64-24,2**64-25,2**64-8,2**63+8,2**63+40,2**63+23,2**63+39]
def mutate(d):
    d=bytearray(d)
    for _ in range(random.choice([1,1,1,2,3,5])):
        if not d: break
        k=random.random()
        if len(d)>36864 and random.random()<.3: reg=(len(d)-min(len(d),400),len(d))
        else: reg=(0,min(len(d),random.choice([16,64,200,600,4000])))
        if random.random()<.2: reg=(0,len(d))
        i=random.randrange(*reg)
        if k<.25: d[i]=random.randrange(256)
        elif k<.35: d[i]^=1<<random.randrange(8)
        elif k<.6:
            w=random.choice([1,2,4,8]); v=random.choice(INTS)%(1<<(8*w))
            if random.random()<.3: v=random.randrange(max(1,min(len(d)+10,1<<(8*w))))
            d[i:i+w]=v.to_bytes(w,random.choice(['little','big']))
        elif k<.7: del d[i:i+random.choice([1,2,4,8,20])]
        elif k<.8: d[i:i]=bytes(random.randrange(256) for _ in range(random.choice([1,2,4,8])))
        elif k<.9: del d[i:]
        elif k<.95:
            j=random.randrange(*reg); n=random.choice([4,8,16,24,46]); d[i:i]=d[j:j+n]
        else:
            o=random.choice(fx)[1]; n=random.choice([8,64,300]); d[i:i+n]=o[:n]
    return bytes(d)
cases=[]
if seed==0: cases=[d for _,d in fx]
else:
    small=[x for x in rd if len(x[1])<20000] 
    for _ in range(N):
        pool=random.choice([small,small,small,rd,fx])
        f,d=random.choice(pool)
        if len(d)>200000: d=d[:40000]
        cases.append(mutate(d))
p=subprocess.Popen("ulimit -s unlimited; export OCAMLRUNPARAM=s=128M; exec /tmp/ext/drv",shell=True,stdin=subprocess.PIPE,stdout=open('/tmp/ext/out%d'%seed,'w'))
for c in cases: p.stdin.write(struct.pack('>I',len(c))+c)
p.stdin.close(); p.wait()
out=open('/tmp/ext/out%d'%seed).read().split('\n')
bad=0; st={}
for c,l in zip(cases,out):
    got=[x if x in'PF' else FORMATS[int(x)] for x in l.split()]
    exp=[detect(c,ck,b) for ck,b in((0,64),(1,64),(0,32),(1,32))]
    st[exp[0]]=st.get(exp[0],0)+1
    if 'P' in exp: st['panic']=st.get('panic',0)+1
    if got!=exp:
        bad+=1; open('/tmp/ext/bad_%d_%d'%(seed,bad),'wb').write(c); print('BAD',got,exp,len(c),c[:40])
print(seed,len(cases),len(out)-1,'bad',bad,'distinct',len(st),'panics',st.get('panic'))
