import random,struct,subprocess,sys
sys.path.insert(0,'/verif/tools/difftest')
from port import *
seed=int(sys.argv[1]); N=int(sys.argv[2]); random.seed(seed)
R_=random
def rb(n): return bytes(R_.randrange(256) for _ in range(n))
B=[0,1,7,8,9,12,16,20,24,26,40]
def near64():
    return (R_.choice([0,0,0,0,0,0,2**31,2**32,2**63,2**63,2**64-1])+R_.choice(B+[-x for x in B]))%2**64
def near32(): return (R_.choice([0,0,0,0,2**31,2**32-1,2**16])+R_.choice(B+[-x for x in B]))%2**32
def guid(s):
    h=bytes.fromhex(s.replace('-','')); return h[3::-1]+h[5:3:-1]+h[7:5:-1]+h[8:]
SP,EC,AU,VI=[guid(x) for x in("b7dc0791-a9b7-11cf-8ee6-00c00c205365","d2d0a440-e307-11d2-97f0-00a0c95ea850","f8699e40-5b4d-11cf-a8fd-00805f5c442b","bc19efc0-5b4d-11cf-a8fd-00805f5c442b")]
DVR=b"D\0V\0R\0 \0F\0i\0l\0e\0 \0V\0e\0r\0s\0i\0o\0n\0"
def g_asf():
    objs=[]
    for _ in range(R_.randrange(5)):
        k=R_.random()
        if k<.4:
            body=R_.choice([AU,VI,rb(16)])+rb(R_.choice([0,4])); sz=24+len(body)
            if R_.random()<.3: sz=near64()
            objs.append(SP+struct.pack('<Q',sz)+body)
        elif k<.75:
            ds=b'';n=R_.randrange(4)
            for _ in range(n):
                nm=R_.choice([DVR,DVR[:-2],rb(R_.choice([0,3,63,64,65,80])),DVR+rb(40)])
                v=rb(R_.randrange(5)); nl=len(nm) if R_.random()<.9 else R_.randrange(200)
                ds+=struct.pack('<H',nl)+nm+b'\0\0'+struct.pack('<H',len(v))+v
            cnt=n if R_.random()<.8 else R_.randrange(6)
            body=struct.pack('<H',cnt)+ds; sz=24+len(body)
            if R_.random()<.3: sz=near64()
            objs.append(EC+struct.pack('<Q',sz)+body)
        else:
            body=rb(R_.randrange(10)); sz=24+len(body)
            if R_.random()<.3: sz=near64()
            objs.append(rb(16)+struct.pack('<Q',sz)+body)
    n=len(objs) if R_.random()<.7 else R_.choice([0,1,300,near32()])
    pad=R_.choice([b'',bytes(100),rb(50)])
    return bytes.fromhex('3026B2758E66CF11A6D900AA0062CE6C')+struct.pack('<QI',30,n)+b'\1\2'+b''.join(objs)+pad
def vsz(n,w=None):
    if w is None: w=next(w for w in range(1,9) if n<2**(7*w)-1 or w==8)
    return ((1<<(7*w))|(n%(1<<7*w))).to_bytes(w,'big')
def g_ebml():
    o=b''
    for _ in range(R_.randrange(8)):
        i=R_.choice(['18538067','1654AE6B','AE','E0','4282','86','86','53B8','1F43B675','EC','42F7','00','0F','08','10','D7'])
        b=bytes.fromhex(i)
        if i=='4282': c=R_.choice([b'webm',b'matroska',b'matroska3',b'matroskaABCDEFG',b'xx',b'web'])
        elif i=='86': c=R_.choice([b'A_X',b'V_Y',b'S_Z',b'V_'+b'q'*70,b'',b'A'])
        elif i=='53B8': c=R_.choice([b'\0',b'\1',b'\0\0'])
        else: c=rb(R_.randrange(6))
        n=len(c)
        if R_.random()<.15: n=R_.choice([near64()%2**56,near32(),n+1])
        s=vsz(n,R_.choice([None,None,None,1,2,4,8]))
        if R_.random()<.04: s=b'\0'+s
        if i in('18538067','1654AE6B','AE','E0'): c=b'' if R_.random()<.9 else c
        o+=b+s+c
    if R_.random()<.1: o=bytes.fromhex('EC81')*0+b'\xEC\x80'*R_.choice([250,255,256,260])+o
    head=b'\x1A\x45\xDF\xA3'+R_.choice([b'\x80',b'\xA3',b'\x01'+bytes(7)])
    return head+o
def g_mp4():
    o=b''
    for _ in range(R_.randrange(8)):
        t=R_.choice([b'moov',b'trak',b'mdia',b'hdlr',b'hdlr',b'free',b'mdat'])
        if t==b'hdlr': c=bytes(8)+R_.choice([b'vide',b'soun',b'sbtl',b'subt',b'text',b'meta'])+rb(R_.randrange(4))
        elif t in(b'moov',b'trak',b'mdia'): c=b''
        else: c=rb(R_.randrange(9))
        n=8+len(c); q=R_.random()
        if q<.15: n=near32()
        if q<.35 and q>.15:
            o+=struct.pack('>I',1)+t+struct.pack('>Q',R_.choice([n+8,n,near64(),near64()]))+c
        else: o+=struct.pack('>I',n)+t+c
    if R_.random()<.1: o=struct.pack('>I',8)+b'free'; o=o*R_.choice([253,254,255,256])+b'\0\0\0\x14hdlr'+bytes(8)+b'vide'
    return struct.pack('>I',R_.choice([16,16,16,16,8,1,12]))+b'ftypmp42'+b'\0\0\0\0'*R_.choice([1,1,1,2])+o
def g_rm():
    o=b'';k=R_.randrange(6)
    for _ in range(k):
        t=R_.choice([b'MDPR',b'MDPR',b'CONT',rb(4)])
        if t==b'MDPR':
            nm=rb(R_.randrange(5)); mt=R_.choice([b'audio/x',b'video/y',b'audi',b'logical-x',b''])
            c=rb(32)+bytes([len(nm)])+nm+bytes([len(mt) if R_.random()<.9 else R_.randrange(256)])+mt+rb(3)
        else: c=rb(R_.randrange(9))
        n=8+len(c)
        if R_.random()<.15: n=near32()
        o+=t+struct.pack('>I',n)+c
    nh=k+1 if R_.random()<.7 else near32()
    return b'.RMF'+rb(10)+struct.pack('>I',nh)+o+R_.choice([b'',rb(20)])
def g_id3():
    o=b''
    for _ in range(R_.randrange(1,4)):
        f=R_.choice([0,0,0x10,0x40,0x50,R_.randrange(256)]); n=R_.randrange(30)
        sz=n if R_.random()<.8 else R_.randrange(2**28)
        h=b'ID3\4\0'+bytes([f,(sz>>21)&127|R_.choice([0,0,128]),(sz>>14)&127,(sz>>7)&127,sz&127])
        body=rb(n); x=R_.choice([0,0,4,10,near32()])
        if f&0x40: body=struct.pack('>I',x)+body[4:] if n>=4 else struct.pack('>I',x)
        o+=h+body
        if f&0x40 and x<100: o+=rb(x)
        if f&0x10: o+=rb(10)
    tail=R_.choice([b'fLaC',b'\xff\xfb',b'\xff\xe2',b'\xff\xf3',b'\xff\xfc',b'ID',b''])+rb(R_.choice([0,2,3,6,8,20]))
    return o+tail
NM=list(NAMES)+['META-INF/MANIFEST.MF','mimetype','mimetype','mimetype','a.fb2','x/a.fb2','word/x','xl/','3D/a.model','Payload/X.app/y','Payload/Xapp/y','a.usd','b/a.usd','q.usdz','Documents/1.fpage','dwf/','Fusion[Active]/','FusionAssetName[Active]/','SpaceClaim/x','visio/','ppt/','circuitdiagram/x','zzz','','\u00e9t\u00e9','Documents/x']
def g_zip():
    loc=b'';cd=b'';k=R_.randrange(1,6)
    for _ in range(k):
        nm=R_.choice(NM).encode() if R_.random()<.95 else rb(5)
        data=b''
        if nm==b'mimetype':
            data=R_.choice(list(MIME)).encode()
            data=R_.choice([b'',b' ',b'\n',' \u2003'.encode(),b'\xff',b'\x1f'])+data+R_.choice([b'',b'',b'\r\n','\u0085'.encode(),b'x',b'\0'])
        us=len(data)+(R_.random()<.15); cs=len(data)
        off=len(loc); x=rb(R_.randrange(4)); cm=rb(R_.randrange(4))
        loc+=b'PK\3\4'+bytes(22)+struct.pack('<HH',len(nm),len(x))+nm+x+data
        if R_.random()<.08: cs=us=near32()
        if R_.random()<.05: off=near32()
        nl=len(nm) if R_.random()<.97 else R_.choice([0,65535,len(nm)+1])
        cd+=b'PK\1\2'+bytes(16)+struct.pack('<IIHHH',cs,us,nl,len(x),len(cm))+bytes(8)+struct.pack('<I',off)+nm+x+cm
    so=len(loc); z64=R_.random()<.35; tail=b''; n=k
    if R_.random()<.15: n=R_.choice([0,k-1,k+1,65535,near64()])
    if z64:
        e=len(loc)+len(cd)
        tail+=b'PK\6\6'+bytes(28)+struct.pack('<Q',n)+bytes(8)+struct.pack('<Q',so if R_.random()<.85 else near64())
        if R_.random()<.1: tail+=rb(4)
        tail+=b'PK\6\7'+bytes(4)+struct.pack('<Q',e if R_.random()<.8 else R_.choice([near64(),2**64-32,2**64-33,2**64-31]))+bytes(4)
    if R_.random()<.1: so=near32()
    com=R_.choice([b'',b'hello',b'PK\5\6',rb(20),bytes(65535),bytes(65536),bytes(65534)] if R_.random()<.02 else [b"",b"hello",b"PK\5\6",rb(20)])
    d=loc+cd+tail+b'PK\5\6'+bytes(6)+struct.pack('<H',n%65536)+bytes(4)+struct.pack('<I',so)+struct.pack('<H',len(com)%65536)+com
    if R_.random()<.05: d=b'PK\3\4'+d[:R_.randrange(40)]
    if R_.random()<.05: d=b'PK\5\6'+rb(R_.choice([0,10,17,18,19,40]))
    return d
def g_exe():
    off=R_.choice([64,64,64,60,62,near32()]); sigs=R_.choice([b'PE\0\0',b'PE\0\1',b'LE',b'LX',b'NE',b'NEab'])
    ch=R_.choice([0x2000,0x2002,2,0])
    body=sigs.ljust(4,b'\0')+bytes(18)+struct.pack('<H',ch)
    d=b'MZ'+bytes(58)+struct.pack('<I',off)+body
    return d[:R_.choice([len(d)]*4+[R_.randrange(len(d)+1),68,69,67])]
def g_cfb():
    ver=R_.choice([3,3,4,R_.randrange(65536)]); ss=512 if ver==3 else 4096; loc=R_.choice([0,0,1,2,2,near32()])
    d=bytearray(ss*(1+min(loc,2))+400)
    d[:8]=bytes.fromhex('D0CF11E0A1B11AE1'); d[26:28]=struct.pack('<H',ver); d[48:52]=struct.pack('<I',loc)
    p=ss*(1+min(loc,2))+80; d[p:p+16]=guid(R_.choice(list(CLS)+['00000000-0000-0000-0000-000000000000']*8))
    d[p+48:p+60]=R_.choice([b"M\0a\0t\0O\0S\0T\0",bytes(12)]); d[p+176:p+202]=R_.choice([b"W\0k\0s\0S\0S\0W\0o\0r\0k\0B\0o\0o\0k\0",bytes(26)])
    return bytes(d[:R_.choice([len(d)]*3+[p+R_.choice([15,16,111,112,113,239,240,241])])])
def g_txt():
    o=b''
    for _ in range(R_.randrange(1,20)):
        o+=R_.choice([b'hello',b'a\tb','\u00e9'.encode(),'\u0085'.encode(),'\u2028'.encode(),b''])*R_.randrange(3)
        if R_.random()<.03: o+=R_.choice([b'\0',b'\x7f',b'\xc2\x80',b'\xed\xa0\x80',b'\xff',b'\x1c',b'\x0b',b'\xf4\x90\x80\x80',b'\xc0\x80',b'\xe2\x82'])
        o+=R_.choice([b'\n',b'\r\n',b'\r',b'\x0c'])
    if R_.random()<.0: o=b"x"*R_.choice([65533,65534,65535,65536])+R_.choice(['\u20ac'.encode(),b'\0',b'\n\0'])+o
    return o
def g_xml():
    o=b'<?xml'+rb(0)
    for _ in range(R_.randrange(4)):
        c,f=R_.choice(XML)
        o+=b' '*R_.choice([0,1,5])+b' '.join(R_.choice(c)) if R_.random()<.8 else R_.choice(c)[0][:-1]
    if R_.random()<.1: o=b'<?xml'+b' '*R_.choice([8180,8185,8188,8189,8190])+o[5:]
    return o
def g_sq():
    return b'SQLite format 3\0'+bytes(R_.choice([60,84,85,32826,32827,32828,32840,500]))+R_.choice([b'com.bohemiancoding.sketch3',b'com.bohemiancoding.sketch2'])+rb(R_.choice([0,5]))
def g_pdf():
    k=R_.choice([0,10,32750,32756,32757,32763,32768,32769,65530])
    return b'%PDF-'+b'A'*k+R_.choice([b'AIPrivateData',b'AIPrivateDatb',b'AIAIPrivateData'])+rb(R_.choice([0,9]))
G=[g_asf,g_asf,g_ebml,g_ebml,g_mp4,g_mp4,g_rm,g_id3,g_zip,g_zip,g_exe,g_cfb,g_txt,g_xml]
cases=[]
for _ in range(N):
    g=R_.choice(G) if R_.random()<.997 else R_.choice([g_sq,g_pdf])
    d=g()
    if R_.random()<.1: d=d[:R_.randrange(len(d)+1)]
    cases.append(d)
p=subprocess.Popen("ulimit -s unlimited; export OCAMLRUNPARAM=s=128M; exec /tmp/ext/drv",shell=True,stdin=subprocess.PIPE,stdout=open('/tmp/ext/gout%d'%seed,'w'))
for c in cases: p.stdin.write(struct.pack('>I',len(c))+c)
p.stdin.close(); p.wait()
out=open('/tmp/ext/gout%d'%seed).read().split('\n')
bad=0; st={}
for c,l in zip(cases,out):
    got=[x if x in'PF' else FORMATS[int(x)] for x in l.split()]
    exp=[detect(c,ck,b) for ck,b in((0,64),(1,64),(0,32),(1,32))]
    for e in set(exp): st[e]=st.get(e,0)+1
    if exp[0]!=exp[2]: st['w']=st.get('w',0)+1
    if got!=exp:
        bad+=1; open('/tmp/ext/gbad_%d_%d'%(seed,bad),'wb').write(c); print('BAD',got,exp,len(c),c[:40])
print(seed,len(cases),len(out)-1,'bad',bad,'distinct',len(st),'panics',st.get('P'),'width',st.get('w'))
if seed==1: print(sorted(st.items(),key=lambda x:-x[1]))
