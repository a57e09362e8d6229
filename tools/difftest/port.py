import re
SRC='/repo/src/'
class IoErr(Exception): pass
class Panic(Exception): pass
fm=open(SRC+'formats.rs').read()
FORMATS=re.findall(r'^\s*format = (\w+)',fm,re.M)
IDX={n:i for i,n in enumerate(FORMATS)}
def unlit(s):
    out=bytearray();i=0
    while i<len(s):
        c=s[i]
        if c=='\\':
            e=s[i+1]
            if e=='x': out.append(int(s[i+2:i+4],16)); i+=4; continue
            out.append({'n':10,'r':13,'t':9,'0':0,'\\':92,'"':34,"'":39}[e]); i+=2
        else: out.append(ord(c)); i+=1
    return bytes(out)
SIGS=[]
for line in open(SRC+'signatures.rs'):
    line=line.strip()
    if line.startswith('format = '): SIGS.append((line[9:],[]))
    elif line.startswith('value =') or (SIGS and line.startswith('b"')):
        parts=[(int(o.replace('_','')) if o else 0,unlit(v)) for v,o in re.findall(r'b"((?:[^"\\]|\\.)*)"(?:\s+offset = ([\d_]+))?',line)]
        assert parts,line
        SIGS[-1][1].append(parts)
    elif line and not line.startswith(('//','signatures!','}')): raise Exception(line)
def sig(b):
    for f,alts in SIGS:
        for a in alts:
            if all(len(b)>=o+len(v) and b[o:o+len(v)]==v for o,v in a): return f
M64=1<<64
class R:
    def __init__(s,d,chk,bits): s.d=d; s.p=0; s.chk=chk; s.bits=bits
    def usz(s,n): return n & ((1<<s.bits)-1)
    def start(s,n): s.p=n
    def cur(s,n):
        q=s.p+n
        if not 0<=q<M64: raise IoErr()
        s.p=q
    def end0(s): s.p=len(s.d); return s.p
    def read(s,n): r=s.d[s.p:s.p+n] if s.p<len(s.d) else b''; s.p+=len(r); return r
    def bytes(s,n):
        if n>(1<<(s.bits-1))-1: raise Panic()
        return s.exact(n)
    def exact(s,n):
        r=s.read(n)
        if len(r)<n: raise IoErr()
        return r
    def u8(s): return s.exact(1)[0]
    def le(s,n): return int.from_bytes(s.exact(n),'little')
    def be(s,n): return int.from_bytes(s.exact(n),'big')
    def guid(s):
        b=s.bytes(16); o=''
        for i in [3,2,1,0,5,4,7,6,8,9,10,11,12,13,14,15]:
            o+=('-%02x' if i in(5,7,8,10) else '%02x')%b[i]
        return o
    def string(s,n): return s.bytes(n).decode('utf-8','replace')
    def i64(s,n): return n-M64 if n>=1<<63 else n
    def i64sub(s,a,b):
        r=a-b
        if not -(1<<63)<=r<1<<63:
            if s.chk: raise Panic()
            r=(r+(1<<63))%M64-(1<<63)
        return r
    def uadd(s,a,b):
        if a+b>=M64:
            if s.chk: raise Panic()
        return (a+b)%M64
    def usub(s,a,b):
        if a<b:
            if s.chk: raise Panic()
        return (a-b)%M64
def asf(r):
    r.start(24); n=r.le(4); r.cur(2); a=v=False
    for _ in range(min(256,n)):
        g=r.guid(); size=r.le(8)
        if g=="b7dc0791-a9b7-11cf-8ee6-00c00c205365":
            t=r.guid()
            if t=="f8699e40-5b4d-11cf-a8fd-00805f5c442b": a=True
            elif t=="bc19efc0-5b4d-11cf-a8fd-00805f5c442b": v=True
            r.cur(r.i64sub(r.i64(size),40))
        elif g=="d2d0a440-e307-11d2-97f0-00a0c95ea850":
            c=r.le(2); off=r.p
            for _ in range(min(32,c)):
                l=r.le(2); nm=r.bytes(min(64,l))
                if nm.startswith(b"D\0V\0R\0 \0F\0i\0l\0e\0 \0V\0e\0r\0s\0i\0o\0n\0"): return 'MicrosoftDigitalVideoRecording'
                r.cur(max(0,l-64)+2); l=r.le(2); r.cur(l)
            r.start(r.usub(r.uadd(off,size),26))
        else: r.cur(r.i64sub(r.i64(size),24))
    return 'WindowsMediaVideo' if v else 'WindowsMediaAudio' if a else 'AdvancedSystemsFormat'
rs=open(SRC+'readers.rs').read()
CLS={}
for g,f in re.findall(r'"([0-9a-f-]{36})" => Self::(\w+)',rs): CLS.setdefault(g,f)
def cfb(r):
    r.start(26); ver=r.le(2); sz=512 if ver==3 else 4096
    r.cur(20); loc=r.le(4); r.start(sz*(1+loc)+80); g=r.guid()
    if g in CLS: return CLS[g]
    r.cur(32); e=r.bytes(64)
    if e.startswith(b"M\0a\0t\0O\0S\0T\0"): return 'MicrosoftWorksWordProcessor'
    r.cur(64); e=r.bytes(64)
    if e.startswith(b"W\0k\0s\0S\0S\0W\0o\0r\0k\0B\0o\0o\0k\0"): return 'MicrosoftWorks6Spreadsheet'
    return 'CompoundFileBinary'
def lz(b): return 8-b.bit_length()
def ebml(r):
    L=r.end0(); r.start(0); a=v=s=False; n=0
    while n<256 and r.p<L:
        fb=r.u8(); k=lz(fb)+1
        if k>4: raise IoErr()
        i=fb
        for _ in range(1,k): i=((i<<8)|r.u8())&0xffffffff
        fb=r.u8(); k=lz(fb)+1
        if k>8: raise IoErr()
        size=fb&((128>>lz(fb))-1)
        for _ in range(1,k): size=((size<<8)|r.u8())%M64
        if i in(0x1A45DFA3,0x18538067,0x1654AE6B,0xAE,0xE0): pass
        elif i==0x4282:
            t=r.bytes(min(8,r.usz(size)))
            if t.startswith(b'webm'): return 'Webm'
            if not t.startswith(b'matroska'): return 'ExtensibleBinaryMetaLanguage'
            r.cur(r.i64(max(0,size-8)))
        elif i==0x86:
            t=r.bytes(min(64,r.usz(size)))
            if t.startswith(b'A_'): a=True
            elif t.startswith(b'V_'): v=True
            elif t.startswith(b'S_'): s=True
            r.cur(r.i64(max(0,size-64)))
        elif i==0x53B8:
            if r.u8()>0: return 'Matroska3dVideo'
        elif i==0x1F43B675: break
        else: r.cur(r.i64(size))
        n+=1
    return 'MatroskaVideo' if v else 'MatroskaAudio' if a else 'MatroskaSubtitles' if s else 'ExtensibleBinaryMetaLanguage'
def exe(r):
    L=r.end0(); r.start(60); o=r.le(4)
    if o+4<L:
        r.start(o); s=r.bytes(4)
        if s==b'PE\0\0':
            r.cur(18); c=r.le(2)
            return 'DynamicLinkLibrary' if c&0x2000 else 'PortableExecutable'
        if s[:2] in(b'LE',b'LX'): return 'LinearExecutable'
        if s[:2]==b'NE': return 'NewExecutable'
    return 'MsDosExecutable'
def id3(r):
    o=0
    while True:
        r.start(o); b=r.bytes(10)
        if b[:3]!=b'ID3': break
        ts=(b[6]&127)<<21|(b[7]&127)<<14|(b[8]&127)<<7|b[9]&127
        nx=o+10+ts
        if b[5]&0x40: nx+=r.be(4)
        if b[5]&0x10: nx+=10
        o=nx
    r.start(o); b=r.bytes(4)
    if b==b'fLaC': return 'FreeLosslessAudioCodec'
    if b[:2] in(b"\xFF\xE2",b"\xFF\xE3",b"\xFF\xF2",b"\xFF\xF3",b"\xFF\xFA",b"\xFF\xFB"): return 'Mpeg12AudioLayer3'
    return 'Id3v2'
def mp4(r):
    L=r.end0(); r.start(0); a=v=s=False; n=0
    while n<256 and r.p<L:
        size=r.be(4); t=r.bytes(4)
        if size==1: size=r.be(8)
        if t in(b'moov',b'trak',b'mdia'): pass
        elif t==b'hdlr':
            r.cur(8); h=r.bytes(4)
            if h==b'vide': v=True
            elif h==b'soun': a=True
            elif h in(b'sbtl',b'subt',b'text'): s=True
            r.cur(r.i64sub(r.i64(size),20))
        else: r.cur(r.i64sub(r.i64(size),8))
        n+=1
    return 'Mpeg4Part14Video' if v else 'Mpeg4Part14Audio' if a else 'Mpeg4Part14Subtitles' if s else 'Mpeg4Part14'
def pdf(r):
    r.start(5); K=b'AIPrivateData'; O=12; C=32768
    buf=bytearray(O+C); tot=0
    while tot<33554432:
        x=r.read(C)
        if not x: break
        n=len(x); buf[O:O+n]=x
        st=O if tot==0 else 0
        if K in buf[st:O+n]: return 'AdobeIllustratorArtwork'
        seg=buf[:O+n]; buf[:O+n]=seg[-O:]+seg[:-O]
        tot+=n
    return 'PortableDocumentFormat'
def rm(r):
    r.start(14); n=r.be(4); a=v=False
    for _ in range(min(64,max(0,n-1))):
        t=r.bytes(4); sz=r.be(4)
        if t==b'MDPR':
            o=r.p; r.cur(32); k=r.u8(); r.cur(k); m=r.u8(); mt=r.bytes(m)
            if mt.startswith(b'audio/'): a=True
            elif mt.startswith(b'video/'): v=True
            r.start(o)
        r.cur(sz-8)
    return 'Realvideo' if v else 'Realaudio' if a else 'Realmedia'
def sqlite(r):
    r.start(100); return 'Sketch' if b'com.bohemiancoding.sketch3' in r.read(32768) else 'Sqlite3'
xs=rs[rs.index('fn from_xml_reader'):rs.index('fn from_zip_reader')]
XML=[]
for cond,f in re.findall(r'if (buf\.holds.*?) \{\s+Self::(\w+)',xs,re.S):
    XML.append(([[unlit(z) for z in re.findall(r'buf\.holds\("((?:[^"\\]|\\.)*)"\)',x)] for x in cond.split('||')],f))
def xml(r):
    r.start(5); b=r.read(8192)
    for c,f in XML:
        if any(all(z in b for z in k) for k in c): return f
    return 'ExtensibleMarkupLanguage'
WS=''.join(map(chr,[9,10,11,12,13,32,0x85,0xA0,0x1680,*range(0x2000,0x200B),0x2028,0x2029,0x202F,0x205F,0x3000]))
zs=rs[rs.index('fn from_zip_reader'):rs.index('trait ReadData')]
NAMES=dict(re.findall(r'"([^"]+)" => return Ok\(Self::(\w+)\)',zs))
ms=zs[zs.index('match data.trim()'):]
MIME={}
for pats,f in re.findall(r'((?:"[^"]+"[\s|]*)+)=> \{?\s*Self::(\w+)',ms):
    for p in re.findall(r'"([^"]+)"',pats): MIME[p]=f
def zipr(r):
    L=r.end0(); MX=22+65535
    off=max(0,L-MX); r.start(off)
    b=r.bytes(min(max(r.usz(L),22),MX)); i=b.rfind(b'PK\5\6')
    if i<0: raise IoErr()
    eo=off+i; z64=False
    if r.usz(eo)>=20:
        r.start(eo-20)
        if r.bytes(4)==b'PK\6\7': z64=True
    if z64:
        r.cur(4); o=r.le(8); r.start(r.uadd(o,32)); n=r.usz(r.le(8)); r.cur(8); so=r.le(8)
    else:
        r.start(eo+10); n=r.le(2); r.cur(4); so=r.le(4)
    r.start(so); fmt='Zip'
    for _ in range(min(1024,n)):
        r.cur(20); cs=r.le(4); us=r.le(4); fl=r.le(2); el=r.le(2); cl=r.le(2); r.cur(8); o=r.le(4)
        fn=r.string(fl)
        if fn in NAMES: return NAMES[fn]
        elif fn=='META-INF/MANIFEST.MF': fmt='JavaArchive'
        elif fn=='mimetype' and cs==us:
            r.start(o+26); a=r.le(2); e=r.le(2); r.cur(a+e)
            d=r.string(cs).strip(WS)
            return MIME.get(d,'Zip')
        else:
            s=fn.startswith; e=fn.endswith
            if s("Fusion[Active]/"): return 'Autodesk123d'
            if s("circuitdiagram/"): return 'CircuitDiagramDocument'
            if s("dwf/"): return 'DesignWebFormatXps'
            if e(".fb2") and '/' not in fn: return 'FictionbookZip'
            if s("FusionAssetName[Active]/"): return 'Fusion360'
            if s("Payload/") and ".app/" in fn: return 'IosAppStorePackage'
            if s("word/"): return 'OfficeOpenXmlDocument'
            if s("visio/"): return 'OfficeOpenXmlDrawing'
            if s("ppt/"): return 'OfficeOpenXmlPresentation'
            if s("xl/"): return 'OfficeOpenXmlSpreadsheet'
            if s("Documents/") and e(".fpage"): return 'Openxps'
            if s("SpaceClaim/"): return 'SpaceclaimDocument'
            if s("3D/") and e(".model"): return 'ThreeDimensionalManufacturingFormat'
            if (e(".usd") or e(".usda") or e(".usdc")) and '/' not in fn: return 'UniversalSceneDescriptionZip'
        r.cur(el+cl)
    return fmt
def txt(r):
    r.start(0); d=r.d[:65536]; p=0
    for _ in range(16):
        if p>=len(d): break
        j=d.find(b'\n',p); q=len(d) if j<0 else j+1
        try: s=d[p:q].decode('utf-8')
        except UnicodeDecodeError: raise IoErr()
        for ch in s:
            o=ord(ch)
            if (o<32 or 127<=o<160) and not(9<=o<=13 or o==0x85): raise IoErr()
        p=q
    return 'PlainText'
RD={'AdvancedSystemsFormat':asf,'CompoundFileBinary':cfb,'ExtensibleBinaryMetaLanguage':ebml,'MsDosExecutable':exe,'Id3v2':id3,'Mpeg4Part14':mp4,'PortableDocumentFormat':pdf,'Realmedia':rm,'Sqlite3':sqlite,'ExtensibleMarkupLanguage':xml,'Zip':zipr}
def generic(r):
    try: return txt(r)
    except IoErr: return 'ArbitraryBinaryData'
def detect(d,chk,bits):
    r=R(d,chk,bits)
    try:
        b=r.read(36870)
        if not b: return 'Empty'
        f=sig(b)
        if f is None: return generic(r)
        if f not in RD: return f
        try: return RD[f](r)
        except IoErr: return generic(r)
    except Panic: return 'P'
if __name__=='__main__':
    print(len(FORMATS),len(SIGS),sum(len(a) for _,a in SIGS),len(CLS),len(XML),len(NAMES),len(MIME))
