#!/usr/bin/env python3
"""Writes rocq/theories/Reach.v: for every format that a container reader decides, an input that
is reported as that format (the smallest fixture of the Rust test suite, taken from Conformance.v).
The inputs are only witnesses: that they are reported as the format is proved in ReachProofs.v."""
import re
T='/verif/rocq/theories/'
doc=open(T+'Documented.v').read()
cont=dict(re.findall(r'\| (F\w+) => (\w+)\n',doc[:doc.index('Definition documented')]))
docs={}
d=doc[doc.index('Definition documented'):]
d=d[:d.index('end.')]
for m in re.finditer(r'\| (F\w+) =>\s*\[([^\]]*)\]',d):
    docs[m.group(1)]=re.findall(r'\w+',m.group(2))
conf=open(T+'Conformance.v').read()
fix={}
for m in re.finditer(r'\(\* (.*?) \*\)\s*mkcase (\w+) (\w+) (\[.*?\])\.',conf):
    segs=m.group(4); n=sum(len(x)//2 for x in re.findall(r'L "(\w*)"',segs))+sum(int(x) for x in re.findall(r'R (\d+)',segs))
    fix.setdefault(m.group(3),[]).append((n,segs,m.group(1)))
out=["(** GENERATED by tools/gen_reach.py.  Witness inputs for C08: (format, reader feature, input). *)",
"From Coq Require Import List NArith String.","From Verif Require Import Base Formats IO Conf.","Import ListNotations.","Local Open Scope N_scope.","",
"Definition reader_witnesses : list (FileFormat * feature * list seg) :=","["]

def expand(segs):
    b=bytearray()
    for m in re.finditer(r'L "(\w*)"|R (\d+) x(\w\w)',segs):
        b += bytes.fromhex(m.group(1)) if m.group(1) is not None else bytes([int(m.group(3),16)])*int(m.group(2))
    return bytes(b)
def segs_of(b):
    out=[];i=0;lit=b''
    for m in re.finditer(rb'(.)\1*',b,re.S):
        if len(m.group(0))>=24:
            if lit: out.append('L "%s"'%lit.hex()); lit=b''
            out.append('R %d x%02x'%(len(m.group(0)),m.group(0)[0]))
        else: lit+=m.group(0)
    if lit: out.append('L "%s"'%lit.hex())
    return '['+'; '.join(out)+']'
def shrink_cfb(b):
    "same header and same first three directory entries, with 512-byte sectors and the directory first"
    size=512 if b[26:28]==b'\x03\x00' else 4096
    off=size*(1+int.from_bytes(b[48:52],'little'))
    h=bytearray(b[:512]); h[26:28]=b'\x03\x00'; h[30:32]=b'\x09\x00'; h[48:52]=b'\0'*4
    return bytes(h)+b[off:off+384]
def figma():
    import zipfile,io
    f=io.BytesIO(); z=zipfile.ZipFile(f,'w'); z.writestr(zipfile.ZipInfo('canvas.fig'),b'fig'); z.close(); return f.getvalue()
rows=[]; tot=0
lead={'FXml':b'<.?.?.?.?\\?.?.?.?x|<\\?xml','FCfb':b'^\xd0\xcf\x11\xe0','FId3v2':b'^ID3','FRm':b'^[.]RMF'}
for x in cont:
    if x=='FTxt': continue
    for f in [cont[x]]+docs[x]:
        b=expand(min(c for c in fix[f] if re.search(lead.get(x,b''),expand(c[1])[:30]))[1])
        if x=='FCfb': b=shrink_cfb(b)
        if f=='FigmaDesign': b=figma()
        rows.append(f"  ({f}, {x}, {segs_of(b)})"); tot+=len(b)
out.append(";\n".join(rows)); out.append("].")
open(T+'Reach.v','w').write("\n".join(out)+"\n"); print(len(rows),tot)
