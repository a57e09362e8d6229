#!/usr/bin/env python3
"""Generates rocq/theories/Documented.v from the crate documentation, /repo/src/lib.rs lines 52-213."""
import re
src=open('/repo/src/lib.rs').read().split('\n')
lines=src[51:214]
text=' '.join(l.strip() for l in lines)
items=re.split(r'- `reader-(\w+)` - ',text)
names={'asf':'FAsf','cfb':'FCfb','ebml':'FEbml','exe':'FExe','id3v2':'FId3v2','mp4':'FMp4','pdf':'FPdf','rm':'FRm','sqlite3':'FSqlite3','txt':'FTxt','xml':'FXml','zip':'FZip'}
out=['''(** GENERATED by tools/gen_documented.py from the crate documentation, /repo/src/lib.rs lines
    52-213: for every reader feature the container format it is about and the list of formats
    the documentation says it enables.  Part of the specification (C09, C10). *)
From Coq Require Import List.
From Verif Require Import Formats IO.
Import ListNotations.
''']
cont=[];docs=[]
for i in range(1,len(items),2):
    f=items[i]; fm=re.findall(r'FileFormat::(\w+)`',items[i+1])
    cont.append('  | %s => %s'%(names[f],fm[0]))
    docs.append('  | %s =>\n      [ %s ]'%(names[f],';\n        '.join(fm[1:])) if fm[1:] else '  | %s => []'%names[f])
out.append('Definition container (x : feature) : FileFormat :=\n  match x with\n'+'\n'.join(cont)+'\n  end.\n')
out.append('Definition documented (x : feature) : list FileFormat :=\n  match x with\n'+'\n'.join(docs)+'\n  end.\n')
open('/verif/rocq/theories/Documented.v','w').write('\n'.join(out))
