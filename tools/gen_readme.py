#!/usr/bin/env python3
"""Generates rocq/theories/SpecReadme.v from the list 'Supported file formats' of /repo/README.md."""
r = open('/repo/README.md').read()
start = r[:r.index('## Supported file formats')].count('\n') + 1
end = r[:r.index('## Fixtures')].count('\n')
body = r.split('## Supported file formats')[1].split('## Fixtures')[0]
out = f'''(** GENERATED by tools/gen_readme.py from /repo/README.md lines {start}-{end}.  Do not edit.

    The list of supported file formats a user reads, by kind (C51).  It does not depend on
    /repo/src/formats.rs. *)
From Coq Require Import List String.
From Verif Require Import Formats.
Import ListNotations.
Local Open Scope string_scope.

Definition readme (k : Kind) : list string :=
  match k with
'''
for s in body.split('### ')[1:]:
    ls = s.strip().split('\n')
    k = {'ROM': 'Rom'}.get(ls[0], ls[0])
    items = ['"%s"' % x[2:].replace('"', '""') for x in ls[1:] if x.startswith('- ')]
    out += f'  | K{k} =>\n      [ ' + ';\n        '.join(items) + ' ]\n'
out += '  end.\n'
open('/verif/rocq/theories/SpecReadme.v', 'w').write(out)
