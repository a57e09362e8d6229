#!/usr/bin/env python3
"""Writes rocq/theories/Source.v: the texts of source files, line by line, as Coq strings.
Nothing is interpreted here; lexing, macro expansion and evaluation are done in Coq (Rust.v, Macro.v)."""
import os
REPO = os.environ.get('REPO', '/repo')
OUT = os.path.join(os.path.dirname(os.path.abspath(__file__)), '..', 'rocq', 'theories', 'Source.v') if 'OUT' not in os.environ else os.environ['OUT']
FILES = [('macros_rs', 'src/macros.rs'), ('signatures_rs', 'src/signatures.rs'), ('formats_rs', 'src/formats.rs'),
         ('kind_rs', 'src/lib.rs', 332, 382), ('cargo_toml', 'Cargo.toml'),
         ('readers_rs', 'src/readers.rs'),
         ('lib_rs', 'src/lib.rs', 231, 316), ('lib_from_rs', 'src/lib.rs', 325, 330)]
out = ['''(** GENERATED by tools/gen_source.py.  Do not edit.

    The texts of source files of the crate, byte for byte, one string for each line (the quotation
    mark is doubled, which is how Coq writes it). *)
From Coq Require Import List String.
Import ListNotations.
Local Open Scope string_scope.
''']
for name, path, *part in FILES:
    data = open(os.path.join(REPO, path), 'rb').read().decode('utf-8')
    assert data.endswith('\n') and '\r' not in data
    lines = data[:-1].split('\n')
    a, b = part or (1, len(lines))
    lines = lines[a - 1:b]
    out.append('(** /repo/%s, lines %d-%d. *)' % (path, a, b))
    out.append('Definition %s : list string :=\n[' % name)
    out.append(';\n'.join('"%s"' % l.replace('"', '""') for l in lines))
    out.append('].\n')
open(OUT, 'w').write('\n'.join(out))
