#!/usr/bin/env python3
"""Generates rocq/theories/Derive.v (derived traits of FileFormat and Kind) from /repo."""
import re, os
src = open('/repo/src/formats.rs').read()
variants = re.findall(r'^\s*format = (\w+)', src, re.M)
lib = open('/repo/src/lib.rs').read()
body = re.search(r'pub enum Kind \{(.*?)\n\}', lib, re.S).group(1)
kinds = re.findall(r'^\s*(\w+),', body, re.M)
out = ['''(** GENERATED by tools/gen_derive.py from /repo/src/formats.rs and /repo/src/lib.rs.  Do not edit.

    The traits derived for [FileFormat] (/repo/src/macros.rs line 25: derive(Clone, Copy, Debug, Eq,
    PartialEq)) and for [Kind] (/repo/src/lib.rs line 333). *)
From Coq Require Import List String NArith.
From Verif Require Import Formats.
Import ListNotations.
Local Open Scope string_scope.

(** Derived Debug of a variant without fields: writes the identifier of the variant (the identifiers
    are those of the definitions in /repo/src/formats.rs). *)
Definition debug (f : FileFormat) : string :=
  match f with''']
out += ['  | %s => "%s"' % (v, v) for v in variants]
out += ['''  end.
(** Derived Debug of [Kind], /repo/src/lib.rs lines 333-382. *)
Definition debug_kind (k : Kind) : string :=
  match k with''']
out += ['  | K%s => "%s"' % (k, k) for k in kinds]
out += ['''  end.
(** Discriminant ([f as isize]): variants without explicit values are numbered from 0 in the order of
    their declaration. *)
Definition discriminant (f : FileFormat) : N :=
  match f with''']
out += ['  | %s => %d' % (v, i) for i, v in enumerate(variants)]
out += ['''  end%N.
Definition kind_discriminant (k : Kind) : N :=
  match k with''']
out += ['  | K%s => %d' % (k, i) for i, k in enumerate(kinds)]
out += ['''  end%N.
(** Derived PartialEq: variants without fields are equal iff their discriminants are; [Eq] adds no code. *)
Definition eq_format (f g : FileFormat) : bool := N.eqb (discriminant f) (discriminant g).
Definition eq_kind (k j : Kind) : bool := N.eqb (kind_discriminant k) (kind_discriminant j).
(** Derived Clone of a Copy type: [*self]. *)
Definition clone (f : FileFormat) : FileFormat := f.
Definition clone_kind (k : Kind) : Kind := k.
''']
open(os.path.join(os.path.dirname(__file__), '../rocq/theories/Derive.v'), 'w').write('\n'.join(out))
