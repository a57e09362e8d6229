#!/usr/bin/env python3
"""Transcribes /repo/src/formats.rs and /repo/src/signatures.rs into Coq tables.

Output: rocq/theories/Formats.v and rocq/theories/Signatures.v.  Purely textual: every entry
carries the line of the Rust source it was read from."""
import re, os
R = "/repo/src/"
OUT = os.path.join(os.path.dirname(os.path.abspath(__file__)), "..", "rocq", "theories")

# ---------------------------------------------------------------- formats.rs
fmts = []
cur = None
for ln, line in enumerate(open(R + "formats.rs", encoding="utf-8"), 1):
    m = re.match(r'\s+(format|name|short_name|media_type|extension|kind) = (.*)$', line)
    if not m: continue
    k, v = m.group(1), m.group(2).strip()
    if k == "format":
        cur = {"format": v, "line": ln}; fmts.append(cur)
    else:
        if v.startswith('"'):
            v = v[1:-1]
            assert '\\' not in v and '"' not in v
        cur[k] = v
for f in fmts:
    for k in ("format", "name", "media_type", "extension", "kind"): assert k in f, f
kinds = []
inkind = False
for line in open(R + "lib.rs", encoding="utf-8"):
    if line.startswith("pub enum Kind"): inkind = True; continue
    if inkind:
        if line.startswith("}"): break
        m = re.match(r'\s+([A-Z]\w*),', line)
        if m: kinds.append(m.group(1))

def cs(s): return '"' + s.replace('"', '""') + '"'
w = []
w.append("""(** GENERATED by tools/gen_tables.py from /repo/src/formats.rs and /repo/src/lib.rs.  Do not edit.

    [FileFormat], [Kind] and the metadata methods produced by the macro [formats!]
    (/repo/src/macros.rs lines 13-146) from the list in /repo/src/formats.rs. *)
From Coq Require Import List String NArith.
Import ListNotations.
Local Open Scope string_scope.

(** /repo/src/lib.rs lines 332-382: enum Kind.  Constructors get the prefix [K] only to keep
    them apart from the formats. *)
Inductive Kind : Set :=""")
for k in kinds: w.append(f"| K{k}")
w[-1] += "."
w.append("\nDefinition all_kinds : list Kind := [" + "; ".join("K"+k for k in kinds) + "].\n")
w.append("(** /repo/src/formats.rs: enum FileFormat, one constructor per [format = ...] line. *)\nInductive FileFormat : Set :=")
for f in fmts: w.append(f"| {f['format']} (* formats.rs:{f['line']} *)")
w[-1] += " ."
w.append("\n(** The variants in declaration order. *)\nDefinition all_formats : list FileFormat :=\n  [ " + ";\n    ".join(f['format'] for f in fmts) + " ].\n")
w.append("(** Position of a variant in the enumeration (Rust's derived discriminant; used for the\n    derived PartialEq, macros.rs line 26). *)\nDefinition fmt_index (f : FileFormat) : N :=\n  match f with")
for i, f in enumerate(fmts): w.append(f"  | {f['format']} => {i}")
w.append("  end%N.\n")
def meth(name, ty, key, doc, fun):
    w.append(f"(** {doc} *)\nDefinition {name} (f : FileFormat) : {ty} :=\n  match f with")
    for f in fmts:
        w.append(f"  | {f['format']} => {fun(f)}")
    w.append("  end.\n")
meth("name", "string", "name", "macros.rs lines 50-56: FileFormat::name", lambda f: cs(f["name"]))
meth("short_name", "option string", "short_name", "macros.rs lines 73-80: FileFormat::short_name",
     lambda f: f'Some {cs(f["short_name"])}' if "short_name" in f else "None")
meth("media_type", "string", "media_type", "macros.rs lines 98-104: FileFormat::media_type", lambda f: cs(f["media_type"]))
meth("extension", "string", "extension", "macros.rs lines 120-126: FileFormat::extension", lambda f: cs(f["extension"]))
meth("kind", "Kind", "kind", "macros.rs lines 140-146: FileFormat::kind", lambda f: "K"+f["kind"])
open(OUT + "/Formats.v", "w", encoding="utf-8").write("\n".join(w))

# ------------------------------------------------------------- signatures.rs
def unescape(s):
    out, i = [], 0
    while i < len(s):
        c = s[i]
        if c == "\\":
            n = s[i+1]
            if n == "x": out.append(int(s[i+2:i+4], 16)); i += 4; continue
            out.append({"0": 0, "n": 10, "r": 13, "t": 9, "\\": 92, '"': 34, "'": 39}[n]); i += 2
        else:
            assert ord(c) < 128; out.append(ord(c)); i += 1
    return out
sigs = []
for ln, line in enumerate(open(R + "signatures.rs", encoding="utf-8"), 1):
    m = re.match(r'\s+format = (\w+)', line)
    if m: sigs.append((m.group(1), ln, [])); continue
    m = re.match(r'\s+value =(.*)$', line)
    if m:
        rest, parts = m.group(1).strip(), []
        while rest:
            m2 = re.match(r'b"((?:\\.|[^"\\])*)"\s*(?:offset = (\d+))?\s*,?\s*', rest)
            assert m2, (ln, rest)
            parts.append((int(m2.group(2) or 0), unescape(m2.group(1))))
            rest = rest[m2.end():]
        sigs[-1][2].append((ln, parts))
w = ["""(** GENERATED by tools/gen_tables.py from /repo/src/signatures.rs.  Do not edit.

    The table given to the macro [signatures!] (/repo/src/macros.rs lines 157-179): for every
    format its alternatives (one per [value = ...] line, joined by ||), each a list of
    (offset, value) parts (joined by &&).  Order as in the source. *)
From Coq Require Import List NArith.
From Coq.Strings Require Import Byte.
From Verif Require Import Formats.
Import ListNotations.

Definition sig_part : Set := (N * list byte)%type.
Definition sig_alt : Set := list sig_part.
Definition sig_entry : Set := (FileFormat * list sig_alt)%type.

Definition signatures : list sig_entry :=
["""]
ents = []
def show(p):
    return "".join(chr(b) if 33 <= b < 127 and chr(b) not in '"(*)' else "." for b in p)
for f, ln, alts in sigs:
    al = []
    for ln2, parts in alts:
        al.append("    [" + "; ".join(f"({o}%N, [{'; '.join('x%02x' % b for b in v)}])" for o, v in parts) + f"] (* signatures.rs:{ln2} {' '.join(show(v) for _, v in parts)} *)")
    ents.append(f"  ({f}, (* signatures.rs:{ln} *)\n   [\n" + ";\n".join(al) + "\n   ])")
w.append(";\n".join(ents))
w.append("].")
open(OUT + "/Signatures.v", "w", encoding="utf-8").write("\n".join(w) + "\n")
print(len(fmts), len(kinds), len(sigs), sum(len(a) for _, _, a in sigs),
      max(o + len(v) for _, _, al in sigs for _, ps in al for o, v in ps))
if __name__ == "__main__":
    import sys
    if len(sys.argv) > 1 and sys.argv[1] == "check":
        pass
