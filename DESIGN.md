# A formal model of file-format 0.28.0 in Rocq (Coq 8.16.1)

## 1. What is modelled

| Source (/repo) | Model (rocq/theories) | How |
|---|---|---|
| `src/lib.rs` 240-382: `from_bytes`, `from_file`, `from_reader`, `Default`, `Display`, `From<&[u8]>` | `Lib.v` | function by function |
| `src/macros.rs` 1-180 + `src/formats.rs`: name, short_name, media_type, extension, kind of the 447 formats | `Formats.v` (generated by `tools/gen_tables.py`) | tables |
| `src/macros.rs` 157-179 + `src/signatures.rs`: the signature scan | `Signatures.v` (generated), `Lib.v` | table + first-match scan |
| `src/readers.rs` 5-52: dispatch and fallback | `Lib.v` | |
| `src/readers.rs` 54-1098: the twelve readers | `Readers.v` | reader programs (free monad over read / read_exact / read_line / seek / stream_position / alloc) |
| `src/readers.rs` 1101-1181: trait `ReadData` | `IO.v`, `Readers.v` (`read_guid`, `read_string`) | |
| `src/readers.rs` 1186-1271: trait `FindBytes` (Boyer-Moore-Horspool) | `Find.v` | with explicit out-of-bounds panics and loop fuel |
| `std::io`: `Cursor`, `File`, a generic `Read + Seek` with short reads, `Interrupted`, faults; `read_exact`; `BufReader`; `Take`/`Lines` | `IO.v` | devices and machines |
| `std::str`: UTF-8 validation, lossy decoding, `trim`, `starts_with`, ..., `char::is_control/is_whitespace` | `Utf8.v` | |
| `Cargo.toml` 17-45 and the `cfg(feature = ...)` attributes of `src/readers.rs` | `Cargo.v` | table + feature resolution |
| `examples/lefi.rs` | `Lefi.v` | per-file line of output |

| heap requests of the whole library (C39) | `Alloc.v` | the same programs run with a log of `PAlloc` events |
| cost of the searches (C64) | `FindCost.v`, `SigCost.v` | the searches and the readers that search, and signature matching, with counters of byte comparisons |
| derived traits (C67) | `Derive.v` (generated by `tools/gen_derive.py`) | `Debug`, `PartialEq`, `Clone`, discriminants of `FileFormat` and `Kind` (`macros.rs` 25, `lib.rs` 333) |
| the macros `formats!` and `signatures!` themselves (C69) | `Source.v` (texts, by `tools/gen_source.py`), `Rust.v`, `Macro.v`, `RustEval.v` | the source texts are lexed, expanded, parsed and evaluated in Coq |
| `src/readers.rs` as text (C70): all functions | `Source.v`, `RustAst.v` (parser), `RustSem.v` (evaluator) | the source text is parsed and evaluated in Coq; `Readers.v` is proved equal to it |
| `src/lib.rs` 231-316, 325-330 as text (C71): the entry points | `Source.v`, `RustAst.v` (parser), `LibSem.v` (evaluator) | linked with the texts of the readers and of what the macro generates; `Lib.v` is proved equal to it |
| `Cargo.toml` as text (C57) | `Source.v`, `Toml.v` | parsed in Coq |

The build configuration is a parameter (`cfg`): the twelve reader features (`feat`) and a platform
`plat` with overflow checks on/off (`ovf`) and the width of `usize` (`bits`).  `supported` means 32 or 64 bits.
Reader programs depend on `plat` only.  Theorems say which configurations they cover.

### Simplifications (also cited at each definition)

* `String`/`&str` are sequences of scalar values.
* `io::Error` is reduced to its kind.
* Integers are unbounded `N`/`Z` where the code provably cannot overflow; `u64_add`, `u64_sub`,
  `i64_sub` model the places where a value read from the file is added or subtracted (panic with
  overflow checks, wrap-around without).
* Loops that the code leaves unbounded (ID3v2 tags, PDF chunks, `read_exact`, `read_until`) carry fuel;
  that the fuel of the model is never exhausted is proved (C02).
* `vec![0; n]` is the event `PAlloc n`; it panics above `isize::MAX`.  Running out of memory is not modelled.
* A device is well behaved in the sense of the `Read` contract: it never reports more bytes than the
  buffer holds, it returns 0 bytes only at end of file, and its schedule holds finitely many
  `Interrupted` results.  The static theorems (C10, C38, C39) need none of this: they
  quantify over every answer of every call.
* `Cursor::read_exact` (an override in std) leaves another position than the default method when it
  fails; no reader continues after a failed `read_exact` without an absolute seek.

### Not modelled

Memory safety, the allocator, time, the operating system beyond `fs_node` (open fails / read fails /
regular file with a seek limit), concurrent modification of a file, 
the text of error messages.

## 2. Trusted base

* Coq's kernel (8.16.1), `vm_compute` as conversion (re-checked by `coqchk`).
* The reading of the Rust code: every definition cites the lines it models.  The tables written by
  `tools/gen_tables.py` and `tools/gen_derive.py` are proved to be what the texts of `macros.rs`, `signatures.rs`,
  `formats.rs`, `Cargo.toml` (and `Kind` in `lib.rs`) say (C69, C57_cargo_toml); trusted instead: that `Source.v`
  has these texts (copied line by line, `tools/gen_source.py`) and the part of the Rust language in `Rust`, `Macro`, `RustEval`.
  The same holds for `Readers.v` and the dispatch in `Lib.v` (C70): trusted instead the part of Rust and std in `RustAst` and `RustSem`; and for the entry points in `Lib.v` (C71), with `LibSem`.
  `tools/gen_conformance.py` is trusted for the expected results of the fixtures.
* `Conformance.v` runs the model on all 480 fixtures of the Rust test-suite when it is compiled and
  compares with the formats asserted by `tests/*.rs` (a test of the model, not a proof).
* `tools/difftest` is a second test of the model: a Python port of `readers.rs`, `lib.rs` and `signatures.rs`
  written from the Rust text alone (its tables are parsed from the Rust files) is compared with the extracted
  `from_bytes` in four builds (64/32 bits, release/overflow checks) on the 480 fixtures, on 30 000 mutated
  fixtures and on generated containers with extreme sizes, counts and offsets; no difference was found.
* Axioms: `Print Assumptions` under every property theorem; see section 5.

## 3. Layout

* Model: `Base Formats Signatures IO Find Utf8 Readers Lib Alloc Lefi AnyReader Cargo`; the language: `Source Rust Macro RustEval Toml RustAst RustSem`.
* Specifications, independent of the model's helpers: `Spec` (occurrence of a pattern, first/last
  occurrence), `SpecSig` (the meaning of a signature table), `SpecText` (UTF-8 and the text rule), `SpecScan`
  (XML dialect table), `SpecBin` (fixed-width integers, GUID text), `SpecExe`, `SpecId3`, `SpecMp4`,
  `SpecEbml`, `SpecMedia` (ASF, RealMedia), `SpecZip` (serialisers and decision tables), `SpecApi`
  (builds, container signatures, generic result), `SpecMeta`, `SpecIo` (calls, requests), `SpecLefi`,
  `SpecMagic` (magic numbers from the format specifications), `SpecWalk` (what each container reader visits in an arbitrary byte string),
  `SpecReadme` (the README list of formats), `SpecAny` (the contracts of `Read` and `Seek`), `SpecVolume` (a reader with a meter), `SpecPackage` (the parts of packages that are ZIP archives), `SpecIana` (registered media types and extensions), `SpecBom` (byte order marks), `SpecLibText` (calls of the entry points as the text of lib.rs has them; the cursor on a slice), `SpecSource` (calls of the functions of readers.rs as the text has them), `SpecMacro` (how tables are written for signatures!, and what they mean), `SpecNames` (identifiers in camel case, alphabetical order), `SpecFamily` (header families and essential parts of headers), `SpecCost` (erasing a counter), `SpecXml` (root elements of XML vocabularies), `SpecCargo` (the documented meaning of the Cargo features), `SpecDetect` (all of
  detection as one relation, composed of the specifications above).
* Proof infrastructure: `BaseProofs FindProofs Utf8Proofs`; `Mem` (the ideal in-memory machine),
  `IOProofs` (raw and buffered devices refine it), `Exec` (symbolic execution rules); `Static`,
  `ReaderStatic`, `Lawful` (properties of a reader program for *every* answer of every call);
  `LibProofs`, `Ideal`, `CoreProofs`, `Glue` (from readers to `from_bytes`/`from_reader`); one file per
  reader family (`SigProofs SigSparse TextProofs ScanProofs BinProofs ExeProofs Id3Proofs Mp4Proofs EbmlProofs
  MediaProofs ZipProofs MetaProofs`); `MaxProofs` (largest seek target), `Cost`, `ReaderCost`, `CallProofs`
  (numbers of I/O calls), `AllocProofs`; `Checked`, `Width` (relational comparison of builds);
  `WalkProofs WalkEbml WalkId3 WalkZip` (readers = walks, for every input).
* Theorems: `Properties*.v` (statement, `Print Assumptions`, non-vacuity examples); witness data for C08: `Reach.v`.
* Tests of the model: `Conf.v`, `Conformance.v`.

## 4. Properties: model and proof plan

The central device is an ideal in-memory machine (`mem`: content, position) on which reader programs
are analysed; the raw and the buffered machine with any benign schedule are proved to refine it.

| id | plan |
|---|---|
| C01 | case analysis of `from_reader`; no reader returns `Empty` (family theorem C10) and no signature is `Empty` (finite check) |
| C02 | static `no_panic` predicate over reader programs for every answer; fuel measure: ID3v2 offset increases by >= 10 and must be < length; PDF consumes >= 1 byte per round; search correctness C18 |
| C03 | witnesses for ASF/MP4/ZIP64; `no_panic` with overflow checks for all other readers; a relation between the checked and the unchecked program (`Checked.v`): equal step by step until the checked one panics |
| C04 | induction over the table against a declarative `sig_of` relation |
| C05 | max(offset+len) over the table computed in the kernel; monotone prefix lemma; witness for minimality |
| C06 | monotonicity of part matching under extension |
| C07, C08 | finite: explicit witnesses generated by a tool, checked in the kernel |
| C09, C10, C11 | static `results_in` predicate over reader programs for every answer |
| C12 | case analysis of `from_reader` |
| C13 | cursor has an empty schedule |
| C14, C15 | refinement to the ideal machine by induction over programs |
| C16, C17 | refinement + every reader starts with an absolute seek; witnesses |
| C18 | loop invariant "no occurrence left of the window" with the Horspool shift lemma |
| C19, C21 | C18 + machine evaluation |
| C20 | loop invariant of the overlap buffer: last 12 bytes seen |
| C22, C23 | UTF-8 encode/decode round trip; line splitting vs. "first 16 lines" spec; a cut inside a character is invalid UTF-8 |
| C24 | machine evaluation for every input |
| C26, C28, C30, C37 | the code deviates from the file-format standard: the theorem describes what the code does (serialiser with the extra bytes the code swallows) and a `_refuted` theorem exhibits a standard file that is misread |
| C25-C37 | serialisers written from the format documents (in `Spec.v`), induction over the list of records |
| C38, C39 | static cost predicates over programs, for every answer |
| C40 | finite checks lifted with `forallb_forall` |
| C41 | exhaustive over bytes + algebra |
| C42 | ASCII bytes are decoded to themselves and nothing else decodes to them |
| C43, C44 | corollaries |
| C45 | induction over the argument list of the model of `main`; alignment by lengths of the printed lines |
| C46 | relation between the 32- and the 64-bit program (`Width.v`); witnesses for EBML and ZIP |
| C47 | walks over absolute offsets, independent of the IO monad and of the file being well formed (`SpecWalk.v`); each reader is shown equal to its walk by induction on the visits (`Walk*.v`) |
| C48 | an independent table of magic numbers, media types and extensions (`SpecMagic.v`); a decision procedure for "these two sets of (offset, bytes) requirements conflict" is proved sound and run by the kernel on all pairs; the same procedure proves that the starts listed in `overlooked` and `misfiled` are never reported (`PropertiesMagic2.v`) |
| C49 | the table is sorted by size (kernel computation), first match on a sorted list |
| C50 | the walks of C47 and the specifications of C19-C21, C24, C32 on `l` and on `l ++ t` (`AppendProofs.v`) |
| C51 | `SpecReadme.v` is generated from README.md, the formats from formats.rs; finite checks by the kernel |
| C52 | an invariant of devices kept by every read and seek is kept by from_reader (`PropertiesRepeat.v`) |
| C53 | `AnyReader.v` repeats the interpreter for an arbitrary state type with arbitrary `read`/`seek` functions (contracts in `SpecAny.v`); the static analysis of the reader programs is sound for it; simulation proofs show that results do not depend on the model's fuel and that on the devices of `IO.v` it is the same function |
| C54 | `SpecDetect.format_of` composes the specifications of C01, C04–C07, C19–C24, C32 and C47; the theorem composes theirs: soundness in every build, equivalence in builds without overflow checks, existence and uniqueness of the format |
| C55 | `SpecDetect.stream_format` generalises `format_of` to a stream, the bytes of the first read and the largest offset; from `reader_ideal` (C14) and the specification of every reader for any largest offset |
| C56 | the walks of C47 (ASF, MP4, ZIP) are proved for checked arithmetic under `tame` (SpecWalk/SpecDetect: no stored size in the overflowing range), so `ideal_complete` (C54/C55) holds for both profiles; `C56_*_pattern` state tameness as absent byte patterns; the inputs of `C03_*_refuted` are shown not tame |
| C57 | `Cargo.v` models the feature table of Cargo.toml, Cargo's resolution and the `cfg(feature)` attributes; `SpecCargo.documented_on` is the text of the crate documentation; induction over the resolution rounds, and `from_reader` depends on the configuration only through `feat` and the platform |
| C58 | `SpecAny.finite_stream` says what a stream that ends is (no byte behind an offset, a bounded number of interruptions, nothing about equal bytes at equal offsets); `AnyReturn.v` gives a decreasing measure for every loop of every reader over `AnyReader.v`, so the fuel bound `size + patience + 1` is never used up; `racing` is a file with a history of concurrent edits, short reads and signals |
| C59 | `SpecVolume.metered` wraps any reader with a byte counter; a weakest-precondition calculus with a budget of seeks and bytes (`AnyVolume.wpv`) is sound for `AnyReader.v` directly and behind BufReader (potential: bytes delivered minus bytes buffered; a seek discards at most 8192); the budgets of the reader programs come from C38 and two new inductions (PDF, text); a simulation shows that the meter is transparent; C58 bounds the ID3v2 loop |
| C60 | `SpecPackage.packages` lists the parts of nineteen kinds of packages, from their specifications; every pair (part, decisive name of another format) is proved incompatible by a decision procedure (`ZipProofs.incompatible_sound`), and `zip_class` is independent of the order when the decisive entries agree; then C34/C35/C36 |
| C61 | `SpecIana` transcribes the IANA registry and customary extensions; `kind`/`media_type` consistency is decided for all formats by a verified enumeration (`all_formats_complete`) |
| C62 | the signature alternatives of each listed format come in pairs (with and without mark), and every earlier alternative of another format is excluded or paired as well: a decision procedure over the table, sound for inputs of any length (`row_sound`); XML: no marker can begin inside `xml` + white space; text: U+FEFF is one clean character (`clean_marked`) |
| C63 | `SpecXml.roots` lists root elements from the vocabularies' specifications; each begins with a marker of exactly one dialect (decided), which then occurs in the window; C19 does the rest |
| C64 | `FindCost` repeats the searches and the four readers with a comparison counter; the theorems prove that erasing the counter gives the program of C18-C21 and bound the counter, by induction on the loops |
| C65 | `SpecFamily` generates the headers as products of fields; a check of each header against the table (the first entry that is not excluded is the expected one) is proved sound and evaluated in the kernel |
| C66 | for each alternative in the table a header in `SpecFamily`/`SpecMagic` that it implies is found by computation; with C04 and C10 |
| C67 | `Derive` (generated) models the derived traits; `SpecNames` defines camel case on the characters of a name; evaluation over all formats, sortedness by induction |
| C68 | `FaultProofs`: a run on a failing device ends with an error or is the run on the device without failures (induction on the program, one lemma per operation); composed with the refinement to the ideal run of C14 |
| C69 | `Source` has the texts; `Rust` (lexer, token trees), `Macro` (matcher and transcriber of macros by example) and `RustEval` (parser, evaluator with panics of slices and overflow) give them a meaning; `MacroProofs`: matching, transcription, parsing and evaluation by induction on the table; the concrete texts by evaluation |
| C70 | `RustAst` (lexer of `Rust`, parser of the subset of Rust that readers.rs uses), `RustSem` (evaluator in continuation-passing style into reader programs, with overflow, slice panics, scopes, `return`, `?`, `break`, iterators and closures); `SourceProofs` … `SourceDispatch`: every reader by symbolic evaluation, loops by induction on the rounds, related by `sc` (same calls, same answers); `SourceFind`: the searches |
| C71 | `LibSem` (evaluator of the syntax trees of `RustAst` that threads the state of a reader); the entry points by symbolic evaluation over abstract callees, linked with C69_signature_scan, C70_format_readers and C70_generic_reader; slices through `AnyHom` (related states give related runs of the library) and C53_agrees_with_from_reader |

## 5. Results

All properties are stated and proved (MANIFEST.json lists the theorems).  Properties whose naive
reading is false of the code are stated as what the code does plus the deviation; the deviation
is itself proved by a `_refuted` theorem with a concrete input.

`Print Assumptions` is run under every property theorem when its file is compiled and prints
"Closed under the global context" for each: no axiom is used, neither of the standard library nor of any
other library.  (`coqchk` lists the opaque module-parameter constants of `Coq.ssr.ssrunder` because a file of the
standard library it loads defines them; no theorem depends on them.)

Deviations from documentation or file-format standards found and proved:

| theorem | finding |
|---|---|
| C48_overlooked/misfiled_refuted | valid files that are never reported as their format: dynamic VHD images (the table has "connectix" for the cookie "conectix"), nanosecond pcap, big-endian SquashFS, TrueType with tag "true", split ZIP, UTF-16 XML, ...; WordPerfect documents are taken for presentations |
| C48_registered_media_refuted | fifteen media types differ from the IANA registration (ICO, SWF, 3MF, DWG, DXF, STL, Ogg Opus, ...) |
| C61_other_extension_refuted | the extensions of OpenXPS and of OpenOffice.org master documents are not the ones of their specifications |
| C62_*_refuted | an AbiWord document (with doctype), a vCard, calendar, certificate, feed or script is no longer recognised behind a byte order mark; XML in UTF-16 is binary data |
| C60_*_refuted | a JAR with a Java package `word` is a DOCX; AIR packages that begin with their (mandatory) media type, MusicXML scores without mimetype and OpenXPS documents outside `Documents/` are plain ZIP archives |
| C63_*_refuted | XHTML with inline SVG is reported as SVG; SOAP with the standard prefixes is plain XML; a MyBatis mapper is a Tiled map, `<feedback>` is Atom |
| `C65_missed_family_refuted` | AAC (ADTS) frames with a checksum, scripts for /usr/bin/sh or env sh, Amiga disks with long names, Sega ROMs of four sizes, big-endian Nikon raw files (the table has their bytes in little-endian order), AbiWord documents with a document type and a byte order mark (the table has the root element at the wrong offset) or CRLF line ends, SubRip files whose first subtitle is after the first hour are never recognised |
| C68_failure_is_reported_refuted | an I/O error inside a reader is swallowed: a Windows program is reported as arbitrary binary data, with Ok, when one seek fails |
| C02_32bit_total_refuted | a crafted ZIP panics ("capacity overflow") a 32-bit release build |
| C03_asf/mp4/zip_refuted | crafted ASF/MP4/ZIP files panic a build with overflow checks |
| C11_enabling_keeps_container_refuted(_zip) | a truncated container loses its detection when its reader is enabled |
| C14_*_refuted | short reads change the result for XML and SQLite, an interrupted read for PDF, a short first read for everything |
| C17_asf/mp4_refuted | `from_file` and `from_bytes` differ on crafted files |
| C23_unbounded_refuted | clean text with a character across byte 65536 is reported as binary |
| C26_extended_header_refuted | an ID3v2 extended header is counted twice |
| C28_large_leaf_refuted | non-container boxes with 64-bit sizes are skipped 8 bytes too far |
| C30_wide_stereo_mode_refuted | multi-byte StereoMode desynchronises the parser |
| C37_comment(_chooses)_refuted | a ZIP comment can choose the reported format |
| C39_proportional_refuted | a 106-byte file makes the library request 4 GiB |
| C46_ebml/zip_refuted | 32- and 64-bit builds differ on crafted files |
