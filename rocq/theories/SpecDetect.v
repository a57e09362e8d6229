(** The whole of detection as one specification: signature table, containers, text rule (C54: from memory,
    C55: from readers and files).  It uses no definition of the readers. *)
From Coq Require Import List NArith ZArith Bool String.
From Verif Require Import Base Formats Signatures IO Documented Spec SpecSig SpecText SpecScan SpecBin SpecExe SpecWalk SpecApi.
Local Open Scope N_scope.

(** What the data says about itself, for data that carries the signature of the container [x]: a format, or
    nothing ([None]: the structure cannot be followed).  [limit] is the largest offset that can be addressed. *)
Inductive verdict (c : cfg) (l : bytes) (limit : N) : feature -> option FileFormat -> Prop :=
| v_asf : verdict c l limit FAsf (asf_result l limit)
| v_cfb r : cfb_class l r -> verdict c l limit FCfb r
| v_ebml : verdict c l limit FEbml (ebml_result l limit (usize_bits c))
| v_exe : verdict c l limit FExe (exe_class l)
| v_id3 r : id3_walk l limit 0 r -> verdict c l limit FId3v2 r
| v_mp4 : verdict c l limit FMp4 (mp4_result l limit)
| v_ai : occurs (bs "AIPrivateData") (slice 5 33554432 l) -> verdict c l limit FPdf (Some AdobeIllustratorArtwork)
| v_pdf : ~ occurs (bs "AIPrivateData") (slice 5 33554432 l) -> verdict c l limit FPdf (Some PortableDocumentFormat)
| v_rm : verdict c l limit FRm (rm_result l limit)
| v_sketch : occurs (bs "com.bohemiancoding.sketch3") (slice 100 32768 l) -> verdict c l limit FSqlite3 (Some Sketch)
| v_sqlite : ~ occurs (bs "com.bohemiancoding.sketch3") (slice 100 32768 l) -> verdict c l limit FSqlite3 (Some Sqlite3)
| v_xml f : xml_dialect (slice 5 8192 l) f -> verdict c l limit FXml (Some f)
| v_zip r : zip_walk l limit (usize_bits c) r -> verdict c l limit FZip r.

(** The format of a byte string. *)
Inductive format_of (c : cfg) (l : bytes) : FileFormat -> Prop :=
| fo_empty : l = [] -> format_of c l Empty
| fo_signature f : first_match signatures l f -> (forall x, ~ signed c x l) -> format_of c l f
| fo_container x r f : signed c x l -> verdict c l memory_limit x r -> decided c l r f -> format_of c l f
| fo_generic f : l <> [] -> no_match signatures l -> generic_result c l f -> format_of c l f.

(** The format of a stream: [content] is all of it, [head] is what the first read returned, [limit] the
    largest offset it can be moved to.  The signature is looked up in [head]; everything else is about [content]. *)
Inductive stream_format (c : cfg) (content : bytes) (limit : N) (head : bytes) : FileFormat -> Prop :=
| sf_empty : head = [] -> stream_format c content limit head Empty
| sf_signature f : first_match signatures head f -> (forall x, ~ signed c x head) -> stream_format c content limit head f
| sf_container x r f : signed c x head -> verdict c content limit x r -> decided c content r f ->
    stream_format c content limit head f
| sf_generic f : head <> [] -> no_match signatures head -> generic_result c content f ->
    stream_format c content limit head f.

(** The stream is shorter than 2^63 bytes and every offset up to 400 bytes behind its end can be addressed; for
    ZIP data it can be addressed by an [isize]. *)
Definition fits (c : cfg) (content : bytes) (limit : N) (head : bytes) : Prop :=
  rust_slice content /\ (signed c FZip head -> addressable c content) /\ lenN content + 400 <= limit /\ limit < 2 ^ 64.
(** Excluded: ZIP data where [usize] has 32 bits (C02: such data may panic). *)
Definition no_narrow_zip (c : cfg) (head : bytes) : Prop := usize_bits c = 64 \/ ~ signed c FZip head.
(** PDF, SQLite 3 and XML data is not split into short reads (C14: those readers call [read] once per block). *)
Definition unsplit (c : cfg) (d : dev) (head : bytes) : Prop :=
  d_reads d = [] \/ forall x, In x [FPdf; FSqlite3; FXml] -> ~ signed c x head.

(** No size stored in data of this container makes a checked 64-bit addition or subtraction overflow (C56). *)
Definition tame (x : feature) (l : bytes) : Prop :=
  match x with FAsf => asf_tame l | FMp4 => mp4_tame l | FZip => zip_tame l | _ => True end.
Definition tame_stream (c : cfg) (content head : bytes) : Prop := forall x, signed c x head -> tame x content.
