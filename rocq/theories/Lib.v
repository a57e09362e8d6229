(** Model of /repo/src/lib.rs (the public API) and of the dispatch functions of
    /repo/src/readers.rs lines 5-52. *)
From Coq Require Import List NArith ZArith Bool String.
From Verif Require Import Base Formats Signatures IO Find Utf8 Readers.
Local Open Scope N_scope.

(** macros.rs lines 171-172: one part of an alternative,
    bytes.len() >= offset + value.len() && &bytes[offset..offset + value.len()] == value. *)
Definition part_matches (l : bytes) (p : sig_part) : bool :=
  let '(offset, value) := p in
  (offset + lenN value <=? lenN l) && beqb (takeN (lenN value) (dropN offset l)) value.

(** macros.rs lines 157-179: from_signature.  The macro unrolls the table into a sequence of
    [if .. return Some(f)]; the model walks the table. *)
Fixpoint from_signature_in (table : list sig_entry) (l : bytes) : option FileFormat :=
  match table with
  | [] => None
  | (f, alts) :: table' =>
      if existsb (forallb (part_matches l)) alts then Some f
      else from_signature_in table' l
  end.
Definition from_signature (l : bytes) : option FileFormat := from_signature_in signatures l.

(** lib.rs lines 310-316: Default. *)
Definition default_format : FileFormat := ArbitraryBinaryData.

(** lib.rs lines 318-323: Display. *)
Definition display (f : FileFormat) : string := name f.

(** readers.rs lines 5-37: which reader, if any, from_fmt_reader calls; the loop fuel of the two
    data-dependent loops is passed through. *)
Definition fmt_reader (c : cfg) (fuel : nat) (f : FileFormat) : option (io FileFormat) :=
  let on x p := if feat c x then Some p else None in
  match f with
  | AdvancedSystemsFormat => on FAsf (from_asf_reader c)
  | CompoundFileBinary => on FCfb (from_cfb_reader c)
  | ExtensibleBinaryMetaLanguage => on FEbml (from_ebml_reader c)
  | MsDosExecutable => on FExe (from_exe_reader c)
  | Id3v2 => on FId3v2 (from_id3v2_reader c fuel)
  | Mpeg4Part14 => on FMp4 (from_mp4_reader c)
  | PortableDocumentFormat => on FPdf (from_pdf_reader fuel)
  | Realmedia => on FRm (from_rm_reader c)
  | Sqlite3 => on FSqlite3 from_sqlite3_reader
  | ExtensibleMarkupLanguage => on FXml from_xml_reader
  | Zip => on FZip (from_zip_reader c)
  | _ => None
  end.

(** Which of these readers start with [let mut reader = BufReader::new(reader)]
    (readers.rs lines 80, 303, 539, 665, 876). *)
Definition uses_bufreader (f : FileFormat) : bool :=
  match f with
  | AdvancedSystemsFormat | ExtensibleBinaryMetaLanguage | Mpeg4Part14 | Realmedia | Zip => true
  | _ => false
  end.

(** readers.rs lines 5-37: from_fmt_reader. *)
Definition from_fmt_reader (c : cfg) (fuel : nat) (f : FileFormat) (d : dev)
  : exec (result FileFormat) * dev :=
  match fmt_reader c fuel f with
  | None => (Done (Ok f), d)
  | Some p => if uses_bufreader f then run_buf p d else run_raw p d
  end.

(** readers.rs lines 39-52: from_generic_reader. *)
Definition from_generic_reader (c : cfg) (d : dev) : exec FileFormat * dev :=
  if feat c FTxt then
    match run_buf from_txt_reader d with     (* BufReader::new, readers.rs line 758 *)
    | (Done (Ok f), d') => (Done f, d')
    | (Done (Err _), d') => (Done default_format, d')   (* unwrap_or_default *)
    | (Panicked, d') => (Panicked, d')
    | (OutOfFuel, d') => (OutOfFuel, d')
    end
  else (Done default_format, d).

(** lib.rs line 294: the window. *)
Definition window : N := 36870.

(** lib.rs lines 292-307: from_reader.  The fuel handed to the ID3v2 and PDF loops is one more
    than the number of bytes in the stream; that it is never exhausted is a theorem. *)
Definition from_reader (c : cfg) (d : dev) : exec (result FileFormat) * dev :=
  let fuel := S (List.length (d_content d)) in
  match dev_read window d with
  | (Err e, d1) => (Done (Err e), d1)
  | (Ok [], d1) => (Done (Ok Empty), d1)
  | (Ok buf, d1) =>
      let generic d2 :=
        match from_generic_reader c d2 with
        | (Done f, d3) => (Done (Ok f), d3)
        | (Panicked, d3) => (Panicked, d3)
        | (OutOfFuel, d3) => (OutOfFuel, d3)
        end in
      match from_signature buf with
      | Some f =>
          match from_fmt_reader c fuel f d1 with
          | (Done (Ok g), d2) => (Done (Ok g), d2)
          | (Done (Err _), d2) => generic d2             (* unwrap_or_else *)
          | (Panicked, d2) => (Panicked, d2)
          | (OutOfFuel, d2) => (OutOfFuel, d2)
          end
      | None => generic d1
      end
  end.

(** [Cursor::new(bytes)]. *)
Definition cursor (l : bytes) : dev := mkdev l 0 [] [] (u64_max1 - 1).

(** lib.rs lines 325-330: From<&[u8]>, and lines 256-259: from_bytes. *)
Definition from_bytes (c : cfg) (l : bytes) : exec FileFormat :=
  match fst (from_reader c (cursor l)) with
  | Done (Ok f) => Done f
  | Done (Err _) => Done default_format           (* unwrap_or_default *)
  | Panicked => Panicked
  | OutOfFuel => OutOfFuel
  end.

(** What [File::open] can find at a path: nothing (or no permission), something that opens but
    cannot be read (a directory on Unix), or a regular file on a file system with the given
    largest seek offset. *)
Inductive fs_node : Set :=
| FsNoOpen (e : N)
| FsNoRead (e : N)
| FsRegular (content : bytes) (max_offset : N).

Definition file_dev (l : bytes) (max_offset : N) : dev := mkdev l 0 [] [] max_offset.

(** lib.rs lines 274-277: from_file, for the node found at the path. *)
Definition from_file (c : cfg) (node : fs_node) : exec (result FileFormat) :=
  match node with
  | FsNoOpen e => Done (Err (EOther e))
  | FsNoRead e => fst (from_reader c (mkdev [] 0 [RFault e] [] 0))
  | FsRegular l m => fst (from_reader c (file_dev l m))
  end.
