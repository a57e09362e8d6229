(** Cargo features: Cargo.toml and the [cfg(feature = ...)] attributes of src/readers.rs. *)
From Coq Require Import List NArith Bool String.
From Verif Require Import Base IO.
Import ListNotations.
Local Open Scope string_scope.

(** Cargo.toml lines 17-45, the [features] table: each feature with the features it enables.  There is no
    "default" entry, no dependency and no target-specific table. *)
Definition manifest : list (string * list string) :=
[
  ("reader", ["reader-asf"; "reader-cfb"; "reader-ebml"; "reader-exe"; "reader-id3v2"; "reader-mp4"; "reader-pdf";
              "reader-rm"; "reader-sqlite3"; "reader-txt"; "reader-xml"; "reader-zip"]);
  ("reader-asf", []); ("reader-cfb", []); ("reader-ebml", []); ("reader-exe", []); ("reader-id3v2", []);
  ("reader-mp4", []); ("reader-pdf", []); ("reader-rm", []); ("reader-sqlite3", []); ("reader-txt", []);
  ("reader-xml", []); ("reader-zip", [])
].

(** src/readers.rs lines 13-34 and 44-48: the attribute on the match arm of each reader. *)
Definition attribute (x : feature) : string :=
  match x with
  | FAsf => "reader-asf" | FCfb => "reader-cfb" | FEbml => "reader-ebml" | FExe => "reader-exe"
  | FId3v2 => "reader-id3v2" | FMp4 => "reader-mp4" | FPdf => "reader-pdf" | FRm => "reader-rm"
  | FSqlite3 => "reader-sqlite3" | FTxt => "reader-txt" | FXml => "reader-xml" | FZip => "reader-zip"
  end.

(** Cargo's feature resolution for one package: the requested features, "default" unless disabled, and
    everything they enable.  Unknown names (an error in Cargo) enable nothing.  Simplification: instead of a
    worklist the table is applied as often as it has entries. *)
Definition mem (s : string) (l : list string) : bool := existsb (String.eqb s) l.
Definition step (table : list (string * list string)) (on : list string) : list string :=
  on ++ flat_map (fun e => if mem (fst e) on then snd e else []) table.
Fixpoint saturate (n : nat) (table : list (string * list string)) (on : list string) : list string :=
  match n with O => on | S n => saturate n table (step table on) end.
Definition resolve (table : list (string * list string)) (default_features : bool) (request : list string) : list string :=
  filter (fun s => mem s (map fst table))
    (saturate (List.length table) table (if default_features then "default" :: request else request)).

(** The build of a user: [cfg!(feature = name)] is true iff Cargo enabled it. *)
Definition build (default_features : bool) (request : list string) (p : plat) : cfg :=
  mkcfg' (fun x => mem (attribute x) (resolve manifest default_features request)) p.
(** Several packages that depend on this one: Cargo builds it once, with the union of the requests. *)
Definition unify (requests : list (list string)) : list string := List.concat requests.
