(** Which readers a list of Cargo features enables, as the documentation of the crate says it
    (src/lib.rs lines 44-209): "All features below are disabled by default"; [reader] "enables all reader
    features"; every other feature enables its own reader. *)
From Coq Require Import List String.
From Verif Require Import Base IO.
Import ListNotations.
Local Open Scope string_scope.

Definition feature_name (x : feature) : string :=
  "reader-" ++
  match x with
  | FAsf => "asf" | FCfb => "cfb" | FEbml => "ebml" | FExe => "exe" | FId3v2 => "id3v2" | FMp4 => "mp4"
  | FPdf => "pdf" | FRm => "rm" | FSqlite3 => "sqlite3" | FTxt => "txt" | FXml => "xml" | FZip => "zip"
  end.
Definition documented_on (request : list string) (x : feature) : Prop := In "reader" request \/ In (feature_name x) request.
