(** Counting the calls made to the reader of the caller (C38).  A device answers its next calls
    according to its schedules and every call to [read] or [seek] takes one entry off the
    schedule, so the entries that are gone afterwards are the calls that were made (as long as
    the schedule is not used up: the statements hold for schedules of any length). *)
From Coq Require Import List NArith ZArith Bool.
From Verif Require Import Base IO.
Local Open Scope N_scope.

(** Between [d] and [d'] the calls [reads] and [seeks] were made. *)
Definition calls_made (d d' : dev) (reads : list revent) (seeks : list bool) : Prop :=
  d_reads d = reads ++ d_reads d' /\ d_seeks d = seeks ++ d_seeks d'.
(** The calls that were not answered with ErrorKind::Interrupted. *)
Definition answered (u : list revent) : N :=
  lenN (filter (fun e => match e with RIntr => false | _ => true end) u).
(** A reader that fills the buffer it is given as far as the stream allows. *)
Definition prompt (d : dev) : Prop :=
  Forall (fun e => match e with RShort k => lenN (d_content d) <= k | _ => False end) (d_reads d).

(** The limits the readers set themselves.  First column: seek calls; second: read calls on a
    prompt reader; third: answered read calls on any reader (a reader may deliver single bytes);
    [len] is the length of the stream. *)
Definition limits (x : feature) (len : N) : N * N * N :=
  match x with
  | FAsf => (33796, 50690, 563716)
  | FCfb => (5, 10, 150)
  | FEbml => (1028, 6656, 19456)
  | FExe => (4, 6, 10)
  | FId3v2 => (len + 3, 4 * len + 10, 14 * len + 32)
  | FMp4 => (1540, 2048, 5120)
  | FPdf => (1, 1025, 33554432)
  | FRm => (642, 642, 16964)
  | FSqlite3 => (1, 1, 1)
  | FTxt => (2, 160, 1048576)
  | FXml => (1, 1, 1)
  | FZip => (6162, 14352, 4362159156)
  end.
