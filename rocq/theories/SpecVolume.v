(** Counting the bytes that a reader of the caller delivers (C59). *)
From Coq Require Import List NArith ZArith Bool.
From Verif Require Import Base Formats IO.
Local Open Scope N_scope.

(** The same reader with a meter: it adds up the bytes that are returned by [read]. *)
Definition metered {S} (rd : N -> S -> result bytes * S) (n : N) (s : S * N) : result bytes * (S * N) :=
  match rd n (fst s) with
  | (Ok l, s') => (Ok l, (s', snd s + lenN l))
  | (Err e, s') => (Err e, (s', snd s))
  end.
Definition metered_seek {S} (sk : whence -> S -> result N * S) (w : whence) (s : S * N) : result N * (S * N) :=
  let '(r, s') := sk w (fst s) in (r, (s', snd s)).

(** What the container readers take at most, whatever the data are; [size]: the length of the stream plus the
    number of interruptions.  BufReader fetches 8192 bytes at a time and throws the rest away when it seeks. *)
Definition volume (x : feature) (size : N) : N :=
  match x with
  | FAsf => 139000324
  | FCfb => 150
  | FEbml => 4238336
  | FExe => 10
  | FId3v2 => 14 * size + 32
  | FMp4 => 6321152
  | FPdf => 33554432 + 32767
  | FRm => 2654788
  | FSqlite3 => 32768
  | FTxt => 65536 + 2 * 8192
  | FXml => 8192
  | FZip => 4387406900
  end.
