(** What the lefi program is expected to print (C45), without its code. *)
From Coq Require Import List NArith Bool String.
From Verif Require Import Base Formats IO Utf8 Lib Lefi.
Import ListNotations.
Local Open Scope N_scope.

(** The description of what a path names; none when it cannot be read. *)
Inductive described (c : cfg) : entry -> ustr -> Prop :=
| d_link : described c ESymlink (us "Symbolic Link")
| d_dir : described c EDirectory (us "Directory")
| d_short n f s : from_file c n = Done (Ok f) -> short_name f = Some s ->
    described c (EOtherNode n) (us (name f) ++ us " (" ++ us s ++ us ")")
| d_plain n f : from_file c n = Done (Ok f) -> short_name f = None ->
    described c (EOtherNode n) (us (name f)).

(** [column] characters, then a space, then the description; in front of the column only the
    argument, a colon and spaces. *)
Definition aligned_line (column : N) (arg msg line : ustr) : Prop :=
  exists spaces, Forall (eq 32) spaces /\ line = arg ++ us ":" ++ spaces ++ us " " ++ msg /\
    lenN (arg ++ us ":" ++ spaces) = column.

(** One more than the length of the longest argument. *)
Definition is_column (args : list ustr) (column : N) : Prop :=
  (forall a, In a args -> lenN a + 1 <= column) /\
  (args <> [] -> exists a, In a args /\ lenN a + 1 = column).
