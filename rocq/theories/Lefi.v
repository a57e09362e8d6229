(** Model of /repo/examples/lefi.rs: the command-line program of the crate.

    Text is a sequence of scalar values.  Standard output is a list of lines; writing to it does
    not fail (println! panics when it does).  [env::args] panics on an argument that is not valid
    Unicode: such arguments are outside the model, and so are widths above u16::MAX, which newer
    versions of std refuse. *)
From Coq Require Import List NArith Bool String.
From Verif Require Import Base Formats IO Utf8 Lib.
Import ListNotations.
Local Open Scope N_scope.

(** What a path names, as [Path::is_symlink], [Path::is_dir] and [File::open] see it. *)
Inductive entry : Set :=
| ESymlink                 (* is_symlink() *)
| EDirectory               (* is_dir() *)
| EOtherNode (n : fs_node).

(** lefi.rs lines 19-24: the width; [max_by_key(..).unwrap_or_default().add(1)]. *)
Definition lefi_width (args : list ustr) : N :=
  fold_left N.max (map lenN args) 0 + 1.

(** [format!("{input:width$}")]: strings are left-aligned and filled with spaces up to [width]
    characters. *)
Definition pad_right (width : N) (s : ustr) : ustr :=
  s ++ repeat 32 (N.to_nat (width - lenN s)).

(** lefi.rs line 27: format!("{arg}:"). *)
Definition lefi_input (arg : ustr) : ustr := arg ++ [58].

(** lefi.rs lines 33-39: the text for a format. *)
Definition lefi_describe (f : FileFormat) : ustr :=
  match short_name f with
  | Some s => us (name f) ++ us " (" ++ us s ++ us ")"
  | None => us (name f)
  end.

(** lefi.rs lines 28-40: one line of output, or the error of [from_file]. *)
Definition lefi_line (c : cfg) (width : N) (arg : ustr) (e : entry) : exec (result ustr) :=
  let line msg := Done (Ok (pad_right width (lefi_input arg) ++ us " " ++ msg)) in
  match e with
  | ESymlink => line (us "Symbolic Link")
  | EDirectory => line (us "Directory")
  | EOtherNode n =>
      match from_file c n with
      | Done (Ok f) => line (lefi_describe f)
      | Done (Err x) => Done (Err x)
      | Panicked => Panicked
      | OutOfFuel => OutOfFuel
      end
  end.

(** lefi.rs lines 25-42: the loop over the arguments: the lines printed, and how main ends. *)
Fixpoint lefi_loop (c : cfg) (fs : ustr -> entry) (width : N) (args : list ustr)
  : list ustr * exec (result unit) :=
  match args with
  | [] => ([], Done (Ok tt))
  | a :: args' =>
      match lefi_line c width a (fs a) with
      | Done (Ok l) => let '(ls, r) := lefi_loop c fs width args' in (l :: ls, r)
      | Done (Err e) => ([], Done (Err e))          (* ? *)
      | Panicked => ([], Panicked)
      | OutOfFuel => ([], OutOfFuel)
      end
  end.
(** lefi.rs lines 18-43: main, for the arguments after the program name. *)
Definition lefi_main (c : cfg) (fs : ustr -> entry) (args : list ustr) : list ustr * exec (result unit) :=
  lefi_loop c fs (lefi_width args) args.
