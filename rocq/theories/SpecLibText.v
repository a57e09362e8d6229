(** The entry points of the library as the texts of lib.rs, macros.rs, signatures.rs and readers.rs have them. *)
From Coq Require Import List NArith ZArith Bool String.
From Verif Require Import Base Formats IO Readers Lib AnyReader RustAst RustSem LibSem Source SpecSource.
From Verif Require RustEval.
Import ListNotations.
Local Open Scope N_scope.

(** An [Option<Self>]. *)
Definition as_option_format (r : RustEval.outcome) : exec (option (option FileFormat)) :=
  match r with
  | RustEval.Value (RustEval.VSome (RustEval.VVariant _ f)) => Done (option_map Some (format_of (str_of f)))
  | RustEval.Value RustEval.VNone => Done (Some None)
  | RustEval.Panic => Panicked
  | _ => Done None
  end.
(** [FileFormat::from_signature]: what the macro [signatures!] generates (RustEval), evaluated. *)
Definition text_signature (c : cfg) (l : bytes) : exec (option (option FileFormat)) :=
  as_option_format (RustEval.call (RustEval.mktarget (ovf c) (usize_bits c)) [bs "crate"; bs "FileFormat"]
    (RustEval.compile "signatures" macros_rs signatures_rs) "from_signature" (RustEval.VBytes l)).

Section Text.
Variables (S : Type) (rd : N -> S -> result bytes * S) (sk : whence -> S -> result N * S).
Variables (new_cursor : bytes -> S) (opened : result S).
Variables (fuel : nat) (c : cfg).
(** A function of lib.rs, called with these arguments, from a state.  40 bounds the depth of the evaluation. *)
Definition call_lib (g : string) (args : list value) (s : S) : exec (option value) * S :=
  call S rd new_cursor opened (text_signature c) (text_from_fmt_reader S rd sk fuel c) (text_from_generic_reader S rd sk fuel c)
    (functions (lib_rs ++ lib_from_rs)) 40 g args s.
End Text.
Arguments call_lib S rd sk new_cursor opened fuel%nat c g%string args s.

(** What they give. *)
Definition gives_result (r : exec (result FileFormat)) : exec (option value) :=
  match r with
  | Done (Ok f) => Done (Some (VOk (VFmt f)))
  | Done (Err e) => Done (Some (VErr e))
  | Panicked => Panicked
  | OutOfFuel => OutOfFuel
  end.
Definition gives_format (r : exec FileFormat) : exec (option value) :=
  match r with
  | Done f => Done (Some (VFmt f))
  | Panicked => Panicked
  | OutOfFuel => OutOfFuel
  end.

(** [std::io::Cursor<&[u8]>]: a slice and a position of 64 bits. *)
Record slice_cursor : Set := mkcursor { sc_slice : bytes; sc_at : N }.
Definition slice_read (n : N) (s : slice_cursor) : result bytes * slice_cursor :=
  let l := takeN n (dropN (sc_at s) (sc_slice s)) in (Ok l, mkcursor (sc_slice s) (sc_at s + lenN l)).
Definition slice_seek (w : whence) (s : slice_cursor) : result N * slice_cursor :=
  let t := seek_target (lenN (sc_slice s)) (sc_at s) w in
  if (t <? 0)%Z || (Z.of_N (u64_max1 - 1) <? t)%Z then (Err EInvalidInput, s)
  else (Ok (Z.to_N t), mkcursor (sc_slice s) (Z.to_N t)).
Definition slice_new (l : bytes) : slice_cursor := mkcursor l 0.
