(** from_reader on an arbitrary implementation of [Read + Seek].

    IO.v models readers of a fixed stream.  Here the reader is any state type with any [read] and
    [seek] functions: the content may change between two calls, positions need not be consistent,
    errors may come at any time.  The reader programs are those of Readers.v; this file repeats the
    interpretation of IO.v and Lib.v for such a reader.  Loops that only such a reader can keep
    running forever (interruptions without end, a stream without end) take a [fuel]; a run that
    needs more gives [OutOfFuel], and the theorems hold for every fuel. *)
From Coq Require Import List NArith ZArith Bool.
From Verif Require Import Base Formats Signatures IO Readers Lib.
Local Open Scope N_scope.

Section AnyReader.
Variables (S : Type) (rd : N -> S -> result bytes * S) (sk : whence -> S -> result N * S).

(** [std::io::BufReader<R>] with its unread buffer. *)
Record abuf : Type := mkabuf { a_dev : S; a_buf : bytes }.

(** [BufReader::fill_buf], as [b_fill] in IO.v. *)
Definition a_fill (s : abuf) : result bytes * abuf :=
  match a_buf s with
  | [] =>
      match rd buf_capacity (a_dev s) with
      | (Ok l, d) => (Ok l, mkabuf d l)
      | (Err e, d) => (Err e, mkabuf d [])
      end
  | l => (Ok l, s)
  end.
(** [BufReader::read], as [b_read]. *)
Definition a_read (n : N) (s : abuf) : result bytes * abuf :=
  match a_buf s with
  | [] =>
      if buf_capacity <=? n then
        let '(r, d) := rd n (a_dev s) in (r, mkabuf d [])
      else
        match a_fill s with
        | (Ok l, s') => (Ok (takeN n l), mkabuf (a_dev s') (dropN n l))
        | (Err e, s') => (Err e, s')
        end
  | l => (Ok (takeN n l), mkabuf (a_dev s) (dropN n l))
  end.
(** [read_until(b'\n')] on [Take<BufReader<R>>], as [b_until]. *)
Fixpoint a_until (fuel : nat) (lim : N) (acc : bytes) (s : abuf) : exec (result bytes) * abuf :=
  if lim =? 0 then (Done (Ok acc), s) else
  match fuel with
  | O => (OutOfFuel, s)
  | Datatypes.S f =>
      match a_fill s with
      | (Err EInterrupted, s') => a_until f lim acc s'
      | (Err e, s') => (Done (Err e), s')
      | (Ok l, s') =>
          let view := takeN lim l in
          match split_lf view with
          | Some (a, _) => (Done (Ok (acc ++ a)), mkabuf (a_dev s') (dropN (lenN a) l))
          | None =>
              let s2 := mkabuf (a_dev s') (dropN (lenN view) l) in
              match view with
              | [] => (Done (Ok acc), s2)
              | _ => a_until f (lim - lenN view) (acc ++ view) s2
              end
          end
      end
  end.
(** [BufReader::seek], as [b_seek]. *)
Definition a_seek (w : whence) (s : abuf) : result N * abuf :=
  let rem := Z.of_N (lenN (a_buf s)) in
  match w with
  | FromCurrent z =>
      if (i64_min <=? z - rem)%Z then
        match sk (FromCurrent (z - rem)) (a_dev s) with
        | (Ok p, d) => (Ok p, mkabuf d [])
        | (Err e, d) => (Err e, mkabuf d (a_buf s))
        end
      else
        match sk (FromCurrent (- rem)) (a_dev s) with
        | (Err e, d) => (Err e, mkabuf d (a_buf s))
        | (Ok _, d) => let '(r, d') := sk (FromCurrent z) d in (r, mkabuf d' [])
        end
  | _ =>
      match sk w (a_dev s) with
      | (Ok p, d) => (Ok p, mkabuf d [])
      | (Err e, d) => (Err e, mkabuf d (a_buf s))
      end
  end.
(** [BufReader::stream_position]: the position of the inner reader minus the unread bytes; it
    panics ("overflow when subtracting remaining buffer size from inner stream position") when the
    inner reader claims to stand before them.  ([b_tell] needs no panic: its devices count.) *)
Definition a_tell (s : abuf) : exec (result N) * abuf :=
  match sk (FromCurrent 0) (a_dev s) with
  | (Ok p, d) =>
      if p <? lenN (a_buf s) then (Panicked, mkabuf d (a_buf s))
      else (Done (Ok (p - lenN (a_buf s))), mkabuf d (a_buf s))
  | (Err e, d) => (Done (Err e), mkabuf d (a_buf s))
  end.
End AnyReader.
Arguments mkabuf {S}.
Arguments a_dev {S}.
Arguments a_buf {S}.

(** A method table whose [stream_position] may panic. *)
Record amachine (T : Type) : Type := mkamachine {
  am_read : N -> T -> result bytes * T;
  am_read_exact : N -> T -> exec (result bytes) * T;
  am_read_line : N -> T -> exec (result bytes) * T;
  am_seek : whence -> T -> result N * T;
  am_tell : T -> exec (result N) * T
}.
Arguments mkamachine {T}.
Arguments am_read {T}.
Arguments am_read_exact {T}.
Arguments am_read_line {T}.
Arguments am_seek {T}.
Arguments am_tell {T}.

(** As [run] in IO.v. *)
Fixpoint arun {T A} (M : amachine T) (p : prog A) (s : T) : exec A * T :=
  let exactly {B} (x : exec B * T) (k : B -> T -> exec A * T) : exec A * T :=
    match x with
    | (Done r, s') => k r s'
    | (Panicked, s') => (Panicked, s')
    | (OutOfFuel, s') => (OutOfFuel, s')
    end in
  match p with
  | Ret a => (Done a, s)
  | PPanic => (Panicked, s)
  | PFuel => (OutOfFuel, s)
  | PRead n k => let '(r, s') := am_read M n s in arun M (k r) s'
  | PReadExact n k => exactly (am_read_exact M n s) (fun r s' => arun M (k r) s')
  | PReadLine n k => exactly (am_read_line M n s) (fun r s' => arun M (k r) s')
  | PSeek w k => let '(r, s') := am_seek M w s in arun M (k r) s'
  | PTell k => exactly (am_tell M s) (fun r s' => arun M (k r) s')
  | PAlloc _ k => arun M k s
  end.

Section AnyReader.
Variables (S : Type) (rd : N -> S -> result bytes * S) (sk : whence -> S -> result N * S).
Variable fuel : nat.

Definition a_raw_machine : amachine S :=
  mkamachine rd
    (fun n s => read_exact_loop rd fuel n [] s)
    (fun lim s => let '(r, t) := a_until S rd (fuel + N.to_nat lim) lim [] (mkabuf s []) in (r, a_dev t))
    sk
    (fun s => let '(r, s') := sk (FromCurrent 0) s in (Done r, s')).
Definition a_buf_machine : amachine (abuf S) :=
  mkamachine (a_read S rd)
    (fun n s => read_exact_loop (a_read S rd) fuel n [] s)
    (fun lim s => a_until S rd (fuel + N.to_nat lim) lim [] s)
    (a_seek S sk) (a_tell S sk).

Definition arun_raw {A} (p : prog A) (s : S) : exec A * S := arun a_raw_machine p s.
Definition arun_buf {A} (p : prog A) (s : S) : exec A * S :=
  let '(r, t) := arun a_buf_machine p (mkabuf s []) in (r, a_dev t).

(** readers.rs lines 5-37, as [from_fmt_reader] in Lib.v. *)
Definition a_from_fmt_reader (c : cfg) (f : FileFormat) (s : S) : exec (result FileFormat) * S :=
  match fmt_reader c fuel f with
  | None => (Done (Ok f), s)
  | Some p => if uses_bufreader f then arun_buf p s else arun_raw p s
  end.
(** readers.rs lines 39-52, as [from_generic_reader]. *)
Definition a_from_generic_reader (c : cfg) (s : S) : exec FileFormat * S :=
  if feat c FTxt then
    match arun_buf from_txt_reader s with
    | (Done (Ok f), s') => (Done f, s')
    | (Done (Err _), s') => (Done default_format, s')
    | (Panicked, s') => (Panicked, s')
    | (OutOfFuel, s') => (OutOfFuel, s')
    end
  else (Done default_format, s).
(** lib.rs lines 292-307, as [from_reader]. *)
Definition a_from_reader (c : cfg) (s : S) : exec (result FileFormat) * S :=
  match rd window s with
  | (Err e, s1) => (Done (Err e), s1)
  | (Ok [], s1) => (Done (Ok Empty), s1)
  | (Ok buf, s1) =>
      let generic s2 :=
        match a_from_generic_reader c s2 with
        | (Done f, s3) => (Done (Ok f), s3)
        | (Panicked, s3) => (Panicked, s3)
        | (OutOfFuel, s3) => (OutOfFuel, s3)
        end in
      match from_signature buf with
      | Some f =>
          match a_from_fmt_reader c f s1 with
          | (Done (Ok g), s2) => (Done (Ok g), s2)
          | (Done (Err _), s2) => generic s2
          | (Panicked, s2) => (Panicked, s2)
          | (OutOfFuel, s2) => (OutOfFuel, s2)
          end
      | None => generic s1
      end
  end.
End AnyReader.
