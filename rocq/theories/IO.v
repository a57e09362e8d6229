(** Model of the I/O the crate performs: reader programs, the readers (devices) they run on,
    [std::io::BufReader] and the [ReadData] helper trait.

    A reader function of /repo/src/readers.rs is modelled as a value of type [prog]: a tree of
    calls to the methods of [std::io::{Read, Seek, BufRead}], each with a continuation that
    receives the [io::Result] of the call.  The tree is interpreted on a device ([run]). *)
From Coq Require Import List NArith ZArith Bool.
From Verif Require Import Base Formats.
Local Open Scope N_scope.

(** [std::io::Error], reduced to the kinds the code can meet or create. *)
Inductive ioerr : Set :=
| EUnexpectedEof            (* read_exact: "failed to fill whole buffer" *)
| EInvalidData              (* Error::new(ErrorKind::InvalidData, ..), invalid UTF-8 in lines() *)
| EInvalidInput             (* seek to a negative or unsupported position *)
| EInterrupted              (* ErrorKind::Interrupted *)
| EOther (code : N).        (* any other error of the underlying reader *)

(** [std::io::Result]. *)
Inductive result (A : Type) : Type :=
| Ok (a : A)
| Err (e : ioerr).
Arguments Ok {A} a.
Arguments Err {A} e.

(** Outcome of running Rust code: a value, a panic, or (model artefact) exhausted loop fuel. *)
Inductive exec (A : Type) : Type :=
| Done (a : A)
| Panicked
| OutOfFuel.
Arguments Done {A} a.
Arguments Panicked {A}.
Arguments OutOfFuel {A}.

(** [std::io::SeekFrom]. *)
Inductive whence : Set :=
| FromStart (n : N)
| FromCurrent (z : Z)
| FromEnd (z : Z).

(** Reader programs. *)
Inductive prog (A : Type) : Type :=
| Ret (a : A)
| PPanic
| PFuel
| PRead (n : N) (k : result bytes -> prog A)        (* Read::read into a buffer of n bytes *)
| PReadExact (n : N) (k : result bytes -> prog A)   (* Read::read_exact, n bytes *)
| PReadLine (lim : N) (k : result bytes -> prog A)  (* read_until(b'\n') behind a Take with
                                                       lim bytes left *)
| PSeek (w : whence) (k : result N -> prog A)       (* Seek::seek *)
| PTell (k : result N -> prog A)                    (* Seek::stream_position *)
| PAlloc (n : N) (k : prog A).                      (* vec![0; n] *)
Arguments Ret {A} a.
Arguments PPanic {A}.
Arguments PFuel {A}.
Arguments PRead {A} n k.
Arguments PReadExact {A} n k.
Arguments PReadLine {A} lim k.
Arguments PSeek {A} w k.
Arguments PTell {A} k.
Arguments PAlloc {A} n k.

Fixpoint bindp {A B} (p : prog A) (f : A -> prog B) : prog B :=
  match p with
  | Ret a => f a
  | PPanic => PPanic
  | PFuel => PFuel
  | PRead n k => PRead n (fun r => bindp (k r) f)
  | PReadExact n k => PReadExact n (fun r => bindp (k r) f)
  | PReadLine n k => PReadLine n (fun r => bindp (k r) f)
  | PSeek w k => PSeek w (fun r => bindp (k r) f)
  | PTell k => PTell (fun r => bindp (k r) f)
  | PAlloc n k => PAlloc n (bindp k f)
  end.

(** Code of type [io::Result<A>]; [let! x := m in k] is [let x = m?; k]. *)
Definition io (A : Type) : Type := prog (result A).
Definition ok {A} (a : A) : io A := Ret (Ok a).
Definition err {A} (e : ioerr) : io A := Ret (Err e).
Definition bindio {A B} (m : io A) (f : A -> io B) : io B :=
  bindp m (fun r => match r with Ok a => f a | Err e => Ret (Err e) end).

Notation "'let!' x := m 'in' k" := (bindio m (fun x => k))
  (at level 200, x name, m at level 100, k at level 200).
Notation "'let!' ' p := m 'in' k" := (bindio m (fun x => match x with p => k end))
  (at level 200, p pattern, m at level 100, k at level 200).
Notation "'let*' x := m 'in' k" := (bindp m (fun x => k))
  (at level 200, x name, m at level 100, k at level 200).

Definition lift_exec {A} (e : exec A) : prog A :=
  match e with Done a => Ret a | Panicked => PPanic | OutOfFuel => PFuel end.

Definition read (n : N) : io bytes := PRead n Ret.
Definition read_exact (n : N) : io bytes := PReadExact n Ret.
Definition read_line (lim : N) : io bytes := PReadLine lim Ret.
Definition seek (w : whence) : io N := PSeek w Ret.
Definition tell : io N := PTell Ret.
(** [Seek::rewind] is [seek(SeekFrom::Start(0))]. *)
Definition rewind : io N := seek (FromStart 0).

(** Build configuration: the twelve cargo features of /repo/Cargo.toml lines 17-44, whether
    integer overflow panics (debug profile) or wraps (release), and the width of [usize]. *)
Inductive feature : Set :=
| FAsf | FCfb | FEbml | FExe | FId3v2 | FMp4 | FPdf | FRm | FSqlite3 | FTxt | FXml | FZip.
Record plat : Set := mkplat {
  ovf : bool;
  usize_bits : N
}.
Record cfg : Set := mkcfg' {
  feat : feature -> bool;
  platform :> plat
}.
Definition mkcfg (features : feature -> bool) (overflow_checks : bool) (bits : N) : cfg :=
  mkcfg' features (mkplat overflow_checks bits).

(** [n as usize]. *)
Definition as_usize (c : plat) (n : N) : N := n mod 2 ^ usize_bits c.
Definition isize_max (c : plat) : N := 2 ^ (usize_bits c - 1) - 1.

(** [a + b], [a - b] on [u64], [a - b] on [i64]: panic when overflow checks are on, wrap
    otherwise. *)
Definition u64_add (c : plat) (a b : N) : prog N :=
  if a + b <? u64_max1 then Ret (a + b)
  else if ovf c then PPanic else Ret ((a + b) mod u64_max1).
Definition u64_sub (c : plat) (a b : N) : prog N :=
  if b <=? a then Ret (a - b)
  else if ovf c then PPanic else Ret ((a + u64_max1 - b) mod u64_max1).
Definition i64_sub (c : plat) (a b : Z) : prog Z :=
  let r := (a - b)%Z in
  if (i64_min <=? r)%Z && (r <=? i64_max)%Z then Ret r
  else if ovf c then PPanic else Ret (wrap_i64 r).

(** [vec![0; n]]: panics with "capacity overflow" when [n > isize::MAX].  (An allocator that
    runs out of memory aborts the process; that is not modelled.) *)
Definition alloc (c : plat) (n : N) : prog unit :=
  if isize_max c <? n then PPanic else PAlloc n (Ret tt).

(** *** Trait ReadData, /repo/src/readers.rs lines 1101-1181 *)

(** readers.rs 1104-1110: read_bytes. *)
Definition read_bytes (c : plat) (size : N) : io bytes :=
  let* _ := alloc c size in
  read_exact size.

(** readers.rs 1134-1140: read_u8. *)
Definition read_u8 : io N :=
  let! buf := read_exact 1 in ok (le_val buf).
(** readers.rs 1142-1148: read_u16_le. *)
Definition read_u16_le : io N :=
  let! buf := read_exact 2 in ok (le_val buf).
(** readers.rs 1150-1156: read_u32_be. *)
Definition read_u32_be : io N :=
  let! buf := read_exact 4 in ok (be_val buf).
(** readers.rs 1158-1164: read_u32_le. *)
Definition read_u32_le : io N :=
  let! buf := read_exact 4 in ok (le_val buf).
(** readers.rs 1166-1172: read_u64_be. *)
Definition read_u64_be : io N :=
  let! buf := read_exact 8 in ok (be_val buf).
(** readers.rs 1174-1180: read_u64_le. *)
Definition read_u64_le : io N :=
  let! buf := read_exact 8 in ok (le_val buf).

(** *** Devices: what a [R: Read + Seek] can be *)

(** Behaviour of one call to the underlying [read]. *)
Inductive revent : Set :=
| RShort (k : N)    (* returns at most max(1, k) bytes even if more are available *)
| RIntr             (* fails with ErrorKind::Interrupted, nothing consumed *)
| RFault (e : N).   (* fails with another error *)

(** A seekable byte stream: content, position, a schedule for the next read calls (full reads
    once it is used up), a schedule for the next seek calls ([false]: the call fails), and the
    largest offset a seek accepts ([u64::MAX] for [std::io::Cursor]; at most [i64::MAX], and the
    file system's size limit, for [std::fs::File]). *)
Record dev : Set := mkdev {
  d_content : bytes;
  d_pos : N;
  d_reads : list revent;
  d_seeks : list bool;
  d_max : N
}.

Definition avail (content : bytes) (pos : N) : bytes := dropN pos content.

(** One call to [read] with a buffer of [n] bytes. *)
Definition dev_read (n : N) (d : dev) : result bytes * dev :=
  let give m rs :=
    let l := takeN m (avail (d_content d) (d_pos d)) in
    (Ok l, mkdev (d_content d) (d_pos d + lenN l) rs (d_seeks d) (d_max d)) in
  match d_reads d with
  | [] => give n []
  | RShort k :: rs => give (N.min n (N.max 1 k)) rs
  | RIntr :: rs => (Err EInterrupted, mkdev (d_content d) (d_pos d) rs (d_seeks d) (d_max d))
  | RFault e :: rs => (Err (EOther e), mkdev (d_content d) (d_pos d) rs (d_seeks d) (d_max d))
  end.

(** Target of a seek; [std::io::Cursor] and [lseek] reject negative and too large targets. *)
Definition seek_target (len pos : N) (w : whence) : Z :=
  match w with
  | FromStart n => Z.of_N n
  | FromCurrent z => (Z.of_N pos + z)%Z
  | FromEnd z => (Z.of_N len + z)%Z
  end.

Definition dev_seek (w : whence) (d : dev) : result N * dev :=
  match d_seeks d with
  | false :: ss =>
      (Err (EOther 0), mkdev (d_content d) (d_pos d) (d_reads d) ss (d_max d))
  | l =>
      let ss := tl l in
      let t := seek_target (lenN (d_content d)) (d_pos d) w in
      if (t <? 0)%Z || (Z.of_N (d_max d) <? t)%Z
      then (Err EInvalidInput, mkdev (d_content d) (d_pos d) (d_reads d) ss (d_max d))
      else (Ok (Z.to_N t), mkdev (d_content d) (Z.to_N t) (d_reads d) ss (d_max d))
  end.

(** [Seek::stream_position], default method: [seek(SeekFrom::Current(0))]. *)
Definition dev_tell (d : dev) : result N * dev := dev_seek (FromCurrent 0) d.

(** [std::io::default_read_exact] on a given [read]: retries on Interrupted, fails at end of
    file.  The fuel is excluded by the theorems (it suffices to exceed the schedule). *)
Fixpoint read_exact_loop {S} (rd : N -> S -> result bytes * S) (fuel : nat)
    (n : N) (acc : bytes) (s : S) : exec (result bytes) * S :=
  if n =? 0 then (Done (Ok acc), s) else
  match fuel with
  | O => (OutOfFuel, s)
  | S f =>
      match rd n s with
      | (Ok [], s') => (Done (Err EUnexpectedEof), s')
      | (Ok l, s') => read_exact_loop rd f (n - lenN l) (acc ++ l) s'
      | (Err EInterrupted, s') => read_exact_loop rd f n acc s'
      | (Err e, s') => (Done (Err e), s')
      end
  end.

Definition dev_read_exact (n : N) (d : dev) : exec (result bytes) * dev :=
  read_exact_loop dev_read (List.length (d_reads d) + 3) n [] d.

(** *** std::io::BufReader (capacity 8192) over a device.  [b_buf] is the unread part of the
    internal buffer; the device position is already behind it. *)
Record bdev : Set := mkbdev { b_dev : dev; b_buf : bytes }.

Definition buf_capacity : N := 8192.

(** [BufReader::fill_buf]. *)
Definition b_fill (s : bdev) : result bytes * bdev :=
  match b_buf s with
  | [] =>
      match dev_read buf_capacity (b_dev s) with
      | (Ok l, d) => (Ok l, mkbdev d l)
      | (Err e, d) => (Err e, mkbdev d [])
      end
  | l => (Ok l, s)
  end.

(** [BufReader::read]: large reads bypass an empty buffer. *)
Definition b_read (n : N) (s : bdev) : result bytes * bdev :=
  match b_buf s with
  | [] =>
      if buf_capacity <=? n then
        let '(r, d) := dev_read n (b_dev s) in (r, mkbdev d [])
      else
        match b_fill s with
        | (Ok l, s') => (Ok (takeN n l), mkbdev (b_dev s') (dropN n l))
        | (Err e, s') => (Err e, s')
        end
  | l => (Ok (takeN n l), mkbdev (b_dev s) (dropN n l))
  end.

(** [BufReader::read_exact]: the fast path that serves the request from the buffer is the first
    round of the general loop. *)
Definition b_read_exact (n : N) (s : bdev) : exec (result bytes) * bdev :=
  read_exact_loop b_read (List.length (d_reads (b_dev s)) + 5) n [] s.

(** Splits after the first line feed, if any. *)
Fixpoint split_lf (l : bytes) : option (bytes * bytes) :=
  match l with
  | [] => None
  | b :: t =>
      if Byte.eqb b x0a then Some ([b], t)
      else match split_lf t with
           | Some (a, r) => Some (b :: a, r)
           | None => None
           end
  end.

(** [std::io::read_until(b'\n')] on [Take<BufReader<R>>] with [lim] bytes left. *)
Fixpoint b_until (fuel : nat) (lim : N) (acc : bytes) (s : bdev)
  : exec (result bytes) * bdev :=
  if lim =? 0 then (Done (Ok acc), s) else   (* Take::fill_buf returns an empty slice *)
  match fuel with
  | O => (OutOfFuel, s)
  | S f =>
      match b_fill s with
      | (Err EInterrupted, s') => b_until f lim acc s'
      | (Err e, s') => (Done (Err e), s')
      | (Ok l, s') =>
          let view := takeN lim l in
          match split_lf view with
          | Some (a, _) =>
              (Done (Ok (acc ++ a)), mkbdev (b_dev s') (dropN (lenN a) l))
          | None =>
              let s2 := mkbdev (b_dev s') (dropN (lenN view) l) in
              match view with
              | [] => (Done (Ok acc), s2)
              | _ => b_until f (lim - lenN view) (acc ++ view) s2
              end
          end
      end
  end.
Definition b_read_line (lim : N) (s : bdev) : exec (result bytes) * bdev :=
  b_until (List.length (d_reads (b_dev s)) + N.to_nat lim + 2) lim [] s.

(** [BufReader::seek]: a relative seek is corrected by the unread buffer (with the two-step
    variant when that correction overflows [i64]); the buffer is discarded on success. *)
Definition b_seek (w : whence) (s : bdev) : result N * bdev :=
  let rem := Z.of_N (lenN (b_buf s)) in
  match w with
  | FromCurrent z =>
      if (i64_min <=? z - rem)%Z then
        match dev_seek (FromCurrent (z - rem)) (b_dev s) with
        | (Ok p, d) => (Ok p, mkbdev d [])
        | (Err e, d) => (Err e, mkbdev d (b_buf s))
        end
      else
        match dev_seek (FromCurrent (- rem)) (b_dev s) with
        | (Err e, d) => (Err e, mkbdev d (b_buf s))
        | (Ok _, d) =>
            let '(r, d') := dev_seek (FromCurrent z) d in (r, mkbdev d' [])
        end
  | _ =>
      match dev_seek w (b_dev s) with
      | (Ok p, d) => (Ok p, mkbdev d [])
      | (Err e, d) => (Err e, mkbdev d (b_buf s))
      end
  end.

(** [BufReader::stream_position]. *)
Definition b_tell (s : bdev) : result N * bdev :=
  match dev_tell (b_dev s) with
  | (Ok p, d) => (Ok (p - lenN (b_buf s)), mkbdev d (b_buf s))
  | (Err e, d) => (Err e, mkbdev d (b_buf s))
  end.

(** *** Interpretation *)

(** The method table of a reader. *)
Record machine (S : Type) : Type := mkmachine {
  m_read : N -> S -> result bytes * S;
  m_read_exact : N -> S -> exec (result bytes) * S;
  m_read_line : N -> S -> exec (result bytes) * S;
  m_seek : whence -> S -> result N * S;
  m_tell : S -> result N * S
}.
Arguments mkmachine {S}.
Arguments m_read {S}.
Arguments m_read_exact {S}.
Arguments m_read_line {S}.
Arguments m_seek {S}.
Arguments m_tell {S}.

Fixpoint run {S A} (M : machine S) (p : prog A) (s : S) : exec A * S :=
  match p with
  | Ret a => (Done a, s)
  | PPanic => (Panicked, s)
  | PFuel => (OutOfFuel, s)
  | PRead n k => let '(r, s') := m_read M n s in run M (k r) s'
  | PReadExact n k =>
      match m_read_exact M n s with
      | (Done r, s') => run M (k r) s'
      | (Panicked, s') => (Panicked, s')
      | (OutOfFuel, s') => (OutOfFuel, s')
      end
  | PReadLine n k =>
      match m_read_line M n s with
      | (Done r, s') => run M (k r) s'
      | (Panicked, s') => (Panicked, s')
      | (OutOfFuel, s') => (OutOfFuel, s')
      end
  | PSeek w k => let '(r, s') := m_seek M w s in run M (k r) s'
  | PTell k => let '(r, s') := m_tell M s in run M (k r) s'
  | PAlloc _ k => run M k s
  end.

(** A reader used directly.  (No reader function calls [read_line] without a BufReader, so that
    slot is served by a fresh BufReader and only there to make the table total.) *)
Definition raw_machine : machine dev :=
  mkmachine dev_read dev_read_exact
    (fun lim d => let '(r, s) := b_read_line lim (mkbdev d []) in (r, b_dev s))
    dev_seek dev_tell.

(** A reader behind [BufReader::new(reader)]. *)
Definition buf_machine : machine bdev :=
  mkmachine b_read b_read_exact b_read_line b_seek b_tell.

(** Runs code that wraps its reader in [BufReader::new]: an empty buffer at the start; when the
    BufReader is dropped the unread buffer is lost and the device stays where it is. *)
Definition run_raw {A} (p : prog A) (d : dev) : exec A * dev := run raw_machine p d.
Definition run_buf {A} (p : prog A) (d : dev) : exec A * dev :=
  let '(r, s) := run buf_machine p (mkbdev d []) in (r, b_dev s).
