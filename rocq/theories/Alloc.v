(** The heap buffers the readers ask for: the sizes of the [vec![0; n]] in the order in which they
    are requested.  ([vec!] appears once in the crate, readers.rs line 1107, in read_bytes.  The
    8 KiB buffer of BufReader, the Strings that read_string and lines() build from bytes already
    read, and the fixed arrays on the stack are not counted.) *)
From Coq Require Import List NArith ZArith Bool.
From Verif Require Import Base Formats Signatures IO Readers Lib.
Local Open Scope N_scope.

(** The requests of a run: follows [run] (IO.v). *)
Fixpoint requests {S A} (M : machine S) (p : prog A) (s : S) : list N :=
  match p with
  | Ret _ | PPanic | PFuel => []
  | PRead n k => let '(r, s') := m_read M n s in requests M (k r) s'
  | PReadExact n k =>
      match m_read_exact M n s with
      | (Done r, s') => requests M (k r) s'
      | _ => []
      end
  | PReadLine n k =>
      match m_read_line M n s with
      | (Done r, s') => requests M (k r) s'
      | _ => []
      end
  | PSeek w k => let '(r, s') := m_seek M w s in requests M (k r) s'
  | PTell k => let '(r, s') := m_tell M s in requests M (k r) s'
  | PAlloc n k => n :: requests M k s
  end.

(** lib.rs lines 292-307: the requests during from_reader; the text reader, which may run after a
    failed container reader (or alone), comes last. *)
Definition from_reader_requests (c : cfg) (d : dev) : list N :=
  let fuel := S (List.length (d_content d)) in
  let generic d2 := if feat c FTxt then requests buf_machine from_txt_reader (mkbdev d2 []) else [] in
  match dev_read window d with
  | (Ok (b :: buf), d1) =>
      match from_signature (b :: buf) with
      | Some f =>
          match fmt_reader c fuel f with
          | Some p =>
              (if uses_bufreader f then requests buf_machine p (mkbdev d1 []) else requests raw_machine p d1)
              ++ match from_fmt_reader c fuel f d1 with
                 | (Done (Err _), d2) => generic d2
                 | _ => []
                 end
          | None => []
          end
      | None => generic d1
      end
  | _ => []
  end.
