(** The ideal sequential reader: a byte string, a position and the largest offset a seek accepts.
    No schedule, no buffer.  The readers of IO.v are proved to behave like it (IOProofs.v). *)
From Coq Require Import List NArith ZArith Bool.
From Verif Require Import Base IO.
Local Open Scope N_scope.

(** The bytes up to and including the first line feed (all bytes if there is none). *)
Fixpoint upto_lf (l : bytes) : bytes :=
  match l with
  | [] => []
  | b :: t => if Byte.eqb b x0a then [b] else b :: upto_lf t
  end.

Definition mem_read (content : bytes) (n : N) (pos : N) : result bytes * N :=
  let l := takeN n (dropN pos content) in (Ok l, pos + lenN l).

Definition mem_read_exact (content : bytes) (n : N) (pos : N) : exec (result bytes) * N :=
  let l := takeN n (dropN pos content) in
  (Done (if lenN l =? n then Ok l else Err EUnexpectedEof), pos + lenN l).

Definition mem_read_line (content : bytes) (lim : N) (pos : N) : exec (result bytes) * N :=
  let l := upto_lf (takeN lim (dropN pos content)) in (Done (Ok l), pos + lenN l).

Definition mem_seek (content : bytes) (max : N) (w : whence) (pos : N) : result N * N :=
  let t := seek_target (lenN content) pos w in
  if (t <? 0)%Z || (Z.of_N max <? t)%Z then (Err EInvalidInput, pos)
  else (Ok (Z.to_N t), Z.to_N t).

Definition mem_machine (content : bytes) (max : N) : machine N :=
  mkmachine (mem_read content) (mem_read_exact content) (mem_read_line content)
    (mem_seek content max) (fun pos => (Ok pos, pos)).

Definition mrun {A} (content : bytes) (max : N) (p : prog A) (pos : N) : exec A * N :=
  run (mem_machine content max) p pos.

(** Answers the contract of [Read] and [Seek] allows. *)
Definition legal_read (n : N) (r : result bytes) : Prop :=
  match r with Ok l => lenN l <= n | Err _ => True end.
Definition legal_exact (n : N) (r : result bytes) : Prop :=
  match r with Ok l => lenN l = n | Err _ => True end.
Definition legal_pos (r : result N) : Prop :=
  match r with Ok p => p < u64_max1 | Err _ => True end.

