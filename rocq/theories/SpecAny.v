(** What an implementation of [Read + Seek] promises (C53). *)
From Coq Require Import List NArith ZArith Bool.
Import ListNotations.
From Verif Require Import Base IO.
Local Open Scope N_scope.

(** The contract of the traits: no more bytes than asked for, 64-bit positions. *)
Definition read_contract {S} (rd : N -> S -> result bytes * S) : Prop :=
  forall n s l s', rd n s = (Ok l, s') -> lenN l <= n.
Definition seek_contract {S} (sk : whence -> S -> result N * S) : Prop :=
  forall w s p s', sk w s = (Ok p, s') -> p < 2 ^ 64.

(** A reader with a cursor of its own: [position] moves by what is read and to where a seek says, and
    by nothing else.  The bytes behind it may be different each time. *)
Record own_cursor {S} (rd : N -> S -> result bytes * S) (sk : whence -> S -> result N * S)
    (position : S -> N) : Prop := {
  oc_read : forall n s l s', rd n s = (Ok l, s') -> position s' = position s + lenN l;
  oc_read_err : forall n s e s', rd n s = (Err e, s') -> position s' = position s;
  oc_seek : forall w s p s', sk w s = (Ok p, s') -> position s' = p;
  oc_seek_err : forall w s e s', sk w s = (Err e, s') -> position s' = position s;
  oc_tell : forall s p s', sk (FromCurrent 0) s = (Ok p, s') -> p = position s
}.

(** A stream that ends (C58): there is never a byte at or behind the offset [size], whatever the bytes before it
    are from one call to the next, and that bound does not grow; [patience] bounds the interruptions still to
    come; a seek to an absolute offset goes there. *)
Record finite_stream {S} (rd : N -> S -> result bytes * S) (sk : whence -> S -> result N * S)
    (position : S -> N) (patience : S -> nat) (size : S -> N) : Prop := {
  fs_read : forall n s l s', rd n s = (Ok l, s') -> l = [] \/ position s + lenN l <= size s;
  fs_read_next : forall n s r s', rd n s = (r, s') -> (patience s' <= patience s)%nat /\ size s' <= size s;
  fs_interrupted : forall n s s', rd n s = (Err EInterrupted, s') -> (patience s' < patience s)%nat;
  fs_seek_next : forall w s r s', sk w s = (r, s') -> (patience s' <= patience s)%nat /\ size s' <= size s;
  fs_start : forall n s p s', sk (FromStart n) s = (Ok p, s') -> p = n
}.
