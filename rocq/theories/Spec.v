(** Specifications the property theorems are stated with.  Nothing here depends on the way the
    code (or its model) computes. *)
From Coq Require Import List NArith ZArith Bool String.
From Verif Require Import Base.
Local Open Scope N_scope.

(** ** Byte patterns (C18-C21) *)

(** [pat] occurs in [data] after exactly [i] bytes. *)
Definition occurs_at (pat data : bytes) (i : nat) : Prop :=
  exists pre post, data = pre ++ pat ++ post /\ List.length pre = i.
(** [pat] occurs in [data] as a contiguous run of bytes. *)
Definition occurs (pat data : bytes) : Prop :=
  exists pre post, data = pre ++ pat ++ post.

(** The bytes [from .. from + len] of a stream (as many as there are). *)
Definition slice (from len : N) (l : bytes) : bytes := takeN len (dropN from l).
