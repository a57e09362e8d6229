(** Signatures.  Specifications the property theorems are stated with; nothing here depends on the
    way the code (or its model) computes. *)
From Coq Require Import List NArith ZArith Bool String.
From Verif Require Import Base.
Local Open Scope N_scope.

(** ** Signatures (C04-C08) *)

(** The bytes [v] are present in [l] at offset [off]. *)
Definition present (l : bytes) (off : N) (v : bytes) : Prop :=
  exists pre post, l = pre ++ v ++ post /\ lenN pre = off.
(** An alternative of a signature (a list of (offset, value) parts) matches [l]. *)
Definition alt_matches (l : bytes) (alt : list (N * bytes)) : Prop :=
  forall off v, In (off, v) alt -> present l off v.
(** Some alternative of a signature matches. *)
Definition sig_matches (l : bytes) (alts : list (list (N * bytes))) : Prop :=
  exists alt, In alt alts /\ alt_matches l alt.
(** In a table of signatures in priority order, [f] is the first entry that matches. *)
Definition first_match {F} (table : list (F * list (list (N * bytes)))) (l : bytes) (f : F) : Prop :=
  exists before alts after, table = before ++ (f, alts) :: after /\ sig_matches l alts /\
    forall g galts, In (g, galts) before -> ~ sig_matches l galts.
(** No entry matches. *)
Definition no_match {F} (table : list (F * list (list (N * bytes)))) (l : bytes) : Prop :=
  forall g galts, In (g, galts) table -> ~ sig_matches l galts.
