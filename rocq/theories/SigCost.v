(** Signature matching (Lib.v) with counters: how many length tests are made, and how many bytes of the data are
    compared with a byte of a signature.  Erasing the counters gives Lib.v (proved in PropertiesCost2.v). *)
From Coq Require Import List NArith Bool.
From Verif Require Import Base Formats Signatures.
Import ListNotations.
Local Open Scope N_scope.

(** Equality of slices of the same length, byte by byte up to the first difference (the result and the number
    of comparisons; memcmp compares at most as many). *)
Fixpoint equal_counted (a b : bytes) : bool * N :=
  match a, b with
  | x :: a', y :: b' =>
      if Byte.eqb x y then let '(r, n) := equal_counted a' b' in (r, n + 1) else (false, 1)
  | [], [] => (true, 0)
  | _, _ => (false, 0)
  end.
(** macros.rs lines 171-172, as [part_matches]; one length test. *)
Definition part_counted (l : bytes) (p : sig_part) : bool * N :=
  let '(offset, value) := p in
  if offset + lenN value <=? lenN l then equal_counted (takeN (lenN value) (dropN offset l)) value else (false, 0).
(** The conjunction of the parts, from left to right, stopping at the first false one: result, length tests,
    comparisons. *)
Fixpoint parts_counted (l : bytes) (parts : list sig_part) : bool * N * N :=
  match parts with
  | [] => (true, 0, 0)
  | p :: parts' =>
      let '(r, n) := part_counted l p in
      if r then let '(r', t, m) := parts_counted l parts' in (r', t + 1, n + m) else (false, 1, n)
  end.
(** The disjunction of the alternatives, stopping at the first true one. *)
Fixpoint alts_counted (l : bytes) (alts : list (list sig_part)) : bool * N * N :=
  match alts with
  | [] => (false, 0, 0)
  | a :: alts' =>
      let '(r, t, n) := parts_counted l a in
      if r then (true, t, n) else let '(r', t', m) := alts_counted l alts' in (r', t + t', n + m)
  end.
(** macros.rs lines 157-179, as [from_signature_in]. *)
Fixpoint signature_counted (table : list sig_entry) (l : bytes) : option FileFormat * N * N :=
  match table with
  | [] => (None, 0, 0)
  | (f, alts) :: table' =>
      let '(r, t, n) := alts_counted l alts in
      if r then (Some f, t, n) else let '(r', t', m) := signature_counted table' l in (r', t + t', n + m)
  end.
