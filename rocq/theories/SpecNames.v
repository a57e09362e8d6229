(** Identifiers (C67): the identifier of a variant is its name in upper camel case.  A word is a
    maximal sequence of letters and digits (points and apostrophes do not separate words); each word is
    written with a capital and continued in lower case.  An identifier cannot start with a digit, so a
    number at the beginning is spelled out. *)
From Coq Require Import List NArith Bool String Ascii.
Import ListNotations.
Local Open Scope string_scope.

Definition code (c : ascii) : N := N_of_ascii c.
Definition between (lo hi : ascii) (c : ascii) : bool := (code lo <=? code c)%N && (code c <=? code hi)%N.
Definition is_upper (c : ascii) : bool := between "A" "Z" c.
Definition is_lower (c : ascii) : bool := between "a" "z" c.
Definition is_digit (c : ascii) : bool := between "0" "9" c.
Definition to_upper (c : ascii) : ascii := if is_lower c then ascii_of_N (code c - 32) else c.
Definition to_lower (c : ascii) : ascii := if is_upper c then ascii_of_N (code c + 32) else c.
(** [fresh]: a word begins with the next letter or digit. *)
Fixpoint camel (fresh : bool) (s : string) : string :=
  match s with
  | EmptyString => EmptyString
  | String c r =>
      if is_upper c || is_lower c || is_digit c then String (if fresh then to_upper c else to_lower c) (camel false r)
      else camel (negb (Ascii.eqb c "." || Ascii.eqb c "'") || fresh) r
  end.
(** Numbers at the beginning. *)
Definition spelled : list (string * string) :=
  [("8-", "Eight "); ("7-", "Seven "); ("3rd ", "Third "); ("3D ", "Three Dimensional ")].
Definition spell (s : string) : string :=
  match find (fun p => prefix (fst p) s) spelled with
  | Some (number, word) => word ++ substring (length number) (length s) s
  | None => s
  end.
Definition identifier (name : string) : string := camel true (spell name).

(** A Rust identifier in upper camel case. *)
Definition is_identifier (s : string) : Prop :=
  exists c r, s = String c r /\ is_upper c = true /\
    forall d, In d (list_ascii_of_string r) -> is_upper d || is_lower d || is_digit d = true.
(** Order of strings (lexicographic, by code). *)
Fixpoint precedes (s t : string) : Prop :=
  match s, t with
  | EmptyString, String _ _ => True
  | String c r, String d q => (code c < code d)%N \/ c = d /\ precedes r q
  | _, _ => False
  end.
