(** How tables are written for the macros of the crate, independent of the way macros are expanded. *)
From Coq Require Import List NArith Bool String.
From Verif Require Import Base Rust.
Import ListNotations.
Local Open Scope N_scope.

(** ** signatures! *)
(** A part of an alternative as written: a value and possibly an offset. *)
Definition wpart : Set := (option N * bytes)%type.
(** An entry: the name of the format and its alternatives. *)
Definition wentry : Set := (bytes * list (list wpart))%type.

Definition kw (s : string) : tree := Leaf (TIdent (bs s)).
Arguments kw s%string_scope.
Definition pu (s : string) : tree := Leaf (TPunct (bs s)).
Arguments pu s%string_scope.

(** [b"..."] or [b"..." offset = n]. *)
Definition write_part (p : wpart) : list tree :=
  Leaf (TBytes (snd p)) :: match fst p with Some n => [kw "offset"; pu "="; Leaf (TInt n)] | None => [] end.
(** Parts separated by commas. *)
Fixpoint write_parts (ps : list wpart) : list tree :=
  match ps with
  | [] => []
  | [p] => write_part p
  | p :: ps' => write_part p ++ pu "," :: write_parts ps'
  end.
Definition write_alt (a : list wpart) : list tree := kw "value" :: pu "=" :: write_parts a.
Definition write_entry (e : wentry) : list tree :=
  kw "format" :: pu "=" :: Leaf (TIdent (fst e)) :: flat_map write_alt (snd e).
Definition write_table (t : list wentry) : list tree := flat_map write_entry t.

(** What the table means: no offset means 0. *)
Definition part_of (p : wpart) : N * bytes := (match fst p with Some n => n | None => 0 end, snd p).
Definition table_of (t : list wentry) : list (bytes * list (list (N * bytes))) :=
  map (fun e => (fst e, map (map part_of) (snd e))) t.

(** The tables that can be written: identifiers are not [_], there is a value, every sum of an offset
    and a length is below the given bound. *)
Definition writable (bound : N) (t : list wentry) : Prop :=
  forall f alts, In (f, alts) t ->
    f <> bs "_" /\ alts <> [] /\
    forall a, In a alts -> a <> [] /\ forall p, In p a -> fst (part_of p) + lenN (snd p) < bound.
