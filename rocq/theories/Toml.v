(** The part of TOML that Cargo.toml uses: tables, strings, arrays of strings, comments.

    Models Cargo's reader of the manifest, not the crate.  Reference: TOML v1.0.0. *)
From Coq Require Import List NArith Bool String.
From Verif Require Import Base Rust.
Import ListNotations.
Local Open Scope N_scope.

Inductive ttoken : Set :=
| TKey (s : bytes) | TString (s : bytes) | TEq | TLBracket | TRBracket | TComma.

Definition is_key_char (b : byte) : bool := is_ident_char b || Byte.eqb b "-".
(** Up to the closing quotation mark; strings with escapes are not modelled. *)
Definition string_of (l : bytes) : option (bytes * bytes) :=
  let '(a, r) := span (fun b => negb (Byte.eqb b """" || Byte.eqb b "\")) l in
  match r with b :: r' => if Byte.eqb b """" then Some (a, r') else None | [] => None end.
Fixpoint toml_lex (fuel : nat) (l : bytes) : option (list ttoken) :=
  match fuel with
  | O => match l with [] => Some [] | _ :: _ => None end
  | S n =>
      let put t r := match toml_lex n r with Some ts => Some (t :: ts) | None => None end in
      match l with
      | [] => Some []
      | c :: r =>
          if is_space c then toml_lex n r
          else if Byte.eqb c "#" then toml_lex n (snd (span (fun b => negb (Byte.eqb b x0a)) l))
          else if Byte.eqb c "=" then put TEq r
          else if Byte.eqb c "[" then put TLBracket r
          else if Byte.eqb c "]" then put TRBracket r
          else if Byte.eqb c "," then put TComma r
          else if Byte.eqb c """" then match string_of r with Some (s, r') => put (TString s) r' | None => None end
          else if is_key_char c then let '(s, r') := span is_key_char l in put (TKey s) r'
          else None
      end
  end.

Inductive tvalue : Set := TVString (s : bytes) | TVArray (l : list bytes).
(** The rest of an array of strings. *)
Fixpoint array_of (ts : list ttoken) : option (list bytes * list ttoken) :=
  match ts with
  | TRBracket :: r => Some ([], r)
  | TString s :: TComma :: r => match array_of r with Some (l, r') => Some (s :: l, r') | None => None end
  | TString s :: TRBracket :: r => Some ([s], r)
  | _ => None
  end.
(** Tables with their entries; [cur] is the current one, its entries in reverse. *)
Fixpoint tables_of (fuel : nat) (ts : list ttoken) (cur : bytes * list (bytes * tvalue))
  : option (list (bytes * list (bytes * tvalue))) :=
  match fuel with
  | O => None
  | S n =>
      let done := (fst cur, rev (snd cur)) in
      match ts with
      | [] => Some [done]
      | TLBracket :: TKey s :: TRBracket :: r =>
          match tables_of n r (s, []) with Some l => Some (done :: l) | None => None end
      | TKey k :: TEq :: TString s :: r => tables_of n r (fst cur, (k, TVString s) :: snd cur)
      | TKey k :: TEq :: TLBracket :: r =>
          match array_of r with Some (l, r') => tables_of n r' (fst cur, (k, TVArray l) :: snd cur) | None => None end
      | _ => None
      end
  end.
(** The tables of a manifest; the first one is the root table. *)
Definition toml_of (lines : list string) : option (list (bytes * list (bytes * tvalue))) :=
  let t := text lines in
  match toml_lex (List.length t) t with
  | Some ts => tables_of (S (List.length ts)) ts ([], [])
  | None => None
  end.
