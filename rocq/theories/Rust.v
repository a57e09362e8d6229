(** The part of Rust's lexical syntax that the sources of the crate use, from bytes to token trees.

    This file and [Macro] model the compiler, not the crate: they give a meaning to the texts in
    [Source].  Reference: The Rust Reference, chapters "Lexical structure" and "Macros By Example". *)
From Coq Require Import List NArith Bool String.
From Verif Require Import Base.
Import ListNotations.
Local Open Scope N_scope.

Inductive delim : Set := Paren | Bracket | Brace.

(** Comments (with doc comments) and white space separate tokens and are dropped.  Punctuation is glued
    as long as possible, as in the matching of macros. *)
Inductive token : Set :=
| TIdent (s : bytes)
| TInt (n : N)
| TStr (s : bytes)
| TBytes (s : bytes)
| TChar (n : N)                (* a character literal: its scalar value *)
| TPunct (s : bytes)
| TOpen (d : delim)
| TClose (d : delim).

Definition in_range (lo hi : byte) (b : byte) : bool := (bval lo <=? bval b) && (bval b <=? bval hi).
Definition is_space (b : byte) : bool := in_range x09 x0d b || Byte.eqb b x20.
Definition is_digit (b : byte) : bool := in_range "0" "9" b.
Definition is_ident_start (b : byte) : bool := in_range "a" "z" b || in_range "A" "Z" b || Byte.eqb b "_".
Definition is_ident_char (b : byte) : bool := is_ident_start b || is_digit b.

(** The longest prefix of bytes with a property, and the rest. *)
Fixpoint span (f : byte -> bool) (l : bytes) : bytes * bytes :=
  match l with
  | b :: t => if f b then let '(a, r) := span f t in (b :: a, r) else ([], l)
  | [] => ([], [])
  end.

(** Decimal integer literals without suffix; digits may be grouped with underscores. *)
Definition int_of (l : bytes) : option N :=
  fold_left (fun acc b => match acc with
    | Some n => if Byte.eqb b "_" then Some n else if is_digit b then Some (10 * n + (bval b - bval "0")) else None
    | None => None end) l (Some 0).

Definition hex_of (b : byte) : option N :=
  if is_digit b then Some (bval b - bval "0")
  else if in_range "a" "f" b then Some (bval b - bval "a" + 10)
  else if in_range "A" "F" b then Some (bval b - bval "A" + 10)
  else None.

(** Hexadecimal integer literals [0x...] without suffix. *)
Definition hex_int (l : bytes) : option N :=
  fold_left (fun acc b => match acc with
    | Some n => if Byte.eqb b "_" then Some n else match hex_of b with Some d => Some (16 * n + d) | None => None end
    | None => None end) l (Some 0).

(** What follows a backslash in a literal. *)
Definition simple_escape (b : byte) : option byte :=
  if Byte.eqb b "n" then Some x0a else if Byte.eqb b "r" then Some x0d else if Byte.eqb b "t" then Some x09
  else if Byte.eqb b "0" then Some x00 else if Byte.eqb b "\" then Some "\"%byte
  else if Byte.eqb b """" then Some """"%byte else if Byte.eqb b "'" then Some "'"%byte else None.

(** The rest of a (byte) string literal up to its closing quotation mark. *)
Fixpoint quoted (l : bytes) : option (bytes * bytes) :=
  let put b o := match o with Some (v, r) => Some (b :: v, r) | None => None end in
  match l with
  | [] => None
  | c :: t =>
      if Byte.eqb c """" then Some ([], t)
      else if Byte.eqb c "\" then
        match t with
        | x :: t1 =>
            if Byte.eqb x "x" then
              match t1 with
              | h :: g :: t2 =>
                  match hex_of h, hex_of g with
                  | Some i, Some j => match Byte.of_N (16 * i + j) with Some b => put b (quoted t2) | None => None end
                  | _, _ => None
                  end
              | _ => None
              end
            else match simple_escape x with Some b => put b (quoted t1) | None => None end
        | [] => None
        end
      else put c (quoted t)
  end.

(** Punctuation of more than one character. *)
Definition long_puncts : list bytes :=
  map bs ["..="; "..."; "<<="; ">>="; "=>"; "->"; "::"; ".."; "&&"; "||"; "=="; "!="; "<="; ">="; "+="; "-="; "*="; "/=";
          "%="; "^="; "&="; "|="; "<<"; ">>"]%string.
Definition short_puncts : bytes := bs "$#!,;:=&+*?.<>-|/%^@~".

Fixpoint first_prefix (ps : list bytes) (l : bytes) : option bytes :=
  match ps with
  | [] => None
  | p :: ps' => if bstarts_with l p then Some p else first_prefix ps' l
  end.
Definition delim_of (b : byte) : option token :=
  if Byte.eqb b "(" then Some (TOpen Paren) else if Byte.eqb b ")" then Some (TClose Paren)
  else if Byte.eqb b "[" then Some (TOpen Bracket) else if Byte.eqb b "]" then Some (TClose Bracket)
  else if Byte.eqb b "{" then Some (TOpen Brace) else if Byte.eqb b "}" then Some (TClose Brace)
  else None.

(** One token from the start of a text that does not start with white space or a comment. *)
Definition lex1 (l : bytes) : option (token * bytes) :=
  match l with
  | [] => None
  | c :: t =>
      if bstarts_with l (bs "b""") then
        match quoted (dropN 2 l) with Some (v, r) => Some (TBytes v, r) | None => None end
      else if Byte.eqb c """" then
        match quoted t with Some (v, r) => Some (TStr v, r) | None => None end
      else if Byte.eqb c "'" then          (* 'x', one ASCII character without escape *)
        match t with
        | x :: q :: r =>
            if Byte.eqb q "'" && negb (Byte.eqb x "\") && (bval x <? 128) then Some (TChar (bval x), r) else None
        | _ => None
        end
      else if is_digit c then
        let '(a, r) := span is_ident_char l in
        match (if bstarts_with a (bs "0x") then hex_int (dropN 2 a) else int_of a) with Some n => Some (TInt n, r) | None => None end
      else if is_ident_start c then let '(a, r) := span is_ident_char l in Some (TIdent a, r)
      else match delim_of c with
      | Some k => Some (k, t)
      | None =>
          match first_prefix long_puncts l with
          | Some p => Some (TPunct p, dropN (lenN p) l)
          | None => if existsb (Byte.eqb c) short_puncts then Some (TPunct [c], t) else None
          end
      end
  end.

(** The tokens of a text ([None]: not in the modelled part of the language). *)
Fixpoint lex (fuel : nat) (l : bytes) : option (list token) :=
  match fuel with
  | O => match l with [] => Some [] | _ :: _ => None end
  | S fuel' =>
      match l with
      | [] => Some []
      | c :: t =>
          if is_space c then lex fuel' t
          else if bstarts_with l (bs "//") then lex fuel' (snd (span (fun b => negb (Byte.eqb b x0a)) l))
          else match lex1 l with
          | Some (k, r) => match lex fuel' r with Some ks => Some (k :: ks) | None => None end
          | None => None
          end
      end
  end.

(** Token trees: delimiters are balanced. *)
Inductive tree : Set :=
| Leaf (t : token)
| Group (d : delim) (l : list tree).

Definition delim_eqb (a b : delim) : bool :=
  match a, b with Paren, Paren | Bracket, Bracket | Brace, Brace => true | _, _ => false end.

(** [stack]: the groups that are still open, each with the trees before it (in reverse). *)
Fixpoint nest (ks : list token) (cur : list tree) (stack : list (delim * list tree)) : option (list tree) :=
  match ks with
  | [] => match stack with [] => Some (rev cur) | _ :: _ => None end
  | TOpen d :: ks' => nest ks' [] ((d, cur) :: stack)
  | TClose d :: ks' =>
      match stack with
      | (d', up) :: stack' => if delim_eqb d d' then nest ks' (Group d (rev cur) :: up) stack' else None
      | [] => None
      end
  | k :: ks' => nest ks' (Leaf k :: cur) stack
  end.

Definition text (lines : list string) : bytes := flat_map (fun s => bs s ++ [x0a]) lines.
(** The texts are read line by line: no literal of theirs spans lines (one that did would be left unread, and
    the text without a meaning). *)
Definition lex_line (s : string) : option (list token) := let l := bs s in lex (List.length l) l.
Fixpoint lex_lines (lines : list string) : option (list token) :=
  match lines with
  | [] => Some []
  | s :: rest =>
      match lex_line s with
      | Some ks => match lex_lines rest with Some ks' => Some (ks ++ ks') | None => None end
      | None => None
      end
  end.
Definition trees_of (lines : list string) : option (list tree) :=
  match lex_lines lines with Some ks => nest ks [] [] | None => None end.

Definition token_eqb (a b : token) : bool :=
  match a, b with
  | TIdent x, TIdent y | TStr x, TStr y | TBytes x, TBytes y | TPunct x, TPunct y => beqb x y
  | TInt m, TInt n | TChar m, TChar n => m =? n
  | TOpen d, TOpen e | TClose d, TClose e => delim_eqb d e
  | _, _ => false
  end.
