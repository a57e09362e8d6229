(** Macros by example: reading the definition of a macro, matching an invocation and transcribing it.

    Reference: The Rust Reference, chapter "Macros By Example".  The modelled part: rules whose
    matchers use the fragments [ident] and [literal], repetitions with [*], [+] and [?] and an optional
    separator.  Simplification: a repetition goes on as long as its body matches (rustc rejects
    definitions or invocations where that would not be the only way). *)
From Coq Require Import List NArith Bool String.
From Verif Require Import Base Rust.
Import ListNotations.
Local Open Scope N_scope.

Inductive rep : Set := Star | Plus | Quest.

(** Matchers and transcribers; [x] is a metavariable, its fragment is empty in a transcriber. *)
Inductive pat : Set :=
| PTok (t : token)
| PGroup (d : delim) (l : list pat)
| PVar (x frag : bytes)
| PRep (l : list pat) (sep : option token) (r : rep).

Definition punct (s : string) : token := TPunct (bs s).
Arguments punct s%string_scope.
Definition ident (s : string) : token := TIdent (bs s).
Arguments ident s%string_scope.

Definition rep_of (t : token) : option rep :=
  if token_eqb t (punct "*") then Some Star else if token_eqb t (punct "+") then Some Plus
  else if token_eqb t (punct "?") then Some Quest else None.

(** Reads a matcher ([m] = true) or a transcriber. *)
Fixpoint pats_of (m : bool) (fuel : nat) (ts : list tree) : option (list pat) :=
  match fuel with
  | O => None
  | S fuel' =>
      let next p r := match pats_of m fuel' r with Some ps => Some (p :: ps) | None => None end in
      match ts with
      | [] => Some []
      | Leaf t :: r =>
          if token_eqb t (punct "$") then
            match r with
            | Leaf (TIdent x) :: r1 =>
                if m then
                  match r1 with
                  | Leaf c :: Leaf (TIdent f) :: r2 => if token_eqb c (punct ":") then next (PVar x f) r2 else None
                  | _ => None
                  end
                else next (PVar x []) r1
            | Group Paren b :: Leaf o :: r1 =>
                match pats_of m fuel' b with
                | Some body =>
                    match rep_of o with
                    | Some q => next (PRep body None q) r1
                    | None =>
                        match r1 with
                        | Leaf o' :: r2 =>
                            match rep_of o' with Some q => next (PRep body (Some o) q) r2 | None => None end
                        | _ => None
                        end
                    end
                | None => None
                end
            | _ => None
            end
          else next (PTok t) r
      | Group d b :: r =>
          match pats_of m fuel' b with Some body => next (PGroup d body) r | None => None end
      end
  end.

(** ** Matching *)
(** What a metavariable is bound to: a fragment, or one binding for each iteration. *)
Inductive bind : Set :=
| BTree (t : tree)
| BSeq (l : list bind).
Definition benv : Set := list (bytes * bind).

Definition lookup (x : bytes) (e : benv) : option bind :=
  match find (fun b => beqb x (fst b)) e with Some b => Some (snd b) | None => None end.

(** The metavariables of a matcher, in order. *)
Fixpoint vars (p : pat) : list bytes :=
  match p with
  | PTok _ => []
  | PGroup _ l => flat_map vars l
  | PVar x _ => [x]
  | PRep l _ _ => flat_map vars l
  end.

Definition is_literal (t : token) : bool :=
  match t with TInt _ | TStr _ | TBytes _ => true | _ => false end.
Definition fits (frag : bytes) (t : tree) : bool :=
  match t with
  | Leaf (TIdent x) => beqb frag (bs "ident") && negb (beqb x (bs "_"))
  | Leaf k => beqb frag (bs "literal") && is_literal k
  | Group _ _ => false
  end.

Definition match_seq (m : pat -> list tree -> option (benv * list tree)) :=
  fix go (l : list pat) (ts : list tree) : option (benv * list tree) :=
    match l with
    | [] => Some ([], ts)
    | p :: l' =>
        match m p ts with
        | Some (e, r) => match go l' r with Some (e', r') => Some (e ++ e', r') | None => None end
        | None => None
        end
    end.

(** At most [n] iterations. *)
Definition match_rep (body : list tree -> option (benv * list tree)) (sep : option token) :=
  fix loop (n : nat) (ts : list tree) : list benv * list tree :=
    match n with
    | O => ([], ts)
    | S n' =>
        match body ts with
        | None => ([], ts)
        | Some (e, r) =>
            match sep with
            | None => let '(es, r') := loop n' r in (e :: es, r')
            | Some s =>
                match r with
                | Leaf t :: r1 =>
                    if token_eqb t s then
                      match loop n' r1 with
                      | ([], _) => ([e], r)
                      | (es, r') => (e :: es, r')
                      end
                    else ([e], r)
                | _ => ([e], r)
                end
            end
        end
    end.

(** The bindings of a repetition from those of its iterations. *)
Definition gather (xs : list bytes) (es : list benv) : benv :=
  map (fun x => (x, BSeq (flat_map (fun e => match lookup x e with Some b => [b] | None => [] end) es))) xs.

Fixpoint match1 (p : pat) (ts : list tree) : option (benv * list tree) :=
  match p with
  | PTok t =>
      match ts with
      | Leaf t' :: r => if token_eqb t t' then Some ([], r) else None
      | _ => None
      end
  | PGroup d l =>
      match ts with
      | Group d' inner :: r =>
          if delim_eqb d d' then
            match match_seq match1 l inner with Some (e, []) => Some (e, r) | _ => None end
          else None
      | _ => None
      end
  | PVar x frag =>
      match ts with
      | t :: r => if fits frag t then Some ([(x, BTree t)], r) else None
      | [] => None
      end
  | PRep l sep q =>
      let n := match q with Quest => 1%nat | _ => List.length ts end in
      let '(es, r) := match_rep (match_seq match1 l) sep n ts in
      match q, es with
      | Plus, [] => None
      | _, _ => Some (gather (flat_map vars l) es, r)
      end
  end.
Definition match_all (l : list pat) (ts : list tree) : option benv :=
  match match_seq match1 l ts with Some (e, []) => Some e | _ => None end.

(** ** Transcription *)
(** One environment for each iteration. *)
Definition head_of (b : bytes * bind) : list (bytes * bind) :=
  match b with
  | (x, BSeq (v :: _)) => [(x, v)]
  | (x, BSeq []) => []
  | (x, BTree t) => [(x, BTree t)]
  end.
Definition tail_of (b : bytes * bind) : bytes * bind :=
  match b with
  | (x, BSeq (_ :: l)) => (x, BSeq l)
  | b => b
  end.
Fixpoint rows (n : nat) (e : benv) : list benv :=
  match n with
  | O => []
  | S n' => flat_map head_of e :: rows n' (map tail_of e)
  end.
(** How often a repetition is transcribed: as often as its first repeated metavariable was matched. *)
Fixpoint count (xs : list bytes) (e : benv) : option nat :=
  match xs with
  | [] => None
  | x :: xs' => match lookup x e with Some (BSeq l) => Some (List.length l) | _ => count xs' e end
  end.

Definition emit_seq (m : pat -> benv -> option (list tree)) :=
  fix go (l : list pat) (e : benv) : option (list tree) :=
    match l with
    | [] => Some []
    | p :: l' =>
        match m p e with
        | Some a => match go l' e with Some b => Some (a ++ b) | None => None end
        | None => None
        end
    end.
Definition emit_rep (body : benv -> option (list tree)) (sep : option token) :=
  fix loop (es : list benv) : option (list tree) :=
    match es with
    | [] => Some []
    | e :: es' =>
        match body e, loop es' with
        | Some a, Some b =>
            Some (a ++ match es', sep with _ :: _, Some s => [Leaf s] | _, _ => [] end ++ b)
        | _, _ => None
        end
    end.
Fixpoint emit1 (p : pat) (e : benv) : option (list tree) :=
  match p with
  | PTok t => Some [Leaf t]
  | PGroup d l => match emit_seq emit1 l e with Some b => Some [Group d b] | None => None end
  | PVar x _ => match lookup x e with Some (BTree t) => Some [t] | _ => None end
  | PRep l sep _ =>
      match count (flat_map vars l) e with
      | Some n => emit_rep (emit_seq emit1 l) sep (rows n e)
      | None => None
      end
  end.
Definition emit (l : list pat) (e : benv) : option (list tree) := emit_seq emit1 l e.

(** ** Definitions and invocations *)
(** [macro_rules! name { { matcher } => { transcriber }; }]: the (only) rule of a macro. *)
Fixpoint rule_of (name : string) (file : list tree) : option (list pat * list pat) :=
  match file with
  | Leaf a :: Leaf b :: Leaf c :: Group Brace [Group Brace lhs; Leaf arrow; Group Brace rhs; Leaf semi] :: r =>
      if token_eqb a (ident "macro_rules") && token_eqb b (punct "!") && token_eqb c (ident name)
         && token_eqb arrow (punct "=>") && token_eqb semi (punct ";")
      then match pats_of true 100 lhs, pats_of false 1000 rhs with Some p, Some t => Some (p, t) | _, _ => None end
      else rule_of name r
  | _ :: _ :: _ :: _ :: r => rule_of name r
  | _ => None
  end.
(** A file that consists of one invocation, [name! { ... }]. *)
Definition invocation_of (name : string) (file : list tree) : option (list tree) :=
  match file with
  | [Leaf a; Leaf b; Group Brace body] =>
      if token_eqb a (ident name) && token_eqb b (punct "!") then Some body else None
  | _ => None
  end.
Definition expand (rule : list pat * list pat) (body : list tree) : option (list tree) :=
  match match_all (fst rule) body with Some e => emit (snd rule) e | None => None end.

(** The items that a source file expands to, with the macros of another file. *)
Definition expand_file (name : string) (macros file : list string) : option (list tree) :=
  match trees_of macros, trees_of file with
  | Some m, Some f =>
      match rule_of name m, invocation_of name f with
      | Some rule, Some body => expand rule body
      | _, _ => None
      end
  | _, _ => None
  end.
