(** The part of Rust's items and expressions that the macros of the crate generate: parsing of token
    trees and evaluation.

    Models the compiler and [core], not the crate.  Reference: The Rust Reference, chapters
    "Expressions" (precedence of operators, slices, short circuit), "Items" and "Attributes". *)
From Coq Require Import List NArith Bool String.
From Verif Require Import Base Rust Macro.
Import ListNotations.
Local Open Scope N_scope.

(** ** Expressions *)
Inductive expr : Set :=
| EInt (n : N)
| EStr (s : bytes)
| EBytes (s : bytes)
| EPath (p : list bytes)
| ECall (f : list bytes) (a : expr)
| ELen (e : expr)                                      (* e.len() *)
| ESlice (e : expr) (lo hi : option expr)              (* e[lo..hi] *)
| ERef (e : expr)                                      (* &e *)
| EAdd (a b : expr)
| EGe (a b : expr)
| EEq (a b : expr)
| EAnd (a b : expr)
| EOr (a b : expr).

(** A path [a::b::c]. *)
Fixpoint path_of (ts : list tree) : list bytes * list tree :=
  match ts with
  | Leaf (TIdent x) :: r =>
      match r with
      | Leaf c :: r1 => if token_eqb c (punct "::") then let '(p, r2) := path_of r1 in (x :: p, r2) else ([x], r)
      | _ => ([x], r)
      end
  | _ => ([], ts)
  end.

(** Binary operators by level, from the loosest: [||], [&&], comparisons, [+]. *)
Definition operator (lvl : nat) (t : token) : option (expr -> expr -> expr) :=
  match lvl with
  | 0%nat => if token_eqb t (punct "||") then Some EOr else None
  | 1%nat => if token_eqb t (punct "&&") then Some EAnd else None
  | 2%nat => if token_eqb t (punct ">=") then Some EGe else if token_eqb t (punct "==") then Some EEq else None
  | 3%nat => if token_eqb t (punct "+") then Some EAdd else None
  | _ => None
  end.
(** Comparisons do not associate. *)
Definition associates (lvl : nat) : bool := negb (Nat.eqb lvl 2).

Fixpoint expr_at (fuel : nat) (lvl : nat) (ts : list tree) : option (expr * list tree) :=
  match fuel with
  | O => None
  | S n =>
      match lvl with
      | 0%nat | 1%nat | 2%nat | 3%nat =>
          match expr_at n (S lvl) ts with Some (a, r) => more n lvl a r | None => None end
      | 4%nat =>
          match ts with
          | Leaf t :: r =>
              if token_eqb t (punct "&") then
                match expr_at n 4 r with Some (a, r') => Some (ERef a, r') | None => None end
              else match expr_at n 5 ts with Some (a, r') => postfix n a r' | None => None end
          | _ => match expr_at n 5 ts with Some (a, r') => postfix n a r' | None => None end
          end
      | _ =>
          match ts with
          | Leaf (TInt k) :: r => Some (EInt k, r)
          | Leaf (TStr s) :: r => Some (EStr s, r)
          | Leaf (TBytes s) :: r => Some (EBytes s, r)
          | Leaf (TIdent _) :: _ =>
              let '(p, r) := path_of ts in
              match r with
              | Group Paren args :: r' =>
                  match expr_at n 0 args with Some (a, []) => Some (ECall p a, r') | _ => None end
              | _ => Some (EPath p, r)
              end
          | Group Paren l :: r =>
              match expr_at n 0 l with Some (a, []) => Some (a, r) | _ => None end
          | _ => None
          end
      end
  end
(** The rest of a sequence of operators of one level, to the left of which is [a]. *)
with more (fuel : nat) (lvl : nat) (a : expr) (ts : list tree) : option (expr * list tree) :=
  match fuel with
  | O => None
  | S n =>
      match ts with
      | Leaf t :: r =>
          match operator lvl t with
          | Some op =>
              match expr_at n (S lvl) r with
              | Some (b, r') => if associates lvl then more n lvl (op a b) r' else Some (op a b, r')
              | None => None
              end
          | None => Some (a, ts)
          end
      | _ => Some (a, ts)
      end
  end
(** Method calls and slices behind [a]. *)
with postfix (fuel : nat) (a : expr) (ts : list tree) : option (expr * list tree) :=
  match fuel with
  | O => None
  | S n =>
      match ts with
      | Leaf dot :: r0 =>
          if token_eqb dot (punct ".") then
            match r0 with
            | Leaf (TIdent x) :: Group Paren [] :: r => if beqb x (bs "len") then postfix n (ELen a) r else None
            | _ => None
            end
          else Some (a, ts)
      | Group Bracket idx :: r =>
          match idx with
          | [] => None
          | Leaf t :: hi =>
              if token_eqb t (punct "..") then
                match hi with
                | [] => postfix n (ESlice a None None) r
                | _ :: _ =>
                    match expr_at n 0 hi with
                    | Some (h, []) => postfix n (ESlice a None (Some h)) r
                    | _ => None
                    end
                end
              else
                match expr_at n 0 idx with
                | Some (l, Leaf t' :: hi') =>
                    if token_eqb t' (punct "..") then
                      match hi' with
                      | [] => postfix n (ESlice a (Some l) None) r
                      | _ :: _ =>
                          match expr_at n 0 hi' with
                          | Some (h, []) => postfix n (ESlice a (Some l) (Some h)) r
                          | _ => None
                          end
                      end
                    else None
                | _ => None
                end
          | _ => None
          end
      | _ => Some (a, ts)
      end
  end.

(** ** Values *)
Inductive value : Set :=
| VInt (n : N)                                    (* usize *)
| VBool (b : bool)
| VBytes (s : bytes)                              (* &[u8] *)
| VStr (s : bytes)                                (* &str *)
| VVariant (ty : list bytes) (v : bytes)          (* a variant of an enum *)
| VNone
| VSome (v : value).

(** [Stuck]: outside the modelled part (or rejected by the compiler). *)
Inductive outcome : Set :=
| Value (v : value)
| Panic
| Stuck.

(** The machine: whether the addition of [usize] is checked, and its width. *)
Record target : Set := mktarget { checked : bool; width : N }.

Definition add_usize (m : target) (a b : N) : outcome :=
  if a + b <? 2 ^ width m then Value (VInt (a + b))
  else if checked m then Panic else Value (VInt ((a + b) mod 2 ^ width m)).
(** [&s[lo..hi]]. *)
Definition slice (s : bytes) (lo hi : N) : outcome :=
  if (lo <=? hi) && (hi <=? lenN s) then Value (VBytes (takeN (hi - lo) (dropN lo s))) else Panic.

Definition is_path (p : list bytes) (s : string) : bool :=
  match p with [x] => beqb x (bs s) | _ => false end.
Arguments is_path p s%string_scope.
(** The type that [Self] stands for, and the variant: [Self::X], [crate::Kind::X]. *)
Fixpoint split_last (p : list bytes) : list bytes * bytes :=
  match p with
  | [] => ([], [])
  | [x] => ([], x)
  | x :: p' => let '(a, b) := split_last p' in (x :: a, b)
  end.
Definition variant (self : list bytes) (p : list bytes) : outcome :=
  let '(ty, v) := split_last p in
  match ty with
  | [] => Stuck
  | _ :: _ => if is_path ty "Self" then Value (VVariant self v) else Value (VVariant ty v)
  end.

(** [self]: the type of the impl block; [env]: the parameters. *)
Fixpoint eval (m : target) (self : list bytes) (env : list (bytes * value)) (e : expr) : outcome :=
  match e with
  | EInt n => Value (VInt n)
  | EStr s => Value (VStr s)
  | EBytes s => Value (VBytes s)
  | EPath p =>
      match p with
      | [x] =>
          match find (fun b => beqb x (fst b)) env with
          | Some b => Value (snd b)
          | None => if is_path p "None" then Value VNone else Stuck
          end
      | _ => variant self p
      end
  | ECall f a =>
      if is_path f "Some" then match eval m self env a with Value v => Value (VSome v) | o => o end else Stuck
  | ELen a =>
      match eval m self env a with Value (VBytes s) => Value (VInt (lenN s)) | Value _ => Stuck | o => o end
  | ESlice a lo hi =>
      match eval m self env a with
      | Value (VBytes s) =>
          match match lo with Some l => eval m self env l | None => Value (VInt 0) end with
          | Value (VInt l) =>
              match match hi with Some h => eval m self env h | None => Value (VInt (lenN s)) end with
              | Value (VInt h) => slice s l h
              | Value _ => Stuck
              | o => o
              end
          | Value _ => Stuck
          | o => o
          end
      | Value _ => Stuck
      | o => o
      end
  | ERef a => eval m self env a
  | EAdd a b =>
      match eval m self env a with
      | Value (VInt x) =>
          match eval m self env b with Value (VInt y) => add_usize m x y | Value _ => Stuck | o => o end
      | Value _ => Stuck
      | o => o
      end
  | EGe a b =>
      match eval m self env a with
      | Value (VInt x) =>
          match eval m self env b with Value (VInt y) => Value (VBool (y <=? x)) | Value _ => Stuck | o => o end
      | Value _ => Stuck
      | o => o
      end
  | EEq a b =>
      match eval m self env a with
      | Value (VBytes x) =>
          match eval m self env b with Value (VBytes y) => Value (VBool (beqb x y)) | Value _ => Stuck | o => o end
      | Value _ => Stuck
      | o => o
      end
  | EAnd a b =>
      match eval m self env a with
      | Value (VBool true) =>
          match eval m self env b with Value (VBool y) => Value (VBool y) | Value _ => Stuck | o => o end
      | Value (VBool false) => Value (VBool false)
      | Value _ => Stuck
      | o => o
      end
  | EOr a b =>
      match eval m self env a with
      | Value (VBool true) => Value (VBool true)
      | Value (VBool false) =>
          match eval m self env b with Value (VBool y) => Value (VBool y) | Value _ => Stuck | o => o end
      | Value _ => Stuck
      | o => o
      end
  end.

(** ** Function bodies *)
Inductive body : Set :=
| Chain (l : list (expr * expr)) (e : expr)            (* if c { return r; } ... e *)
| Match (x : expr) (arms : list (list bytes * expr)).    (* match x { path => e, ... }; [_] is the path [_] *)

(** Enough for every expression at the start of [ts]. *)
Definition fuel_for (ts : list tree) : nat := (30 + List.length ts)%nat.

(** [if c { return r; }], repeated, and the last expression. *)
Fixpoint chain_of (fuel : nat) (ts : list tree) : option (list (expr * expr) * expr) :=
  match fuel with
  | O => None
  | S n =>
      match ts with
      | Leaf i :: r =>
          if token_eqb i (ident "if") then
            match expr_at (fuel_for r) 0 r with
            | Some (c, Group Brace (Leaf ret :: b) :: r') =>
                if token_eqb ret (ident "return") then
                  match expr_at (fuel_for b) 0 b with
                  | Some (e, [Leaf semi]) =>
                      if token_eqb semi (punct ";") then
                        match chain_of n r' with Some (l, f) => Some ((c, e) :: l, f) | None => None end
                      else None
                  | _ => None
                  end
                else None
            | _ => None
            end
          else match expr_at (fuel_for ts) 0 ts with Some (e, []) => Some ([], e) | _ => None end
      | _ => match expr_at (fuel_for ts) 0 ts with Some (e, []) => Some ([], e) | _ => None end
      end
  end.
(** [path => e,] repeated. *)
Fixpoint arms_of (fuel : nat) (ts : list tree) : option (list (list bytes * expr)) :=
  match fuel with
  | O => None
  | S n =>
      match ts with
      | [] => Some []
      | _ :: _ =>
          match path_of ts with
          | (p, Leaf arrow :: r) =>
              if token_eqb arrow (punct "=>") then
                match expr_at (fuel_for r) 0 r with
                | Some (e, Leaf comma :: r') =>
                    if token_eqb comma (punct ",") then
                      match arms_of n r' with Some l => Some ((p, e) :: l) | None => None end
                    else None
                | _ => None
                end
              else None
          | _ => None
          end
      end
  end.
Definition body_of (ts : list tree) : option body :=
  match ts with
  | Leaf m :: Leaf (TIdent x) :: [Group Brace arms] =>
      if token_eqb m (ident "match") then
        match arms_of (S (List.length arms)) arms with Some l => Some (Match (EPath [x]) l) | None => None end
      else None
  | _ => match chain_of (S (List.length ts)) ts with Some (l, e) => Some (Chain l e) | None => None end
  end.

(** Calling a function: [env] has its parameters. *)
Fixpoint run_chain (m : target) (self : list bytes) (env : list (bytes * value)) (l : list (expr * expr)) (e : expr) : outcome :=
  match l with
  | [] => eval m self env e
  | (c, r) :: l' =>
      match eval m self env c with
      | Value (VBool true) => eval m self env r
      | Value (VBool false) => run_chain m self env l' e
      | Value _ => Stuck
      | o => o
      end
  end.
Fixpoint paths_eqb (a b : list bytes) : bool :=
  match a, b with
  | [], [] => true
  | x :: a', y :: b' => beqb x y && paths_eqb a' b'
  | _, _ => false
  end.
(** The first arm that matches. *)
Fixpoint run_arms (m : target) (self : list bytes) (env : list (bytes * value)) (v : value) (arms : list (list bytes * expr)) : outcome :=
  match arms with
  | [] => Stuck
  | (p, e) :: arms' =>
      if is_path p "_" then eval m self env e
      else
        match variant self p, v with
        | Value (VVariant ty x), VVariant ty' x' =>
            if paths_eqb ty ty' && beqb x x' then eval m self env e else run_arms m self env v arms'
        | _, _ => Stuck
        end
  end.
Definition run_body (m : target) (self : list bytes) (env : list (bytes * value)) (b : body) : outcome :=
  match b with
  | Chain l e => run_chain m self env l e
  | Match x arms => match eval m self env x with Value v => run_arms m self env v arms | o => o end
  end.

(** ** Items *)
Record fn_item : Set := mkfn { fn_name : bytes; fn_params : list tree; fn_body : body }.
Record variant_item : Set := mkvariant { v_attrs : list (list tree); v_name : bytes }.
Inductive item : Set :=
| Enum (attrs : list (list tree)) (name : bytes) (variants : list variant_item)
| Impl (self : list bytes) (fns : list fn_item).

(** [#[...]], repeated. *)
Fixpoint attrs_of (ts : list tree) : list (list tree) * list tree :=
  match ts with
  | Leaf h :: Group Bracket a :: r =>
      if token_eqb h (punct "#") then let '(l, r') := attrs_of r in (a :: l, r') else ([], ts)
  | _ => ([], ts)
  end.
(** Attributes, then [X,], repeated. *)
Fixpoint variants_of (fuel : nat) (ts : list tree) : option (list variant_item) :=
  match fuel with
  | O => None
  | S n =>
      match ts with
      | [] => Some []
      | _ :: _ =>
          match attrs_of ts with
          | (a, Leaf (TIdent x) :: Leaf comma :: r) =>
              if token_eqb comma (punct ",") then
                match variants_of n r with Some l => Some (mkvariant a x :: l) | None => None end
              else None
          | _ => None
          end
      end
  end.
(** [pub], [pub(crate)] and [const]. *)
Definition drop_tok (t : token) (ts : list tree) : list tree :=
  match ts with Leaf x :: r => if token_eqb x t then r else ts | _ => ts end.
Definition drop_vis (ts : list tree) : list tree :=
  match ts with
  | Leaf x :: Group Paren _ :: r => if token_eqb x (ident "pub") then r else ts
  | _ => drop_tok (ident "pub") ts
  end.
(** Up to the next group in braces: the result type. *)
Fixpoint to_brace (ts : list tree) : option (list tree * list tree) :=
  match ts with
  | Group Brace b :: r => Some (b, r)
  | _ :: r => to_brace r
  | [] => None
  end.
Fixpoint fns_of (fuel : nat) (ts : list tree) : option (list fn_item) :=
  match fuel with
  | O => None
  | S n =>
      match ts with
      | [] => Some []
      | _ :: _ =>
          match drop_tok (ident "const") (drop_vis (snd (attrs_of ts))) with
          | Leaf f :: Leaf (TIdent x) :: Group Paren ps :: r =>
              if token_eqb f (ident "fn") then
                match to_brace r with
                | Some (b, r') =>
                    match body_of b, fns_of n r' with
                    | Some bd, Some l => Some (mkfn x ps bd :: l)
                    | _, _ => None
                    end
                | None => None
                end
              else None
          | _ => None
          end
      end
  end.
Fixpoint items_of (fuel : nat) (ts : list tree) : option (list item) :=
  match fuel with
  | O => None
  | S n =>
      match ts with
      | [] => Some []
      | _ :: _ =>
          let '(a, r) := attrs_of ts in
          match drop_vis r with
          | Leaf k :: r1 =>
              if token_eqb k (ident "enum") then
                match r1 with
                | Leaf (TIdent x) :: Group Brace vs :: r2 =>
                    match variants_of (S (List.length vs)) vs, items_of n r2 with
                    | Some l, Some is => Some (Enum a x l :: is)
                    | _, _ => None
                    end
                | _ => None
                end
              else if token_eqb k (ident "impl") then
                match path_of r1 with
                | (self, Group Brace fs :: r2) =>
                    match fns_of (S (List.length fs)) fs, items_of n r2 with
                    | Some l, Some is => Some (Impl self l :: is)
                    | _, _ => None
                    end
                | _ => None
                end
              else None
          | _ => None
          end
      end
  end.

(** The function [name] of the impl block of a type. *)
Definition find_fn (self : list bytes) (name : string) (is : list item) : option fn_item :=
  let fns := flat_map (fun i => match i with Impl s l => if paths_eqb s self then l else [] | _ => [] end) is in
  find (fun f => beqb (fn_name f) (bs name)) fns.
Definition find_enum (name : string) (is : list item) : option (list (list tree) * list variant_item) :=
  let es := flat_map (fun i => match i with Enum a x l => if beqb x (bs name) then [(a, l)] else [] | _ => [] end) is in
  match es with e :: _ => Some e | [] => None end.

(** The name of the (only) parameter: [bytes: &[u8]], [&self]. *)
Definition param_of (ps : list tree) : option bytes :=
  match ps with
  | Leaf (TIdent x) :: _ => Some x
  | [Leaf _; Leaf (TIdent x)] => Some x
  | _ => None
  end.
(** Calling a function of the impl block with one argument. *)
Definition call (m : target) (self : list bytes) (is : list item) (name : string) (v : value) : outcome :=
  match find_fn self name is with
  | Some f =>
      match param_of (fn_params f) with
      | Some x => run_body m self [(x, v)] (fn_body f)
      | None => Stuck
      end
  | None => Stuck
  end.

(** ** Documentation attributes *)
(** [concat!(...)] of literals and [stringify!(x)], with or without a last comma. *)
Fixpoint concat_of (fuel : nat) (ts : list tree) : option bytes :=
  match fuel with
  | O => None
  | S n =>
      let next s r :=
        match r with
        | [] => Some s
        | Leaf c :: r' =>
            if token_eqb c (punct ",") then match concat_of n r' with Some t => Some (s ++ t) | None => None end else None
        | _ => None
        end in
      match ts with
      | [] => Some []
      | Leaf (TStr s) :: r => next s r
      | Leaf a :: Leaf b :: Group Paren [Leaf (TIdent x)] :: r =>
          if token_eqb a (ident "stringify") && token_eqb b (punct "!") then next x r else None
      | _ => None
      end
  end.
(** [doc = concat!(...)]. *)
Definition doc_of (attr : list tree) : option bytes :=
  match attr with
  | [Leaf d; Leaf eq; Leaf c; Leaf bang; Group Paren l] =>
      if token_eqb d (ident "doc") && token_eqb eq (punct "=") && token_eqb c (ident "concat") && token_eqb bang (punct "!")
      then concat_of (S (List.length l)) l else None
  | _ => None
  end.
(** [derive(A, B, ...)]. *)
Fixpoint idents_of (ts : list tree) : option (list bytes) :=
  match ts with
  | [] => Some []
  | [Leaf (TIdent x)] => Some [x]
  | Leaf (TIdent x) :: Leaf c :: r =>
      if token_eqb c (punct ",") then match idents_of r with Some l => Some (x :: l) | None => None end else None
  | _ => None
  end.
Definition derives_of (attrs : list (list tree)) : list bytes :=
  flat_map (fun a => match a with
    | [Leaf d; Group Paren l] =>
        if token_eqb d (ident "derive") then match idents_of l with Some x => x | None => [] end else []
    | _ => [] end) attrs.

(** The items of a source file that consists of one invocation of a macro of another file. *)
Definition compile (name : string) (macros file : list string) : list item :=
  match expand_file name macros file with
  | Some ts => match items_of (S (List.length ts)) ts with Some is => is | None => [] end
  | None => []
  end.
Arguments compile name%string_scope macros file.
