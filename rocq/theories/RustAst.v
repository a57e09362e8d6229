(** The part of Rust's functions that /repo/src/readers.rs and the entry points in /repo/src/lib.rs use: syntax trees and their parser.

    Models the compiler, not the crate.  Reference: The Rust Reference, chapters "Expressions"
    (precedence), "Statements", "Patterns" and "Items". *)
From Coq Require Import List NArith Bool String.
From Verif Require Import Base Formats Derive Rust Macro RustEval.
Import ListNotations.
Local Open Scope N_scope.

Inductive ity : Set := U8 | U16 | U32 | U64 | USize | I64.
Inductive binop : Set :=
| OAdd | OSub | OMul | OShl | OShr | OBitAnd | OBitOr | OLt | OGt | OLe | OGe | OEq | ONe | OAnd | OOr.

(** The functions of [std] the code calls by path. *)
Inductive func : Set :=
| FnOk | FnErr | FnSome | FnStart | FnCurrent | FnEnd | FnBufReader | FnMin | FnError
| FnFrom (t : ity) | FnFromLe (t : ity) | FnFromBe (t : ity) | FnFromUtf8Lossy | FnDefault
| FnSelf (name : string).                       (* Self::name; in lib.rs also Cursor::new and File::open *)
(** The methods, by name.  [MUser]: a method of the traits at the end of readers.rs. *)
Inductive meth : Set :=
| MSeek | MRewind | MTell | MRead | MReadExact | MTake | MLines
| MStartsWith | MEndsWith | MContains | MTrim | MLen | MIsEmpty | MEq
| MSame                                          (* as_str, as_slice, as_ref, to_string, iter of an array *)
| MSatSub | MCheckedSub | MClamp | MLeadingZeros
| MIter | MRev | MEnumerate | MMap | MCollect | MTryForEach | MChars | MFind
| MIsControl | MIsWhitespace | MIsSome | MUnwrapOr | MUnwrapOrDefault | MOkOrElse | MRotateRight
| MHolds | MRfind
| MUser (name : string).

Inductive pat : Set :=
| PaWild
| PaIdent (x : string)
| PaInt (n : N)
| PaStr (s : string)
| PaBytes (b : bytes)
| PaSome (p : pat)
| PaTuple (l : list pat)
| PaOr (l : list pat)
| PaFmt (f : FileFormat)
| PaCfg (feature : string) (p : pat).          (* an arm behind #[cfg(feature = "..")] *)

Inductive rex : Set :=
| RInt (n : N)
| RStr (s : string)
| RBytes (b : bytes)
| RChar (n : N)
| RBool (b : bool)
| RVar (x : string)
| RFmt (f : FileFormat)                          (* Self::Variant *)
| RNone
| RMax (t : ity)                                 (* u16::MAX *)
| RInvalidData                                   (* ErrorKind::InvalidData *)
| RNot (e : rex)
| RRef (e : rex)
| RRefMut (e : rex)
| RBin (o : binop) (a b : rex)
| RCast (e : rex) (t : ity)
| RCall (f : func) (args : list rex)
| RMethod (e : rex) (m : meth) (args : list rex)
| RVec (e n : rex)                               (* vec![e; n] *)
| RFormat (s : string) (args : list rex)         (* format!("..", ..) *)
| RIndex (e i : rex)
| RRange (lo hi : option rex)
| RTry (e : rex)
| RIf (c : rex) (t : block) (e : option rex)
| RMatch (e : rex) (arms : list (pat * option rex * rex))
| RBlock (b : block)
| RWhile (c : rex) (b : block)
| RFor (p : pat) (e : rex) (b : block)
| RLoop (b : block)
| RReturn (e : rex)
| RBreak
| RAssign (lhs e : rex)
| ROpAssign (o : binop) (lhs e : rex)
| RTuple (l : list rex)
| RRep (e n : rex)                               (* [e; n] *)
| RArray (l : list rex)
| RClosure (ps : list pat) (e : rex)
| RCfgIf (feature : string) (t e : block)        (* #[cfg(feature = "..")] { t } #[cfg(not(feature = ".."))] { e } *)
(** The constants of a block are visible in all of it. *)
with block : Set := Block (consts : list (string * option ity * rex)) (ss : list stmt) (tail : option rex)
with stmt : Set :=
| SLet (p : pat) (t : option ity) (e : rex)
| SExpr (e : rex).

(** A function: its parameters (the receiver is [self]) and its body. *)
Record fn : Set := mkrfn { f_name : string; f_attrs : list (list tree); f_params : list string; f_body : block }.

(** ** Names *)
Definition str_of (b : bytes) : string := string_of_list_byte b.
Definition ity_of (s : string) : option ity :=
  if String.eqb s "u8" then Some U8 else if String.eqb s "u16" then Some U16 else if String.eqb s "u32" then Some U32
  else if String.eqb s "u64" then Some U64 else if String.eqb s "usize" then Some USize
  else if String.eqb s "i64" then Some I64 else None.
Definition format_of (s : string) : option FileFormat := List.find (fun f => String.eqb (debug f) s) all_formats.
Fixpoint assoc {B} (s : string) (l : list (string * B)) : option B :=
  match l with [] => None | (k, v) :: l' => if String.eqb s k then Some v else assoc s l' end.

Definition meth_table : list (string * meth) :=
  [("seek", MSeek); ("rewind", MRewind); ("stream_position", MTell); ("read", MRead); ("read_exact", MReadExact);
   ("take", MTake); ("lines", MLines); ("starts_with", MStartsWith); ("ends_with", MEndsWith); ("contains", MContains);
   ("trim", MTrim); ("len", MLen); ("is_empty", MIsEmpty); ("eq", MEq); ("as_str", MSame); ("as_slice", MSame);
   ("as_ref", MSame); ("to_string", MSame); ("saturating_sub", MSatSub); ("checked_sub", MCheckedSub); ("clamp", MClamp);
   ("leading_zeros", MLeadingZeros); ("iter", MIter); ("rev", MRev); ("enumerate", MEnumerate); ("map", MMap);
   ("collect", MCollect); ("try_for_each", MTryForEach); ("chars", MChars); ("find", MFind); ("is_control", MIsControl);
   ("is_whitespace", MIsWhitespace); ("is_some", MIsSome); ("unwrap_or", MUnwrapOr); ("unwrap_or_default", MUnwrapOrDefault);
   ("ok_or_else", MOkOrElse); ("rotate_right", MRotateRight); ("holds", MHolds); ("rfind", MRfind)]%string.
Definition meth_of (s : string) : meth := match assoc s meth_table with Some m => m | None => MUser s end.

Definition func_of (p : list string) : option func :=
  match p with
  | [a] => assoc a [("Ok", FnOk); ("Err", FnErr); ("Some", FnSome)]%string
  | [a; b] =>
      if String.eqb a "SeekFrom" then assoc b [("Start", FnStart); ("Current", FnCurrent); ("End", FnEnd)]%string
      else if String.eqb a "BufReader" && String.eqb b "new" then Some FnBufReader
      else if String.eqb a "Error" && String.eqb b "new" then Some FnError
      else if String.eqb a "String" && String.eqb b "from_utf8_lossy" then Some FnFromUtf8Lossy
      else if String.eqb a "Cursor" && String.eqb b "new" then Some (FnSelf "Cursor::new")
      else if String.eqb a "File" && String.eqb b "open" then Some (FnSelf "File::open")
      else if String.eqb a "Self" then (if String.eqb b "default" then Some FnDefault else Some (FnSelf b))
      else match ity_of a with
           | Some t => assoc b [("from", FnFrom t); ("from_le_bytes", FnFromLe t); ("from_be_bytes", FnFromBe t)]%string
           | None => None
           end
  | [a; b; d] => if String.eqb a "std" && String.eqb b "cmp" && String.eqb d "min" then Some FnMin else None
  | _ => None
  end.
Definition value_of_path (p : list string) : option rex :=
  match p with
  | [a] =>
      if String.eqb a "true" then Some (RBool true) else if String.eqb a "false" then Some (RBool false)
      else if String.eqb a "None" then Some RNone else Some (RVar a)
  | [a; b] =>
      if String.eqb a "Self" then match format_of b with Some f => Some (RFmt f) | None => None end
      else if String.eqb a "ErrorKind" && String.eqb b "InvalidData" then Some RInvalidData
      else if String.eqb b "MAX" then match ity_of a with Some t => Some (RMax t) | None => None end
      else None
  | _ => None
  end.

(** Only ASCII string literals. *)
Definition ascii (b : bytes) : bool := forallb (fun x => bval x <? 128) b.

(** ** Patterns *)
Definition is_punct (s : string) (t : tree) : bool := match t with Leaf k => token_eqb k (punct s) | _ => false end.
Definition is_word (s : string) (t : tree) : bool := match t with Leaf k => token_eqb k (ident s) | _ => false end.
Arguments is_punct s%string_scope t.
Arguments is_word s%string_scope t.

(** Splits at the commas of the top level (a last comma is allowed). *)
Fixpoint commas (ts cur : list tree) : list (list tree) :=
  match ts with
  | [] => match cur with [] => [] | _ => [rev cur] end
  | t :: r => if is_punct "," t then rev cur :: commas r [] else commas r (t :: cur)
  end.
Fixpoint all_some {A B} (f : A -> option B) (l : list A) : option (list B) :=
  match l with
  | [] => Some []
  | x :: l' => match f x, all_some f l' with Some y, Some r => Some (y :: r) | _, _ => None end
  end.

Fixpoint pat1 (fuel : nat) (ts : list tree) : option (pat * list tree) :=
  match fuel with
  | O => None
  | S n =>
      match ts with
      | Leaf (TInt k) :: r => Some (PaInt k, r)
      | Leaf (TStr s) :: r => if ascii s then Some (PaStr (str_of s), r) else None
      | Leaf (TBytes b) :: r => Some (PaBytes b, r)
      | Leaf (TIdent x) :: r =>
          if is_word "_" (Leaf (TIdent x)) then Some (PaWild, r)
          else if is_word "mut" (Leaf (TIdent x)) then pat1 n r
          else
            let '(p, r1) := path_of ts in
            match map str_of p with
            | [a] =>
                match r1 with
                | Group Paren l :: r2 =>
                    if String.eqb a "Some" then
                      match pat1 n l with Some (q, []) => Some (PaSome q, r2) | _ => None end
                    else None
                | _ => Some (PaIdent a, r1)
                end
            | [a; b] =>
                if String.eqb a "Self" then match format_of b with Some f => Some (PaFmt f, r1) | None => None end
                else None
            | _ => None
            end
      | Leaf (TPunct _) as t :: r => if is_punct "&" t then pat1 n r else None
      | Group Paren l :: r =>
          match all_some (fun ts' => match pat1 n ts' with Some (q, []) => Some q | _ => None end) (commas l []) with
          | Some ps => Some (PaTuple ps, r)
          | None => None
          end
      | _ => None
      end
  end.
(** Alternatives [p | q | ...]. *)
Fixpoint pat_or (fuel : nat) (ts : list tree) : option (list pat * list tree) :=
  match fuel with
  | O => None
  | S n =>
      match pat1 n ts with
      | Some (p, t :: r) =>
          if is_punct "|" t then match pat_or n r with Some (ps, r') => Some (p :: ps, r') | None => None end
          else Some ([p], t :: r)
      | Some (p, []) => Some ([p], [])
      | None => None
      end
  end.
Definition pat_of (ts : list tree) : option (pat * list tree) :=
  match pat_or (30 + List.length ts) ts with
  | Some ([p], r) => Some (p, r)
  | Some (ps, r) => Some (PaOr ps, r)
  | None => None
  end.

(** ** Expressions *)
(** Levels from the loosest: ranges 0, [||] 1, [&&] 2, comparisons 3, [|] 4, [&] 5, shifts 6, [+ -] 7,
    [*] 8, casts 9, prefix operators 10. *)
Definition bin_of (lvl : nat) (t : tree) : option binop :=
  match lvl with
  | 1%nat => if is_punct "||" t then Some OOr else None
  | 2%nat => if is_punct "&&" t then Some OAnd else None
  | 3%nat =>
      if is_punct "<" t then Some OLt else if is_punct ">" t then Some OGt else if is_punct "<=" t then Some OLe
      else if is_punct ">=" t then Some OGe else if is_punct "==" t then Some OEq
      else if is_punct "!=" t then Some ONe else None
  | 4%nat => if is_punct "|" t then Some OBitOr else None
  | 5%nat => if is_punct "&" t then Some OBitAnd else None
  | 6%nat => if is_punct "<<" t then Some OShl else if is_punct ">>" t then Some OShr else None
  | 7%nat => if is_punct "+" t then Some OAdd else if is_punct "-" t then Some OSub else None
  | 8%nat => if is_punct "*" t then Some OMul else None
  | _ => None
  end.
Definition op_assign (t : tree) : option binop := if is_punct "+=" t then Some OAdd else if is_punct "-=" t then Some OSub else None.

(** Splits at the first [;] of the top level. *)
Fixpoint semi_split (ts cur : list tree) : option (list tree * list tree) :=
  match ts with
  | [] => None
  | t :: r => if is_punct ";" t then Some (rev cur, r) else semi_split r (t :: cur)
  end.
(** Up to the first [=] of the top level: a type (only a single name is kept). *)
Fixpoint to_eq (ts cur : list tree) : option (list tree * list tree) :=
  match ts with
  | [] => None
  | t :: r => if is_punct "=" t then Some (rev cur, r) else to_eq r (t :: cur)
  end.
Definition type_of (ts : list tree) : option ity :=
  match ts with [Leaf (TIdent x)] => ity_of (str_of x) | _ => None end.

Definition stops_expr (ts : list tree) : bool :=
  match ts with [] => true | t :: _ => is_punct ";" t || is_punct "," t || is_punct "=>" t end.
Definition is_block_like (e : rex) : bool :=
  match e with RIf _ _ _ | RMatch _ _ | RBlock _ | RWhile _ _ | RFor _ _ _ | RLoop _ => true | _ => false end.

(** The parameter of a closure, up to the closing bar. *)
Definition pat_of_closure (ts : list tree) : option (list pat * list tree) :=
  match pat1 (5 + List.length ts) ts with
  | Some (p, t :: r) => if is_punct "|" t then Some ([p], r) else None
  | _ => None
  end.
(** [#[cfg(feature = "x")]]. *)
Definition feature_attr (a : list tree) : option string :=
  match a with
  | [Leaf k; Group Paren [Leaf f; Leaf e; Leaf (TStr s)]] =>
      if token_eqb k (ident "cfg") && token_eqb f (ident "feature") && token_eqb e (punct "=") then Some (str_of s) else None
  | _ => None
  end.
(** [#[cfg(not(feature = "x"))]]. *)
Definition not_feature_attr (a : list tree) : option string :=
  match a with
  | [Leaf k; Group Paren [Leaf nt; Group Paren [Leaf f; Leaf e; Leaf (TStr s)]]] =>
      if token_eqb k (ident "cfg") && token_eqb nt (ident "not") && token_eqb f (ident "feature") && token_eqb e (punct "=")
      then Some (str_of s) else None
  | _ => None
  end.

Fixpoint p_expr (fuel : nat) (lvl : nat) (ts : list tree) : option (rex * list tree) :=
  match fuel with
  | O => None
  | S n =>
      match lvl with
      | 0%nat =>
          (* ranges: lo..hi, lo.., ..hi *)
          match ts with
          | t :: r =>
              if is_punct ".." t then
                if stops_expr r then Some (RRange None None, r)
                else match p_expr n 1 r with Some (h, r') => Some (RRange None (Some h), r') | None => None end
              else
                match p_expr n 1 ts with
                | Some (a, t1 :: r1) =>
                    if is_punct ".." t1 then
                      if stops_expr r1 then Some (RRange (Some a) None, r1)
                      else match r1 with
                           | Group Brace _ :: _ => Some (RRange (Some a) None, r1)
                           | _ => match p_expr n 1 r1 with Some (h, r') => Some (RRange (Some a) (Some h), r') | None => None end
                           end
                    else if is_punct "=" t1 then
                      match p_expr n 0 r1 with Some (b, r') => Some (RAssign a b, r') | None => None end
                    else match op_assign t1 with
                    | Some o => match p_expr n 0 r1 with Some (b, r') => Some (ROpAssign o a b, r') | None => None end
                    | None => Some (a, t1 :: r1)
                    end
                | x => x
                end
          | [] => None
          end
      | 1%nat | 2%nat | 3%nat | 4%nat | 5%nat | 6%nat | 7%nat | 8%nat =>
          match p_expr n (S lvl) ts with Some (a, r) => p_more n lvl a r | None => None end
      | 9%nat => match p_expr n 10 ts with Some (a, r) => p_casts n a r | None => None end
      | 10%nat =>
          match ts with
          | t :: r =>
              if is_punct "!" t then match p_expr n 10 r with Some (a, r') => Some (RNot a, r') | None => None end
              else if is_punct "&" t then
                match r with
                | m :: r1 =>
                    if is_word "mut" m then match p_expr n 10 r1 with Some (a, r') => Some (RRefMut a, r') | None => None end
                    else match p_expr n 10 r with Some (a, r') => Some (RRef a, r') | None => None end
                | [] => None
                end
              else match p_prim n ts with Some (a, r') => p_post n a r' | None => None end
          | [] => None
          end
      | _ => None
      end
  end
with p_more (fuel : nat) (lvl : nat) (a : rex) (ts : list tree) : option (rex * list tree) :=
  match fuel with
  | O => None
  | S n =>
      match ts with
      | t :: r =>
          match bin_of lvl t with
          | Some o =>
              match p_expr n (S lvl) r with
              | Some (b, r') => if Nat.eqb lvl 3 then Some (RBin o a b, r') else p_more n lvl (RBin o a b) r'
              | None => None
              end
          | None => Some (a, ts)
          end
      | [] => Some (a, ts)
      end
  end
with p_casts (fuel : nat) (a : rex) (ts : list tree) : option (rex * list tree) :=
  match fuel with
  | O => None
  | S n =>
      match ts with
      | t :: ty :: r =>
          if is_word "as" t then
            match type_of [ty] with Some i => p_casts n (RCast a i) r | None => None end
          else Some (a, ts)
      | _ => Some (a, ts)
      end
  end
(** Method calls, [?] and indices behind [a]. *)
with p_post (fuel : nat) (a : rex) (ts : list tree) : option (rex * list tree) :=
  match fuel with
  | O => None
  | S n =>
      match ts with
      | Group Bracket idx :: r =>
          match p_expr n 0 idx with Some (i, []) => p_post n (RIndex a i) r | _ => None end
      | t :: r =>
          if is_punct "?" t then p_post n (RTry a) r
          else if is_punct "." t then
            match r with
            | Leaf (TIdent m) :: Group Paren args :: r' =>
                match p_args n args with Some l => p_post n (RMethod a (meth_of (str_of m)) l) r' | None => None end
            | _ => None
            end
          else Some (a, ts)
      | [] => Some (a, ts)
      end
  end
with p_args (fuel : nat) (ts : list tree) : option (list rex) :=
  match fuel with
  | O => None
  | S n =>
      match ts with
      | [] => Some []
      | _ =>
          match p_expr n 0 ts with
          | Some (a, []) => Some [a]
          | Some (a, t :: r) =>
              if is_punct "," t then match p_args n r with Some l => Some (a :: l) | None => None end else None
          | None => None
          end
      end
  end
with p_prim (fuel : nat) (ts : list tree) : option (rex * list tree) :=
  match fuel with
  | O => None
  | S n =>
      match ts with
      | Leaf (TInt k) :: r => Some (RInt k, r)
      | Leaf (TStr s) :: r => if ascii s then Some (RStr (str_of s), r) else None
      | Leaf (TBytes b) :: r => Some (RBytes b, r)
      | Leaf (TChar k) :: r => Some (RChar k, r)
      | Group Brace b :: r => match p_block n b with Some x => Some (RBlock x, r) | None => None end
      | Group Paren l :: r =>
          match p_args n l with
          | Some [a] => if existsb (is_punct ",") l then Some (RTuple [a], r) else Some (a, r)
          | Some as_ => Some (RTuple as_, r)
          | None => None
          end
      | Group Bracket l :: r =>
          match semi_split l [] with
          | Some (a, b) =>
              match p_expr n 0 a, p_expr n 0 b with
              | Some (x, []), Some (y, []) => Some (RRep x y, r)
              | _, _ => None
              end
          | None => match p_args n l with Some as_ => Some (RArray as_, r) | None => None end
          end
      | Leaf (TIdent x) as t :: r =>
          if is_word "if" t && (match r with l :: _ => is_word "let" l | [] => false end) then
            (* [if let p = e { .. } else ..]: a match with two arms *)
            match pat_of (skipn 1 r) with
            | Some (p, eq :: r1) =>
                if is_punct "=" eq then
                  match p_expr n 1 r1 with
                  | Some (e, Group Brace b :: el :: r2) =>
                      match (if is_word "else" el then p_block n b else None), p_prim n r2 with
                      | Some bt, Some (x, r3) =>
                          if is_block_like x then Some (RMatch e [(p, None, RBlock bt); (PaWild, None, x)], r3) else None
                      | _, _ => None
                      end
                  | _ => None
                  end
                else None
            | _ => None
            end
          else if is_word "if" t then
            match p_expr n 1 r with
            | Some (c, Group Brace b :: r1) =>
                match p_block n b with
                | Some bt =>
                    match r1 with
                    | e :: r2 =>
                        if is_word "else" e then
                          match p_prim n r2 with
                          | Some (x, r3) => if is_block_like x then Some (RIf c bt (Some x), r3) else None
                          | None => None
                          end
                        else Some (RIf c bt None, r1)
                    | [] => Some (RIf c bt None, r1)
                    end
                | None => None
                end
            | _ => None
            end
          else if is_word "match" t then
            match p_expr n 1 r with
            | Some (e, Group Brace b :: r1) => match p_arms n b with Some l => Some (RMatch e l, r1) | None => None end
            | _ => None
            end
          else if is_word "while" t then
            match p_expr n 1 r with
            | Some (c, Group Brace b :: r1) => match p_block n b with Some x => Some (RWhile c x, r1) | None => None end
            | _ => None
            end
          else if is_word "loop" t then
            match r with
            | Group Brace b :: r1 => match p_block n b with Some x => Some (RLoop x, r1) | None => None end
            | _ => None
            end
          else if is_word "for" t then
            match pat_of r with
            | Some (p, i :: r1) =>
                if is_word "in" i then
                  match p_expr n 0 r1 with
                  | Some (e, Group Brace b :: r2) => match p_block n b with Some x => Some (RFor p e x, r2) | None => None end
                  | _ => None
                  end
                else None
            | _ => None
            end
          else if is_word "return" t then match p_expr n 0 r with Some (e, r') => Some (RReturn e, r') | None => None end
          else if is_word "break" t then Some (RBreak, r)
          else
            match r with
            | bang :: Group d l :: r1 =>
                if is_punct "!" bang then
                  if String.eqb (str_of x) "vec" then
                    match semi_split l [] with
                    | Some (a, b) =>
                        match p_expr n 0 a, p_expr n 0 b with
                        | Some (x, []), Some (y, []) => Some (RVec x y, r1)
                        | _, _ => None
                        end
                    | None => None
                    end
                  else if String.eqb (str_of x) "format" then
                    match p_args n l with Some (RStr s :: as_) => Some (RFormat s as_, r1) | _ => None end
                  else None
                else p_path n ts
            | _ => p_path n ts
            end
      | t :: r =>
          if is_punct "|" t then
            match pat_of_closure r with
            | Some (ps, r1) => match p_expr n 0 r1 with Some (e, r2) => Some (RClosure ps e, r2) | None => None end
            | None => None
            end
          else if is_punct "||" t then
            match p_expr n 0 r with Some (e, r2) => Some (RClosure [] e, r2) | None => None end
          else None
      | [] => None
      end
  end
(** A path, or a call of one. *)
with p_path (fuel : nat) (ts : list tree) : option (rex * list tree) :=
  match fuel with
  | O => None
  | S n =>
      let '(p, r) := path_of ts in
      let p := map str_of p in
      match r with
      | Group Paren args :: r' =>
          match func_of p, p_args n args with
          | Some f, Some l => Some (RCall f l, r')
          | _, _ => None
          end
      | _ => match value_of_path p with Some e => Some (e, r) | None => None end
      end
  end
with p_arms (fuel : nat) (ts : list tree) : option (list (pat * option rex * rex)) :=
  match fuel with
  | O => None
  | S n =>
      match ts with
      | [] => Some []
      | _ =>
          let arm p g r :=
            match p_expr n 0 r with
            | Some (e, r1) =>
                let rest := match r1 with t :: r2 => if is_punct "," t then Some r2 else if is_block_like e then Some r1 else None
                                        | [] => Some [] end in
                match rest with
                | Some r2 => match p_arms n r2 with Some l => Some ((p, g, e) :: l) | None => None end
                | None => None
                end
            | None => None
            end in
          let '(at_, ts1) := attrs_of ts in
          match pat_of ts1 with
          | Some (p, t :: r) =>
              let p := fold_right (fun a q => match feature_attr a with Some x => PaCfg x q | None => q end) p at_ in
              if is_punct "=>" t then arm p None r
              else if is_word "if" t then
                match p_expr n 1 r with
                | Some (g, a :: r1) => if is_punct "=>" a then arm p (Some g) r1 else None
                | _ => None
                end
              else None
          | _ => None
          end
      end
  end
with p_block (fuel : nat) (ts : list tree) : option block :=
  match fuel with
  | O => None
  | S n =>
      match ts with
      | [] => Some (Block [] [] None)
      | t :: r =>
          if is_punct "#" t then
            match r with
            | [Group Bracket a; Group Brace b1; Leaf h; Group Bracket a'; Group Brace b2] =>
                match feature_attr a, not_feature_attr a', p_block n b1, p_block n b2 with
                | Some x, Some y, Some k1, Some k2 =>
                    if token_eqb h (punct "#") && String.eqb x y then Some (Block [] [] (Some (RCfgIf x k1 k2))) else None
                | _, _, _, _ => None
                end
            | _ => None
            end
          else if is_word "const" t then
            match semi_split r [] with
            | Some (Leaf (TIdent x) :: _ :: d, rest) =>
                match to_eq d [] with
                | Some (ty, e) =>
                    match p_expr n 0 e, p_block n rest with
                    | Some (v, []), Some (Block cs ss tl) => Some (Block ((str_of x, type_of ty, v) :: cs) ss tl)
                    | _, _ => None
                    end
                | None => None
                end
            | _ => None
            end
          else if is_word "let" t then
            match pat_of r with
            | Some (p, eq :: r1) =>
                let go ty r2 :=
                  match p_expr n 0 r2 with
                  | Some (e, s :: r3) =>
                      if is_punct ";" s then
                        match p_block n r3 with
                        | Some (Block cs ss tl) => Some (Block cs (SLet p ty e :: ss) tl)
                        | None => None
                        end
                      else None
                  | _ => None
                  end in
                if is_punct "=" eq then go None r1
                else if is_punct ":" eq then
                  match to_eq r1 [] with Some (ty, r2) => go (type_of ty) r2 | None => None end
                else None
            | _ => None
            end
          else
            (* an expression: at the start of a statement one that ends with a block ends there *)
            let e := match p_prim n ts with
                     | Some (a, r1) => if is_block_like a then Some (a, r1) else p_expr n 0 ts
                     | None => p_expr n 0 ts
                     end in
            match e with
            | Some (a, []) => Some (Block [] [] (Some a))
            | Some (a, s :: r1) =>
                let rest := if is_punct ";" s then Some r1 else if is_block_like a then Some (s :: r1) else None in
                match rest with
                | Some r2 =>
                    match p_block n r2 with
                    | Some (Block cs ss tl) => Some (Block cs (SExpr a :: ss) tl)
                    | None => None
                    end
                | None => None
                end
            | None => None
            end
      end
  end.

(** ** Functions and files *)
(** The name of a parameter: [x: T], [mut x: T], [self], [&self], [&mut self], with attributes. *)
Fixpoint param_name (ts : list tree) : option string :=
  match ts with
  | Leaf (TIdent x) as t :: r => if is_word "mut" t then param_name r else Some (str_of x)
  | t :: r => if is_punct "&" t then param_name r else None
  | [] => None
  end.
Fixpoint to_paren (ts : list tree) : option (list tree * list tree) :=
  match ts with
  | Group Paren b :: r => Some (b, r)
  | _ :: r => to_paren r
  | [] => None
  end.
Definition parse_fuel : nat := 400.
(** The functions of an [impl] or [trait] block. *)
Fixpoint rfns_of (fuel : nat) (ts : list tree) : option (list fn) :=
  match fuel with
  | O => None
  | S n =>
      match ts with
      | [] => Some []
      | _ =>
          let '(at_, r0) := attrs_of ts in
          match drop_vis r0 with
          | f :: Leaf (TIdent x) :: r =>
              if is_word "fn" f then
                match to_paren r with
                | Some (ps, r1) =>
                    match to_brace r1, all_some (fun p => param_name (snd (attrs_of p))) (commas ps []) with
                    | Some (b, r2), Some names =>
                        match p_block parse_fuel b, rfns_of n r2 with
                        | Some bl, Some l => Some (mkrfn (str_of x) at_ names bl :: l)
                        | _, _ => None
                        end
                    | _, _ => None
                    end
                | None => None
                end
              else None
          | _ => None
          end
      end
  end.
(** All functions of a file of [use] declarations, [impl] and [trait] blocks. *)
Fixpoint file_fns (fuel : nat) (ts : list tree) : option (list fn) :=
  match fuel with
  | O => None
  | S n =>
      match ts with
      | [] => Some []
      | _ =>
          match drop_vis (snd (attrs_of ts)) with
          | k :: r =>
              if is_word "use" k then
                match semi_split r [] with Some (_, r1) => file_fns n r1 | None => None end
              else if is_word "impl" k || is_word "trait" k then
                match to_brace r with
                | Some (b, r1) =>
                    match rfns_of (S (List.length b)) b, file_fns n r1 with
                    | Some l, Some l' => Some (l ++ l')%list
                    | _, _ => None
                    end
                | None => None
                end
              else None
          | [] => None
          end
      end
  end.
Definition functions (lines : list string) : list fn :=
  match trees_of lines with
  | Some ts => match file_fns (S (List.length ts)) ts with Some l => l | None => [] end
  | None => []
  end.
