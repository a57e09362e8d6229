(** The meaning of the entry points in the text of /repo/src/lib.rs (lines 231-316 and 325-330): an evaluator of
    the syntax trees of RustAst that threads the state of a reader.

    Models the compiler and std, not the crate.  Reference: The Rust Reference, chapter "Expressions"; the
    documentation of [Result::unwrap_or_else], [Result::unwrap_or_default], [AsRef], [Cursor::new], [File::open].
    Simplification: there is one reader at a time, the state; [Cursor::new] and [File::open] replace it. *)
From Coq Require Import List NArith Bool String.
From Verif Require Import Base Formats IO RustAst RustSem.
Import ListNotations.
Local Open Scope N_scope.

Section LibSem.
Variable S : Type.
Variable rd : N -> S -> result bytes * S.                               (* [Read::read] *)
Variable new_cursor : bytes -> S.                                       (* [Cursor::new] *)
Variable opened : result S.                                             (* [File::open] at the given path *)
Variable signature : bytes -> exec (option (option FileFormat)).         (* [from_signature] *)
Variable by_format : FileFormat -> S -> exec (option (result FileFormat)) * S. (* [from_fmt_reader] *)
Variable generic : S -> exec (option FileFormat) * S.                   (* [from_generic_reader] *)
Variable fns : list fn.                                                 (* the functions of the text *)

(** [None]: a construct without a meaning here, or a type error. *)
Definition comp (A : Type) : Type := S -> exec (option A) * S.
Definition give {A} (a : A) : comp A := fun s => (Done (Some a), s).
Definition unknown {A} : comp A := fun s => (Done None, s).
Definition panic {A} : comp A := fun s => (Panicked, s).
Definition seq {A B} (m : comp A) (k : A -> comp B) : comp B := fun s =>
  match m s with
  | (Done o, s1) => match o with Some a => k a s1 | None => (Done None, s1) end
  | (Panicked, s1) => (Panicked, s1)
  | (OutOfFuel, s1) => (OutOfFuel, s1)
  end.

(** An expression has a value, or it returns from the function ([?]). *)
Inductive step : Type := Norm (v : value) (x : env) | Leave (v : value).
Definition norm (v : value) (x : env) : comp step := give (Norm v x).
Definition follow (m : comp step) (k : value -> env -> comp step) : comp step :=
  seq m (fun r => match r with Norm v x => k v x | Leave v => give (Leave v) end).

(** [Read::read(&mut buf)]: the bytes read are put at the start of the buffer.  A count beyond the buffer breaks
    the contract of the trait. *)
Definition read_into (buf : bytes) (k : result (bytes * N) -> comp step) : comp step := fun s =>
  match rd (lenN buf) s with
  | (Ok l, s1) => k (Ok ((l ++ dropN (lenN l) buf)%list, lenN l)) s1
  | (Err e, s1) => k (Err e) s1
  end.

Definition of_format (o : option FileFormat) : value := match o with Some f => VSome (VFmt f) | None => VNone end.
Definition of_result (r : result FileFormat) : value := match r with Ok f => VOk (VFmt f) | Err e => VErr e end.

(** The calls that leave the text. *)
Definition outside (g : string) (vs : list value) : option (comp value) :=
  if name_eqb g "from_signature" then
    match vs with [v] => match v with VBytes l => Some (seq (fun s => (signature l, s)) (fun o => give (of_format o))) | _ => Some unknown end | _ => Some unknown end
  else if name_eqb g "from_fmt_reader" then
    match vs with
    | [v; r] =>
        match v, r with
        | VFmt f, VReader _ => Some (seq (by_format f) (fun x => give (of_result x)))
        | _, _ => Some unknown
        end
    | _ => Some unknown
    end
  else if name_eqb g "from_generic_reader" then
    match vs with [r] => match r with VReader _ => Some (seq generic (fun f => give (VFmt f))) | _ => Some unknown end | _ => Some unknown end
  else if name_eqb g "Cursor::new" then
    match vs with [v] => match v with VBytes l => Some (fun _ => (Done (Some (VReader false)), new_cursor l)) | _ => Some unknown end | _ => Some unknown end
  else if name_eqb g "File::open" then
    match vs with
    | [_] => Some (fun s => match opened with Ok s1 => (Done (Some (VOk (VReader false))), s1) | Err e => (Done (Some (VErr e)), s) end)
    | _ => Some unknown
    end
  else None.

Fixpoint ev (n : nat) (e : rex) (x : env) : comp step :=
  match n with
  | O => unknown
  | Datatypes.S m =>
      let fix args (l : list rex) (x : env) (k : list value -> env -> comp step) : comp step :=
        match l with
        | [] => k [] x
        | a :: l' => follow (ev m a x) (fun v x1 => args l' x1 (fun vs x2 => k (v :: vs) x2))
        end in
      match e with
      | RVar y => match lookup y x with Some v => norm v x | None => unknown end
      | RInt k => norm (VLit k) x
      | RFmt f => norm (VFmt f) x
      | RRef a | RRefMut a => ev m a x
      | RRep a k => match a, k with RInt 0, RInt j => norm (VBytes (repeat x00 (N.to_nat j))) x | _, _ => unknown end
      | RBin OEq a b =>
          follow (ev m a x) (fun v x1 => follow (ev m b x1) (fun w x2 =>
            match v, w with VU USize i, VLit j => norm (VBool (i =? j)) x2 | _, _ => unknown end))
      | RIndex a r =>
          match r with
          | RRange None (Some b) =>
              follow (ev m a x) (fun v x1 => follow (ev m b x1) (fun w x2 =>
                match v, w with
                | VBytes l, VU USize i => if i <=? lenN l then norm (VBytes (takeN i l)) x2 else panic
                | _, _ => unknown
                end))
          | _ => unknown
          end
      | RTry a =>
          follow (ev m a x) (fun v x1 => match v with VOk w => norm w x1 | VErr er => give (Leave (VErr er)) | _ => unknown end)
      | RIf c t (Some o) =>
          follow (ev m c x) (fun v x1 => match v with VBool true => ev m (RBlock t) x1 | VBool false => ev m o x1 | _ => unknown end)
      | RMatch a arms =>
          match arms with
          | [(PaSome (PaIdent y), None, t); (PaWild, None, o)] =>
              follow (ev m a x) (fun v x1 =>
                match v with
                | VSome w => follow (ev m t ((y, w) :: x1)) (fun u x2 => norm u (trunc x1 x2))
                | VNone => ev m o x1
                | _ => unknown
                end)
          | _ => unknown
          end
      | RBlock (Block [] ss (Some r)) =>
          let fix stmts (l : list stmt) (x1 : env) : comp step :=
            match l with
            | [] => follow (ev m r x1) (fun v x2 => norm v (trunc x x2))
            | SLet (PaIdent y) None a :: l' => follow (ev m a x1) (fun v x2 => stmts l' ((y, v) :: x2))
            | _ => unknown
            end in
          stmts ss x
      | RCall FnOk [a] => follow (ev m a x) (fun v x1 => norm (VOk v) x1)
      | RCall (FnSelf g) l => args l x (fun vs x1 => seq (call m g vs) (fun v => norm v x1))
      | RMethod a MSame [] => ev m a x
      | RMethod (RVar r) MRead [RRefMut (RVar b)] =>
          match lookup r x, lookup b x with
          | Some (VReader _), Some (VBytes buf) =>
              read_into buf (fun o => match o with
                | Ok (buf', k) => norm (VOk (VU USize k)) (assign b (VBytes buf') x)
                | Err er => norm (VErr er) x
                end)
          | _, _ => unknown
          end
      | RMethod a (MUser g) [RClosure [PaWild] o] =>
          if name_eqb g "unwrap_or_else" then
            follow (ev m a x) (fun v x1 => match v with VOk w => norm w x1 | VErr _ => ev m o x1 | _ => unknown end)
          else unknown
      | RMethod a MUnwrapOrDefault [] =>
          follow (ev m a x) (fun v x1 =>
            match v with VOk w => norm w x1 | VErr _ => seq (call m "default" []) (fun w => norm w x1) | _ => unknown end)
      | _ => unknown
      end
  end
with call (n : nat) (g : string) (vs : list value) : comp value :=
  match n with
  | O => unknown
  | Datatypes.S m =>
      match outside g vs with
      | Some k => k
      | None =>
          match find_fn g fns with
          | Some d =>
              match bind_params (f_params d) vs with
              | Some x => seq (ev m (RBlock (f_body d)) x) (fun r => match r with Norm v _ => give v | Leave v => give v end)
              | None => unknown
              end
          | None => unknown
          end
      end
  end.
End LibSem.
