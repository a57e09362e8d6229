(** What the functions of /repo/src/readers.rs do: evaluation of the syntax trees of [RustAst].

    Models Rust and the parts of [std] the code calls, not the crate.  A function is turned into a
    reader program ([prog], IO.v): the tree of its calls of [Read] and [Seek].  The evaluator is in
    continuation-passing style: [k] is what follows, [kr] the caller ([return], [?]), [kb] the end of the
    loop ([break]).  [stuck]: outside the modelled part of the language (or a type error). *)
From Coq Require Import List NArith ZArith Bool String.
From Verif Require Import Base Formats IO Find Utf8 Readers RustAst.
Import ListNotations.
Local Open Scope N_scope.

(** ** Values *)
Inductive value : Type :=
| VUnit
| VBool (b : bool)
| VU (t : ity) (n : N)                 (* an unsigned integer of a known type *)
| VI (z : Z)                           (* i64 *)
| VLit (n : N)                         (* an integer literal: its type is inferred (the compiler checks that it fits) *)
| VNum (n : N)                         (* an integer made of such literals only, of a type still unknown *)
| VBytes (l : bytes)                   (* [u8; n], Vec<u8>, &[u8] *)
| VTab (t : ity) (l : list N)          (* [usize; n] *)
| VStr (s : ustr)                      (* String, &str *)
| VText (s : string)                   (* a string literal *)
| VChar (n : N)
| VFmt (f : FileFormat)
| VOk (v : value)
| VErr (e : ioerr)
| VError (e : ioerr)                   (* io::Error *)
| VKind (e : ioerr)                    (* io::ErrorKind *)
| VNone
| VSome (v : value)
| VTuple (l : list value)
| VWhence (w : whence)                 (* SeekFrom *)
| VReader (buffered : bool)            (* the reader given to the function, or a BufReader around it *)
| VTake (lim : N)                      (* Take<BufReader<R>> *)
| VLines (lim : N)                     (* Lines<Take<BufReader<R>>> *)
| VLinesTake (lim n : N)               (* Take<Lines<Take<BufReader<R>>>> *)
| VChars (s : ustr)
| VIter (l : list value)               (* an iterator over values in memory *)
| VRange (lo hi : N)
| VFn (ps : list pat) (e : rex) (s : list (string * value))     (* a closure with what it captures *)
| VConst (t : option ity) (e : rex)    (* a constant, evaluated where it is used *)
| VUnspec.                             (* a buffer after a failed read *)
Definition env := list (string * value).

(** Names are compared and looked up with functions of their own, so that evaluation in proofs can be
    limited to the evaluator. *)
Fixpoint name_eqb (a b : string) : bool :=
  match a, b with
  | EmptyString, EmptyString => true
  | String x a', String y b' => if Ascii.eqb x y then name_eqb a' b' else false
  | _, _ => false
  end.
Fixpoint lookup (x : string) (s : env) : option value :=
  match s with [] => None | (y, v) :: s' => if name_eqb x y then Some v else lookup x s' end.
(** Assignment to the innermost variable of that name. *)
Fixpoint assign (x : string) (v : value) (s : env) : env :=
  match s with [] => [] | (y, w) :: s' => if name_eqb x y then (y, v) :: s' else (y, w) :: assign x v s' end.
Fixpoint elen (s : env) : nat := match s with [] => O | _ :: s' => S (elen s') end.
Fixpoint edrop (n : nat) (s : env) : env := match n, s with S n', _ :: s' => edrop n' s' | _, _ => s end.
Fixpoint esub (a b : nat) : nat := match a, b with S a', S b' => esub a' b' | _, _ => a end.
(** The end of a scope: [s] is the environment at its start. *)
Definition trunc (s s' : env) : env := edrop (esub (elen s') (elen s)) s'.
Fixpoint push_consts (cs : list (string * option ity * rex)) (s : env) : env :=
  match cs with [] => s | (x, t, e) :: cs' => (x, VConst t e) :: push_consts cs' s end.
Fixpoint find_fn (x : string) (l : list fn) : option fn :=
  match l with [] => None | g :: l' => if name_eqb x (f_name g) then Some g else find_fn x l' end.
Fixpoint bind_params (xs : list string) (vs : list value) : option env :=
  match xs, vs with
  | [], [] => Some []
  | x :: xs', v :: vs' => match bind_params xs' vs' with Some s => Some ((x, v) :: s) | None => None end
  | _, _ => None
  end.

(** Equality of literals. *)
Fixpoint pos_same (a b : positive) : bool :=
  match a, b with
  | xH, xH => true
  | xO a', xO b' | xI a', xI b' => pos_same a' b'
  | _, _ => false
  end.
Definition lit_same (a b : N) : bool :=
  match a, b with N0, N0 => true | Npos a', Npos b' => pos_same a' b' | _, _ => false end.
Definition flip (b : bool) : bool := if b then false else true.

Definition same_type (a b : ity) : bool :=
  match a, b with
  | U8, U8 | U16, U16 | U32, U32 | U64, U64 | USize, USize | I64, I64 => true
  | _, _ => false
  end.
(** Conversions that keep every value ([usize] has at least 16 and at most 64 bits). *)
Definition widens (a b : ity) : bool :=
  match a, b with
  | U8, _ | U16, (U16 | U32 | U64 | USize) | U32, (U32 | U64) | U64, U64 | USize, (USize | U64) => true
  | _, _ => false
  end.
(** [let x: T = v], and a literal bound to a variable. *)
Definition typed (t : option ity) (v : value) : value :=
  match t, v with
  | Some I64, VLit n => VI (Z.of_N n)
  | Some t', VLit n => VU t' n
  | _, _ => v
  end.
Definition settle (v : value) : value := match v with VLit n => VNum n | _ => v end.

(** [{:02x}] of a [u8]. *)
Definition hex2n (n : N) : ustr := us (String.append (hex_digit (n / 16)) (hex_digit (n mod 16))).
(** [format!] with [{:02x}] and other characters. *)
Fixpoint format_with (fuel : nat) (s : string) (args : list value) : option ustr :=
  match fuel with
  | O => None
  | S n =>
      match s with
      | EmptyString => match args with [] => Some [] | _ => None end
      | String ch r =>
          if name_eqb (String.substring 0 6 s) "{:02x}" then
            match args with
            | VU U8 x :: args' =>
                match format_with n (String.substring 6 (String.length s) s) args' with
                | Some t => Some (hex2n x ++ t)%list
                | None => None
                end
            | _ => None
            end
          else match format_with n r args with Some t => Some (Ascii.N_of_ascii ch :: t) | None => None end
      end
  end.
(** [collect] of strings into a [String]. *)
Fixpoint concat_strs (l : list value) : option ustr :=
  match l with
  | [] => Some []
  | VStr s :: l' => match concat_strs l' with Some t => Some (s ++ t)%list | None => None end
  | _ => None
  end.

Definition update (l : list N) (i : nat) (v : N) : list N := (firstn i l ++ v :: skipn (S i) l)%list.
Fixpoint enumerate (i : N) (l : list value) : list value :=
  match l with [] => [] | v :: l' => VTuple [VU USize i; v] :: enumerate (i + 1) l' end.

(** What the evaluator distinguishes. *)
Inductive mkind : Set := KRead | KReadExact | KRotate | KUser (g : string) | KMap | KFind | KTry | KOrElse | KStd.
Definition kind_of (m : meth) : mkind :=
  match m with
  | MRead => KRead | MReadExact => KReadExact | MRotateRight => KRotate | MUser g => KUser g | MMap => KMap | MFind => KFind
  | MTryForEach => KTry | MOkOrElse => KOrElse | _ => KStd
  end.
Definition as_var (e : rex) : option string := match e with RVar x => Some x | _ => None end.
Definition as_range (e : rex) : option (option rex * option rex) := match e with RRange a b => Some (a, b) | _ => None end.
Definition as_index (e : rex) : option (rex * rex) := match e with RIndex a b => Some (a, b) | _ => None end.
Definition as_mut (e : rex) : option rex := match e with RRefMut a => Some a | _ => None end.
Definition as_self (g : func) : option string := match g with FnSelf x => Some x | _ => None end.
Inductive okind : Set := KAnd | KOr | KOp.
Definition okind_of (o : binop) : okind := match o with OAnd => KAnd | OOr => KOr | _ => KOp end.
Definition is_zero (v : value) : bool := match v with VLit n => match n with 0 => true | _ => false end | _ => false end.
Definition is_const (o : option value) : option (option ity * rex) :=
  match o with Some v => match v with VConst t e => Some (t, e) | _ => None end | None => None end.
Definition only_arg {A} (l : list A) : option A := match l with [x] => Some x | _ => None end.

Section Sem.
Context {B : Type}.
(** The build, the enabled features, the number of rounds of [while] and [loop] (more: [PFuel]), whether the
    function uses its reader through a BufReader, the functions of the file. *)
Variables (c : plat) (on : string -> bool) (rounds : nat) (buffered : bool) (fns : list fn).

Notation P := (prog (option B)).
Definition stuck : P := Ret None.

(** ** Integers *)
Definition width (t : ity) : N :=
  match t with U8 => 8 | U16 => 16 | U32 => 32 | U64 => 64 | USize => usize_bits c | I64 => 64 end.
(** A result that must fit in [w] bits: with overflow checks a panic, without them it wraps. *)
Definition arith (w r : N) (k : N -> P) : P :=
  if r <? 2 ^ w then k r else if ovf c then PPanic else k (r mod 2 ^ w).
Definition arith_sub (w a b : N) (k : N -> P) : P :=
  if b <=? a then k (a - b) else if ovf c then PPanic else k ((a + 2 ^ w - b) mod 2 ^ w).
Definition arith_i64 (r : Z) (k : Z -> P) : P :=
  if (i64_min <=? r)%Z && (r <=? i64_max)%Z then k r else if ovf c then PPanic else k (wrap_i64 r).
Definition shift_left (w a n : N) (k : N -> P) : P :=
  if n <? w then k (N.shiftl a n mod 2 ^ w)
  else if ovf c then PPanic else k (N.shiftl a (n mod w) mod 2 ^ w).
Definition shift_right (w a n : N) (k : N -> P) : P :=
  if n <? w then k (N.shiftr a n) else if ovf c then PPanic else k (N.shiftr a (n mod w)).
(** A number of unknown type becomes one of type [t]. *)
Definition fits (t : ity) (n : N) (k : P) : P := if n <? 2 ^ width t then k else stuck.

Definition op_u (t : ity) (o : binop) (x y : N) (k : value -> P) : P :=
  match o with
  | OAdd => arith (width t) (x + y) (fun r => k (VU t r))
  | OSub => arith_sub (width t) x y (fun r => k (VU t r))
  | OMul => arith (width t) (x * y) (fun r => k (VU t r))
  | OBitAnd => k (VU t (N.land x y))
  | OBitOr => k (VU t (N.lor x y))
  | OLt => k (VBool (x <? y))
  | OGt => k (VBool (y <? x))
  | OLe => k (VBool (x <=? y))
  | OGe => k (VBool (y <=? x))
  | OEq => k (VBool (x =? y))
  | ONe => k (VBool (negb (x =? y)))
  | _ => stuck
  end.
Definition op_i (o : binop) (x y : Z) (k : value -> P) : P :=
  match o with
  | OAdd => arith_i64 (x + y) (fun r => k (VI r))
  | OSub => arith_i64 (x - y) (fun r => k (VI r))
  | _ => stuck
  end.
(** Both of unknown type: exact, below zero there is none. *)
Definition op_n (o : binop) (x y : N) (k : value -> P) : P :=
  match o with
  | OAdd => k (VNum (x + y))
  | OSub => if y <=? x then k (VNum (x - y)) else stuck
  | OEq => k (VBool (lit_same x y))
  | ONe => k (VBool (flip (lit_same x y)))
  | OLt => k (VBool (x <? y))
  | _ => stuck
  end.
Definition op_eq (o : binop) (b : bool) (k : value -> P) : P :=
  match o with OEq => k (VBool b) | ONe => k (VBool (negb b)) | _ => stuck end.
Definition op_shift (o : binop) (a : value) (n : N) (k : value -> P) : P :=
  match o, a with
  | OShl, VU t x => shift_left (width t) x n (fun r => k (VU t r))
  | OShr, VU t x => shift_right (width t) x n (fun r => k (VU t r))
  | OShr, VLit x => if n <? 8 then k (VNum (N.shiftr x n)) else stuck     (* fine for every type *)
  | _, _ => stuck
  end.
Definition is_shift (o : binop) : bool := match o with OShl | OShr => true | _ => false end.
Definition bin (o : binop) (a b : value) (k : value -> P) : P :=
  if is_shift o then
    match b with VU _ n | VLit n => op_shift o a n k | _ => stuck end
  else
    match a, b with
    | VU t x, VU t' y => if same_type t t' then op_u t o x y k else stuck
    | VU t x, VLit y => op_u t o x y k
    | VLit x, VU t y => op_u t o x y k
    | VU t x, VNum y => fits t y (op_u t o x y k)
    | VNum x, VU t y => fits t x (op_u t o x y k)
    | VI x, VI y => op_i o x y k
    | VI x, VLit y => op_i o x (Z.of_N y) k
    | VLit x, VLit y | VLit x, VNum y | VNum x, VLit y | VNum x, VNum y => op_n o x y k
    | VBytes x, VBytes y => op_eq o (beqb x y) k
    | VStr x, VText y => op_eq o (ustr_eqb x (us y)) k
    | _, _ => stuck
    end.

(** [v as t]. *)
Definition convert (t : ity) (n : N) : N := match t with USize => as_usize c n | _ => n mod 2 ^ width t end.
Definition cast (v : value) (t : ity) (k : value -> P) : P :=
  match v with
  | VU a x =>
      match t with
      | I64 => k (VI (match a with U64 | USize => as_i64 x | _ => Z.of_N x end))
      | _ => k (VU t (if widens a t then x else convert t x))
      end
  | VLit x => match t with I64 => k (VI (Z.of_N x)) | _ => k (VU t x) end
  | _ => stuck
  end.
(** An argument of type [usize] or [u64]. *)
Definition arg_u (t : ity) (v : value) (k : N -> P) : P :=
  match v with
  | VU t' n => if same_type t t' then k n else stuck
  | VLit n => k n
  | VNum n => fits t n (k n)
  | _ => stuck
  end.
Definition arg_i (v : value) (k : Z -> P) : P :=
  match v with VI z => k z | VLit n => k (Z.of_N n) | _ => stuck end.

(** ** Slices *)
Definition in_bounds (b : bool) (k : P) : P := if b then k else PPanic.
Definition index (v : value) (i : N) (k : value -> P) : P :=
  match v with
  | VBytes l => in_bounds (i <? lenN l) (k (VU U8 (bval (nth (N.to_nat i) l x00))))
  | VTab t l => in_bounds (i <? lenN l) (k (VU t (nth (N.to_nat i) l 0)))
  | _ => stuck
  end.
Definition slice_from (l : bytes) (lo : N) (k : value -> P) : P := in_bounds (lo <=? lenN l) (k (VBytes (dropN lo l))).
Definition slice_to (l : bytes) (hi : N) (k : value -> P) : P := in_bounds (hi <=? lenN l) (k (VBytes (takeN hi l))).
Definition slice_of (l : bytes) (lo hi : N) (k : value -> P) : P :=
  in_bounds ((lo <=? hi) && (hi <=? lenN l)) (k (VBytes (dropN lo (takeN hi l)))).

(** A pattern that is a constant. *)
Definition same (a b : value) : option bool :=
  match a, b with
  | VU t x, VU t' y => if same_type t t' then Some (x =? y) else None
  | VU _ x, VLit y => Some (x =? y)
  | VBytes x, VBytes y => Some (beqb x y)
  | VStr x, VText y => Some (ustr_eqb x (us y))
  | VFmt x, VFmt y => Some (fmt_index x =? fmt_index y)
  | _, _ => None
  end.

(** [vec![0; n]], as [alloc] in IO.v. *)
Definition alloc_zeros (n : N) (k : P) : P := if isize_max c <? n then PPanic else PAlloc n k.

(** A call of a function with a pure result that may panic. *)
Definition pure_call {A} (e : exec A) (k : A -> P) : P :=
  match e with Done a => k a | Panicked => PPanic | OutOfFuel => PFuel end.

(** ** Calls of functions and methods of [std] that take no closure *)
Definition arg0 (l : list value) (k : P) : P := match l with [] => k | _ => stuck end.
Definition arg1 (l : list value) (k : value -> P) : P := match l with [v] => k v | _ => stuck end.
Definition arg2 (l : list value) (k : value -> value -> P) : P := match l with [v; w] => k v w | _ => stuck end.
Definition with_bytes (v : value) (k : bytes -> P) : P := match v with VBytes l => k l | _ => stuck end.
Definition with_str (v : value) (k : ustr -> P) : P := match v with VStr l => k l | _ => stuck end.
Definition with_text (v : value) (k : string -> P) : P := match v with VText l => k l | _ => stuck end.
Definition with_int (v : value) (k : ity -> N -> P) : P := match v with VU t n => k t n | _ => stuck end.
Definition with_iter (v : value) (k : list value -> P) : P := match v with VIter l => k l | _ => stuck end.
Definition with_char (v : value) (k : N -> P) : P := match v with VChar n => k n | _ => stuck end.
Definition with_bool (v : value) (k : bool -> P) : P := match v with VBool b => k b | _ => stuck end.
(** The reader of the function: the raw one, or its BufReader. *)
Definition with_reader (v : value) (k : P) : P :=
  match v with VReader b => if Bool.eqb b buffered then k else stuck | _ => stuck end.
(** Bytes, or a string literal where [AsRef<[u8]>] is wanted. *)
Definition with_pattern (v : value) (k : bytes -> P) : P :=
  match v with VBytes l => k l | VText x => k (bs x) | _ => stuck end.

Definition call_std (g : func) (args : list value) (k : value -> P) : P :=
  match g with
  | FnOk => arg1 args (fun v => k (VOk v))
  | FnErr => arg1 args (fun v => match v with VError e => k (VErr e) | _ => stuck end)
  | FnSome => arg1 args (fun v => k (VSome v))
  | FnStart => arg1 args (fun v => arg_u U64 v (fun n => k (VWhence (FromStart n))))
  | FnCurrent => arg1 args (fun v => arg_i v (fun z => k (VWhence (FromCurrent z))))
  | FnEnd => arg1 args (fun v => arg_i v (fun z => k (VWhence (FromEnd z))))
  | FnBufReader => arg1 args (fun v => match v with VReader false => k (VReader true) | _ => stuck end)
  | FnMin => arg2 args (fun v w => with_int v (fun t a => with_int w (fun t' b =>
               if same_type t t' then k (VU t (N.min a b)) else stuck)))
  | FnError => arg2 args (fun v w => with_text w (fun _ => match v with VKind e => k (VError e) | _ => stuck end))
  | FnFrom t => arg1 args (fun v => with_int v (fun a x => if widens a t then k (VU t x) else stuck))
  | FnFromLe t => arg1 args (fun v => with_bytes v (fun l => k (VU t (le_val l))))
  | FnFromBe t => arg1 args (fun v => with_bytes v (fun l => k (VU t (be_val l))))
  | FnFromUtf8Lossy => arg1 args (fun v => with_bytes v (fun l => k (VStr (utf8_lossy l))))
  | FnDefault => arg0 args (k (VFmt ArbitraryBinaryData))
  | FnSelf _ => stuck
  end.

Definition on_io {A} (r : result A) (yes : A -> P) (no : ioerr -> P) : P :=
  match r with Ok a => yes a | Err e => no e end.
Definition method_std (m : meth) (v : value) (args : list value) (k : value -> P) : P :=
  match m with
  | MSeek => with_reader v (arg1 args (fun w => match w with
      | VWhence w => PSeek w (fun r => on_io r (fun p => k (VOk (VU U64 p))) (fun e => k (VErr e)))
      | _ => stuck end))
  | MRewind => with_reader v (arg0 args (PSeek (FromStart 0) (fun r => on_io r (fun _ => k (VOk VUnit)) (fun e => k (VErr e)))))
  | MTell => with_reader v (arg0 args (PTell (fun r => on_io r (fun p => k (VOk (VU U64 p))) (fun e => k (VErr e)))))
  | MTake => arg1 args (fun n =>
      match v with
      | VReader true => with_reader v (arg_u U64 n (fun n => k (VTake n)))
      | VLines lim => arg_u USize n (fun n => k (VLinesTake lim n))
      | VIter l => arg_u USize n (fun n => k (VIter (firstn (N.to_nat n) l)))
      | _ => stuck
      end)
  | MLines => arg0 args (match v with VTake lim => k (VLines lim) | _ => stuck end)
  | MStartsWith => arg1 args (fun p =>
      match v with
      | VBytes l => with_bytes p (fun p => k (VBool (bstarts_with l p)))
      | VStr s => with_text p (fun p => k (VBool (ustarts_with s (us p))))
      | _ => stuck
      end)
  | MEndsWith => arg1 args (fun p => with_str v (fun s => with_text p (fun p => k (VBool (uends_with s (us p))))))
  | MContains => arg1 args (fun p => with_str v (fun s =>
      match p with VText p => k (VBool (ucontains s (us p))) | VChar x => k (VBool (ucontains_char s x)) | _ => stuck end))
  | MTrim => arg0 args (with_str v (fun s => k (VStr (utrim s))))
  | MLen => arg0 args (with_bytes v (fun l => k (VU USize (lenN l))))
  | MIsEmpty => arg0 args (with_bytes v (fun l => k (VBool (lenN l =? 0))))
  | MEq => arg1 args (fun p => with_bytes v (fun l => with_bytes p (fun p => k (VBool (beqb l p)))))
  | MSame => arg0 args (k v)
  | MSatSub => arg1 args (fun w => with_int v (fun t x =>
      match w with
      | VU t' y => if same_type t t' then k (VU t (sat_sub x y)) else stuck
      | VLit y => k (VU t (sat_sub x y))
      | _ => stuck
      end))
  | MCheckedSub => arg1 args (fun w => with_int v (fun t x => with_int w (fun t' y =>
      if same_type t t' then (if y <=? x then k (VSome (VU t (x - y))) else k VNone) else stuck)))
  | MClamp => arg2 args (fun a b => with_int v (fun t x => with_int a (fun t1 lo => with_int b (fun t2 hi =>
      if same_type t t1 then if same_type t t2 then in_bounds (lo <=? hi) (k (VU t (N.min (N.max x lo) hi))) else stuck else stuck))))
  | MLeadingZeros => arg0 args (with_int v (fun t x => match t with U8 => k (VU U32 (leading_zeros8 x)) | _ => stuck end))
  | MIter => arg0 args (match v with
      | VIter l => k (VIter l)
      | VBytes l => k (VIter (map (fun b => VU U8 (bval b)) l))
      | _ => stuck end)
  | MRev => arg0 args (with_iter v (fun l => k (VIter (rev l))))
  | MEnumerate => arg0 args (with_iter v (fun l => k (VIter (enumerate 0 l))))
  | MCollect => arg0 args (with_iter v (fun l => match concat_strs l with Some s => k (VStr s) | None => stuck end))
  | MChars => arg0 args (with_str v (fun s => k (VChars s)))
  | MIsControl => arg0 args (with_char v (fun x => k (VBool (is_control x))))
  | MIsWhitespace => arg0 args (with_char v (fun x => k (VBool (is_whitespace x))))
  | MIsSome => arg0 args (match v with VSome _ => k (VBool true) | VNone => k (VBool false) | _ => stuck end)
  | MUnwrapOr => arg1 args (fun d => match v with VSome x => k x | VNone => k d | _ => stuck end)
  | MUnwrapOrDefault => arg0 args (match v with VOk x => k x | VErr _ => k (VFmt ArbitraryBinaryData) | _ => stuck end)
  (* the trait FindBytes of readers.rs; that its text does this is another theorem *)
  | MHolds => arg1 args (fun p => with_bytes v (fun l => with_pattern p (fun p => pure_call (holds l p) (fun b => k (VBool b)))))
  | MFind => arg1 args (fun p => with_bytes v (fun l => with_pattern p (fun p =>
      pure_call (find l p) (fun r => match r with Some i => k (VSome (VU USize (N.of_nat i))) | None => k VNone end))))
  | MRfind => arg1 args (fun p => with_bytes v (fun l => with_pattern p (fun p =>
      pure_call (rfind l p) (fun r => match r with Some i => k (VSome (VU USize (N.of_nat i))) | None => k VNone end))))
  | _ => stuck
  end.

(** A buffer after a read of [got] into its part from [lo] on. *)
Definition read_into (lo : N) (l got : bytes) : bytes := (takeN lo l ++ got ++ dropN (lo + lenN got) l)%list.

(** ** Loops and iterators: [body] and [g] are the code of the body or the closure *)
Fixpoint for_n (n : nat) (body : env -> (env -> P) -> P) (s : env) (k : env -> P) : P :=
  match n with O => k s | S m => body s (fun s' => for_n m body s' k) end.
Fixpoint for_each (l : list value) (body : value -> env -> (env -> P) -> P) (s : env) (k : env -> P) : P :=
  match l with [] => k s | v :: l' => body v s (fun s' => for_each l' body s' k) end.
Fixpoint while_n (n : nat) (cond : env -> (value -> env -> P) -> P) (body : env -> (env -> P) -> P) (s : env)
    (k : env -> P) : P :=
  cond s (fun v s1 =>
    match v with
    | VBool true => body s1 (fun s2 => match n with O => PFuel | S m => while_n m cond body s2 k end)
    | VBool false => k s1
    | _ => stuck
    end).
Fixpoint loop_n (n : nat) (body : env -> (env -> P) -> P) (s : env) : P :=
  body s (fun s2 => match n with O => PFuel | S m => loop_n m body s2 end).
Fixpoint map_values (g : value -> (value -> P) -> P) (l : list value) (k : list value -> P) : P :=
  match l with [] => k [] | v :: l' => g v (fun w => map_values g l' (fun ws => k (w :: ws))) end.
Fixpoint find_char (g : value -> (value -> P) -> P) (l : ustr) (k : value -> P) : P :=
  match l with
  | [] => k VNone
  | x :: l' => g (VChar x) (fun v => match v with VBool b => if b then k (VSome (VChar x)) else find_char g l' k | _ => stuck end)
  end.
(** [Lines::next] until [n] lines are read or the closure fails; [lim] bytes are left. *)
Fixpoint each_line (n : nat) (lim : N) (g : value -> (value -> P) -> P) (k : value -> P) : P :=
  match n with
  | O => k (VOk VUnit)
  | S m =>
      PReadLine lim (fun r => on_io r
        (fun line =>
          match line with
          | [] => k (VOk VUnit)
          | _ =>
              match utf8_strict line with
              | None => g (VErr EInvalidData) (fun v => match v with VErr e => k (VErr e) | _ => stuck end)
              | Some chars =>
                  g (VOk (VStr (strip_eol chars)))
                    (fun v => match v with VOk _ => each_line m (lim - lenN line) g k | VErr e => k (VErr e) | _ => stuck end)
              end
          end)
        (fun e => g (VErr e) (fun v => match v with VErr e' => k (VErr e') | _ => stuck end)))
  end.

(** ** Expressions, blocks and statements *)
Definition feature_on (x : string) : bool := on x.

Inductive task : Type :=
| TEv (e : rex) (s : env) (kr : value -> P) (kb : env -> P) (k : value -> env -> P)
| TList (l : list rex) (s : env) (kr : value -> P) (kb : env -> P) (k : list value -> env -> P)
(** The variable behind [&mut x] or [&mut x[lo..]], its bytes, and where the slice starts. *)
| TPlace (e : rex) (s : env) (k : string -> bytes -> N -> P)
(** Does [v] match?  With the variables the pattern binds. *)
| TPat (p : pat) (v : value) (s : env) (k : bool -> env -> P)
| TPats (ps : list pat) (vs : list value) (s : env) (k : bool -> env -> P)
(** The other alternatives of [p | q | ...] (they bind nothing); [b]: one before has matched. *)
| TAlts (ps : list pat) (b : bool) (v : value) (s : env) (k : bool -> env -> P)
| TArms (v : value) (arms : list (pat * option rex * rex)) (s : env) (kr : value -> P) (kb : env -> P) (k : value -> env -> P)
| TBlock (b : block) (s : env) (kr : value -> P) (kb : env -> P) (k : value -> env -> P)
| TStmts (ss : list stmt) (tl : option rex) (s : env) (kr : value -> P) (kb : env -> P) (k : value -> env -> P)
(** A closure with one parameter. *)
| TApply (g : value) (v : value) (k : value -> P)
(** A function of the file. *)
| TCall (g : string) (vs : list value) (k : value -> P).

(** One step: up to the next statement, branch, loop or call, which is left to [later]. *)
Variable later : task -> P.
Fixpoint go (t : task) (fuel : nat) {struct fuel} : P :=
  match fuel with
  | O => stuck
  | S f =>
  match t with
  | TEv e s kr kb k =>
  match e with
  | RInt n => k (VLit n) s
  | RStr x => k (VText x) s
  | RBytes b => k (VBytes b) s
  | RChar n => k (VChar n) s
  | RBool b => k (VBool b) s
  | RVar x =>
      match lookup x s with
      | Some v =>
          match v with
          | VConst t e' => later (TEv e' s kr kb (fun v _ => k (typed t v) s))
          | _ => k v s
          end
      | None => stuck
      end
  | RFmt x => k (VFmt x) s
  | RNone => k VNone s
  | RMax t => match t with U8 => k (VU U8 255) s | U16 => k (VU U16 65535) s | _ => stuck end
  | RInvalidData => k (VKind EInvalidData) s
  | RNot a => go (TEv a s kr kb (fun v s1 => match v with VBool b => k (VBool (negb b)) s1 | _ => stuck end)) f
  | RRef a => go (TEv a s kr kb k) f
  | RRefMut _ => stuck
  | RBin o a b =>
      match okind_of o with
      | KAnd =>
          go (TEv a s kr kb (fun v s1 => with_bool v (fun x =>
            if x then go (TEv b s1 kr kb (fun w s2 => with_bool w (fun y => k (VBool y) s2))) f else k (VBool false) s1))) f
      | KOr =>
          go (TEv a s kr kb (fun v s1 => with_bool v (fun x =>
            if x then k (VBool true) s1 else go (TEv b s1 kr kb (fun w s2 => with_bool w (fun y => k (VBool y) s2))) f))) f
      | KOp => go (TEv a s kr kb (fun v s1 => go (TEv b s1 kr kb (fun w s2 => bin o v w (fun x => k x s2))) f)) f
      end
  | RCast a t => go (TEv a s kr kb (fun v s1 => cast v t (fun x => k x s1))) f
  | RCall g args =>
      go (TList args s kr kb (fun vs s1 =>
        match as_self g with Some x => later (TCall x vs (fun v => k v s1)) | None => call_std g vs (fun v => k v s1) end)) f
  | RMethod r m args =>
      match kind_of m with
      | KRead =>
          match only_arg args with
          | Some a =>
              match as_mut a with
              | Some pl =>
                  go (TEv r s kr kb (fun v s1 => with_reader v
                    (go (TPlace pl s1 (fun x l lo =>
                      PRead (lenN l - lo) (fun res => on_io res
                        (fun got => k (VOk (VU USize (lenN got)))
                          (assign x (VBytes (read_into lo l got)) s1))
                        (fun er => k (VErr er) (assign x VUnspec s1))))) f))) f
              | None => stuck
              end
          | None => stuck
          end
      | KReadExact =>
          match only_arg args with
          | Some a =>
              match as_mut a with
              | Some pl =>
                  go (TEv r s kr kb (fun v s1 => with_reader v
                    (match as_var pl with
                     | Some x =>
                         match lookup x s1 with
                         | Some b => with_bytes b (fun l =>
                             PReadExact (lenN l) (fun res => on_io res
                               (fun got => k (VOk VUnit) (assign x (VBytes got) s1))
                               (fun er => k (VErr er) (assign x VUnspec s1))))
                         | None => stuck
                         end
                     | None => stuck
                     end))) f
              | None => stuck
              end
          | None => stuck
          end
      | KRotate =>
          (* x[..hi].rotate_right(m) *)
          match as_index r, only_arg args with
          | Some (xe, i), Some m' =>
              match as_var xe, as_range i with
              | Some x, Some (None, Some hi) =>
                  go (TEv hi s kr kb (fun v s1 => arg_u USize v (fun h =>
                    go (TEv m' s1 kr kb (fun w s2 => arg_u USize w (fun n =>
                      match lookup x s2 with
                      | Some b => with_bytes b (fun l =>
                          in_bounds (h <=? lenN l) (in_bounds (n <=? h)
                            (k VUnit (assign x (VBytes (rotate_right n (takeN h l) ++ dropN h l)%list) s2))))
                      | None => stuck
                      end))) f))) f
              | _, _ => stuck
              end
          | _, _ => stuck
          end
      | KUser g => go (TEv r s kr kb (fun v s1 => go (TList args s1 kr kb (fun vs s2 => later (TCall g (v :: vs) (fun w => k w s2)))) f)) f
      | KMap =>
          go (TEv r s kr kb (fun v s1 => go (TList args s1 kr kb (fun vs s2 => arg1 vs (fun g =>
            match v with
            | VIter l => map_values (fun x kx => later (TApply g x kx)) l (fun ws => k (VIter ws) s2)
            | VSome x => later (TApply g x (fun w => k (VSome w) s2))
            | VNone => k VNone s2
            | VOk x => later (TApply g x (fun w => k (VOk w) s2))
            | VErr er => k (VErr er) s2
            | _ => stuck
            end))) f)) f
      | KFind =>
          go (TEv r s kr kb (fun v s1 => go (TList args s1 kr kb (fun vs s2 =>
            match v with
            | VChars l => arg1 vs (fun g => find_char (fun x kx => later (TApply g x kx)) l (fun w => k w s2))
            | _ => method_std m v vs (fun w => k w s2)
            end)) f)) f
      | KTry =>
          go (TEv r s kr kb (fun v s1 => go (TList args s1 kr kb (fun vs s2 => arg1 vs (fun g =>
            match v with
            | VLinesTake lim n => each_line (N.to_nat n) lim (fun x kx => later (TApply g x kx)) (fun w => k w s2)
            | _ => stuck
            end))) f)) f
      | KOrElse =>
          go (TEv r s kr kb (fun v s1 => go (TList args s1 kr kb (fun vs s2 => arg1 vs (fun g =>
            match v with
            | VSome x => k (VOk x) s2
            | VNone =>
                match g with
                | VFn [] b sg =>
                    later (TEv b sg (fun _ => stuck) (fun _ => stuck) (fun w _ => match w with VError er => k (VErr er) s2 | _ => stuck end))
                | _ => stuck
                end
            | _ => stuck
            end))) f)) f
      | KStd => go (TEv r s kr kb (fun v s1 => go (TList args s1 kr kb (fun vs s2 => method_std m v vs (fun w => k w s2))) f)) f
      end
  | RVec a n =>
      go (TEv a s kr kb (fun v s1 => go (TEv n s1 kr kb (fun w s2 =>
        if is_zero v then arg_u USize w (fun size => alloc_zeros size (k (VBytes (repeat x00 (N.to_nat size))) s2)) else stuck)) f)) f
  | RFormat x args =>
      go (TList args s kr kb (fun vs s1 =>
        match format_with (S (String.length x)) x vs with Some t => k (VStr t) s1 | None => stuck end)) f
  | RIndex a i =>
      match as_range i with
      | Some (lo, hi) =>
          go (TEv a s kr kb (fun v s1 => with_bytes v (fun l =>
            match lo, hi with
            | None, Some h => go (TEv h s1 kr kb (fun w s2 => arg_u USize w (fun m => slice_to l m (fun x => k x s2)))) f
            | Some a', None => go (TEv a' s1 kr kb (fun w s2 => arg_u USize w (fun m => slice_from l m (fun x => k x s2)))) f
            | Some a', Some h =>
                go (TEv a' s1 kr kb (fun w s2 => arg_u USize w (fun n =>
                  go (TEv h s2 kr kb (fun w' s3 => arg_u USize w' (fun m => slice_of l n m (fun x => k x s3)))) f))) f
            | None, None => k v s1
            end))) f
      | None => go (TEv a s kr kb (fun v s1 => go (TEv i s1 kr kb (fun w s2 => arg_u USize w (fun n => index v n (fun x => k x s2)))) f)) f
      end
  | RRange lo hi =>
      match lo, hi with
      | Some a, Some b =>
          go (TEv a s kr kb (fun v s1 => go (TEv b s1 kr kb (fun w s2 =>
            match v with VLit a => with_int w (fun _ b => k (VRange a b) s2) | _ => stuck end)) f)) f
      | _, _ => stuck
      end
  | RTry a => go (TEv a s kr kb (fun v s1 => match v with VOk x => k x s1 | VErr er => kr (VErr er) | _ => stuck end)) f
  | RIf g t el =>
      go (TEv g s kr kb (fun v s1 => with_bool v (fun b =>
        if b then later (TBlock t s1 kr kb k)
        else match el with Some e' => later (TEv e' s1 kr kb k) | None => k VUnit s1 end))) f
  | RMatch a arms => go (TEv a s kr kb (fun v s1 => go (TArms v arms s1 kr kb k) f)) f
  | RBlock b => go (TBlock b s kr kb k) f
  | RWhile g b =>
      while_n rounds
        (fun s1 kk => later (TEv g s1 kr (fun _ => stuck) kk))
        (fun s1 kk => later (TBlock b s1 kr (fun s2 => k VUnit (trunc s s2)) (fun _ s2 => kk s2)))
        s (fun s1 => k VUnit s1)
  | RLoop b =>
      loop_n rounds
        (fun s1 kk => later (TBlock b s1 kr (fun s2 => k VUnit (trunc s s2)) (fun _ s2 => kk s2))) s
  | RFor p a b =>
      go (TEv a s kr kb (fun v s1 =>
        match v with
        | VRange lo hi =>
            match p with
            | PaWild =>
                for_n (N.to_nat (hi - lo))
                  (fun s2 kk => later (TBlock b s2 kr (fun s3 => k VUnit (trunc s s3)) (fun _ s3 => kk s3)))
                  s1 (fun s2 => k VUnit s2)
            | _ => stuck
            end
        | VIter l =>
            for_each l
              (fun x s2 kk => later (TPat p x s2 (fun b1 s3 => if b1 then
                 later (TBlock b s3 kr (fun s4 => k VUnit (trunc s s4)) (fun _ s4 => kk (trunc s2 s4))) else stuck)))
              s1 (fun s2 => k VUnit s2)
        | _ => stuck
        end)) f
  | RReturn a => go (TEv a s kr kb (fun v _ => kr v)) f
  | RBreak => kb s
  | RAssign lhs a =>
      go (TEv a s kr kb (fun v s1 =>
        match as_var lhs with
        | Some x => k VUnit (assign x (settle v) s1)
        | None =>
            match as_index lhs with
            | Some (xe, i) =>
                match as_var xe with
                | Some x =>
                    go (TEv i s1 kr kb (fun w s2 => arg_u USize w (fun n => with_int v (fun t' y =>
                      match lookup x s2 with
                      | Some tb =>
                          match tb with
                          | VTab t l =>
                              if same_type t t' then
                                in_bounds (n <? lenN l) (k VUnit (assign x (VTab t (update l (N.to_nat n) y)) s2))
                              else stuck
                          | _ => stuck
                          end
                      | None => stuck
                      end)))) f
                | None => stuck
                end
            | None => stuck
            end
        end)) f
  | ROpAssign o lhs a =>
      go (TEv a s kr kb (fun v s1 =>
        match as_var lhs with
        | Some x => match lookup x s1 with Some w => bin o w v (fun y => k VUnit (assign x y s1)) | None => stuck end
        | None => stuck
        end)) f
  | RTuple l => go (TList l s kr kb (fun vs s1 => k (match vs with [] => VUnit | _ => VTuple vs end) s1)) f
  | RRep a n =>
      go (TEv a s kr kb (fun v s1 => go (TEv n s1 kr kb (fun w s2 => arg_u USize w (fun m =>
        if is_zero v then k (VBytes (repeat x00 (N.to_nat m))) s2          (* a buffer for [read]: [u8; n] *)
        else with_int v (fun t y => k (VTab t (repeat y (N.to_nat m))) s2)))) f)) f
  | RArray l => go (TList l s kr kb (fun vs s1 => k (VIter vs) s1)) f
  | RClosure ps a => k (VFn ps a s) s
  | RCfgIf x t el => if feature_on x then go (TBlock t s kr kb k) f else go (TBlock el s kr kb k) f
  end
  | TList l s kr kb k =>
      match l with
      | [] => k [] s
      | e :: l' => go (TEv e s kr kb (fun v s1 => go (TList l' s1 kr kb (fun vs s2 => k (v :: vs) s2)) f)) f
      end
  | TPlace e s k =>
      match e with
      | RVar x => match lookup x s with Some b => with_bytes b (fun l => k x l 0) | None => stuck end
      | RIndex xe i =>
          match as_var xe, as_range i with
          | Some x, Some (Some lo, None) =>
              go (TEv lo s (fun _ => stuck) (fun _ => stuck) (fun v s1 => arg_u USize v (fun n =>
                match lookup x s1 with
                | Some b => with_bytes b (fun l => in_bounds (n <=? lenN l) (k x l n))
                | None => stuck
                end))) f
          | _, _ => stuck
          end
      | _ => stuck
      end
  | TPat p v s k =>
      let const v' := match same v v' with Some b => k b s | None => stuck end in
      match p with
      | PaWild => k true s
      | PaIdent x =>
          match is_const (lookup x s) with
          | Some (t, e) => later (TEv e s (fun _ => stuck) (fun _ => stuck) (fun w _ => const (typed t w)))
          | None => k true ((x, settle v) :: s)
          end
      | PaInt n => const (VLit n)
      | PaStr x => const (VText x)
      | PaBytes b => const (VBytes b)
      | PaFmt x => const (VFmt x)
      | PaSome q => match v with VSome w => go (TPat q w s k) f | VNone => k false s | _ => stuck end
      | PaTuple ps => match v with VTuple vs => go (TPats ps vs s k) f | _ => stuck end
      | PaOr ps =>
          match ps with
          | [] => stuck
          | q :: qs => go (TPat q v s (fun b s1 => go (TAlts qs b v s1 k) f)) f
          end
      | PaCfg x q => if feature_on x then go (TPat q v s k) f else k false s
      end
  | TPats ps vs s k =>
      match ps, vs with
      | [], [] => k true s
      | p :: ps', v :: vs' =>
          go (TPat p v s (fun b s1 => if b then go (TPats ps' vs' s1 k) f else k false s1)) f
      | _, _ => stuck
      end
  | TAlts ps b v s k =>
      match ps with
      | [] => k b s
      | p :: ps' => go (TPat p v s (fun b' s1 => go (TAlts ps' (b || b') v s1 k) f)) f
      end
  | TArms v arms s kr kb k =>
      match arms with
      | [] => stuck
      | (p, g, e) :: arms' =>
          go (TPat p v s (fun b s1 =>
            if b then
              match g with
              | None => later (TEv e s1 kr kb (fun w s2 => k w (trunc s s2)))
              | Some g' =>
                  go (TEv g' s1 kr kb (fun w s2 => with_bool w (fun x =>
                    if x then later (TEv e s2 kr kb (fun w' s3 => k w' (trunc s s3)))
                    else later (TArms v arms' (trunc s s2) kr kb k)))) f
              end
            else later (TArms v arms' s kr kb k))) f
      end
  | TBlock b s kr kb k =>
      match b with
      | Block cs ss tl => go (TStmts ss tl (push_consts cs s) kr kb (fun v s' => k v (trunc s s'))) f
      end
  | TStmts ss tl s kr kb k =>
      match ss with
      | [] => match tl with Some e => go (TEv e s kr kb k) f | None => k VUnit s end
      | SLet p t e :: ss' =>
          go (TEv e s kr kb (fun v s1 =>
            later (TPat p (typed t v) s1 (fun b s2 => if b then later (TStmts ss' tl s2 kr kb k) else stuck)))) f
      | SExpr e :: ss' => go (TEv e s kr kb (fun _ s1 => later (TStmts ss' tl s1 kr kb k))) f
      end
  | TApply g v k =>
      match g with
      | VFn [p] e sg =>
          go (TPat p v sg (fun b s1 => if b then go (TEv e s1 k (fun _ => stuck) (fun w _ => k w)) f else stuck)) f
      | _ => stuck
      end
  | TCall g vs k =>
      match find_fn g fns with
      | Some d =>
          match bind_params (f_params d) vs with
          | Some s => go (TBlock (f_body d) s k (fun _ => stuck) (fun v _ => k v)) f
          | None => stuck
          end
      | None => stuck
      end
  end
  end.
End Sem.

(** The steps of a step: nested expressions of one statement. *)
Definition depth : nat := 60.
(** Runs a task, by at most [n] nested steps. *)
Fixpoint exec_task {B} (c : plat) (on : string -> bool) (rounds : nat) (buffered : bool) (fns : list fn) (n : nat) (t : task)
    : prog (option B) :=
  match n with
  | O => stuck
  | S m => go c on rounds buffered fns (exec_task c on rounds buffered fns m) t depth
  end.
