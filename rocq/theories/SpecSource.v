(** The readers as the text of /repo/src/readers.rs has them: the text is parsed ([functions]), evaluated
    ([exec_task]), and its calls are answered by an implementation of [Read + Seek]. *)
From Coq Require Import List NArith ZArith Bool String.
From Verif Require Import Base Formats IO Readers Lib AnyReader RustAst RustSem Source SpecCargo.
Import ListNotations.
Local Open Scope N_scope.

(** The features of a build, by name. *)
Definition enabled (c : cfg) (s : string) : bool :=
  existsb (fun x => String.eqb (feature_name x) s && feat c x)
    [FAsf; FCfb; FEbml; FExe; FId3v2; FMp4; FPdf; FRm; FSqlite3; FTxt; FXml; FZip].

(** What a call gives: a [Result<Self>], a [Self].  [None]: the evaluator does not know the construct, or types
    do not fit. *)
Definition as_result (v : value) : prog (option (result FileFormat)) :=
  match v with
  | VOk w => match w with VFmt f => Ret (Some (Ok f)) | _ => Ret None end
  | VErr e => Ret (Some (Err e))
  | _ => Ret None
  end.
Definition as_format (v : value) : prog (option FileFormat) := match v with VFmt f => Ret (Some f) | _ => Ret None end.

(** A function of readers.rs, called with these arguments.  [rounds] bounds the rounds of every [while] and
    [loop]; [buffered] says whether the reader that is asked is the one given or a [BufReader] around it (asking
    the other one gives [None]); 400 bounds the depth of the evaluation. *)
Definition call_text {B} (c : cfg) (rounds : nat) (buffered : bool) (g : string) (args : list value)
    (k : value -> prog (option B)) : prog (option B) :=
  exec_task c (enabled c) rounds buffered (functions readers_rs) 400 (TCall g args k).
Arguments call_text {B} c rounds buffered g%string args k.

(** [data.find(pat)], [data.rfind(pat)] and [data.holds(pat)] of the trait FindBytes: an [Option<usize>], a [bool]. *)
Definition as_index (v : value) : prog (option (option N)) :=
  match v with
  | VSome w => match w with VU USize n => Ret (Some (Some n)) | VLit n => Ret (Some (Some n)) | _ => Ret None end
  | VNone => Ret (Some None)
  | _ => Ret None
  end.
Definition as_bool (v : value) : prog (option bool) := match v with VBool x => Ret (Some x) | _ => Ret None end.
Definition text_find (c : cfg) (rounds : nat) (data pat : bytes) : prog (option (option N)) :=
  call_text c rounds true "find" [VBytes data; VBytes pat] as_index.
Definition text_rfind (c : cfg) (rounds : nat) (data pat : bytes) : prog (option (option N)) :=
  call_text c rounds true "rfind" [VBytes data; VBytes pat] as_index.
Definition text_holds (c : cfg) (rounds : nat) (data pat : bytes) : prog (option bool) :=
  call_text c rounds true "holds" [VBytes data; VBytes pat] as_bool.

Section Run.
Variables (S : Type) (rd : N -> S -> result bytes * S) (sk : whence -> S -> result N * S).
Variable fuel : nat.
(** [FileFormat::from_fmt_reader(f, reader)]. *)
Definition text_from_fmt_reader (c : cfg) (f : FileFormat) (s : S) : exec (option (result FileFormat)) * S :=
  let p := call_text c fuel (uses_bufreader f) "from_fmt_reader" [VFmt f; VReader false] as_result in
  if uses_bufreader f then arun_buf S rd sk fuel p s else arun_raw S rd sk fuel p s.
(** [FileFormat::from_generic_reader(reader)]. *)
Definition text_from_generic_reader (c : cfg) (s : S) : exec (option FileFormat) * S :=
  arun_buf S rd sk fuel (call_text c fuel true "from_generic_reader" [VReader false] as_format) s.
End Run.

(** The same result, and it is one. *)
Definition defined {A S} (x : exec A * S) : exec (option A) * S :=
  (match fst x with Done a => Done (Some a) | Panicked => Panicked | OutOfFuel => OutOfFuel end, snd x).
