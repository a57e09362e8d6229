(** Test support: compact byte strings for the fixtures and the two feature sets of the Rust
    test suite. *)
From Coq Require Import List NArith Bool String Ascii.
From Verif Require Import Base Formats IO Lib.
Local Open Scope N_scope.

Inductive seg : Set :=
| L (s : string)            (* hexadecimal literal *)
| R (n : N) (b : byte).     (* n times b *)
Arguments L s%string_scope.

Definition unhex1 (a : ascii) : N :=
  let n := N_of_ascii a in if n <? 58 then n - 48 else n - 87.
Definition byte_of (n : N) : byte :=
  match Byte.of_N n with Some b => b | None => x00 end.
Fixpoint unhex (s : string) : bytes :=
  match s with
  | String a (String b t) => byte_of (unhex1 a * 16 + unhex1 b) :: unhex t
  | _ => []
  end.
Definition seg_bytes (s : seg) : bytes :=
  match s with L h => unhex h | R n b => repeat b (N.to_nat n) end.
Definition segs_bytes (l : list seg) : bytes := flat_map seg_bytes l.

(** 64-bit release build with all / without any reader feature. *)
Definition cfg_all : cfg := mkcfg (fun _ => true) false 64.
Definition cfg_none : cfg := mkcfg (fun _ => false) false 64.

Record conf_case : Set := mkcase {
  needs_feature : bool; expected : FileFormat; segments : list seg }.

Definition is_format (e : exec FileFormat) (f : FileFormat) : bool :=
  match e with Done g => fmt_index g =? fmt_index f | _ => false end.
Definition case_ok (k : conf_case) : bool :=
  let l := segs_bytes (segments k) in
  is_format (from_bytes cfg_all l) (expected k)
  && (needs_feature k || is_format (from_bytes cfg_none l) (expected k)).
