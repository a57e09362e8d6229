(** Model of the parts of [std] that turn bytes into text: UTF-8 decoding as done by
    [str::from_utf8] (strict, used by [BufRead::lines]) and [String::from_utf8_lossy]
    (used by [ReadData::read_string], /repo/src/readers.rs lines 1128-1132), and the [str] /
    [char] methods the readers use.

    A Rust [String]/[&str] is modelled by its sequence of Unicode scalar values ([chars()]).
    [==], [starts_with], [ends_with] and [contains] compare UTF-8 bytes in Rust; on valid UTF-8
    this is the same as comparing scalar values. *)
From Coq Require Import List NArith Bool String Ascii.
From Verif Require Import Base.
Local Open Scope N_scope.

Definition ustr := list N.

(** A string literal (ASCII). *)
Definition us (s : string) : ustr := map bval (bs s).
Arguments us s%string_scope.

Definition in_range (lo hi n : N) : bool := (lo <=? n) && (n <=? hi).
(** Continuation byte 0b10xxxxxx. *)
Definition is_cont (n : N) : bool := in_range 128 191 n.

(** Permitted second byte after a three- or four-byte lead
    (core::str::validations::run_utf8_validation, core::str::lossy::Utf8Chunks). *)
Definition second_ok (lead b : N) : bool :=
  if lead =? 224 then in_range 160 191 b
  else if lead =? 237 then in_range 128 159 b
  else if lead =? 240 then in_range 144 191 b
  else if lead =? 244 then in_range 128 143 b
  else is_cont b.

(** Decodes one character: [Some c] and the rest, or [None] (an ill-formed sequence, of which
    the maximal well-formed prefix is removed) and the rest. *)
Definition utf8_next (l : bytes) : option (option N * bytes) :=
  match l with
  | [] => None
  | b0 :: r0 =>
      let n0 := bval b0 in
      if n0 <? 128 then Some (Some n0, r0)
      else if in_range 194 223 n0 then
        match r0 with
        | b1 :: r1 =>
            if is_cont (bval b1)
            then Some (Some ((n0 - 192) * 64 + (bval b1 - 128)), r1)
            else Some (None, r0)
        | [] => Some (None, r0)
        end
      else if in_range 224 239 n0 then
        match r0 with
        | b1 :: r1 =>
            if second_ok n0 (bval b1) then
              match r1 with
              | b2 :: r2 =>
                  if is_cont (bval b2)
                  then Some (Some ((n0 - 224) * 4096 + (bval b1 - 128) * 64
                                   + (bval b2 - 128)), r2)
                  else Some (None, r1)
              | [] => Some (None, r1)
              end
            else Some (None, r0)
        | [] => Some (None, r0)
        end
      else if in_range 240 244 n0 then
        match r0 with
        | b1 :: r1 =>
            if second_ok n0 (bval b1) then
              match r1 with
              | b2 :: r2 =>
                  if is_cont (bval b2) then
                    match r2 with
                    | b3 :: r3 =>
                        if is_cont (bval b3)
                        then Some (Some ((n0 - 240) * 262144 + (bval b1 - 128) * 4096
                                         + (bval b2 - 128) * 64 + (bval b3 - 128)), r3)
                        else Some (None, r2)
                    | [] => Some (None, r2)
                    end
                  else Some (None, r1)
              | [] => Some (None, r1)
              end
            else Some (None, r0)
        | [] => Some (None, r0)
        end
      else Some (None, r0)
  end.

(** Strict decoding ([str::from_utf8] followed by [chars()]); fuel = number of bytes. *)
Fixpoint utf8_strict_fuel (fuel : nat) (l : bytes) : option ustr :=
  match utf8_next l with
  | None => Some []
  | Some (None, _) => None
  | Some (Some c, r) =>
      match fuel with
      | O => None
      | S f => match utf8_strict_fuel f r with Some cs => Some (c :: cs) | None => None end
      end
  end.
Definition utf8_strict (l : bytes) : option ustr := utf8_strict_fuel (List.length l) l.

(** Lossy decoding: every ill-formed sequence becomes U+FFFD. *)
Fixpoint utf8_lossy_fuel (fuel : nat) (l : bytes) : ustr :=
  match fuel with
  | O => []
  | S f =>
      match utf8_next l with
      | None => []
      | Some (Some c, r) => c :: utf8_lossy_fuel f r
      | Some (None, r) => 65533 :: utf8_lossy_fuel f r
      end
  end.
Definition utf8_lossy (l : bytes) : ustr := utf8_lossy_fuel (List.length l) l.

(** [char::is_control]: general category Cc. *)
Definition is_control (c : N) : bool := in_range 0 31 c || in_range 127 159 c.
(** [char::is_whitespace]: Unicode property White_Space. *)
Definition is_whitespace (c : N) : bool :=
  in_range 9 13 c || (c =? 32) || (c =? 133) || (c =? 160) || (c =? 5760)
  || in_range 8192 8202 c || (c =? 8232) || (c =? 8233) || (c =? 8239) || (c =? 8287)
  || (c =? 12288).

Fixpoint ustr_eqb (a b : ustr) : bool :=
  match a, b with
  | [], [] => true
  | x :: a', y :: b' => (x =? y) && ustr_eqb a' b'
  | _, _ => false
  end.
(** [str::starts_with]. *)
Fixpoint ustarts_with (s p : ustr) : bool :=
  match p, s with
  | [], _ => true
  | y :: p', x :: s' => (x =? y) && ustarts_with s' p'
  | _ :: _, [] => false
  end.
(** [str::ends_with]. *)
Definition uends_with (s p : ustr) : bool := ustarts_with (rev s) (rev p).
(** [str::contains(&str)]. *)
Fixpoint ucontains (s p : ustr) : bool :=
  ustarts_with s p || match s with [] => false | _ :: t => ucontains t p end.
(** [str::contains(char)]. *)
Definition ucontains_char (s : ustr) (c : N) : bool := existsb (N.eqb c) s.
(** [str::trim]. *)
Fixpoint utrim_start (s : ustr) : ustr :=
  match s with
  | [] => []
  | c :: t => if is_whitespace c then utrim_start t else s
  end.
Definition utrim (s : ustr) : ustr := rev (utrim_start (rev (utrim_start s))).
