(** Text.  Specifications the property theorems are stated with; nothing here depends on the
    way the code (or its model) computes. *)
From Coq Require Import List NArith ZArith Bool String.
From Verif Require Import Base.
Local Open Scope N_scope.

(** ** Text (C22, C23, C42) *)

(** The byte with value [n]. *)
Definition byteN (n : N) : byte := match Byte.of_N n with Some b => b | None => x00 end.
(** Unicode scalar values. *)
Definition scalar (c : N) : Prop := c < 0xD800 \/ (0xE000 <= c /\ c < 0x110000).
(** UTF-8 as in RFC 3629, section 3. *)
Definition utf8_encode (c : N) : bytes :=
  if c <? 0x80 then [byteN c]
  else if c <? 0x800 then [byteN (192 + c / 64); byteN (128 + c mod 64)]
  else if c <? 0x10000 then
    [byteN (224 + c / 4096); byteN (128 + (c / 64) mod 64); byteN (128 + c mod 64)]
  else
    [byteN (240 + c / 262144); byteN (128 + (c / 4096) mod 64); byteN (128 + (c / 64) mod 64);
     byteN (128 + c mod 64)].
(** Control characters other than white space: C0 without TAB..CR, DEL, C1 without NEL. *)
Definition forbidden (c : N) : Prop :=
  c <= 8 \/ (14 <= c /\ c <= 31) \/ (127 <= c /\ c <= 132) \/ (134 <= c /\ c <= 159).
(** Well-formed UTF-8 without forbidden characters. *)
Definition clean_text (l : bytes) : Prop :=
  exists cs, Forall scalar cs /\ Forall (fun c => ~ forbidden c) cs /\ l = flat_map utf8_encode cs.
(** The bytes up to and including the [n]-th line feed (all if there are fewer). *)
Fixpoint first_lines (n : nat) (l : bytes) : bytes :=
  match l with
  | [] => []
  | b :: t =>
      match n with
      | O => []
      | S n' => b :: first_lines (if Byte.eqb b x0a then n' else n) t
      end
  end.
(** The part of a stream the text detection looks at: its first 16 lines, at most 65536 bytes. *)
Definition text_head (l : bytes) : bytes := first_lines 16 (takeN 65536 l).
(** A string literal consists of ASCII characters. *)
Definition ascii_bytes (l : bytes) : Prop := Forall (fun b => bval b < 128) l.
