(** Byte strings and the fixed-width arithmetic used by the model.

    Everything here is about Rust's primitive types ([u8], [u16], [u32], [u64], [i64], [usize],
    [&[u8]], [Vec<u8>]), not about a particular function of the crate. *)
From Coq Require Import List NArith ZArith Bool String Ascii.
From Coq.Strings Require Export Byte.
Export ListNotations.
Local Open Scope N_scope.

Notation bytes := (list byte).

(** Value of a [u8]. *)
Definition bval (b : byte) : N := Byte.to_N b.

(** Length of a slice, [slice.len() as u64]. *)
Definition lenN {A} (l : list A) : N := N.of_nat (List.length l).

(** [&l[n..]] (empty when [n] is at or beyond the end) and [&l[..min(n, len)]].  Written by
    recursion on the list so that they also compute for 64-bit offsets. *)
Fixpoint dropN {A} (n : N) (l : list A) : list A :=
  match l with
  | [] => []
  | x :: t => if n =? 0 then l else dropN (N.pred n) t
  end.
Fixpoint takeN {A} (n : N) (l : list A) : list A :=
  match l with
  | [] => []
  | x :: t => if n =? 0 then [] else x :: takeN (N.pred n) t
  end.

(** Equality of byte slices. *)
Fixpoint beqb (a b : bytes) : bool :=
  match a, b with
  | [], [] => true
  | x :: a', y :: b' => Byte.eqb x y && beqb a' b'
  | _, _ => false
  end.

(** [<[u8]>::starts_with]. *)
Fixpoint bstarts_with (l p : bytes) : bool :=
  match p, l with
  | [], _ => true
  | y :: p', x :: l' => Byte.eqb x y && bstarts_with l' p'
  | _ :: _, [] => false
  end.

(** Byte-string literal [b"..."] (for printable ASCII; other bytes are written [x00 ...]). *)
Definition bs (s : string) : bytes := String.list_byte_of_string s.
Arguments bs s%string_scope.

(** [b"A\0B\0..."]: the literal with a zero byte after every character. *)
Definition bs0 (s : string) : bytes := flat_map (fun b => [b; x00]) (bs s).
Arguments bs0 s%string_scope.

(** [from_le_bytes] / [from_be_bytes]. *)
Fixpoint le_val (l : bytes) : N :=
  match l with
  | [] => 0
  | b :: t => bval b + 256 * le_val t
  end.
Fixpoint be_acc (acc : N) (l : bytes) : N :=
  match l with
  | [] => acc
  | b :: t => be_acc (acc * 256 + bval b) t
  end.
Definition be_val (l : bytes) : N := be_acc 0 l.

Definition u32_max1 : N := 2 ^ 32.
Definition u64_max1 : N := 2 ^ 64.

(** [n as i64] for [n : u64] (two's complement). *)
Definition as_i64 (n : N) : Z :=
  if n <? 2 ^ 63 then Z.of_N n else (Z.of_N n - 2 ^ 64)%Z.

Definition i64_min : Z := (- 2 ^ 63)%Z.
Definition i64_max : Z := (2 ^ 63 - 1)%Z.

(** Wrap-around of an out-of-range [i64] result in a build without overflow checks. *)
Definition wrap_i64 (z : Z) : Z := ((z + 2 ^ 63) mod 2 ^ 64 - 2 ^ 63)%Z.

(** [u8::leading_zeros]. *)
Definition leading_zeros8 (n : N) : N := 8 - N.size n.

(** [saturating_sub] of unsigned integers. *)
Definition sat_sub (a b : N) : N := a - b.
