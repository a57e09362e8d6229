(** Binary encodings: fixed-width integers and GUIDs.  Specifications the property theorems are
    stated with; nothing here depends on the way the code (or its model) computes. *)
From Coq Require Import List NArith ZArith Bool String.
From Verif Require Import Base SpecText.
Local Open Scope N_scope.

(** [v] in [n] bytes, least / most significant byte first. *)
Fixpoint le_bytes (n : nat) (v : N) : bytes :=
  match n with
  | O => []
  | S n' => byteN (v mod 256) :: le_bytes n' (v / 256)
  end.
Definition be_bytes (n : nat) (v : N) : bytes := rev (le_bytes n v).

(** A GUID as in MS-DTYP 2.3.4: three integers and eight bytes. *)
Record guid : Set := mkguid { data1 : N; data2 : N; data3 : N; data4 : bytes }.
Definition wf_guid (g : guid) : Prop :=
  data1 g < 2 ^ 32 /\ data2 g < 2 ^ 16 /\ data3 g < 2 ^ 16 /\ List.length (data4 g) = 8%nat.
(** Its packet representation (MS-DTYP 2.3.4.2): the integers little-endian. *)
Definition guid_bytes (g : guid) : bytes :=
  le_bytes 4 (data1 g) ++ le_bytes 2 (data2 g) ++ le_bytes 2 (data3 g) ++ data4 g.
(** Its string representation (MS-DTYP 2.3.4.3, without braces): the integers in hexadecimal,
    then the bytes in order, 8-4-4-4-12 lower-case digits. *)
Definition hex1 (n : N) : string :=
  match String.get (N.to_nat n) "0123456789abcdef"%string with
  | Some a => String a EmptyString
  | None => EmptyString
  end.
(** [n] hexadecimal digits of [v]. *)
Fixpoint hexN (n : nat) (v : N) : string :=
  match n with
  | O => EmptyString
  | S n' => String.append (hexN n' (v / 16)) (hex1 (v mod 16))
  end.
Definition hex_bytes (l : bytes) : string :=
  String.concat "" (map (fun b => hexN 2 (bval b)) l).
Definition guid_text (g : guid) : string :=
  (hexN 8 (data1 g) ++ "-" ++ hexN 4 (data2 g) ++ "-" ++ hexN 4 (data3 g) ++ "-" ++
   hex_bytes (firstn 2 (data4 g)) ++ "-" ++ hex_bytes (skipn 2 (data4 g)))%string.
