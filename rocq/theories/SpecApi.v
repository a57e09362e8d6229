(** What the API is expected to return, in terms of the input only. *)
From Coq Require Import List NArith ZArith Bool String.
From Verif Require Import Base Formats Signatures IO Documented Spec SpecSig SpecText.
Local Open Scope N_scope.

(** [usize] has 32 or 64 bits. *)
Definition supported (c : plat) : Prop := usize_bits c = 32 \/ usize_bits c = 64.
(** No Rust slice is longer than [isize::MAX]. *)
Definition rust_slice (l : bytes) : Prop := lenN l < 2 ^ 63.

(** The input carries the signature of the container format of the feature [x], and the feature
    is enabled. *)
Definition signed (c : cfg) (x : feature) (l : bytes) : Prop :=
  feat c x = true /\ x <> FTxt /\ first_match signatures l (container x).

(** The result for data that nothing else claims. *)
Inductive generic_result (c : cfg) (l : bytes) : FileFormat -> Prop :=
| generic_text : feat c FTxt = true -> clean_text (text_head l) -> generic_result c l PlainText
| generic_binary : ~ (feat c FTxt = true /\ clean_text (text_head l)) ->
    generic_result c l ArbitraryBinaryData.

(** [Some f]: the container reader decides for [f]; [None]: it gives up and the generic result is
    returned. *)
Definition decided (c : cfg) (l : bytes) (r : option FileFormat) (f : FileFormat) : Prop :=
  match r with Some g => f = g | None => generic_result c l f end.
(** The same for the platform at hand: [isize] has one bit less than [usize]. *)
Definition addressable (c : plat) (l : bytes) : Prop := lenN l < 2 ^ (usize_bits c - 1).
