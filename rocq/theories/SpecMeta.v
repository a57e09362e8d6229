(** Metadata strings (C40).  Nothing here depends on the tables. *)
From Coq Require Import List NArith Bool String Ascii.
Import ListNotations.
Local Open Scope string_scope.
Local Open Scope N_scope.

(** The characters of a string. *)
Fixpoint all_chars (P : ascii -> Prop) (s : string) : Prop :=
  match s with EmptyString => True | String c t => P c /\ all_chars P t end.
Definition digit (c : ascii) : Prop := 48 <= N_of_ascii c /\ N_of_ascii c <= 57.
Definition lower (c : ascii) : Prop := 97 <= N_of_ascii c /\ N_of_ascii c <= 122.
Definition upper (c : ascii) : Prop := 65 <= N_of_ascii c /\ N_of_ascii c <= 90.

(** RFC 6838, section 4.2: restricted-name-first and restricted-name-chars; here without the upper
    case letters (names compare case-insensitively, lower case is the canonical form). *)
Definition restricted_first (c : ascii) : Prop := digit c \/ lower c.
Definition restricted_char (c : ascii) : Prop :=
  digit c \/ lower c \/ In c ["!"; "#"; "$"; "&"; "-"; "^"; "_"; "."; "+"]%char.
Definition restricted_name (s : string) : Prop :=
  (exists c t, s = String c t /\ restricted_first c) /\ all_chars restricted_char s /\
  N.of_nat (String.length s) <= 127.

(** The top-level types of RFC 6838 and its updates. *)
Definition top_level (s : string) : Prop :=
  In s ["application"; "audio"; "font"; "image"; "message"; "model"; "multipart"; "text"; "video"].
Definition is_media_type (s : string) : Prop :=
  exists t u, s = t ++ "/" ++ u /\ top_level t /\ restricted_name u.

(** What can be appended to a file name stem after a dot: non-empty, only ASCII letters, digits,
    and the given few other characters. *)
Definition is_extension (s : string) : Prop :=
  s <> "" /\ all_chars (fun c => digit c \/ lower c \/ upper c \/ In c ["_"; "-"; "+"]%char) s.

(** Printable ASCII, not starting or ending with a space. *)
Definition printable (c : ascii) : Prop := 32 <= N_of_ascii c /\ N_of_ascii c <= 126.
Definition is_label (s : string) : Prop :=
  s <> "" /\ all_chars printable s /\ (forall t, s <> " " ++ t) /\ (forall t, s <> t ++ " ").
