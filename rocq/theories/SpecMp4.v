(** ISO base media (MP4) box trees.  Specification of C27/C28: a serialiser for box trees
    (ISO/IEC 14496-12, 4.2) and the kind decided by the handlers. *)
From Coq Require Import List NArith ZArith Bool String.
From Verif Require Import Base Formats Spec SpecBin.
Local Open Scope N_scope.

Inductive mp4_box : Set :=
| Node (large : bool) (kind : bytes) (children : list mp4_box)   (* moov, trak, mdia *)
| Hdlr (prefix handler rest : bytes)                             (* hdlr: 8 bytes, handler type, rest *)
| Leaf (kind payload : bytes).                                   (* any other box *)

(** Box header: 32-bit size and type, with the size in a 64-bit field if [large]. *)
Definition box_header (large : bool) (kind : bytes) (payload_len : N) : bytes :=
  if large then be_bytes 4 1 ++ kind ++ be_bytes 8 (16 + payload_len)
  else be_bytes 4 (8 + payload_len) ++ kind.
Fixpoint box_bytes (b : mp4_box) : bytes :=
  match b with
  | Node large kind children =>
      let payload := flat_map box_bytes children in
      box_header large kind (lenN payload) ++ payload
  | Hdlr prefix handler rest =>
      let payload := prefix ++ handler ++ rest in
      box_header false (bs "hdlr") (lenN payload) ++ payload
  | Leaf kind payload => box_header false kind (lenN payload) ++ payload
  end.

Definition node_kinds : list bytes := [bs "moov"; bs "trak"; bs "mdia"].

(** Fields have their sizes, and a box without a 64-bit size is smaller than 4 GiB. *)
Fixpoint wf_box (b : mp4_box) : Prop :=
  match b with
  | Node large kind children =>
      In kind node_kinds /\ (large = false -> 8 + lenN (flat_map box_bytes children) < 2 ^ 32) /\
      (fix all l := match l with [] => True | x :: r => wf_box x /\ all r end) children
  | Hdlr prefix handler rest =>
      lenN prefix = 8 /\ lenN handler = 4 /\ 20 + lenN rest < 2 ^ 32
  | Leaf kind payload =>
      lenN kind = 4 /\ ~ In kind (bs "hdlr" :: node_kinds) /\ 8 + lenN payload < 2 ^ 32
  end.

(** The boxes in document order, each with its handler type if it is a handler box. *)
Fixpoint doc_order (b : mp4_box) : list (option bytes) :=
  match b with
  | Node _ _ children => None :: flat_map doc_order children
  | Hdlr _ handler _ => [Some handler]
  | Leaf _ _ => [None]
  end.

(** The kind of a file with these handlers. *)
Definition has_handler (types : list string) (boxes : list (option bytes)) : bool :=
  existsb (fun b => match b with
                    | Some h => existsb (fun t => beqb h (bs t)) types
                    | None => false
                    end) boxes.
Definition mp4_class (boxes : list (option bytes)) : FileFormat :=
  if has_handler ["vide"%string] boxes then Mpeg4Part14Video
  else if has_handler ["soun"%string] boxes then Mpeg4Part14Audio
  else if has_handler ["sbtl"; "subt"; "text"]%string boxes then Mpeg4Part14Subtitles
  else Mpeg4Part14.

(** C28: a file as a sequence of pieces.  A piece is a box tree as above, the bare header of a
    container box (its children are the pieces that follow), or another box with a 64-bit size and
    the 8 bytes [slack] that follow it. *)
Inductive mp4_piece : Set :=
| Tree (b : mp4_box)
| Head (large : bool) (kind : bytes) (payload_len : N)
| LargeHdlr (prefix handler rest slack : bytes)
| LargeLeaf (kind payload slack : bytes).
Definition piece_bytes (p : mp4_piece) : bytes :=
  match p with
  | Tree b => box_bytes b
  | Head large kind n => box_header large kind n
  | LargeHdlr prefix handler rest slack =>
      box_header true (bs "hdlr") (lenN (prefix ++ handler ++ rest)) ++ prefix ++ handler ++ rest ++ slack
  | LargeLeaf kind payload slack => box_header true kind (lenN payload) ++ payload ++ slack
  end.
Definition wf_piece (p : mp4_piece) : Prop :=
  match p with
  | Tree b => wf_box b
  | Head large kind n => In kind node_kinds /\ (large = false -> 8 + n < 2 ^ 32)
  | LargeHdlr prefix handler rest slack => lenN prefix = 8 /\ lenN handler = 4 /\ lenN slack = 8
  | LargeLeaf kind payload slack =>
      lenN kind = 4 /\ ~ In kind (bs "hdlr" :: node_kinds) /\ lenN slack = 8
  end.
Definition piece_order (p : mp4_piece) : list (option bytes) :=
  match p with
  | Tree b => doc_order b
  | Head _ _ _ => [None]
  | LargeHdlr _ handler _ _ => [Some handler]
  | LargeLeaf _ _ _ => [None]
  end.
