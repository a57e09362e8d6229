(** EBML / Matroska.  Specification of C29/C30: a serialiser for element trees (RFC 8794,
    sections 4-6) and the kind decided by DocType, codecs and stereo mode. *)
From Coq Require Import List NArith ZArith Bool String.
From Verif Require Import Base Formats Spec SpecBin.
Local Open Scope N_scope.

(** A variable-size integer of [w] bytes: the marker bit 2^(7w) plus 7w data bits. *)
Definition vint (w : nat) (n : N) : bytes := be_bytes w (2 ^ (7 * N.of_nat w) + n).
(** An element ID keeps its marker: a number between 2^(7w) and 2^(7w+1). *)
Definition element_id (w : nat) (id : N) : Prop :=
  (1 <= w <= 4)%nat /\ 2 ^ (7 * N.of_nat w) <= id /\ id < 2 ^ (7 * N.of_nat w + 1).

(** Element IDs (RFC 8794 and RFC 9559). *)
Definition ID_EBML : N := 0x1A45DFA3.
Definition ID_DocType : N := 0x4282.
Definition ID_Segment : N := 0x18538067.
Definition ID_Cluster : N := 0x1F43B675.
Definition ID_Tracks : N := 0x1654AE6B.
Definition ID_TrackEntry : N := 0xAE.
Definition ID_Video : N := 0xE0.
Definition ID_CodecID : N := 0x86.
Definition ID_StereoMode : N := 0x53B8.

(** Master elements that are entered; the others are skipped as a whole. *)
Inductive master : Set := MEbml | MSegment | MTracks | MTrackEntry | MVideo.
Definition master_id (m : master) : bytes :=
  match m with
  | MEbml => be_bytes 4 ID_EBML
  | MSegment => be_bytes 4 ID_Segment
  | MTracks => be_bytes 4 ID_Tracks
  | MTrackEntry => be_bytes 1 ID_TrackEntry
  | MVideo => be_bytes 1 ID_Video
  end.

(** Elements; [w] is the number of bytes of the size field. *)
Inductive element : Set :=
| Master (m : master) (unknown_size : bool) (w : nat) (children : list element)
| DocType (w : nat) (name : bytes)
| CodecID (w : nat) (name : bytes)
| StereoMode (w : nat) (mode : byte)
| Cluster (unknown_size : bool) (w : nat) (payload : bytes)
| Element (id_width : nat) (id : N) (w : nat) (payload : bytes).

Definition size_field (unknown_size : bool) (w : nat) (len : N) : bytes :=
  vint w (if unknown_size then 2 ^ (7 * N.of_nat w) - 1 else len).
Definition leaf_bytes (id : bytes) (w : nat) (payload : bytes) : bytes :=
  id ++ vint w (lenN payload) ++ payload.
Fixpoint element_bytes (e : element) : bytes :=
  match e with
  | Master m u w children =>
      let payload := flat_map element_bytes children in
      master_id m ++ size_field u w (lenN payload) ++ payload
  | DocType w name => leaf_bytes (be_bytes 2 ID_DocType) w name
  | CodecID w name => leaf_bytes (be_bytes 1 ID_CodecID) w name
  | StereoMode w mode => leaf_bytes (be_bytes 2 ID_StereoMode) w [mode]
  | Cluster u w payload => be_bytes 4 ID_Cluster ++ size_field u w (lenN payload) ++ payload
  | Element iw id w payload => leaf_bytes (be_bytes iw id) w payload
  end.

(** The size field is wide enough (1 to 8 bytes). *)
Definition wf_size (w : nat) (len : N) : Prop := (1 <= w <= 8)%nat /\ len < 2 ^ (7 * N.of_nat w).
Definition special_ids : list N :=
  [ID_EBML; ID_DocType; ID_Segment; ID_Cluster; ID_Tracks; ID_TrackEntry; ID_Video; ID_CodecID; ID_StereoMode].
Fixpoint wf_element (e : element) : Prop :=
  match e with
  | Master m u w children =>
      wf_size w (if u then 0 else lenN (flat_map element_bytes children)) /\
      (fix all l := match l with [] => True | x :: r => wf_element x /\ all r end) children
  | DocType w name | CodecID w name => wf_size w (lenN name) /\ lenN name < 2 ^ 32
  | StereoMode w mode => wf_size w 1
  | Cluster u w payload => wf_size w (if u then 0 else lenN payload)
  | Element iw id w payload => element_id iw id /\ ~ In id special_ids /\ wf_size w (lenN payload)
  end.

(** What matters for the classification, in document order. *)
Inductive event : Set :=
| EvDocType (name : bytes) | EvCodec (name : bytes) | EvStereo (mode : N) | EvCluster | EvOther.
Fixpoint events (e : element) : list event :=
  match e with
  | Master _ _ _ children => EvOther :: flat_map events children
  | DocType _ name => [EvDocType name]
  | CodecID _ name => [EvCodec name]
  | StereoMode _ mode => [EvStereo (bval mode)]
  | Cluster _ _ _ => [EvCluster]
  | Element _ _ _ _ => [EvOther]
  end.

Fixpoint before_cluster (l : list event) : list event :=
  match l with
  | [] => []
  | EvCluster :: _ => []
  | e :: r => e :: before_cluster r
  end.
(** Events that settle the format at once. *)
Definition decisive (e : event) : option FileFormat :=
  match e with
  | EvDocType name =>
      if bstarts_with name (bs "webm") then Some Webm
      else if bstarts_with name (bs "matroska") then None
      else Some ExtensibleBinaryMetaLanguage
  | EvStereo mode => if 0 <? mode then Some Matroska3dVideo else None
  | _ => None
  end.
Fixpoint first_decisive (l : list event) : option FileFormat :=
  match l with
  | [] => None
  | e :: r => match decisive e with Some f => Some f | None => first_decisive r end
  end.
Definition has_codec (prefix : string) (l : list event) : bool :=
  existsb (fun e => match e with EvCodec name => bstarts_with name (bs prefix) | _ => false end) l.
Definition ebml_class (evs : list event) : FileFormat :=
  let seen := before_cluster evs in
  match first_decisive seen with
  | Some f => f
  | None =>
      if has_codec "V_" seen then MatroskaVideo
      else if has_codec "A_" seen then MatroskaAudio
      else if has_codec "S_" seen then MatroskaSubtitles
      else ExtensibleBinaryMetaLanguage
  end.

(** C30: a file as a sequence of pieces.  A piece is an element tree as above, the bare header of a
    master element that is entered (its children are the pieces that follow), or the header of a
    StereoMode element with any declared size and the first byte of its payload. *)
Inductive ebml_piece : Set :=
| ETree (e : element)
| EHead (m : master) (w : nat) (size : N)
| EStereo (w : nat) (size : N) (mode : byte).
Definition epiece_bytes (p : ebml_piece) : bytes :=
  match p with
  | ETree e => element_bytes e
  | EHead m w size => master_id m ++ vint w size
  | EStereo w size mode => be_bytes 2 ID_StereoMode ++ vint w size ++ [mode]
  end.
Definition wf_epiece (p : ebml_piece) : Prop :=
  match p with
  | ETree e => wf_element e
  | EHead _ w size | EStereo w size _ => wf_size w size
  end.
Definition epiece_events (p : ebml_piece) : list event :=
  match p with
  | ETree e => events e
  | EHead _ _ _ => [EvOther]
  | EStereo _ _ mode => [EvStereo (bval mode)]
  end.
