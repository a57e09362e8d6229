(** ASF (C31) and RealMedia (C33): serialisers for the header objects and chunks, and the kind
    the streams decide. *)
From Coq Require Import List NArith ZArith Bool String.
From Verif Require Import Base Formats Spec SpecText SpecBin.
Local Open Scope N_scope.

(** ** ASF (Advanced Systems Format specification 1.20.3, sections 3.2, 3.3 and 3.11) *)
Definition guid_stream_properties : guid :=
  mkguid 0xB7DC0791 0xA9B7 0x11CF [x8e; xe6; x00; xc0; x0c; x20; x53; x65].
Definition guid_extended_content : guid :=
  mkguid 0xD2D0A440 0xE307 0x11D2 [x97; xf0; x00; xa0; xc9; x5e; xa8; x50].
Definition guid_audio_media : guid :=
  mkguid 0xF8699E40 0x5B4D 0x11CF [xa8; xfd; x00; x80; x5f; x5c; x44; x2b].
Definition guid_video_media : guid :=
  mkguid 0xBC19EFC0 0x5B4D 0x11CF [xa8; xfd; x00; x80; x5f; x5c; x44; x2b].

(** A content descriptor: UTF-16LE name, value type, value. *)
Record descriptor : Set := mkdescr { d_name : bytes; d_type : N; d_value : bytes }.
Definition descriptor_bytes (d : descriptor) : bytes :=
  le_bytes 2 (lenN (d_name d)) ++ d_name d ++ le_bytes 2 (d_type d) ++
  le_bytes 2 (lenN (d_value d)) ++ d_value d.
Definition wf_descriptor (d : descriptor) : Prop := lenN (d_name d) < 2 ^ 16 /\ lenN (d_value d) < 2 ^ 16.

Inductive asf_object : Set :=
| StreamProperties (stream_type : guid) (rest : bytes)
| ExtendedContent (descriptors : list descriptor) (padding : bytes)
| OtherObject (id : guid) (payload : bytes).
Definition asf_object_id (o : asf_object) : guid :=
  match o with
  | StreamProperties _ _ => guid_stream_properties
  | ExtendedContent _ _ => guid_extended_content
  | OtherObject id _ => id
  end.
Definition asf_payload (o : asf_object) : bytes :=
  match o with
  | StreamProperties t rest => guid_bytes t ++ rest
  | ExtendedContent ds pad => le_bytes 2 (lenN ds) ++ flat_map descriptor_bytes ds ++ pad
  | OtherObject _ payload => payload
  end.
(** Object: identifier, size of the whole object, payload. *)
Definition asf_object_bytes (o : asf_object) : bytes :=
  guid_bytes (asf_object_id o) ++ le_bytes 8 (24 + lenN (asf_payload o)) ++ asf_payload o.
Definition wf_asf_object (o : asf_object) : Prop :=
  match o with
  | StreamProperties t _ => wf_guid t
  | ExtendedContent ds _ => lenN ds < 2 ^ 16 /\ Forall wf_descriptor ds
  | OtherObject id _ => wf_guid id /\ id <> guid_stream_properties /\ id <> guid_extended_content
  end.
(** The header object: identifier and size (24 bytes), number of objects, two reserved bytes, the
    objects; [data] is the rest of the file. *)
Definition asf_file (head reserved : bytes) (objects : list asf_object) (data : bytes) : bytes :=
  head ++ le_bytes 4 (lenN objects) ++ reserved ++ flat_map asf_object_bytes objects ++ data.

(** Does a descriptor name the version of a DVR-MS file? *)
Definition dvr_descriptor (d : descriptor) : Prop := exists r, d_name d = bs0 "DVR File Version" ++ r.
(** Only the first 32 descriptors of an object are examined. *)
Definition dvr_object (o : asf_object) : Prop :=
  exists ds pad, o = ExtendedContent ds pad /\ Exists dvr_descriptor (firstn 32 ds).
Definition has_stream (t : guid) (objects : list asf_object) : Prop :=
  exists rest, In (StreamProperties t rest) objects.
Inductive asf_class (objects : list asf_object) : FileFormat -> Prop :=
| asf_dvr : Exists dvr_object objects -> asf_class objects MicrosoftDigitalVideoRecording
| asf_video : ~ Exists dvr_object objects -> has_stream guid_video_media objects ->
    asf_class objects WindowsMediaVideo
| asf_audio : ~ Exists dvr_object objects -> ~ has_stream guid_video_media objects ->
    has_stream guid_audio_media objects -> asf_class objects WindowsMediaAudio
| asf_none : ~ Exists dvr_object objects -> ~ has_stream guid_video_media objects ->
    ~ has_stream guid_audio_media objects -> asf_class objects AdvancedSystemsFormat.

(** ** RealMedia *)
Inductive rm_chunk : Set :=
| MediaProperties (fixed stream_name mime rest : bytes)
| Chunk (kind payload : bytes).
Definition rm_payload (ch : rm_chunk) : bytes :=
  match ch with
  | MediaProperties fixed name mime rest =>
      fixed ++ le_bytes 1 (lenN name) ++ name ++ le_bytes 1 (lenN mime) ++ mime ++ rest
  | Chunk _ payload => payload
  end.
Definition rm_kind (ch : rm_chunk) : bytes :=
  match ch with MediaProperties _ _ _ _ => bs "MDPR" | Chunk kind _ => kind end.
(** Chunk: kind, size of the whole chunk, payload. *)
Definition rm_chunk_bytes (ch : rm_chunk) : bytes :=
  rm_kind ch ++ be_bytes 4 (8 + lenN (rm_payload ch)) ++ rm_payload ch.
Definition wf_rm_chunk (ch : rm_chunk) : Prop :=
  8 + lenN (rm_payload ch) < 2 ^ 32 /\
  match ch with
  | MediaProperties fixed name mime _ => lenN fixed = 32 /\ lenN name < 256 /\ lenN mime < 256
  | Chunk kind _ => lenN kind = 4 /\ kind <> bs "MDPR"
  end.
(** The file header (14 bytes, then the number of headers including itself) and the chunks. *)
Definition rm_file (head : bytes) (chunks : list rm_chunk) (data : bytes) : bytes :=
  head ++ be_bytes 4 (1 + lenN chunks) ++ flat_map rm_chunk_bytes chunks ++ data.

Definition rm_stream (kind : string) (chunks : list rm_chunk) : Prop :=
  exists fixed name sub rest, In (MediaProperties fixed name (bs kind ++ sub) rest) chunks.
Inductive rm_class (chunks : list rm_chunk) : FileFormat -> Prop :=
| rm_video : rm_stream "video/" chunks -> rm_class chunks Realvideo
| rm_audio : ~ rm_stream "video/" chunks -> rm_stream "audio/" chunks -> rm_class chunks Realaudio
| rm_none : ~ rm_stream "video/" chunks -> ~ rm_stream "audio/" chunks -> rm_class chunks Realmedia.
