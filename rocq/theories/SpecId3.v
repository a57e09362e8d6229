(** ID3v2 tagged audio.  Specification of C25/C26: a serialiser for tags (ID3v2.4 structure,
    sections 3.1, 3.2 and 3.4) and the kind of the audio data. *)
From Coq Require Import List NArith ZArith Bool String.
From Verif Require Import Base Formats Spec SpecText SpecBin.
Local Open Scope N_scope.

Record id3_tag : Set := mktag {
  tag_version : byte * byte;
  tag_flags : byte;             (* bit 6: extended header, bit 4: footer *)
  tag_body : bytes              (* extended header, frames and padding *)
}.
Definition has_extended (t : id3_tag) : bool := N.testbit (bval (tag_flags t)) 6.
Definition has_footer (t : id3_tag) : bool := N.testbit (bval (tag_flags t)) 4.

(** 28 bits in four bytes with the top bit clear. *)
Definition synchsafe (n : N) : bytes :=
  [byteN (n / 2097152 mod 128); byteN (n / 16384 mod 128); byteN (n / 128 mod 128); byteN (n mod 128)].
(** The ten bytes of a header ("ID3") or a footer ("3DI"). *)
Definition tag_header (id : bytes) (t : id3_tag) : bytes :=
  id ++ [fst (tag_version t); snd (tag_version t); tag_flags t] ++ synchsafe (lenN (tag_body t)).
Definition tag_bytes (t : id3_tag) : bytes :=
  tag_header (bs "ID3") t ++ tag_body t ++ (if has_footer t then tag_header (bs "3DI") t else []).
Definition wf_tag (t : id3_tag) : Prop := lenN (tag_body t) < 2 ^ 28.

(** An MPEG audio frame header of layer III: eleven sync bits, a version other than the reserved
    one (bits 4-3 = 01), layer bits (2-1) = 01. *)
Definition layer3_frame (l : bytes) : Prop :=
  exists b r, l = xff :: b :: r /\
    N.testbit (bval b) 7 = true /\ N.testbit (bval b) 6 = true /\ N.testbit (bval b) 5 = true /\
    ~ (N.testbit (bval b) 4 = false /\ N.testbit (bval b) 3 = true) /\
    N.testbit (bval b) 2 = false /\ N.testbit (bval b) 1 = true.
Definition flac_stream (l : bytes) : Prop := exists r, l = bs "fLaC" ++ r.

(** What tagged audio is reported as ([None]: the data after the tags is too short). *)
Inductive id3_class (audio : bytes) : option FileFormat -> Prop :=
| id3_short : lenN audio < 10 -> id3_class audio None
| id3_flac : 10 <= lenN audio -> flac_stream audio -> id3_class audio (Some FreeLosslessAudioCodec)
| id3_mp3 : 10 <= lenN audio -> layer3_frame audio -> id3_class audio (Some Mpeg12AudioLayer3)
| id3_other : 10 <= lenN audio -> ~ flac_stream audio -> ~ layer3_frame audio ->
    id3_class audio (Some Id3v2).

(** A tag together with the bytes the reader skips after it: none without an extended header; as
    many as the size stored in the extended header otherwise. *)
Definition item := (id3_tag * bytes)%type.
Definition wf_item (i : item) : Prop :=
  wf_tag (fst i) /\
  (has_extended (fst i) = false -> snd i = []) /\
  (has_extended (fst i) = true -> exists r, tag_body (fst i) = be_bytes 4 (lenN (snd i)) ++ r /\
     lenN (snd i) < 2 ^ 32).
Definition item_bytes (i : item) : bytes := tag_bytes (fst i) ++ snd i.
