(** Model of /repo/src/readers.rs: the format readers.

    Each function is the reader program of the Rust function of the same name.  Whether the
    function wraps its reader in [BufReader::new] is recorded in [uses_bufreader] at the end;
    [let!] is [?]. *)
From Coq Require Import List NArith ZArith Bool String.
From Verif Require Import Base Formats IO Find Utf8.
Local Open Scope N_scope.

(** ** read_guid, read_string *)

(** [format!("{:02x}", b)]. *)
Definition hex_digit (n : N) : string :=
  match n with
  | 0 => "0" | 1 => "1" | 2 => "2" | 3 => "3" | 4 => "4" | 5 => "5" | 6 => "6" | 7 => "7"
  | 8 => "8" | 9 => "9" | 10 => "a" | 11 => "b" | 12 => "c" | 13 => "d" | 14 => "e" | _ => "f"
  end%string.
Definition hex2 (b : byte) : string :=
  String.append (hex_digit (bval b / 16)) (hex_digit (bval b mod 16)).

(** readers.rs 1115-1124: the closure in read_guid. *)
Definition guid_piece (buf : bytes) (i : nat) : string :=
  let h := hex2 (nth i buf x00) in
  if (Nat.eqb i 5 || Nat.eqb i 7 || Nat.eqb i 8 || Nat.eqb i 10)%bool
  then String.append "-" h else h.
Definition guid_string (buf : bytes) : string :=
  String.concat "" (map (guid_piece buf)
    [3; 2; 1; 0; 5; 4; 7; 6; 8; 9; 10; 11; 12; 13; 14; 15]%nat).

(** readers.rs 1112-1126: read_guid.  The buffer has 16 bytes, so the indices are in range. *)
Definition read_guid (c : plat) : io string :=
  let! buf := read_bytes c 16 in
  ok (guid_string buf).

(** readers.rs 1128-1132: read_string. *)
Definition read_string (c : plat) (size : N) : io ustr :=
  let! l := read_bytes c size in
  ok (utf8_lossy l).

(** ** ASF, readers.rs 54-167 *)

Definition EXTENDED_CONTENT_DESCRIPTION_OBJECT_GUID : string :=
  "d2d0a440-e307-11d2-97f0-00a0c95ea850".       (* readers.rs 67-68 *)
Definition STREAM_PROPERTIES_OBJECT_GUID : string :=
  "b7dc0791-a9b7-11cf-8ee6-00c00c205365".       (* readers.rs 71 *)
Definition AUDIO_MEDIA_GUID : string :=
  "f8699e40-5b4d-11cf-a8fd-00805f5c442b".       (* readers.rs 74 *)
Definition VIDEO_MEDIA_GUID : string :=
  "bc19efc0-5b4d-11cf-a8fd-00805f5c442b".       (* readers.rs 77 *)

(** readers.rs 125-147: the loop over the content descriptors; [true] = return DVR-MS. *)
Fixpoint asf_descriptors (c : plat) (n : nat) : io bool :=
  match n with
  | O => ok false
  | S n' =>
      let! len := read_u16_le in
      let! name := read_bytes c (N.min 64 len) in
      if bstarts_with name (bs0 "DVR File Version") then ok true
      else
        let remaining_len := sat_sub len 64 in
        let! _ := seek (FromCurrent (Z.of_N remaining_len + 2)) in
        let! len2 := read_u16_le in
        let! _ := seek (FromCurrent (Z.of_N len2)) in
        asf_descriptors c n'
  end.

(** readers.rs 94-166: the loop over the header objects and the final decision. *)
Fixpoint asf_objects (c : plat) (n : nat) (audio_stream video_stream : bool) : io FileFormat :=
  match n with
  | O =>
      ok (if video_stream then WindowsMediaVideo
          else if audio_stream then WindowsMediaAudio
          else AdvancedSystemsFormat)
  | S n' =>
      let! guid := read_guid c in
      let! size := read_u64_le in
      if String.eqb guid STREAM_PROPERTIES_OBJECT_GUID then
        let! stream_type := read_guid c in
        let '(a, v) :=
          if String.eqb stream_type AUDIO_MEDIA_GUID then (true, video_stream)
          else if String.eqb stream_type VIDEO_MEDIA_GUID then (audio_stream, true)
          else (audio_stream, video_stream) in
        let* delta := i64_sub c (as_i64 size) 40 in
        let! _ := seek (FromCurrent delta) in
        asf_objects c n' a v
      else if String.eqb guid EXTENDED_CONTENT_DESCRIPTION_OBJECT_GUID then
        let! count := read_u16_le in
        let! offset := tell in
        let! dvr := asf_descriptors c (N.to_nat (N.min 32 count)) in
        if dvr then ok MicrosoftDigitalVideoRecording
        else
          let* t := u64_add c offset size in
          let* t2 := u64_sub c t 26 in
          let! _ := seek (FromStart t2) in
          asf_objects c n' audio_stream video_stream
      else
        let* delta := i64_sub c (as_i64 size) 24 in
        let! _ := seek (FromCurrent delta) in
        asf_objects c n' audio_stream video_stream
  end.

(** readers.rs 54-167: from_asf_reader. *)
Definition from_asf_reader (c : plat) : io FileFormat :=
  let! _ := seek (FromStart 24) in
  let! number_of_header_objects := read_u32_le in
  let! _ := seek (FromCurrent 2) in
  asf_objects c (N.to_nat (N.min 256 (as_usize c number_of_header_objects))) false false.

(** ** CFB, readers.rs 169-261 *)

(** readers.rs 191-237: the CLSID table (arms of the match, in order). *)
Definition clsid_table : list (string * FileFormat) :=
  [ ("e60f81e1-49b3-11d0-93c3-7e0706000000", AutodeskInventorAssembly);
    ("bbf9fdf1-52dc-11d0-8c04-0800090be8ec", AutodeskInventorDrawing);
    ("4d29b490-49b2-11d0-93c3-7e0706000000", AutodeskInventorPart);
    ("76283a80-50dd-11d3-a7e3-00c04f79d7bc", AutodeskInventorPresentation);
    ("402efe62-1999-101b-99ae-04021c007002", CorelPresentations7);
    ("597caa70-72aa-11cf-831e-524153480000", FlashProject);
    ("b4f235fe-dca6-4803-b7b2-c25a453c836b", FlashProject);
    ("00020810-0000-0000-c000-000000000046", MicrosoftExcelSpreadsheet);
    ("00020820-0000-0000-c000-000000000046", MicrosoftExcelSpreadsheet);
    ("00044851-0000-0000-c000-000000000046", MicrosoftPowerpointPresentation);
    ("64818d10-4f9b-11cf-86ea-00aa00b929e8", MicrosoftPowerpointPresentation);
    ("ea7bae70-fb3b-11cd-a903-00aa00510ea3", MicrosoftPowerpointPresentation);
    ("74b78f3a-c8c8-11d1-be11-00c04fb6faf1", MicrosoftProjectPlan);
    ("00021201-0000-0000-00c0-000000000046", MicrosoftPublisherDocument);
    ("000c1084-0000-0000-c000-000000000046", MicrosoftSoftwareInstaller);
    ("00021a13-0000-0000-c000-000000000046", MicrosoftVisioDrawing);
    ("00021a14-0000-0000-c000-000000000046", MicrosoftVisioDrawing);
    ("00020900-0000-0000-c000-000000000046", MicrosoftWordDocument);
    ("00020906-0000-0000-c000-000000000046", MicrosoftWordDocument);
    ("00021303-0000-0000-c000-000000000046", MicrosoftWorksDatabase);
    ("28cddbc3-0ae2-11ce-a29a-00aa004a1a72", MicrosoftWorksDatabase);
    ("00021302-0000-0000-c000-000000000046", MicrosoftWorksWordProcessor);
    ("0ea45ab2-9e0a-11d1-a407-00c04fb932ba", MicrosoftWorksWordProcessor);
    ("28cddbc2-0ae2-11ce-a29a-00aa004a1a72", MicrosoftWorksWordProcessor);
    ("83a33d36-27c5-11ce-bfd4-00400513bb57", SolidworksAssembly);
    ("83a33d34-27c5-11ce-bfd4-00400513bb57", SolidworksDrawing);
    ("83a33d30-27c5-11ce-bfd4-00400513bb57", SolidworksPart);
    ("3f543fa0-b6a6-101b-9961-04021c007002", Starcalc);
    ("6361d441-4235-11d0-89cb-008029e4b0b1", Starcalc);
    ("c6a5b861-85d6-11d1-89cb-008029e4b0b1", Starcalc);
    ("02b3b7e0-4225-11d0-89ca-008029e4b0b1", Starchart);
    ("bf884321-85dd-11d1-89d0-008029e4b0b1", Starchart);
    ("fb9c99e0-2c6d-101c-8e2c-00001b4cc711", Starchart);
    ("2e8905a0-85bd-11d1-89d0-008029e4b0b1", Stardraw);
    ("af10aae0-b36d-101b-9961-04021c007002", Stardraw);
    ("012d3cc0-4216-11d0-89cb-008029e4b0b1", Starimpress);
    ("565c7221-85bc-11d1-89d0-008029e4b0b1", Starimpress);
    ("02b3b7e1-4225-11d0-89ca-008029e4b0b1", Starmath);
    ("d4590460-35fd-101c-b12a-04021c007002", Starmath);
    ("ffb5e640-85de-11d1-89d0-008029e4b0b1", Starmath);
    ("8b04e9b0-420e-11d0-a45e-00a0249d57b1", Starwriter);
    ("c20cf9d1-85ae-11d1-aab4-006097da561a", Starwriter);
    ("dc5c7e40-b35c-101b-9961-04021c007002", Starwriter);
    ("1cdd8c7b-81c0-45a0-9fed-04143144cc1e", ThreeDimensionalStudioMax);
    ("519873ff-2dad-0220-1937-0000929679cd", WordperfectDocument);
    ("402efe60-1999-101b-99ae-04021c007002", WordperfectGraphics) ]%string.

(** A [match] on a string with constant arms. *)
Fixpoint lookup_str {B} (s : string) (t : list (string * B)) : option B :=
  match t with
  | [] => None
  | (k, v) :: t' => if String.eqb s k then Some v else lookup_str s t'
  end.

(** readers.rs 169-261: from_cfb_reader.  The offset computation cannot overflow u64
    (4096 * 2^32 + 80). *)
Definition from_cfb_reader (c : plat) : io FileFormat :=
  let! _ := seek (FromStart 26) in
  let! major_version := read_u16_le in
  let directory_sector_size := if major_version =? 3 then 512 else 4096 in
  let! _ := seek (FromCurrent 20) in
  let! first_directory_sector_location := read_u32_le in
  let offset := directory_sector_size * (1 + first_directory_sector_location) + 80 in
  let! _ := seek (FromStart offset) in
  let! clsid := read_guid c in
  match lookup_str clsid clsid_table with
  | Some f => ok f
  | None =>
      let! _ := seek (FromCurrent 32) in
      let! directory_entry_name := read_bytes c 64 in
      if bstarts_with directory_entry_name (bs0 "MatOST") then ok MicrosoftWorksWordProcessor
      else
        let! _ := seek (FromCurrent 64) in
        let! directory_entry_name2 := read_bytes c 64 in
        if bstarts_with directory_entry_name2 (bs0 "WksSSWorkBook")
        then ok MicrosoftWorks6Spreadsheet
        else ok CompoundFileBinary
  end.

(** ** EBML, readers.rs 263-422 *)

Definition DOC_TYPE_ELEMENT_ID : N := 0x4282.        (* readers.rs 276 *)
Definition EBML_ELEMENT_ID : N := 0x1A45DFA3.        (* readers.rs 279 *)
Definition CLUSTER_ELEMENT_ID : N := 0x1F43B675.     (* readers.rs 282 *)
Definition CODEC_ID_ELEMENT_ID : N := 0x86.          (* readers.rs 285 *)
Definition SEGMENT_ELEMENT_ID : N := 0x18538067.     (* readers.rs 288 *)
Definition STEREO_MODE_ELEMENT_ID : N := 0x53B8.     (* readers.rs 291 *)
Definition TRACKS_ELEMENT_ID : N := 0x1654AE6B.      (* readers.rs 294 *)
Definition TRACK_ENTRY_ELEMENT_ID : N := 0xAE.       (* readers.rs 297 *)
Definition VIDEO_ELEMENT_ID : N := 0xE0.             (* readers.rs 300 *)

(** readers.rs 331-334 and 347-350: value = (value << 8) | byte, repeated; [m] is the modulus
    of the integer type (bits shifted out are lost). *)
Fixpoint read_shift_bytes (m : N) (n : nat) (v : N) : io N :=
  match n with
  | O => ok v
  | S n' =>
      let! b := read_u8 in
      read_shift_bytes m n' (N.lor ((N.shiftl v 8) mod m) b)
  end.

(** readers.rs 321-334: the element ID. *)
Definition read_ebml_id : io N :=
  let! first_byte := read_u8 in
  let number_of_bytes := leading_zeros8 first_byte + 1 in
  if 4 <? number_of_bytes then err EInvalidData
  else read_shift_bytes u32_max1 (N.to_nat (number_of_bytes - 1)) first_byte.

(** readers.rs 337-350: the element size. *)
Definition read_ebml_size : io N :=
  let! first_byte := read_u8 in
  let number_of_bytes := leading_zeros8 first_byte + 1 in
  if 8 <? number_of_bytes then err EInvalidData
  else
    let size := N.land first_byte (N.shiftr 128 (leading_zeros8 first_byte) - 1) in
    read_shift_bytes u64_max1 (N.to_nat (number_of_bytes - 1)) size.

(** readers.rs 412-421: the final decision. *)
Definition ebml_result (audio_track video_track subtitle_track : bool) : FileFormat :=
  if video_track then MatroskaVideo
  else if audio_track then MatroskaAudio
  else if subtitle_track then MatroskaSubtitles
  else ExtensibleBinaryMetaLanguage.

(** readers.rs 317-409: the element loop; [n] is ELEMENT_LIMIT - element_count. *)
Fixpoint ebml_elements (c : plat) (len : N) (n : nat)
    (audio_track video_track subtitle_track : bool) : io FileFormat :=
  match n with
  | O => ok (ebml_result audio_track video_track subtitle_track)
  | S n' =>
      let! pos := tell in
      if pos <? len then
        let! id := read_ebml_id in
        let! size := read_ebml_size in
        if (id =? EBML_ELEMENT_ID) || (id =? SEGMENT_ELEMENT_ID) || (id =? TRACKS_ELEMENT_ID)
           || (id =? TRACK_ENTRY_ELEMENT_ID) || (id =? VIDEO_ELEMENT_ID) then
          ebml_elements c len n' audio_track video_track subtitle_track
        else if id =? DOC_TYPE_ELEMENT_ID then
          let! doc_type := read_bytes c (N.min 8 (as_usize c size)) in
          if bstarts_with doc_type (bs "webm") then ok Webm
          else if negb (bstarts_with doc_type (bs "matroska"))
          then ok ExtensibleBinaryMetaLanguage
          else
            let remaining_size := sat_sub size 8 in
            let! _ := seek (FromCurrent (as_i64 remaining_size)) in
            ebml_elements c len n' audio_track video_track subtitle_track
        else if id =? CODEC_ID_ELEMENT_ID then
          let! codec_id := read_bytes c (N.min 64 (as_usize c size)) in
          let '(a, v, s) :=
            if bstarts_with codec_id (bs "A_") then (true, video_track, subtitle_track)
            else if bstarts_with codec_id (bs "V_") then (audio_track, true, subtitle_track)
            else if bstarts_with codec_id (bs "S_") then (audio_track, video_track, true)
            else (audio_track, video_track, subtitle_track) in
          let remaining_size := sat_sub size 64 in
          let! _ := seek (FromCurrent (as_i64 remaining_size)) in
          ebml_elements c len n' a v s
        else if id =? STEREO_MODE_ELEMENT_ID then
          let! stereo_mode := read_u8 in
          if 0 <? stereo_mode then ok Matroska3dVideo
          else ebml_elements c len n' audio_track video_track subtitle_track
        else if id =? CLUSTER_ELEMENT_ID then
          ok (ebml_result audio_track video_track subtitle_track)          (* break *)
        else
          let! _ := seek (FromCurrent (as_i64 size)) in
          ebml_elements c len n' audio_track video_track subtitle_track
      else ok (ebml_result audio_track video_track subtitle_track)
  end.

(** readers.rs 263-422: from_ebml_reader. *)
Definition from_ebml_reader (c : plat) : io FileFormat :=
  let! len := seek (FromEnd 0) in
  let! _ := rewind in
  ebml_elements c len 256 false false false.

(** ** EXE, readers.rs 424-463 *)
Definition from_exe_reader (c : plat) : io FileFormat :=
  let! len := seek (FromEnd 0) in
  let! _ := seek (FromStart 60) in
  let! offset := read_u32_le in
  if offset + 4 <? len then
    let! _ := seek (FromStart offset) in
    let! signature := read_bytes c 4 in
    if beqb signature [x50; x45; x00; x00] (* PE\0\0 *) then
      let! _ := seek (FromCurrent 18) in
      let! characteristics := read_u16_le in
      ok (if N.land characteristics 0x2000 =? 0x2000 then DynamicLinkLibrary
          else PortableExecutable)
    else if beqb (takeN 2 signature) (bs "LE") || beqb (takeN 2 signature) (bs "LX")
    then ok LinearExecutable
    else if beqb (takeN 2 signature) (bs "NE") then ok NewExecutable
    else ok MsDosExecutable
  else ok MsDosExecutable.

(** ** ID3v2, readers.rs 465-530 *)

(** readers.rs 481-484: the synchsafe tag size ([buf] has 10 bytes). *)
Definition id3v2_tag_size (buf : bytes) : N :=
  let g i := N.land (bval (nth i buf x00)) 0x7F in
  N.lor (N.lor (N.lor (N.shiftl (g 6%nat) 21) (N.shiftl (g 7%nat) 14)) (N.shiftl (g 8%nat) 7)) (g 9%nat).

(** readers.rs 468-506: the loop over the tags; gives the offset behind the last tag.  The
    loop of the code is unbounded: [fuel] bounds it in the model. *)
Fixpoint id3v2_loop (c : plat) (fuel : nat) (offset : N) : io N :=
  let! _ := seek (FromStart offset) in
  let! buf := read_bytes c 10 in
  if negb (beqb (takeN 3 buf) (bs "ID3")) then ok offset
  else
    let tag_size := id3v2_tag_size buf in
    let flags := bval (nth 5 buf x00) in
    let extended_header_present := negb (N.land flags 0x40 =? 0) in
    let footer_present := negb (N.land flags 0x10 =? 0) in
    let* a := u64_add c offset 10 in
    let* next_offset := u64_add c a tag_size in
    let! next_offset :=
      if extended_header_present then
        let! ext := read_u32_be in
        let* x := u64_add c next_offset ext in ok x
      else ok next_offset in
    let* next_offset :=
      if footer_present then u64_add c next_offset 10 else Ret next_offset in
    match fuel with
    | O => PFuel
    | S f => id3v2_loop c f next_offset
    end.

(** readers.rs 518-526: the MP3 frame headers. *)
Definition mp3_magics : list bytes :=
  [ [xff; xe2]; [xff; xe3]; [xff; xf2]; [xff; xf3]; [xff; xfa]; [xff; xfb] ].

(** readers.rs 465-530: from_id3v2_reader. *)
Definition from_id3v2_reader (c : plat) (fuel : nat) : io FileFormat :=
  let! offset := id3v2_loop c fuel 0 in
  let! _ := seek (FromStart offset) in
  let! buf := read_bytes c 4 in
  if beqb buf (bs "fLaC") then ok FreeLosslessAudioCodec
  else if existsb (beqb (takeN 2 buf)) mp3_magics then ok Mpeg12AudioLayer3
  else ok Id3v2.

(** ** MP4, readers.rs 532-607 *)

(** readers.rs 597-606: the final decision. *)
Definition mp4_result (audio_track video_track subtitle_track : bool) : FileFormat :=
  if video_track then Mpeg4Part14Video
  else if audio_track then Mpeg4Part14Audio
  else if subtitle_track then Mpeg4Part14Subtitles
  else Mpeg4Part14.

(** readers.rs 552-595: the box loop; [n] is BOX_LIMIT - box_count. *)
Fixpoint mp4_boxes (c : plat) (len : N) (n : nat)
    (audio_track video_track subtitle_track : bool) : io FileFormat :=
  match n with
  | O => ok (mp4_result audio_track video_track subtitle_track)
  | S n' =>
      let! pos := tell in
      if pos <? len then
        let! size32 := read_u32_be in
        let! box_type := read_bytes c 4 in
        let! size := if size32 =? 1 then read_u64_be else ok size32 in
        if beqb box_type (bs "moov") || beqb box_type (bs "trak") || beqb box_type (bs "mdia")
        then mp4_boxes c len n' audio_track video_track subtitle_track
        else if beqb box_type (bs "hdlr") then
          let! _ := seek (FromCurrent 8) in
          let! handler_type := read_bytes c 4 in
          let '(a, v, s) :=
            if beqb handler_type (bs "vide") then (audio_track, true, subtitle_track)
            else if beqb handler_type (bs "soun") then (true, video_track, subtitle_track)
            else if beqb handler_type (bs "sbtl") || beqb handler_type (bs "subt")
                    || beqb handler_type (bs "text")
            then (audio_track, video_track, true)
            else (audio_track, video_track, subtitle_track) in
          let* delta := i64_sub c (as_i64 size) 20 in
          let! _ := seek (FromCurrent delta) in
          mp4_boxes c len n' a v s
        else
          let* delta := i64_sub c (as_i64 size) 8 in
          let! _ := seek (FromCurrent delta) in
          mp4_boxes c len n' audio_track video_track subtitle_track
      else ok (mp4_result audio_track video_track subtitle_track)
  end.

(** readers.rs 532-607: from_mp4_reader. *)
Definition from_mp4_reader (c : plat) : io FileFormat :=
  let! len := seek (FromEnd 0) in
  let! _ := rewind in
  mp4_boxes c len 256 false false false.

(** ** PDF, readers.rs 609-656 *)

Definition AI_MARKER : bytes := bs "AIPrivateData".     (* readers.rs 622 *)
Definition OVERLAP_SIZE : N := lenN AI_MARKER - 1.      (* readers.rs 619 *)
Definition CHUNK_SIZE : N := 32768.                     (* readers.rs 616 *)
Definition PDF_READ_LIMIT : N := 33554432.              (* readers.rs 613 *)

(** [slice::rotate_right(k)]. *)
Definition rotate_right (k : N) (l : bytes) : bytes :=
  dropN (lenN l - k) l ++ takeN (lenN l - k) l.

(** readers.rs 632-652: the chunk loop.  [buf] is the whole array of OVERLAP_SIZE + CHUNK_SIZE
    bytes; a read of [nread] bytes overwrites [buf[OVERLAP_SIZE..OVERLAP_SIZE + nread]]. *)
Fixpoint pdf_loop (fuel : nat) (total_nread : N) (buf : bytes) : io FileFormat :=
  if total_nread <? PDF_READ_LIMIT then
    let! chunk := read CHUNK_SIZE in
    let nread := lenN chunk in
    if nread =? 0 then ok PortableDocumentFormat
    else
      let buf1 := takeN OVERLAP_SIZE buf ++ chunk ++ dropN (OVERLAP_SIZE + nread) buf in
      let start := if total_nread =? 0 then OVERLAP_SIZE else 0 in
      let* found := lift_exec (holds (dropN start (takeN (OVERLAP_SIZE + nread) buf1))
                                     AI_MARKER) in
      if found then ok AdobeIllustratorArtwork
      else
        let buf2 := rotate_right OVERLAP_SIZE (takeN (OVERLAP_SIZE + nread) buf1)
                    ++ dropN (OVERLAP_SIZE + nread) buf1 in
        match fuel with
        | O => PFuel
        | S f => pdf_loop f (total_nread + nread) buf2
        end
  else ok PortableDocumentFormat.

(** readers.rs 609-656: from_pdf_reader. *)
Definition from_pdf_reader (fuel : nat) : io FileFormat :=
  let! _ := seek (FromStart 5) in
  pdf_loop fuel 0 (repeat x00 (N.to_nat (OVERLAP_SIZE + CHUNK_SIZE))).

(** ** RM, readers.rs 658-724 *)

(** readers.rs 676-723: the chunk loop and the final decision. *)
Fixpoint rm_chunks (c : plat) (n : nat) (audio_stream video_stream : bool) : io FileFormat :=
  match n with
  | O =>
      ok (if video_stream then Realvideo else if audio_stream then Realaudio else Realmedia)
  | S n' =>
      let! chunk_type := read_bytes c 4 in
      let! chunk_size := read_u32_be in
      let! '(a, v) :=
        if beqb chunk_type (bs "MDPR") then
          let! offset := tell in
          let! _ := seek (FromCurrent 32) in
          let! stream_name_size := read_u8 in
          let! _ := seek (FromCurrent (Z.of_N stream_name_size)) in
          let! mime_type_size := read_u8 in
          let! mime_type := read_bytes c mime_type_size in
          let av :=
            if bstarts_with mime_type (bs "audio/") then (true, video_stream)
            else if bstarts_with mime_type (bs "video/") then (audio_stream, true)
            else (audio_stream, video_stream) in
          let! _ := seek (FromStart offset) in
          ok av
        else ok (audio_stream, video_stream) in
      let! _ := seek (FromCurrent (Z.of_N chunk_size - 8)) in
      rm_chunks c n' a v
  end.

(** readers.rs 658-724: from_rm_reader. *)
Definition from_rm_reader (c : plat) : io FileFormat :=
  let! _ := seek (FromStart 14) in
  let! number_of_headers := read_u32_be in
  rm_chunks c (N.to_nat (N.min 64 (as_usize c (sat_sub number_of_headers 1)))) false false.

(** ** SQLite 3, readers.rs 726-746 *)
Definition SKETCH_MARKER : bytes := bs "com.bohemiancoding.sketch3".   (* readers.rs 730 *)
Definition from_sqlite3_reader : io FileFormat :=
  let! _ := seek (FromStart 100) in
  let! buf := read 32768 in
  let* found := lift_exec (holds buf SKETCH_MARKER) in
  if found then ok Sketch else ok Sqlite3.

(** ** TXT, readers.rs 748-777 *)

(** readers.rs 770-771: a character that makes the data binary. *)
Definition bad_char (ch : N) : bool := is_control ch && negb (is_whitespace ch).

(** [Lines::next] removes a trailing "\n" or "\r\n". *)
Definition strip_eol (l : ustr) : ustr :=
  match rev l with
  | 10 :: 13 :: r => rev r
  | 10 :: r => rev r
  | _ => l
  end.

(** readers.rs 765-776: take(READ_LIMIT).lines().take(LINE_LIMIT).try_for_each(..);
    [n] lines and [lim] bytes are left. *)
Fixpoint txt_lines (n : nat) (lim : N) : io FileFormat :=
  match n with
  | O => ok PlainText
  | S n' =>
      let! line := read_line lim in
      match line with
      | [] => ok PlainText                                 (* end of the iterator *)
      | _ =>
          match utf8_strict line with
          | None => err EInvalidData                       (* lines(): invalid UTF-8 *)
          | Some chars =>
              if existsb bad_char (strip_eol chars) then err EInvalidData
              else txt_lines n' (lim - lenN line)
          end
      end
  end.

(** readers.rs 748-777: from_txt_reader. *)
Definition from_txt_reader : io FileFormat :=
  let! _ := rewind in
  txt_lines 16 65536.

(** ** XML, readers.rs 779-852 *)

(** The conditions of the if-chain. *)
Inductive xcond : Set :=
| XHolds (s : string)
| XOr (a b : xcond)
| XAnd (a b : xcond).

(** Evaluation with the short-circuit of [||] and [&&]. *)
Fixpoint xeval (buf : bytes) (x : xcond) : exec bool :=
  match x with
  | XHolds s => holds buf (bs s)
  | XOr a b => bind_exec (xeval buf a) (fun r => if r then Done true else xeval buf b)
  | XAnd a b => bind_exec (xeval buf a) (fun r => if r then xeval buf b else Done false)
  end.

(** readers.rs 791-851: the if-chain, in order. *)
Definition xml_rules : list (xcond * FileFormat) :=
  [ (XHolds "<abiword template=""false""", Abiword);
    (XHolds "<abiword template=""true""", AbiwordTemplate);
    (XHolds "<amf", AdditiveManufacturingFormat);
    (XOr (XHolds "<ASX") (XHolds "<asx"), AdvancedStreamRedirector);
    (XHolds "<feed", Atom);
    (XHolds "<COLLADA", CollaborativeDesignActivity);
    (XHolds "<mxfile", Drawio);
    (XHolds "<X3D", Extensible3d);
    (XHolds "<xsl", ExtensibleStylesheetLanguageTransformations);
    (XHolds "<FictionBook", Fictionbook);
    (XHolds "<gml", GeographyMarkupLanguage);
    (XHolds "<gpx", GpsExchangeFormat);
    (XHolds "<kml", KeyholeMarkupLanguage);
    (XHolds "<math", MathematicalMarkupLanguage);
    (XHolds "<MPD", MpegDashMpd);
    (XHolds "<score-partwise", Musicxml);
    (XHolds "<rss", ReallySimpleSyndication);
    (XOr (XHolds "<SVG") (XHolds "<svg"), ScalableVectorGraphics);
    (XHolds "<soap", SimpleObjectAccessProtocol);
    (XHolds "<map", TiledMapXml);
    (XHolds "<tileset", TiledTilesetXml);
    (XAnd (XHolds "<tt") (XHolds "xmlns=""http://www.w3.org/ns/ttml"""),
       TimedTextMarkupLanguage);
    (XHolds "<TrainingCenterDatabase", TrainingCenterXml);
    (XAnd (XHolds "<uof:UOF") (XHolds "uof:mimetype=""vnd.uof.presentation"""),
       UniformOfficeFormatPresentation);
    (XAnd (XHolds "<uof:UOF") (XHolds "uof:mimetype=""vnd.uof.spreadsheet"""),
       UniformOfficeFormatSpreadsheet);
    (XAnd (XHolds "<uof:UOF") (XHolds "uof:mimetype=""vnd.uof.text"""),
       UniformOfficeFormatText);
    (XHolds "<USFSubtitles", UniversalSubtitleFormat);
    (XHolds "<xliff", XmlLocalizationInterchangeFileFormat);
    (XHolds "<playlist", XmlShareablePlaylistFormat) ]%string.

Fixpoint xml_chain (buf : bytes) (rules : list (xcond * FileFormat)) : exec FileFormat :=
  match rules with
  | [] => Done ExtensibleMarkupLanguage
  | (x, f) :: rules' =>
      bind_exec (xeval buf x) (fun r => if r then Done f else xml_chain buf rules')
  end.

(** readers.rs 779-852: from_xml_reader. *)
Definition from_xml_reader : io FileFormat :=
  let! _ := seek (FromStart 5) in
  let! buf := read 8192 in
  let* f := lift_exec (xml_chain buf xml_rules) in
  ok f.

(** ** ZIP, readers.rs 854-1098 *)

Definition ENTRY_LIMIT : N := 1024.                                     (* readers.rs 858 *)
Definition EOCD64_LOCATOR_SIGNATURE : bytes := [x50; x4b; x06; x07].    (* readers.rs 861 *)
Definition EOCD_SIGNATURE : bytes := [x50; x4b; x05; x06].              (* readers.rs 864 *)
Definition EOCD64_LOCATOR_SIZE : N := 20.                               (* readers.rs 867 *)
Definition EOCD_MIN_SIZE : N := 22.                                     (* readers.rs 873 *)
Definition EOCD_MAX_SIZE : N := EOCD_MIN_SIZE + 65535.                  (* readers.rs 870 *)

Fixpoint lookup_ustr {B} (s : ustr) (t : list (string * B)) : option B :=
  match t with
  | [] => None
  | (k, v) :: t' => if ustr_eqb s (us k) then Some v else lookup_ustr s t'
  end.

(** readers.rs 967-982: the arms of the match on the file name that return at once (the arms
    "META-INF/MANIFEST.MF" and "mimetype" are in [zip_entries]; the arms are constants, so their
    order does not matter). *)
Definition zip_name_table : list (string * FileFormat) :=
  [ ("AndroidManifest.xml", AndroidPackage);
    ("AppManifest.xaml", Xap);
    ("AppxManifest.xml", WindowsAppPackage);
    ("AppxMetadata/AppxBundleManifest.xml", WindowsAppBundle);
    ("BundleConfig.pb", AndroidAppBundle);
    ("DOMDocument.xml", FlashCs5Project);
    ("META-INF/AIR/application.xml", AdobeIntegratedRuntime);
    ("META-INF/application.xml", EnterpriseApplicationArchive);
    ("META-INF/mozilla.rsa", Xpinstall);
    ("WEB-INF/web.xml", WebApplicationArchive);
    ("canvas.fig", FigmaDesign);
    ("doc.kml", KeyholeMarkupLanguageZip);
    ("document.json", Sketch43);
    ("extension.vsixmanifest", MicrosoftVisualStudioExtension) ]%string.

(** readers.rs 1001-1055: the match on the trimmed media type. *)
Definition zip_mime_table : list (string * FileFormat) :=
  [ ("application/epub+zip", ElectronicPublication);
    ("application/vnd.adobe.indesign-idml-package", IndesignMarkupLanguage);
    ("application/vnd.oasis.opendocument.base", OpendocumentDatabase);
    ("application/vnd.oasis.opendocument.database", OpendocumentDatabase);
    ("application/vnd.oasis.opendocument.formula", OpendocumentFormula);
    ("application/vnd.oasis.opendocument.formula-template", OpendocumentFormulaTemplate);
    ("application/vnd.oasis.opendocument.graphics", OpendocumentGraphics);
    ("application/vnd.oasis.opendocument.graphics-template", OpendocumentGraphicsTemplate);
    ("application/vnd.oasis.opendocument.presentation", OpendocumentPresentation);
    ("application/vnd.oasis.opendocument.presentation-template",
       OpendocumentPresentationTemplate);
    ("application/vnd.oasis.opendocument.spreadsheet", OpendocumentSpreadsheet);
    ("application/vnd.oasis.opendocument.spreadsheet-template",
       OpendocumentSpreadsheetTemplate);
    ("application/vnd.oasis.opendocument.text", OpendocumentText);
    ("application/vnd.oasis.opendocument.text-master", OpendocumentTextMaster);
    ("application/vnd.oasis.opendocument.text-master-template",
       OpendocumentTextMasterTemplate);
    ("application/vnd.oasis.opendocument.text-template", OpendocumentTextTemplate);
    ("application/vnd.recordare.musicxml", MusicxmlZip);
    ("application/vnd.sun.xml.calc", SunXmlCalc);
    ("application/vnd.sun.xml.calc.template", SunXmlCalcTemplate);
    ("application/vnd.sun.xml.draw", SunXmlDraw);
    ("application/vnd.sun.xml.draw.template", SunXmlDrawTemplate);
    ("application/vnd.sun.xml.impress", SunXmlImpress);
    ("application/vnd.sun.xml.impress.template", SunXmlImpressTemplate);
    ("application/vnd.sun.xml.math", SunXmlMath);
    ("application/vnd.sun.xml.writer", SunXmlWriter);
    ("application/vnd.sun.xml.writer.global", SunXmlWriterGlobal);
    ("application/vnd.sun.xml.writer.template", SunXmlWriterTemplate);
    ("image/openraster", Openraster) ]%string.

Definition zip_mime_result (data : ustr) : FileFormat :=
  match lookup_ustr (utrim data) zip_mime_table with Some f => f | None => Zip end.

(** readers.rs 1057-1089: the prefix/suffix rules of the default arm. *)
Definition zip_name_rules (filename : ustr) : option FileFormat :=
  let starts p := ustarts_with filename (us p) in
  let ends p := uends_with filename (us p) in
  let has p := ucontains filename (us p) in
  let slash := ucontains_char filename 47 in
  if starts "Fusion[Active]/"%string then Some Autodesk123d
  else if starts "circuitdiagram/"%string then Some CircuitDiagramDocument
  else if starts "dwf/"%string then Some DesignWebFormatXps
  else if ends ".fb2"%string && negb slash then Some FictionbookZip
  else if starts "FusionAssetName[Active]/"%string then Some Fusion360
  else if starts "Payload/"%string && has ".app/"%string then Some IosAppStorePackage
  else if starts "word/"%string then Some OfficeOpenXmlDocument
  else if starts "visio/"%string then Some OfficeOpenXmlDrawing
  else if starts "ppt/"%string then Some OfficeOpenXmlPresentation
  else if starts "xl/"%string then Some OfficeOpenXmlSpreadsheet
  else if starts "Documents/"%string && ends ".fpage"%string then Some Openxps
  else if starts "SpaceClaim/"%string then Some SpaceclaimDocument
  else if starts "3D/"%string && ends ".model"%string
  then Some ThreeDimensionalManufacturingFormat
  else if (ends ".usd"%string || ends ".usda"%string || ends ".usdc"%string) && negb slash
  then Some UniversalSceneDescriptionZip
  else None.

(** readers.rs 982-1000: the data of a stored "mimetype" entry. *)
Definition zip_mimetype (c : plat) (offset compressed_size : N) : io FileFormat :=
  let* t := u64_add c offset 26 in
  let! _ := seek (FromStart t) in
  let! filename_len := read_u16_le in
  let! extra_field_len := read_u16_le in
  let! _ := seek (FromCurrent (Z.of_N filename_len + Z.of_N extra_field_len)) in
  let! data := read_string c (as_usize c compressed_size) in
  ok (zip_mime_result data).

(** readers.rs 941-1097: the loop over the central directory headers. *)
Fixpoint zip_entries (c : plat) (n : nat) (fmt : FileFormat) : io FileFormat :=
  match n with
  | O => ok fmt
  | S n' =>
      let! _ := seek (FromCurrent 20) in
      let! compressed_size := read_u32_le in
      let! uncompressed_size := read_u32_le in
      let! filename_len := read_u16_le in
      let! extra_field_len := read_u16_le in
      let! file_comment_len := read_u16_le in
      let! _ := seek (FromCurrent 8) in
      let! offset := read_u32_le in
      let! filename := read_string c filename_len in
      let next fmt' :=
        let! _ := seek (FromCurrent (Z.of_N extra_field_len + Z.of_N file_comment_len)) in
        zip_entries c n' fmt' in
      match lookup_ustr filename zip_name_table with
      | Some f => ok f
      | None =>
          if ustr_eqb filename (us "META-INF/MANIFEST.MF") then next JavaArchive
          else if ustr_eqb filename (us "mimetype") && (compressed_size =? uncompressed_size)
          then zip_mimetype c offset compressed_size
          else match zip_name_rules filename with
               | Some f => ok f
               | None => next fmt
               end
      end
  end.

(** readers.rs 881-889: search for the end of central directory record. *)
Definition zip_find_eocd (c : plat) (len : N) : io N :=
  let offset := sat_sub len EOCD_MAX_SIZE in
  let! _ := seek (FromStart offset) in
  let! buf := read_bytes c (N.min (N.max (as_usize c len) EOCD_MIN_SIZE) EOCD_MAX_SIZE) in
  let* r := lift_exec (rfind buf EOCD_SIGNATURE) in
  match r with
  | None => err EInvalidData
  | Some buf_index =>
      let* e := u64_add c offset (N.of_nat buf_index) in ok e
  end.

(** readers.rs 891-903: is there a ZIP64 locator in front of the record? *)
Definition zip_is_zip64 (c : plat) (eocd_offset : N) : io bool :=
  if EOCD64_LOCATOR_SIZE <=? as_usize c eocd_offset then
    let* t := u64_sub c eocd_offset EOCD64_LOCATOR_SIZE in
    let! _ := seek (FromStart t) in
    let! signature := read_bytes c 4 in
    ok (beqb signature EOCD64_LOCATOR_SIGNATURE)
  else ok false.

(** readers.rs 905-933: number of entries and offset of the central directory. *)
Definition zip_directory (c : plat) (zip64 : bool) (eocd_offset : N) : io (N * N) :=
  if zip64 then
    let! _ := seek (FromCurrent 4) in
    let! eocd64_offset := read_u64_le in
    let* t := u64_add c eocd64_offset 32 in
    let! _ := seek (FromStart t) in
    let! number_of_entries := read_u64_le in
    let! _ := seek (FromCurrent 8) in
    let! socd_offset := read_u64_le in
    ok (as_usize c number_of_entries, socd_offset)
  else
    let* t := u64_add c eocd_offset 10 in
    let! _ := seek (FromStart t) in
    let! number_of_entries := read_u16_le in
    let! _ := seek (FromCurrent 4) in
    let! socd_offset := read_u32_le in
    ok (number_of_entries, socd_offset).

(** readers.rs 854-1098: from_zip_reader. *)
Definition from_zip_reader (c : plat) : io FileFormat :=
  let! len := seek (FromEnd 0) in
  let! eocd_offset := zip_find_eocd c len in
  let! zip64 := zip_is_zip64 c eocd_offset in
  let! '(number_of_entries, socd_offset) := zip_directory c zip64 eocd_offset in
  let! _ := seek (FromStart socd_offset) in
  zip_entries c (N.to_nat (N.min ENTRY_LIMIT number_of_entries)) Zip.
