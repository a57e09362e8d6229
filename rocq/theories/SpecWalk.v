(** What the container readers report for *every* file, well formed or not: absolute offsets into
    the byte string [l], no reader.  [None] means that the reader gives up (it runs into the end of
    the file, or wants to go to an offset that cannot be reached).  [limit] is the largest offset
    that can be reached: 2^64 - 1 in memory, less in a file. *)
From Coq Require Import List NArith ZArith Bool String.
From Verif Require Import Base Formats Spec SpecText SpecBin SpecId3 SpecMp4 SpecEbml SpecMedia SpecZip.
Local Open Scope N_scope.

Section Walks.
Variables (l : bytes) (limit : N).

(** The [n] bytes at [off] are in the file. *)
Definition have {A} (off n : N) (r : option A) : option A :=
  if (n =? 0) || (off + n <=? lenN l) then r else None.
(** Go to an absolute offset. *)
Definition jump {A} (z : Z) (k : N -> option A) : option A :=
  if (0 <=? z)%Z && (z <=? Z.of_N limit)%Z then k (Z.to_N z) else None.
(** A 64-bit number read as a signed one (two's complement). *)
Definition signed64 (z : Z) : Z := ((z + 2 ^ 63) mod 2 ^ 64 - 2 ^ 63)%Z.
Definition u8_at (off : N) : N := be_val (slice off 1 l).
Definition after {A} (x : A) (r : option (list A)) : option (list A) := option_map (cons x) r.

(** ** MP4: the boxes visited, in order *)
Definition is_kind (kind : bytes) (kinds : list bytes) : bool := existsb (beqb kind) kinds.
Fixpoint mp4_walk (n : nat) (pos : N) : option (list (option bytes)) :=
  match n with
  | O => Some []                                   (* at most 256 boxes *)
  | S n' =>
      if lenN l <=? pos then Some []               (* the end of the file, or beyond *)
      else
        have pos 8
          (let size32 := be_val (slice pos 4 l) in
           let kind := slice (pos + 4) 4 l in
           let visit body size :=
             if is_kind kind node_kinds then after None (mp4_walk n' body)
             else if beqb kind (bs "hdlr") then
               have (body + 8) 4
                 (jump (Z.of_N body + 12 + signed64 (Z.of_N size - 20))
                    (fun p => after (Some (slice (body + 8) 4 l)) (mp4_walk n' p)))
             else jump (Z.of_N body + signed64 (Z.of_N size - 8)) (fun p => after None (mp4_walk n' p)) in
           if size32 =? 1 then have (pos + 8) 8 (visit (pos + 16) (be_val (slice (pos + 8) 8 l)))
           else visit (pos + 8) size32)
  end.
Definition mp4_result : option FileFormat := option_map mp4_class (mp4_walk 256 0).

(** ** RealMedia: the chunks visited, with the media type of the stream chunks *)
Fixpoint rm_walk (n : nat) (pos : N) : option (list (option bytes)) :=
  match n with
  | O => Some []
  | S n' =>
      have pos 8
        (let next mime := jump (Z.of_N (pos + be_val (slice (pos + 4) 4 l))) (fun p => after mime (rm_walk n' p)) in
         if beqb (slice pos 4 l) (bs "MDPR") then
           have (pos + 40) 1
             (let name_len := u8_at (pos + 40) in
              have (pos + 41 + name_len) 1
                (let mime_len := u8_at (pos + 41 + name_len) in
                 have (pos + 42 + name_len) mime_len
                   (next (Some (slice (pos + 42 + name_len) mime_len l)))))
         else next None)
  end.
Definition has_mime (prefix : string) (chunks : list (option bytes)) : bool :=
  existsb (fun m => match m with Some t => bstarts_with t (bs prefix) | None => false end) chunks.
Definition rm_kind_of (chunks : list (option bytes)) : FileFormat :=
  if has_mime "video/" chunks then Realvideo
  else if has_mime "audio/" chunks then Realaudio
  else Realmedia.
Definition rm_result : option FileFormat :=
  have 14 4 (option_map rm_kind_of (rm_walk (N.to_nat (N.min 64 (be_val (slice 14 4 l) - 1))) 18)).

(** ** EBML: the elements visited *)
(** The width of a variable-size integer is given by the leading zero bits of its first byte. *)
Definition vint_width (first : N) : option N := if first =? 0 then None else Some (8 - N.log2 first).
(** The identifier at [off] (at most 4 bytes, marker kept) and the size at [off] (at most 8 bytes,
    marker removed), with the offset behind them. *)
Definition id_at {A} (off : N) (k : N -> N -> option A) : option A :=
  have off 1
    (match vint_width (u8_at off) with
     | Some w => if w <=? 4 then have off w (k (be_val (slice off w l)) (off + w)) else None
     | None => None
     end).
Definition size_at {A} (off : N) (k : N -> N -> option A) : option A :=
  have off 1
    (match vint_width (u8_at off) with
     | Some w => have off w (k (be_val (slice off w l) mod 2 ^ (7 * w)) (off + w))
     | None => None
     end).
(** [bits] is the width of an address. *)
Fixpoint ebml_walk (bits : N) (n : nat) (pos : N) : option (list event) :=
  match n with
  | O => Some []
  | S n' =>
      if lenN l <=? pos then Some []
      else
        id_at pos (fun id p => size_at p (fun size p =>
          let skip ev len max := jump (Z.of_N (p + len + (size - max))) (fun q => after ev (ebml_walk bits n' q)) in
          if existsb (N.eqb id) [ID_EBML; ID_Segment; ID_Tracks; ID_TrackEntry; ID_Video]
          then after EvOther (ebml_walk bits n' p)
          else if id =? ID_DocType then
            let len := N.min 8 (size mod 2 ^ bits) in
            have p len
              (let name := slice p len l in
               if bstarts_with name (bs "matroska") then skip (EvDocType name) len 8
               else Some [EvDocType name])
          else if id =? ID_CodecID then
            let len := N.min 64 (size mod 2 ^ bits) in
            have p len (skip (EvCodec (slice p len l)) len 64)
          else if id =? ID_StereoMode then
            have p 1
              (if 0 <? u8_at p then Some [EvStereo (u8_at p)]
               else after (EvStereo 0) (ebml_walk bits n' (p + 1)))
          else if id =? ID_Cluster then Some [EvCluster]
          else skip EvOther 0 0))
  end.
Definition ebml_result (bits : N) : option FileFormat := option_map ebml_class (ebml_walk bits 256 0).

(** ** ASF: the header objects visited *)
Inductive asf_visit : Set := VStream (kind : bytes) | VDvr | VOther.
(** Is one of the [n] descriptors at [pos] the DVR version? *)
Fixpoint descriptors_walk (n : nat) (pos : N) : option bool :=
  match n with
  | O => Some false
  | S n' =>
      have pos 2
        (let name_len := le_val (slice pos 2 l) in
         have (pos + 2) (N.min 64 name_len)
           (if bstarts_with (slice (pos + 2) (N.min 64 name_len) l) (bs0 "DVR File Version") then Some true
            else
              have (pos + 4 + name_len) 2
                (let value_len := le_val (slice (pos + 4 + name_len) 2 l) in
                 jump (Z.of_N (pos + 6 + name_len + value_len)) (descriptors_walk n'))))
  end.
Fixpoint asf_walk (n : nat) (pos : N) : option (list asf_visit) :=
  match n with
  | O => Some []
  | S n' =>
      have pos 24
        (let id := slice pos 16 l in
         let size := le_val (slice (pos + 16) 8 l) in
         if beqb id (guid_bytes guid_stream_properties) then
           have (pos + 24) 16
             (jump (Z.of_N pos + 40 + signed64 (Z.of_N size - 40))
                (fun p => after (VStream (slice (pos + 24) 16 l)) (asf_walk n' p)))
         else if beqb id (guid_bytes guid_extended_content) then
           have (pos + 24) 2
             (match descriptors_walk (N.to_nat (N.min 32 (le_val (slice (pos + 24) 2 l)))) (pos + 26) with
              | None => None
              | Some true => Some [VDvr]
              | Some false => jump (Z.of_N ((pos + size) mod 2 ^ 64)) (fun p => after VOther (asf_walk n' p))
              end)
         else jump (Z.of_N pos + 24 + signed64 (Z.of_N size - 24)) (fun p => after VOther (asf_walk n' p)))
  end.
Definition asf_kind_of (objects : list asf_visit) : FileFormat :=
  let is_stream g o := match o with VStream k => beqb k (guid_bytes g) | _ => false end in
  if existsb (fun o => match o with VDvr => true | _ => false end) objects then MicrosoftDigitalVideoRecording
  else if existsb (is_stream guid_video_media) objects then WindowsMediaVideo
  else if existsb (is_stream guid_audio_media) objects then WindowsMediaAudio
  else AdvancedSystemsFormat.
Definition asf_result : option FileFormat :=
  have 24 4 (jump 30 (fun p => option_map asf_kind_of (asf_walk (N.to_nat (N.min 256 (le_val (slice 24 4 l)))) p))).

(** ** ID3v2: tags are skipped until something else comes *)
Definition synchsafe_at (off : N) : N :=
  let septet i := u8_at (off + i) mod 128 in
  septet 0 * 2 ^ 21 + septet 1 * 2 ^ 14 + septet 2 * 2 ^ 7 + septet 3.
Inductive id3_walk : N -> option FileFormat -> Prop :=
| id3_unreachable pos : limit < pos -> id3_walk pos None
| id3_end pos : pos <= limit -> id3_class (dropN pos l) None -> id3_walk pos None
| id3_audio pos f : pos <= limit -> slice pos 3 l <> bs "ID3" -> id3_class (dropN pos l) (Some f) ->
    id3_walk pos (Some f)
| id3_tag_plain pos r : pos <= limit -> pos + 10 <= lenN l -> slice pos 3 l = bs "ID3" ->
    N.testbit (u8_at (pos + 5)) 6 = false ->
    id3_walk (pos + 10 + synchsafe_at (pos + 6) + (if N.testbit (u8_at (pos + 5)) 4 then 10 else 0)) r ->
    id3_walk pos r
| id3_tag_extended pos r : pos <= limit -> pos + 14 <= lenN l -> slice pos 3 l = bs "ID3" ->
    N.testbit (u8_at (pos + 5)) 6 = true ->
    id3_walk (pos + 10 + synchsafe_at (pos + 6) + be_val (slice (pos + 10) 4 l)
              + (if N.testbit (u8_at (pos + 5)) 4 then 10 else 0)) r ->
    id3_walk pos r
| id3_tag_cut pos : pos <= limit -> pos + 10 <= lenN l -> lenN l < pos + 14 -> slice pos 3 l = bs "ID3" ->
    N.testbit (u8_at (pos + 5)) 6 = true -> id3_walk pos None.

(** ** ZIP *)
(** The fields of the directory header at [pos] (46 bytes, then name, extra field and comment). *)
Definition name_len_at (pos : N) : N := le_val (slice (pos + 28) 2 l).
Definition name_at (pos : N) : bytes := slice (pos + 46) (name_len_at pos) l.
Definition next_entry (pos : N) : N :=
  pos + 46 + name_len_at pos + le_val (slice (pos + 30) 2 l) + le_val (slice (pos + 32) 2 l).
Definition stored_at (pos : N) : Prop := le_val (slice (pos + 20) 4 l) = le_val (slice (pos + 24) 4 l).
(** Where the data of the entry starts (behind the local header), and how much there is. *)
Definition local_at (pos : N) : N := le_val (slice (pos + 42) 4 l).
Definition data_at (pos : N) : N :=
  local_at pos + 30 + le_val (slice (local_at pos + 26) 2 l) + le_val (slice (local_at pos + 28) 2 l).
Definition data_len (pos : N) : N := le_val (slice (pos + 20) 4 l).

(** [n] entries from [pos] on; [d] is reported if nothing is decisive. *)
Inductive entries_walk : nat -> N -> FileFormat -> option FileFormat -> Prop :=
| ew_end pos d : entries_walk 0 pos d (Some d)
| ew_cut n pos d : lenN l < pos + 46 + name_len_at pos -> entries_walk (S n) pos d None
| ew_decisive n pos d f : pos + 46 + name_len_at pos <= lenN l -> decisive_name (name_at pos) f ->
    entries_walk (S n) pos d (Some f)
| ew_mimetype n pos d f : pos + 46 + name_len_at pos <= lenN l -> name_at pos = bs "mimetype" -> stored_at pos ->
    local_at pos + 30 <= lenN l -> (data_len pos = 0 -> data_at pos <= limit) ->
    (data_len pos <> 0 -> data_at pos + data_len pos <= lenN l) ->
    media_class (slice (data_at pos) (data_len pos) l) f -> entries_walk (S n) pos d (Some f)
| ew_mimetype_cut n pos d : pos + 46 + name_len_at pos <= lenN l -> name_at pos = bs "mimetype" -> stored_at pos ->
    lenN l < local_at pos + 30 \/ (data_len pos = 0 /\ limit < data_at pos) \/
    (data_len pos <> 0 /\ lenN l < data_at pos + data_len pos) -> entries_walk (S n) pos d None
| ew_skip n pos d r : pos + 46 + name_len_at pos <= lenN l ->
    (forall f, ~ decisive_name (name_at pos) f) -> ~ (name_at pos = bs "mimetype" /\ stored_at pos) ->
    next_entry pos <= limit ->
    entries_walk n (next_entry pos)
      (if beqb (name_at pos) (bs "META-INF/MANIFEST.MF") then JavaArchive else d) r ->
    entries_walk (S n) pos d r
| ew_far n pos d : pos + 46 + name_len_at pos <= lenN l ->
    (forall f, ~ decisive_name (name_at pos) f) -> ~ (name_at pos = bs "mimetype" /\ stored_at pos) ->
    limit < next_entry pos -> entries_walk (S n) pos d None.

(** The last end-of-central-directory signature within the last 65557 bytes. *)
Definition search_start : N := lenN l - 65557.
Definition last_eocd (at_ : N) : Prop :=
  search_start <= at_ /\ slice at_ 4 l = eocd_signature /\
  forall i, at_ < i -> slice i 4 l <> eocd_signature.
Definition no_eocd : Prop := forall i, search_start <= i -> slice i 4 l <> eocd_signature.
Definition locator_before (at_ : N) : Prop := 20 <= at_ /\ slice (at_ - 20) 4 l = locator_signature.
(** The ZIP64 record the locator points to, from its number of entries on. *)
Definition record64 (at_ : N) : N := (le_val (slice (at_ - 12) 8 l) + 32) mod 2 ^ 64.

(** [bits] is the width of [usize]: the number of entries of a ZIP64 record is truncated to it. *)
Inductive zip_walk (bits : N) : option FileFormat -> Prop :=
| zw_short : lenN l < 22 -> zip_walk bits None
| zw_no_eocd : 22 <= lenN l -> no_eocd -> zip_walk bits None
| zw_cut at_ : last_eocd at_ -> 22 <= lenN l -> ~ locator_before at_ -> lenN l < at_ + 20 -> zip_walk bits None
| zw_zip at_ r : last_eocd at_ -> 22 <= lenN l -> ~ locator_before at_ -> at_ + 20 <= lenN l ->
    le_val (slice (at_ + 16) 4 l) <= limit ->
    entries_walk (N.to_nat (N.min 1024 (le_val (slice (at_ + 10) 2 l)))) (le_val (slice (at_ + 16) 4 l)) Zip r ->
    zip_walk bits r
| zw_zip_far at_ : last_eocd at_ -> 22 <= lenN l -> ~ locator_before at_ -> at_ + 20 <= lenN l ->
    limit < le_val (slice (at_ + 16) 4 l) -> zip_walk bits None
| zw_64_cut at_ : last_eocd at_ -> 22 <= lenN l -> locator_before at_ -> lenN l < record64 at_ + 24 -> zip_walk bits None
| zw_64 at_ r : last_eocd at_ -> 22 <= lenN l -> locator_before at_ -> record64 at_ + 24 <= lenN l ->
    le_val (slice (record64 at_ + 16) 8 l) <= limit ->
    entries_walk (N.to_nat (N.min 1024 (le_val (slice (record64 at_) 8 l) mod 2 ^ bits)))
      (le_val (slice (record64 at_ + 16) 8 l)) Zip r -> zip_walk bits r
| zw_64_far at_ : last_eocd at_ -> 22 <= lenN l -> locator_before at_ -> record64 at_ + 24 <= lenN l ->
    limit < le_val (slice (record64 at_ + 16) 8 l) -> zip_walk bits None.
End Walks.

(** The largest offset of an in-memory cursor. *)
Definition memory_limit : N := 2 ^ 64 - 1.

(** ** Sizes that overflow (C56) *)
(** No eight bytes are a big-endian number just above the largest signed one. *)
Definition mp4_tame (l : bytes) : Prop := forall i, ~ (2 ^ 63 <= be_val (slice i 8 l) < 2 ^ 63 + 20).
(** The same for little-endian numbers; and no extended content description object ends beyond 2^64. *)
Definition asf_tame (l : bytes) : Prop :=
  (forall i, ~ (2 ^ 63 <= le_val (slice i 8 l) < 2 ^ 63 + 40)) /\
  (forall i, slice i 16 l = guid_bytes guid_extended_content -> i + 26 + le_val (slice (i + 16) 8 l) < 2 ^ 64).
(** No ZIP64 locator points to the last 32 bytes of the 64-bit range. *)
Definition zip_tame (l : bytes) : Prop :=
  forall i, slice i 4 l = locator_signature -> le_val (slice (i + 8) 8 l) + 32 < 2 ^ 64.
