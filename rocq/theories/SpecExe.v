(** DOS/Windows executables and compound files.  Specifications of C24 and C32 over the whole
    byte string: absolute offsets, no reader. *)
From Coq Require Import List NArith ZArith Bool String.
From Verif Require Import Base Formats Spec SpecBin.
Local Open Scope N_scope.

(** ** Executables (C24) *)

(** The kind of an MZ/ZM executable; [None]: the header or the PE header is truncated. *)
Definition exe_class (l : bytes) : option FileFormat :=
  if lenN l <? 64 then None
  else
    let off := le_val (slice 60 4 l) in                     (* e_lfanew *)
    if lenN l <=? off + 4 then Some MsDosExecutable         (* no extended header *)
    else if beqb (slice off 4 l) [x50; x45; x00; x00] then  (* PE\0\0 *)
      if lenN l <? off + 24 then None
      else if N.testbit (le_val (slice (off + 22) 2 l)) 13  (* IMAGE_FILE_DLL = 0x2000 *)
      then Some DynamicLinkLibrary
      else Some PortableExecutable
    else if beqb (slice off 2 l) (bs "LE") then Some LinearExecutable
    else if beqb (slice off 2 l) (bs "LX") then Some LinearExecutable
    else if beqb (slice off 2 l) (bs "NE") then Some NewExecutable
    else Some MsDosExecutable.

(** ** Compound files (C32) *)

(** Known class identifiers in canonical string form. *)
Definition cfb_classes : list (string * FileFormat) :=
  [ ("00020810-0000-0000-c000-000000000046", MicrosoftExcelSpreadsheet);
    ("00020820-0000-0000-c000-000000000046", MicrosoftExcelSpreadsheet);
    ("00020900-0000-0000-c000-000000000046", MicrosoftWordDocument);
    ("00020906-0000-0000-c000-000000000046", MicrosoftWordDocument);
    ("00044851-0000-0000-c000-000000000046", MicrosoftPowerpointPresentation);
    ("64818d10-4f9b-11cf-86ea-00aa00b929e8", MicrosoftPowerpointPresentation);
    ("ea7bae70-fb3b-11cd-a903-00aa00510ea3", MicrosoftPowerpointPresentation);
    ("74b78f3a-c8c8-11d1-be11-00c04fb6faf1", MicrosoftProjectPlan);
    ("00021201-0000-0000-00c0-000000000046", MicrosoftPublisherDocument);
    ("000c1084-0000-0000-c000-000000000046", MicrosoftSoftwareInstaller);
    ("00021a13-0000-0000-c000-000000000046", MicrosoftVisioDrawing);
    ("00021a14-0000-0000-c000-000000000046", MicrosoftVisioDrawing);
    ("00021303-0000-0000-c000-000000000046", MicrosoftWorksDatabase);
    ("28cddbc3-0ae2-11ce-a29a-00aa004a1a72", MicrosoftWorksDatabase);
    ("00021302-0000-0000-c000-000000000046", MicrosoftWorksWordProcessor);
    ("0ea45ab2-9e0a-11d1-a407-00c04fb932ba", MicrosoftWorksWordProcessor);
    ("28cddbc2-0ae2-11ce-a29a-00aa004a1a72", MicrosoftWorksWordProcessor);
    ("e60f81e1-49b3-11d0-93c3-7e0706000000", AutodeskInventorAssembly);
    ("bbf9fdf1-52dc-11d0-8c04-0800090be8ec", AutodeskInventorDrawing);
    ("4d29b490-49b2-11d0-93c3-7e0706000000", AutodeskInventorPart);
    ("76283a80-50dd-11d3-a7e3-00c04f79d7bc", AutodeskInventorPresentation);
    ("402efe62-1999-101b-99ae-04021c007002", CorelPresentations7);
    ("597caa70-72aa-11cf-831e-524153480000", FlashProject);
    ("b4f235fe-dca6-4803-b7b2-c25a453c836b", FlashProject);
    ("83a33d36-27c5-11ce-bfd4-00400513bb57", SolidworksAssembly);
    ("83a33d34-27c5-11ce-bfd4-00400513bb57", SolidworksDrawing);
    ("83a33d30-27c5-11ce-bfd4-00400513bb57", SolidworksPart);
    ("3f543fa0-b6a6-101b-9961-04021c007002", Starcalc);
    ("6361d441-4235-11d0-89cb-008029e4b0b1", Starcalc);
    ("c6a5b861-85d6-11d1-89cb-008029e4b0b1", Starcalc);
    ("02b3b7e0-4225-11d0-89ca-008029e4b0b1", Starchart);
    ("bf884321-85dd-11d1-89d0-008029e4b0b1", Starchart);
    ("fb9c99e0-2c6d-101c-8e2c-00001b4cc711", Starchart);
    ("2e8905a0-85bd-11d1-89d0-008029e4b0b1", Stardraw);
    ("af10aae0-b36d-101b-9961-04021c007002", Stardraw);
    ("012d3cc0-4216-11d0-89cb-008029e4b0b1", Starimpress);
    ("565c7221-85bc-11d1-89d0-008029e4b0b1", Starimpress);
    ("02b3b7e1-4225-11d0-89ca-008029e4b0b1", Starmath);
    ("d4590460-35fd-101c-b12a-04021c007002", Starmath);
    ("ffb5e640-85de-11d1-89d0-008029e4b0b1", Starmath);
    ("8b04e9b0-420e-11d0-a45e-00a0249d57b1", Starwriter);
    ("c20cf9d1-85ae-11d1-aab4-006097da561a", Starwriter);
    ("dc5c7e40-b35c-101b-9961-04021c007002", Starwriter);
    ("1cdd8c7b-81c0-45a0-9fed-04143144cc1e", ThreeDimensionalStudioMax);
    ("519873ff-2dad-0220-1937-0000929679cd", WordperfectDocument);
    ("402efe60-1999-101b-99ae-04021c007002", WordperfectGraphics) ]%string.

(** 16 bytes hold a known class identifier. *)
Definition known_class (b : bytes) (f : FileFormat) : Prop :=
  exists g, wf_guid g /\ guid_bytes g = b /\ In (guid_text g, f) cfb_classes.

(** An ASCII string in UTF-16LE starts a directory entry name. *)
Definition entry_named (entry : bytes) (s : string) : Prop := exists r, entry = bs0 s ++ r.

(** Offset of the directory: sector 0 starts after the header, which takes one sector. *)
Definition cfb_directory (l : bytes) : N :=
  let sector_size := if le_val (slice 26 2 l) =? 3 then 512 else 4096 in
  sector_size * (1 + le_val (slice 48 4 l)).

(** What a compound file is reported as; [None]: too short.  Directory entries have 128 bytes:
    a 64-byte name first, the class identifier at offset 80. *)
Inductive cfb_class (l : bytes) : option FileFormat -> Prop :=
| cfb_no_header : lenN l < 52 -> cfb_class l None
| cfb_no_root : lenN l < cfb_directory l + 96 -> cfb_class l None
| cfb_known f : 52 <= lenN l -> cfb_directory l + 96 <= lenN l ->
    known_class (slice (cfb_directory l + 80) 16 l) f -> cfb_class l (Some f)
| cfb_no_entry1 : 52 <= lenN l -> cfb_directory l + 96 <= lenN l ->
    (forall f, ~ known_class (slice (cfb_directory l + 80) 16 l) f) ->
    lenN l < cfb_directory l + 192 -> cfb_class l None
| cfb_works : cfb_directory l + 192 <= lenN l ->
    (forall f, ~ known_class (slice (cfb_directory l + 80) 16 l) f) ->
    entry_named (slice (cfb_directory l + 128) 64 l) "MatOST" ->
    cfb_class l (Some MicrosoftWorksWordProcessor)
| cfb_no_entry2 : cfb_directory l + 192 <= lenN l ->
    (forall f, ~ known_class (slice (cfb_directory l + 80) 16 l) f) ->
    ~ entry_named (slice (cfb_directory l + 128) 64 l) "MatOST" ->
    lenN l < cfb_directory l + 320 -> cfb_class l None
| cfb_works6 : cfb_directory l + 320 <= lenN l ->
    (forall f, ~ known_class (slice (cfb_directory l + 80) 16 l) f) ->
    ~ entry_named (slice (cfb_directory l + 128) 64 l) "MatOST" ->
    entry_named (slice (cfb_directory l + 256) 64 l) "WksSSWorkBook" ->
    cfb_class l (Some MicrosoftWorks6Spreadsheet)
| cfb_other : cfb_directory l + 320 <= lenN l ->
    (forall f, ~ known_class (slice (cfb_directory l + 80) 16 l) f) ->
    ~ entry_named (slice (cfb_directory l + 128) 64 l) "MatOST" ->
    ~ entry_named (slice (cfb_directory l + 256) 64 l) "WksSSWorkBook" ->
    cfb_class l (Some CompoundFileBinary).
