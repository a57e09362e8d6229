(** ZIP archives (C34-C37): a serialiser for the central directory and the end records (PKWARE
    APPNOTE 4.3.12-4.3.16) and the format the entries decide. *)
From Coq Require Import List NArith ZArith Bool String.
From Verif Require Import Base Formats Spec SpecText SpecBin.
Local Open Scope N_scope.

(** ** Layout *)

(** A central directory header: signature to CRC-32 (20 bytes), sizes, disk number and attributes
    (8 bytes), offset of the local header, name, extra field, comment. *)
Record zip_entry : Set := mkentry {
  e_head : bytes; e_csize : N; e_usize : N; e_attrs : bytes; e_offset : N;
  e_name : bytes; e_extra : bytes; e_comment : bytes }.
Definition entry_bytes (e : zip_entry) : bytes :=
  e_head e ++ le_bytes 4 (e_csize e) ++ le_bytes 4 (e_usize e) ++
  le_bytes 2 (lenN (e_name e)) ++ le_bytes 2 (lenN (e_extra e)) ++ le_bytes 2 (lenN (e_comment e)) ++
  e_attrs e ++ le_bytes 4 (e_offset e) ++ e_name e ++ e_extra e ++ e_comment e.
Definition wf_entry (e : zip_entry) : Prop :=
  lenN (e_head e) = 20 /\ e_csize e < 2 ^ 32 /\ e_usize e < 2 ^ 32 /\ lenN (e_attrs e) = 8 /\
  e_offset e < 2 ^ 32 /\ lenN (e_name e) < 2 ^ 16 /\ lenN (e_extra e) < 2 ^ 16 /\ lenN (e_comment e) < 2 ^ 16.

Definition eocd_signature : bytes := [x50; x4b; x05; x06].
Definition locator_signature : bytes := [x50; x4b; x06; x07].
(** The end of central directory record: disk numbers and number of entries of this disk (6
    bytes), number of entries, size (4 bytes) and offset of the central directory, comment. *)
Definition eocd_fields (disks : bytes) (count : N) (size : bytes) (offset : N) (comment_len : N) : bytes :=
  disks ++ le_bytes 2 count ++ size ++ le_bytes 4 offset ++ le_bytes 2 comment_len.
Definition eocd (fields comment : bytes) : bytes := eocd_signature ++ fields ++ comment.
(** The signature occurs nowhere behind the start of the record. *)
Definition unambiguous (fields comment : bytes) : Prop := ~ occurs eocd_signature (fields ++ comment).

(** ZIP64 records: [head] has 32 bytes, [size] 8. *)
Definition eocd64 (head : bytes) (count : N) (size : bytes) (offset : N) (ext : bytes) : bytes :=
  head ++ le_bytes 8 count ++ size ++ le_bytes 8 offset ++ ext.
Definition locator (disk : bytes) (offset : N) (disks : bytes) : bytes :=
  locator_signature ++ disk ++ le_bytes 8 offset ++ disks.
(** No ZIP64 locator ends where [l] ends. *)
Definition no_locator (l : bytes) : Prop :=
  forall a b, l = a ++ locator_signature ++ b -> lenN b <> 16.

(** [local] is everything in front of the central directory, [gap] what lies between it and the
    end record. *)
Definition directory (entries : list zip_entry) : bytes := flat_map entry_bytes entries.
Definition zip_archive (local : bytes) (entries : list zip_entry) (gap disks size comment : bytes) : bytes :=
  local ++ directory entries ++ gap ++
  eocd (eocd_fields disks (lenN entries) size (lenN local) (lenN comment)) comment.
Definition wf_zip (local : bytes) (entries : list zip_entry) (gap disks size comment : bytes) : Prop :=
  lenN local < 2 ^ 32 /\ lenN entries < 2 ^ 16 /\ Forall wf_entry entries /\
  lenN disks = 6 /\ lenN size = 4 /\ lenN comment < 2 ^ 16 /\
  no_locator (local ++ directory entries ++ gap) /\
  unambiguous (eocd_fields disks (lenN entries) size (lenN local) (lenN comment)) comment.

(** In a ZIP64 archive the fields of the end record do not matter. *)
Definition zip64_archive (local : bytes) (entries : list zip_entry) (gap head size ext disk disks fields comment : bytes) : bytes :=
  local ++ directory entries ++ gap ++
  eocd64 head (lenN entries) size (lenN local) ext ++
  locator disk (lenN (local ++ directory entries ++ gap)) disks ++
  eocd fields comment.
Definition wf_zip64 (entries : list zip_entry) (head size disk disks fields comment : bytes) : Prop :=
  lenN entries < 2 ^ 32 /\ Forall wf_entry entries /\ lenN head = 32 /\ lenN size = 8 /\
  lenN disk = 4 /\ lenN disks = 4 /\ lenN fields = 18 /\ lenN comment < 2 ^ 16 /\
  unambiguous fields comment.

(** ** Classification *)

(** Tests on the name of an entry. *)
Inductive name_test : Set :=
| Is (name : string)                       (* exactly *)
| Under (dir : string)                     (* starts with *)
| UnderEnding (dir suffix : string)        (* starts and ends with *)
| UnderHolding (dir part : string)         (* starts with and holds *)
| TopLevel (suffix : string).              (* ends with, and is in no directory *)
Definition passes (name : bytes) (t : name_test) : Prop :=
  match t with
  | Is s => name = bs s
  | Under d => exists r, name = bs d ++ r
  | UnderEnding d s => (exists r, name = bs d ++ r) /\ (exists r, name = r ++ bs s)
  | UnderHolding d s => (exists r, name = bs d ++ r) /\ occurs (bs s) name
  | TopLevel s => (exists r, name = r ++ bs s) /\ ~ In x2f name
  end.
Definition decisive_names : list (name_test * FileFormat) :=
  [ (Is "AndroidManifest.xml", AndroidPackage);
    (Is "AppManifest.xaml", Xap);
    (Is "AppxManifest.xml", WindowsAppPackage);
    (Is "AppxMetadata/AppxBundleManifest.xml", WindowsAppBundle);
    (Is "BundleConfig.pb", AndroidAppBundle);
    (Is "DOMDocument.xml", FlashCs5Project);
    (Is "META-INF/AIR/application.xml", AdobeIntegratedRuntime);
    (Is "META-INF/application.xml", EnterpriseApplicationArchive);
    (Is "META-INF/mozilla.rsa", Xpinstall);
    (Is "WEB-INF/web.xml", WebApplicationArchive);
    (Is "canvas.fig", FigmaDesign);
    (Is "doc.kml", KeyholeMarkupLanguageZip);
    (Is "document.json", Sketch43);
    (Is "extension.vsixmanifest", MicrosoftVisualStudioExtension);
    (Under "Fusion[Active]/", Autodesk123d);
    (Under "circuitdiagram/", CircuitDiagramDocument);
    (Under "dwf/", DesignWebFormatXps);
    (TopLevel ".fb2", FictionbookZip);
    (Under "FusionAssetName[Active]/", Fusion360);
    (UnderHolding "Payload/" ".app/", IosAppStorePackage);
    (Under "word/", OfficeOpenXmlDocument);
    (Under "visio/", OfficeOpenXmlDrawing);
    (Under "ppt/", OfficeOpenXmlPresentation);
    (Under "xl/", OfficeOpenXmlSpreadsheet);
    (UnderEnding "Documents/" ".fpage", Openxps);
    (Under "SpaceClaim/", SpaceclaimDocument);
    (UnderEnding "3D/" ".model", ThreeDimensionalManufacturingFormat);
    (TopLevel ".usd", UniversalSceneDescriptionZip);
    (TopLevel ".usda", UniversalSceneDescriptionZip);
    (TopLevel ".usdc", UniversalSceneDescriptionZip) ]%string.
(** No name passes the tests of two different formats (proved below as [names_disjoint]), so the
    order of the table does not matter. *)
Definition decisive_name (name : bytes) (f : FileFormat) : Prop :=
  exists t, In (t, f) decisive_names /\ passes name t.

Definition media_types : list (string * FileFormat) :=
  [ ("application/epub+zip", ElectronicPublication);
    ("application/vnd.adobe.indesign-idml-package", IndesignMarkupLanguage);
    ("application/vnd.oasis.opendocument.base", OpendocumentDatabase);
    ("application/vnd.oasis.opendocument.database", OpendocumentDatabase);
    ("application/vnd.oasis.opendocument.formula", OpendocumentFormula);
    ("application/vnd.oasis.opendocument.formula-template", OpendocumentFormulaTemplate);
    ("application/vnd.oasis.opendocument.graphics", OpendocumentGraphics);
    ("application/vnd.oasis.opendocument.graphics-template", OpendocumentGraphicsTemplate);
    ("application/vnd.oasis.opendocument.presentation", OpendocumentPresentation);
    ("application/vnd.oasis.opendocument.presentation-template", OpendocumentPresentationTemplate);
    ("application/vnd.oasis.opendocument.spreadsheet", OpendocumentSpreadsheet);
    ("application/vnd.oasis.opendocument.spreadsheet-template", OpendocumentSpreadsheetTemplate);
    ("application/vnd.oasis.opendocument.text", OpendocumentText);
    ("application/vnd.oasis.opendocument.text-master", OpendocumentTextMaster);
    ("application/vnd.oasis.opendocument.text-master-template", OpendocumentTextMasterTemplate);
    ("application/vnd.oasis.opendocument.text-template", OpendocumentTextTemplate);
    ("application/vnd.recordare.musicxml", MusicxmlZip);
    ("application/vnd.sun.xml.calc", SunXmlCalc);
    ("application/vnd.sun.xml.calc.template", SunXmlCalcTemplate);
    ("application/vnd.sun.xml.draw", SunXmlDraw);
    ("application/vnd.sun.xml.draw.template", SunXmlDrawTemplate);
    ("application/vnd.sun.xml.impress", SunXmlImpress);
    ("application/vnd.sun.xml.impress.template", SunXmlImpressTemplate);
    ("application/vnd.sun.xml.math", SunXmlMath);
    ("application/vnd.sun.xml.writer", SunXmlWriter);
    ("application/vnd.sun.xml.writer.global", SunXmlWriterGlobal);
    ("application/vnd.sun.xml.writer.template", SunXmlWriterTemplate);
    ("image/openraster", Openraster) ]%string.

(** The characters with the Unicode property White_Space. *)
Definition white_spaces : list N :=
  [0x9; 0xA; 0xB; 0xC; 0xD; 0x20; 0x85; 0xA0; 0x1680; 0x2000; 0x2001; 0x2002; 0x2003; 0x2004; 0x2005;
   0x2006; 0x2007; 0x2008; 0x2009; 0x200A; 0x2028; 0x2029; 0x202F; 0x205F; 0x3000].
Definition blank (l : bytes) : Prop :=
  exists cs, Forall (fun ch => In ch white_spaces) cs /\ l = flat_map utf8_encode cs.
(** [data] is the media type [m], with white space around it. *)
Definition is_media_type (data : bytes) (m : string) : Prop :=
  exists a b, blank a /\ blank b /\ data = a ++ bs m ++ b.
Inductive media_class (data : bytes) : FileFormat -> Prop :=
| media_known m f : In (m, f) media_types -> is_media_type data m -> media_class data f
| media_unknown : (forall m f, In (m, f) media_types -> ~ is_media_type data m) -> media_class data Zip.

Definition is_manifest (e : zip_entry) : Prop := e_name e = bs "META-INF/MANIFEST.MF".
(** Stored: as many bytes as when compressed. *)
Definition is_stored_mimetype (e : zip_entry) : Prop := e_name e = bs "mimetype" /\ e_csize e = e_usize e.
(** The data of a stored entry: behind the local header, with its own name and extra field. *)
Definition entry_data (content : bytes) (e : zip_entry) (data : bytes) : Prop :=
  exists before head name extra after,
    content = before ++ head ++ le_bytes 2 (lenN name) ++ le_bytes 2 (lenN extra) ++ name ++ extra ++ data ++ after /\
    lenN before = e_offset e /\ lenN head = 26 /\ lenN name < 2 ^ 16 /\ lenN extra < 2 ^ 16 /\
    lenN data = e_csize e.

(** The result for the entries [l], if nothing is decisive [d]. *)
Inductive zip_class (content : bytes) : FileFormat -> list zip_entry -> FileFormat -> Prop :=
| zip_end d : zip_class content d [] d
| zip_decisive d e l f : decisive_name (e_name e) f -> zip_class content d (e :: l) f
| zip_mimetype d e l data f : is_stored_mimetype e -> entry_data content e data -> media_class data f ->
    zip_class content d (e :: l) f
| zip_manifest d e l f : is_manifest e -> zip_class content JavaArchive l f -> zip_class content d (e :: l) f
| zip_skip d e l f : (forall g, ~ decisive_name (e_name e) g) -> ~ is_stored_mimetype e -> ~ is_manifest e ->
    zip_class content d l f -> zip_class content d (e :: l) f.
