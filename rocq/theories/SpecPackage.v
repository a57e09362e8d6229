(** Packages that are ZIP archives (C60): which parts they consist of, from the specifications of
    the package formats (ECMA-376/OPC, ECMA-388, 3MF, OCF, ODF, JAR, Servlet and Java EE, Android, iOS,
    KML, USDZ), not from the library. *)
From Coq Require Import List NArith String.
From Verif Require Import Base Formats Spec SpecText SpecBin SpecZip.
Import ListNotations.
Local Open Scope string_scope.
Local Open Scope list_scope.

Record package : Set := mkpackage {
  package_format : FileFormat;
  mark : list name_test;      (* at least one part is like this *)
  parts : list name_test      (* what else it may hold *)
}.
Definition opc : list name_test :=
  [Is "[Content_Types].xml"; Under "_rels/"; Under "docProps/"; Under "customXml/"].
Definition signed_jar : list name_test :=
  [Is "META-INF/"; Is "META-INF/MANIFEST.MF"; UnderEnding "META-INF/" ".SF"; UnderEnding "META-INF/" ".RSA";
   UnderEnding "META-INF/" ".DSA"; UnderEnding "META-INF/" ".EC"].
Definition packages : list package :=
[
  mkpackage OfficeOpenXmlDocument [Under "word/"] opc;
  mkpackage OfficeOpenXmlPresentation [Under "ppt/"] opc;
  mkpackage OfficeOpenXmlSpreadsheet [Under "xl/"] opc;
  mkpackage OfficeOpenXmlDrawing [Under "visio/"] opc;
  mkpackage ThreeDimensionalManufacturingFormat [UnderEnding "3D/" ".model"] (opc ++ [Under "3D/"; Under "Metadata/"; Under "Thumbnails/"]);
  mkpackage Openxps [UnderEnding "Documents/" ".fpage"]
    (opc ++ [Under "Documents/"; Under "Resources/"; Under "Metadata/"; Is "FixedDocumentSequence.fdseq"]);
  mkpackage WindowsAppPackage [Is "AppxManifest.xml"]
    [Is "[Content_Types].xml"; Is "AppxBlockMap.xml"; Is "AppxSignature.p7x"; Is "resources.pri"; Under "Assets/";
     Is "AppxMetadata/CodeIntegrity.cat"];
  mkpackage WindowsAppBundle [Is "AppxMetadata/AppxBundleManifest.xml"]
    [Is "[Content_Types].xml"; Is "AppxBlockMap.xml"; Is "AppxSignature.p7x"; TopLevel ".appx"; TopLevel ".msix"];
  mkpackage MicrosoftVisualStudioExtension [Is "extension.vsixmanifest"]
    [Is "[Content_Types].xml"; Is "manifest.json"; Is "catalog.json"; Under "package/"; TopLevel ".dll"; TopLevel ".pkgdef"];
  mkpackage AndroidPackage [Is "AndroidManifest.xml"]
    (signed_jar ++ [TopLevel ".dex"; Is "resources.arsc"; Under "res/"; Under "lib/"; Under "assets/"; Under "kotlin/";
                    Is "stamp-cert-sha256"; UnderEnding "META-INF/" ".version"]);
  mkpackage AndroidAppBundle [Is "BundleConfig.pb"]
    (signed_jar ++ [Under "base/"; Under "BUNDLE-METADATA/"]);
  mkpackage JavaArchive [Is "META-INF/MANIFEST.MF"]
    (signed_jar ++ [Is "META-INF/INDEX.LIST"; Under "META-INF/services/"; Under "META-INF/maven/"; Under "META-INF/versions/";
                    TopLevel ".class"; Under "com/"; Under "org/"; Under "net/"; Under "io/"; Under "java/"; Under "javax/"]);
  mkpackage WebApplicationArchive [Is "WEB-INF/web.xml"]
    (signed_jar ++ [Under "WEB-INF/"; TopLevel ".jsp"; TopLevel ".html"; Under "css/"; Under "js/"; Under "images/"]);
  mkpackage EnterpriseApplicationArchive [Is "META-INF/application.xml"]
    (signed_jar ++ [TopLevel ".war"; TopLevel ".jar"; Under "lib/"]);
  mkpackage IosAppStorePackage [UnderHolding "Payload/" ".app/"]
    [Under "Payload/"; Is "iTunesMetadata.plist"; Is "iTunesArtwork"; Under "Symbols/"; Under "SwiftSupport/"];
  mkpackage KeyholeMarkupLanguageZip [Is "doc.kml"] [Under "files/"; Under "images/"];
  mkpackage UniversalSceneDescriptionZip [TopLevel ".usd"; TopLevel ".usda"; TopLevel ".usdc"]
    [TopLevel ".png"; TopLevel ".jpg"; Under "textures/"; Under "assets/"];
  mkpackage Sketch43 [Is "document.json"] [Is "meta.json"; Is "user.json"; Under "pages/"; Under "previews/"; Under "images/"];
  mkpackage Xap [Is "AppManifest.xaml"] [TopLevel ".dll"; Under "Assets/"]
].
(** The entries [names] form such a package. *)
Definition conforms (p : package) (entries : list zip_entry) : Prop :=
  (forall e, In e entries -> exists t, In t (mark p ++ parts p) /\ passes (e_name e) t) /\
  (exists e t, In e entries /\ In t (mark p) /\ passes (e_name e) t).

(** Open Container Format (EPUB), Open Document and OpenRaster: the first entry is called mimetype, is
    not compressed and holds the media type. *)
Definition ocf_types : list (string * FileFormat * string) :=
[
  ("application/epub+zip", ElectronicPublication, "epub");
  ("application/vnd.oasis.opendocument.text", OpendocumentText, "odt");
  ("application/vnd.oasis.opendocument.text-template", OpendocumentTextTemplate, "ott");
  ("application/vnd.oasis.opendocument.text-master", OpendocumentTextMaster, "odm");
  ("application/vnd.oasis.opendocument.text-master-template", OpendocumentTextMasterTemplate, "otm");
  ("application/vnd.oasis.opendocument.spreadsheet", OpendocumentSpreadsheet, "ods");
  ("application/vnd.oasis.opendocument.spreadsheet-template", OpendocumentSpreadsheetTemplate, "ots");
  ("application/vnd.oasis.opendocument.presentation", OpendocumentPresentation, "odp");
  ("application/vnd.oasis.opendocument.presentation-template", OpendocumentPresentationTemplate, "otp");
  ("application/vnd.oasis.opendocument.graphics", OpendocumentGraphics, "odg");
  ("application/vnd.oasis.opendocument.graphics-template", OpendocumentGraphicsTemplate, "otg");
  ("application/vnd.oasis.opendocument.formula", OpendocumentFormula, "odf");
  ("application/vnd.oasis.opendocument.formula-template", OpendocumentFormulaTemplate, "otf");
  ("application/vnd.oasis.opendocument.base", OpendocumentDatabase, "odb");
  ("image/openraster", Openraster, "ora")
].
(** An entry that is stored at the start of the archive: local header (30 bytes with the lengths), name,
    data. *)
Definition stored_first (content : bytes) (e : zip_entry) (name data : bytes) : Prop :=
  e_name e = name /\ e_offset e = 0%N /\ e_csize e = lenN data /\ e_usize e = lenN data /\
  exists head after, lenN head = 26%N /\
    content = head ++ le_bytes 2 (lenN name) ++ le_bytes 2 0 ++ name ++ data ++ after.
