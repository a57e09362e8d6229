(** Registered media types and customary file name extensions (C61), from the IANA registry and the
    documentation of the applications, not from the library. *)
From Coq Require Import List String.
From Verif Require Import Formats.
Import ListNotations.
Local Open Scope string_scope.

(** Format, registered media type (in lower case), file name extensions given in the registration. *)
Definition iana : list (FileFormat * string * list string) :=
[
  (AdaptiveMultiRate, "audio/amr", ["amr"; "3ga"]);
  (AdobePhotoshopDocument, "image/vnd.adobe.photoshop", ["psd"]);
  (AdvancedAudioCoding, "audio/aac", ["adts"; "aac"; "ass"]);
  (AdvancedSystemsFormat, "application/vnd.ms-asf", ["asf"]);
  (AndroidPackage, "application/vnd.android.package-archive", ["apk"]);
  (AnimatedPortableNetworkGraphics, "image/apng", ["apng"]);
  (ApacheArrowColumnar, "application/vnd.apache.arrow.file", ["arrow"]);
  (ApacheParquet, "application/vnd.apache.parquet", ["parquet"]);
  (AppleQuicktime, "video/quicktime", ["mov"; "qt"]);
  (ArbitraryBinaryData, "application/octet-stream", ["bin"]);
  (Atom, "application/atom+xml", ["atom"]);
  (Au, "audio/basic", ["au"; "snd"]);
  (AudioCodec3, "audio/ac3", ["ac3"]);
  (Av1ImageFileFormat, "image/avif", ["avif"; "hif"]);
  (BdavMpeg2TransportStream, "video/mp2t", ["m2ts"; "ts"]);
  (Mpeg2TransportStream, "video/mp2t", ["ts"; "m2ts"]);
  (Cabinet, "application/vnd.ms-cab-compressed", ["cab"]);
  (CollaborativeDesignActivity, "model/vnd.collada+xml", ["dae"]);
  (DebianPackage, "application/vnd.debian.binary-package", ["deb"; "udeb"]);
  (DesignWebFormat, "model/vnd.dwf", ["dwf"]);
  (DigitalImagingAndCommunicationsInMedicine, "application/dicom", ["dcm"]);
  (Djvu, "image/vnd.djvu", ["djvu"; "djv"]);
  (PortableExecutable, "application/vnd.microsoft.portable-executable", ["exe"; "dll"; "cpl"; "sys"; "drv"; "scr"; "efi"]);
  (DynamicLinkLibrary, "application/vnd.microsoft.portable-executable", ["dll"; "exe"; "cpl"; "sys"; "drv"; "scr"; "efi"]);
  (ElectronicPublication, "application/epub+zip", ["epub"]);
  (EmbeddedOpentype, "application/vnd.ms-fontobject", ["eot"]);
  (EnhancedMetafile, "image/emf", ["emf"]);
  (WindowsMetafile, "image/wmf", ["wmf"]);
  (WindowsBitmap, "image/bmp", ["bmp"; "dib"]);
  (Extensible3d, "model/x3d+xml", ["x3d"]);
  (ExtensibleMarkupLanguage, "text/xml", ["xml"]);
  (ExtensibleStylesheetLanguageTransformations, "application/xslt+xml", ["xsl"; "xslt"]);
  (FlexibleImageTransportSystem, "application/fits", ["fits"; "fit"; "fts"]);
  (FreeLosslessAudioCodec, "audio/flac", ["flac"]);
  (GeographyMarkupLanguage, "application/gml+xml", ["gml"]);
  (GlTransmissionFormatBinary, "model/gltf-binary", ["glb"]);
  (GraphicsInterchangeFormat, "image/gif", ["gif"]);
  (Gzip, "application/gzip", ["gz"; "tgz"]);
  (HighEfficiencyImageCoding, "image/heic", ["heic"; "hif"]);
  (HighEfficiencyImageCodingSequence, "image/heic-sequence", ["heics"]);
  (HighEfficiencyImageFileFormat, "image/heif", ["heif"; "hif"]);
  (HighEfficiencyImageFileFormatSequence, "image/heif-sequence", ["heifs"]);
  (HypertextMarkupLanguage, "text/html", ["html"; "htm"]);
  (Icalendar, "text/calendar", ["ics"; "ifb"]);
  (IccProfile, "application/vnd.iccprofile", ["icc"; "icm"]);
  (InitialGraphicsExchangeSpecification, "model/iges", ["igs"; "iges"]);
  (JavaArchive, "application/java-archive", ["jar"]);
  (JointPhotographicExpertsGroup, "image/jpeg", ["jpg"; "jpeg"; "jpe"; "jfif"]);
  (Jpeg2000Part1, "image/jp2", ["jp2"; "jpg2"]);
  (Jpeg2000Part2, "image/jpx", ["jpx"; "jpf"]);
  (Jpeg2000Part3, "video/mj2", ["mj2"; "mjp2"]);
  (Jpeg2000Part6, "image/jpm", ["jpm"; "jpgm"]);
  (JpegExtendedRange, "image/jxr", ["jxr"]);
  (JpegLs, "image/jls", ["jls"]);
  (JpegXl, "image/jxl", ["jxl"]);
  (KeyholeMarkupLanguage, "application/vnd.google-earth.kml+xml", ["kml"]);
  (KeyholeMarkupLanguageZip, "application/vnd.google-earth.kmz", ["kmz"]);
  (KhronosTexture, "image/ktx", ["ktx"]);
  (KhronosTexture2, "image/ktx2", ["ktx2"]);
  (MaterialExchangeFormat, "application/mxf", ["mxf"]);
  (MathematicalMarkupLanguage, "application/mathml+xml", ["mathml"; "mml"]);
  (MatroskaAudio, "audio/matroska", ["mka"]);
  (MatroskaVideo, "video/matroska", ["mkv"]);
  (MicrosoftCompiledHtmlHelp, "application/vnd.ms-htmlhelp", ["chm"]);
  (MicrosoftExcelSpreadsheet, "application/vnd.ms-excel", ["xls"; "xlm"; "xla"; "xlc"; "xlt"; "xlw"]);
  (MicrosoftPowerpointPresentation, "application/vnd.ms-powerpoint", ["ppt"; "pps"; "pot"]);
  (MicrosoftProjectPlan, "application/vnd.ms-project", ["mpp"; "mpt"]);
  (MicrosoftVisioDrawing, "application/vnd.visio", ["vsd"; "vst"; "vsw"; "vss"]);
  (MicrosoftWordDocument, "application/msword", ["doc"; "dot"]);
  (MicrosoftWorks6Spreadsheet, "application/vnd.ms-works", ["xlr"; "wks"; "wps"; "wcm"; "wdb"]);
  (MicrosoftWorksSpreadsheet, "application/vnd.ms-works", ["wks"; "xlr"; "wps"; "wcm"; "wdb"]);
  (MicrosoftWorksWordProcessor, "application/vnd.ms-works", ["wps"; "wks"; "wcm"; "wdb"]);
  (Mpeg12AudioLayer2, "audio/mpeg", ["mp2"; "mp1"; "mp3"]);
  (Mpeg12AudioLayer3, "audio/mpeg", ["mp3"; "mp1"; "mp2"]);
  (Mpeg12Video, "video/mpeg", ["mpeg"; "mpg"; "mpe"; "m1v"; "m2v"]);
  (Mpeg4Part14, "application/mp4", ["mp4"; "mpg4"]);
  (Mpeg4Part14Subtitles, "application/mp4", ["mp4"; "mpg4"]);
  (Mpeg4Part14Audio, "audio/mp4", ["mp4"; "mpg4"]);
  (Mpeg4Part14Video, "video/mp4", ["mp4"; "mpg4"]);
  (MpegDashMpd, "application/dash+xml", ["mpd"]);
  (Musicxml, "application/vnd.recordare.musicxml+xml", ["musicxml"; "xml"]);
  (MusicxmlZip, "application/vnd.recordare.musicxml", ["mxl"]);
  (OfficeOpenXmlDocument, "application/vnd.openxmlformats-officedocument.wordprocessingml.document", ["docx"]);
  (OfficeOpenXmlPresentation, "application/vnd.openxmlformats-officedocument.presentationml.presentation", ["pptx"]);
  (OfficeOpenXmlSpreadsheet, "application/vnd.openxmlformats-officedocument.spreadsheetml.sheet", ["xlsx"]);
  (OggFlac, "audio/ogg", ["oga"; "ogg"; "spx"; "opus"]);
  (OggMultiplexedMedia, "application/ogg", ["ogx"]);
  (OggSpeex, "audio/ogg", ["spx"; "oga"; "ogg"; "opus"]);
  (OggTheora, "video/ogg", ["ogv"]);
  (OggVorbis, "audio/ogg", ["ogg"; "oga"; "spx"; "opus"]);
  (OpendocumentFormula, "application/vnd.oasis.opendocument.formula", ["odf"]);
  (OpendocumentFormulaTemplate, "application/vnd.oasis.opendocument.formula-template", ["otf"]);
  (OpendocumentGraphics, "application/vnd.oasis.opendocument.graphics", ["odg"]);
  (OpendocumentGraphicsTemplate, "application/vnd.oasis.opendocument.graphics-template", ["otg"]);
  (OpendocumentPresentation, "application/vnd.oasis.opendocument.presentation", ["odp"]);
  (OpendocumentPresentationTemplate, "application/vnd.oasis.opendocument.presentation-template", ["otp"]);
  (OpendocumentSpreadsheet, "application/vnd.oasis.opendocument.spreadsheet", ["ods"]);
  (OpendocumentSpreadsheetTemplate, "application/vnd.oasis.opendocument.spreadsheet-template", ["ots"]);
  (OpendocumentText, "application/vnd.oasis.opendocument.text", ["odt"]);
  (OpendocumentTextMaster, "application/vnd.oasis.opendocument.text-master", ["odm"]);
  (OpendocumentTextMasterTemplate, "application/vnd.oasis.opendocument.text-master-template", ["otm"]);
  (OpendocumentTextTemplate, "application/vnd.oasis.opendocument.text-template", ["ott"]);
  (Opentype, "font/otf", ["otf"; "ttf"]);
  (Truetype, "font/ttf", ["ttf"]);
  (TruetypeCollection, "font/collection", ["ttc"; "otc"]);
  (WebOpenFontFormat, "font/woff", ["woff"]);
  (WebOpenFontFormat2, "font/woff2", ["woff2"]);
  (PcapDump, "application/vnd.tcpdump.pcap", ["pcap"; "cap"; "dmp"]);
  (PgpPrivateKeyBlock, "application/pgp-keys", ["asc"; "pgp"]);
  (PgpPublicKeyBlock, "application/pgp-keys", ["asc"; "pgp"]);
  (PgpSignature, "application/pgp-signature", ["asc"; "sig"]);
  (PlainText, "text/plain", ["txt"; "text"]);
  (PortableDocumentFormat, "application/pdf", ["pdf"]);
  (PortableNetworkGraphics, "image/png", ["png"]);
  (Postscript, "application/postscript", ["ps"; "ai"; "eps"]);
  (QualcommPurevoice, "audio/qcelp", ["qcp"]);
  (RadianceHdr, "image/vnd.radiance", ["hdr"; "rgbe"; "xyze"]);
  (RichTextFormat, "application/rtf", ["rtf"]);
  (RoshalArchive, "application/vnd.rar", ["rar"]);
  (ScalableVectorGraphics, "image/svg+xml", ["svg"; "svgz"]);
  (Sqlite3, "application/vnd.sqlite3", ["sqlite"; "sqlite3"]);
  (StandardForTheExchangeOfProductModelData, "model/step", ["stp"; "step"; "stpnc"; "p21"]);
  (TagImageFileFormat, "image/tiff", ["tiff"; "tif"]);
  (ThirdGenerationPartnershipProject, "video/3gpp", ["3gp"]);
  (ThirdGenerationPartnershipProject2, "video/3gpp2", ["3g2"; "3gpp2"]);
  (TimedTextMarkupLanguage, "application/ttml+xml", ["ttml"]);
  (Universal3d, "model/u3d", ["u3d"]);
  (UniversalSceneDescriptionZip, "model/vnd.usdz+zip", ["usdz"]);
  (Vcard, "text/vcard", ["vcf"; "vcard"]);
  (VirtualRealityModelingLanguage, "model/vrml", ["wrl"; "vrml"]);
  (WaveformAudio, "audio/vnd.wave", ["wav"]);
  (WebVideoTextTracks, "text/vtt", ["vtt"]);
  (WebassemblyBinary, "application/wasm", ["wasm"]);
  (Webp, "image/webp", ["webp"]);
  (WindowsMediaPlaylist, "application/vnd.ms-wpl", ["wpl"]);
  (WordperfectDocument, "application/vnd.wordperfect", ["wpd"]);
  (XmlLocalizationInterchangeFileFormat, "application/xliff+xml", ["xlf"]);
  (Zip, "application/zip", ["zip"]);
  (Zstandard, "application/zstd", ["zst"])
].
(** Formats whose media type is not registered, or registered under another name: the extension in use. *)
Definition customary : list (FileFormat * string) :=
[
  (AbiwordTemplate, "awt");
  (AdobeIllustratorArtwork, "ai");
  (AdobeIntegratedRuntime, "air");
  (AndroidAppBundle, "aab");
  (AppleDiskImage, "dmg");
  (Autodesk123d, "123dx");
  (AutodeskAlias, "wire");
  (AutodeskInventorAssembly, "iam");
  (AutodeskInventorDrawing, "idw");
  (AutodeskInventorPart, "ipt");
  (AutodeskInventorPresentation, "ipn");
  (Cinema4d, "c4d");
  (CircuitDiagramDocument, "cddx");
  (Commodore64Program, "prg");
  (CorelPresentations, "shw");
  (CorelPresentations7, "shw");
  (DesignWebFormatXps, "dwfx");
  (EnterpriseApplicationArchive, "ear");
  (FictionbookZip, "fbz");
  (FigmaDesign, "fig");
  (FlashCs5Project, "fla");
  (FlashProject, "fla");
  (Fusion360, "f3d");
  (Glyphs, "glyphs");
  (IndesignMarkupLanguage, "idml");
  (IosAppStorePackage, "ipa");
  (LempelZivMarkovChainAlgorithm, "lzma");
  (LinearExecutable, "exe");
  (Lzop, "lzo");
  (Matroska3dVideo, "mk3d");
  (MatroskaSubtitles, "mks");
  (MetaInformationEncapsulation, "mie");
  (MicrosoftDigitalVideoRecording, "dvr-ms");
  (MicrosoftPublisherDocument, "pub");
  (MicrosoftSoftwareInstaller, "msi");
  (MicrosoftVirtualHardDisk, "vhd");
  (MicrosoftVisualStudioExtension, "vsix");
  (MicrosoftWorksDatabase, "wdb");
  (MusicalInstrumentDigitalInterface, "mid");
  (NewExecutable, "exe");
  (NikonElectronicFile, "nef");
  (OfficeOpenXmlDrawing, "vsdx");
  (OpendocumentDatabase, "odb");
  (Openraster, "ora");
  (PemCertificateSigningRequest, "csr");
  (Realvideo, "rv");
  (Sketch, "sketch");
  (Sketch43, "sketch");
  (SolidworksAssembly, "sldasm");
  (SolidworksDrawing, "slddrw");
  (SolidworksPart, "sldprt");
  (SonyMovie, "mqv");
  (SpaceclaimDocument, "scdoc");
  (Starcalc, "sdc");
  (Starchart, "sds");
  (Stardraw, "sda");
  (Starimpress, "sdd");
  (Starmath, "smf");
  (Starwriter, "sdw");
  (SunXmlCalc, "sxc");
  (SunXmlCalcTemplate, "stc");
  (SunXmlDraw, "sxd");
  (SunXmlDrawTemplate, "std");
  (SunXmlImpress, "sxi");
  (SunXmlImpressTemplate, "sti");
  (SunXmlMath, "sxm");
  (SunXmlWriter, "sxw");
  (SunXmlWriterTemplate, "stw");
  (ThreeDimensionalManufacturingFormat, "3mf");
  (ThreeDimensionalStudioMax, "max");
  (UniformOfficeFormatPresentation, "uop");
  (UniformOfficeFormatSpreadsheet, "uos");
  (UniformOfficeFormatText, "uot");
  (WebApplicationArchive, "war");
  (Webm, "webm");
  (WindowsAppBundle, "appxbundle");
  (WindowsAppPackage, "appx");
  (WindowsMediaAudio, "wma");
  (WindowsMediaVideo, "wmv");
  (WordperfectPresentations, "shw");
  (Xap, "xap");
  (Xpinstall, "xpi")
].
(** The extensions of two formats in their specifications: ECMA-388 (OpenXPS) and OpenOffice.org 1.x
    (master documents). *)
Definition other_extension : list (FileFormat * string) := [(Openxps, "oxps"); (SunXmlWriterGlobal, "sxg")].

(** What a top-level media type says about the kind of the data (RFC 2046, 2077, 8081).  Text is the
    only one that says nothing more than that the data is legible. *)
Definition top_level (m t : string) : Prop := exists subtype, m = t ++ "/" ++ subtype.
Definition kinds_of : list (string * list Kind) :=
[
  ("audio", [KAudio; KPlaylist]);
  ("font", [KFont]);
  ("image", [KImage; KDocument]);   (* a DjVu document is a sequence of images *)
  ("model", [KModel]);
  ("text", [KDocument; KModel; KOther; KSubtitle]);
  ("video", [KVideo; KPlaylist])
].
(** ... and which top-level media types data of a kind has.  Anything can be an application type. *)
Definition types_of (k : Kind) : list string :=
  match k with
  | KAudio => ["audio"]
  | KFont => ["font"; "application"]
  | KImage => ["image"; "application"]
  | KModel => ["model"; "application"; "text"]
  | KVideo => ["video"; "application"]
  | KPlaylist => ["application"; "audio"; "video"]
  | KDocument => ["application"; "image"; "text"]
  | KOther | KSubtitle => ["application"; "text"]
  | _ => ["application"]
  end.
