(** GENERATED by tools/gen_derive.py from /repo/src/formats.rs and /repo/src/lib.rs.  Do not edit.

    The traits derived for [FileFormat] (/repo/src/macros.rs line 25: derive(Clone, Copy, Debug, Eq,
    PartialEq)) and for [Kind] (/repo/src/lib.rs line 333). *)
From Coq Require Import List String NArith.
From Verif Require Import Formats.
Import ListNotations.
Local Open Scope string_scope.

(** Derived Debug of a variant without fields: writes the identifier of the variant (the identifiers
    are those of the definitions in /repo/src/formats.rs). *)
Definition debug (f : FileFormat) : string :=
  match f with
  | Abiword => "Abiword"
  | AbiwordTemplate => "AbiwordTemplate"
  | Ace => "Ace"
  | ActionsMediaVideo => "ActionsMediaVideo"
  | Activemime => "Activemime"
  | AdaptableScalableTextureCompression => "AdaptableScalableTextureCompression"
  | AdaptiveMultiRate => "AdaptiveMultiRate"
  | AdditiveManufacturingFormat => "AdditiveManufacturingFormat"
  | AdobeIllustratorArtwork => "AdobeIllustratorArtwork"
  | AdobeIndesignDocument => "AdobeIndesignDocument"
  | AdobeIntegratedRuntime => "AdobeIntegratedRuntime"
  | AdobePhotoshopDocument => "AdobePhotoshopDocument"
  | AdvancedAudioCoding => "AdvancedAudioCoding"
  | AdvancedStreamRedirector => "AdvancedStreamRedirector"
  | AdvancedSystemsFormat => "AdvancedSystemsFormat"
  | AgeEncryption => "AgeEncryption"
  | Alz => "Alz"
  | AmigaDiskFile => "AmigaDiskFile"
  | AndroidAppBundle => "AndroidAppBundle"
  | AndroidBinaryXml => "AndroidBinaryXml"
  | AndroidPackage => "AndroidPackage"
  | AndroidResourceStorageContainer => "AndroidResourceStorageContainer"
  | AnimatedPortableNetworkGraphics => "AnimatedPortableNetworkGraphics"
  | ApacheArrowColumnar => "ApacheArrowColumnar"
  | ApacheAvro => "ApacheAvro"
  | ApacheParquet => "ApacheParquet"
  | Appimage => "Appimage"
  | AppleDiskImage => "AppleDiskImage"
  | AppleIconImage => "AppleIconImage"
  | AppleItunesAudio => "AppleItunesAudio"
  | AppleItunesAudiobook => "AppleItunesAudiobook"
  | AppleItunesProtectedAudio => "AppleItunesProtectedAudio"
  | AppleItunesVideo => "AppleItunesVideo"
  | AppleQuicktime => "AppleQuicktime"
  | ArbitraryBinaryData => "ArbitraryBinaryData"
  | ArchivedByRobertJung => "ArchivedByRobertJung"
  | Atari7800Rom => "Atari7800Rom"
  | Atom => "Atom"
  | Au => "Au"
  | AudioCodec3 => "AudioCodec3"
  | AudioInterchangeFileFormat => "AudioInterchangeFileFormat"
  | AudioVideoInterleave => "AudioVideoInterleave"
  | AudioVisualResearch => "AudioVisualResearch"
  | AutocadDrawing => "AutocadDrawing"
  | Autodesk123d => "Autodesk123d"
  | AutodeskAlias => "AutodeskAlias"
  | AutodeskAnimator => "AutodeskAnimator"
  | AutodeskAnimatorPro => "AutodeskAnimatorPro"
  | AutodeskInventorAssembly => "AutodeskInventorAssembly"
  | AutodeskInventorDrawing => "AutodeskInventorDrawing"
  | AutodeskInventorPart => "AutodeskInventorPart"
  | AutodeskInventorPresentation => "AutodeskInventorPresentation"
  | Av1ImageFileFormat => "Av1ImageFileFormat"
  | Av1ImageFileFormatSequence => "Av1ImageFileFormatSequence"
  | BdavMpeg2TransportStream => "BdavMpeg2TransportStream"
  | BetterPortableGraphics => "BetterPortableGraphics"
  | Bittorrent => "Bittorrent"
  | Blender => "Blender"
  | BmfontAscii => "BmfontAscii"
  | BmfontBinary => "BmfontBinary"
  | BroadBandEbook => "BroadBandEbook"
  | Bzip => "Bzip"
  | Bzip2 => "Bzip2"
  | Bzip3 => "Bzip3"
  | Cabinet => "Cabinet"
  | CanonRaw => "CanonRaw"
  | CanonRaw2 => "CanonRaw2"
  | CanonRaw3 => "CanonRaw3"
  | CdAudio => "CdAudio"
  | Cinema4d => "Cinema4d"
  | Cineon => "Cineon"
  | CircuitDiagramDocument => "CircuitDiagramDocument"
  | ClojureScript => "ClojureScript"
  | CollaborativeDesignActivity => "CollaborativeDesignActivity"
  | Commodore64Cartridge => "Commodore64Cartridge"
  | Commodore64Program => "Commodore64Program"
  | CommonObjectFileFormat => "CommonObjectFileFormat"
  | CompoundFileBinary => "CompoundFileBinary"
  | CorelPresentations => "CorelPresentations"
  | CorelPresentations7 => "CorelPresentations7"
  | Cpio => "Cpio"
  | CreativeVoice => "CreativeVoice"
  | DalvikExecutable => "DalvikExecutable"
  | DebianPackage => "DebianPackage"
  | DerCertificate => "DerCertificate"
  | DesignWebFormat => "DesignWebFormat"
  | DesignWebFormatXps => "DesignWebFormatXps"
  | DigitalImagingAndCommunicationsInMedicine => "DigitalImagingAndCommunicationsInMedicine"
  | DigitalPictureExchange => "DigitalPictureExchange"
  | Djvu => "Djvu"
  | DrawingExchangeFormatAscii => "DrawingExchangeFormatAscii"
  | DrawingExchangeFormatBinary => "DrawingExchangeFormatBinary"
  | Drawio => "Drawio"
  | DynamicLinkLibrary => "DynamicLinkLibrary"
  | EightBitSampledVoice => "EightBitSampledVoice"
  | ElectronicPublication => "ElectronicPublication"
  | EmbeddedOpentype => "EmbeddedOpentype"
  | Empty => "Empty"
  | EncapsulatedPostscript => "EncapsulatedPostscript"
  | EnhancedMetafile => "EnhancedMetafile"
  | EnterpriseApplicationArchive => "EnterpriseApplicationArchive"
  | ExecutableAndLinkableFormat => "ExecutableAndLinkableFormat"
  | ExperimentalComputingFacility => "ExperimentalComputingFacility"
  | Extensible3d => "Extensible3d"
  | ExtensibleArchive => "ExtensibleArchive"
  | ExtensibleBinaryMetaLanguage => "ExtensibleBinaryMetaLanguage"
  | ExtensibleMarkupLanguage => "ExtensibleMarkupLanguage"
  | ExtensibleStylesheetLanguageTransformations => "ExtensibleStylesheetLanguageTransformations"
  | Farbfeld => "Farbfeld"
  | Fasttracker2ExtendedModule => "Fasttracker2ExtendedModule"
  | Fictionbook => "Fictionbook"
  | FictionbookZip => "FictionbookZip"
  | FigletFont => "FigletFont"
  | FigmaDesign => "FigmaDesign"
  | Filmbox => "Filmbox"
  | FlashCs5Project => "FlashCs5Project"
  | FlashMp4Audio => "FlashMp4Audio"
  | FlashMp4Audiobook => "FlashMp4Audiobook"
  | FlashMp4ProtectedVideo => "FlashMp4ProtectedVideo"
  | FlashMp4Video => "FlashMp4Video"
  | FlashProject => "FlashProject"
  | FlashVideo => "FlashVideo"
  | FlexibleAndInteroperableDataTransfer => "FlexibleAndInteroperableDataTransfer"
  | FlexibleImageTransportSystem => "FlexibleImageTransportSystem"
  | FreeLosslessAudioCodec => "FreeLosslessAudioCodec"
  | FreeLosslessImageFormat => "FreeLosslessImageFormat"
  | FujifilmRaw => "FujifilmRaw"
  | Fusion360 => "Fusion360"
  | GameBoyAdvanceRom => "GameBoyAdvanceRom"
  | GameBoyColorRom => "GameBoyColorRom"
  | GameBoyRom => "GameBoyRom"
  | GameGearRom => "GameGearRom"
  | GeographyMarkupLanguage => "GeographyMarkupLanguage"
  | GettextMachineObject => "GettextMachineObject"
  | GlTransmissionFormatBinary => "GlTransmissionFormatBinary"
  | Glyphs => "Glyphs"
  | GoogleChromeExtension => "GoogleChromeExtension"
  | GoogleDraco => "GoogleDraco"
  | GpsExchangeFormat => "GpsExchangeFormat"
  | GraphicsInterchangeFormat => "GraphicsInterchangeFormat"
  | Gzip => "Gzip"
  | HighEfficiencyImageCoding => "HighEfficiencyImageCoding"
  | HighEfficiencyImageCodingSequence => "HighEfficiencyImageCodingSequence"
  | HighEfficiencyImageFileFormat => "HighEfficiencyImageFileFormat"
  | HighEfficiencyImageFileFormatSequence => "HighEfficiencyImageFileFormatSequence"
  | HypertextMarkupLanguage => "HypertextMarkupLanguage"
  | Icalendar => "Icalendar"
  | IccProfile => "IccProfile"
  | Id3v2 => "Id3v2"
  | ImpulseTrackerModule => "ImpulseTrackerModule"
  | IndesignMarkupLanguage => "IndesignMarkupLanguage"
  | InitialGraphicsExchangeSpecification => "InitialGraphicsExchangeSpecification"
  | InterQuakeExport => "InterQuakeExport"
  | InterQuakeModel => "InterQuakeModel"
  | IosAppStorePackage => "IosAppStorePackage"
  | Iso9660 => "Iso9660"
  | JavaArchive => "JavaArchive"
  | JavaClass => "JavaClass"
  | JavaKeystore => "JavaKeystore"
  | JointPhotographicExpertsGroup => "JointPhotographicExpertsGroup"
  | Jpeg2000Codestream => "Jpeg2000Codestream"
  | Jpeg2000Part1 => "Jpeg2000Part1"
  | Jpeg2000Part2 => "Jpeg2000Part2"
  | Jpeg2000Part3 => "Jpeg2000Part3"
  | Jpeg2000Part6 => "Jpeg2000Part6"
  | JpegExtendedRange => "JpegExtendedRange"
  | JpegLs => "JpegLs"
  | JpegNetworkGraphics => "JpegNetworkGraphics"
  | JpegXl => "JpegXl"
  | JsonFeed => "JsonFeed"
  | KeyholeMarkupLanguage => "KeyholeMarkupLanguage"
  | KeyholeMarkupLanguageZip => "KeyholeMarkupLanguageZip"
  | KhronosTexture => "KhronosTexture"
  | KhronosTexture2 => "KhronosTexture2"
  | Larc => "Larc"
  | Latex => "Latex"
  | LempelZivFiniteStateEntropy => "LempelZivFiniteStateEntropy"
  | LempelZivMarkovChainAlgorithm => "LempelZivMarkovChainAlgorithm"
  | Lha => "Lha"
  | LinearExecutable => "LinearExecutable"
  | LlvmBitcode => "LlvmBitcode"
  | LongRangeZip => "LongRangeZip"
  | LuaBytecode => "LuaBytecode"
  | LuaScript => "LuaScript"
  | Lz4 => "Lz4"
  | Lzip => "Lzip"
  | Lzop => "Lzop"
  | MachO => "MachO"
  | MacosAlias => "MacosAlias"
  | Magicavoxel => "Magicavoxel"
  | MagickImageFileFormat => "MagickImageFileFormat"
  | MaterialExchangeFormat => "MaterialExchangeFormat"
  | MathematicalMarkupLanguage => "MathematicalMarkupLanguage"
  | Matroska3dVideo => "Matroska3dVideo"
  | MatroskaAudio => "MatroskaAudio"
  | MatroskaSubtitles => "MatroskaSubtitles"
  | MatroskaVideo => "MatroskaVideo"
  | MayaAscii => "MayaAscii"
  | MayaBinary => "MayaBinary"
  | MegaDriveRom => "MegaDriveRom"
  | MetaInformationEncapsulation => "MetaInformationEncapsulation"
  | MicrosoftAccess2007Database => "MicrosoftAccess2007Database"
  | MicrosoftAccessDatabase => "MicrosoftAccessDatabase"
  | MicrosoftCompiledHtmlHelp => "MicrosoftCompiledHtmlHelp"
  | MicrosoftDigitalVideoRecording => "MicrosoftDigitalVideoRecording"
  | MicrosoftDirectdrawSurface => "MicrosoftDirectdrawSurface"
  | MicrosoftExcelSpreadsheet => "MicrosoftExcelSpreadsheet"
  | MicrosoftPowerpointPresentation => "MicrosoftPowerpointPresentation"
  | MicrosoftProjectPlan => "MicrosoftProjectPlan"
  | MicrosoftPublisherDocument => "MicrosoftPublisherDocument"
  | MicrosoftReader => "MicrosoftReader"
  | MicrosoftSoftwareInstaller => "MicrosoftSoftwareInstaller"
  | MicrosoftVirtualHardDisk => "MicrosoftVirtualHardDisk"
  | MicrosoftVirtualHardDisk2 => "MicrosoftVirtualHardDisk2"
  | MicrosoftVisioDrawing => "MicrosoftVisioDrawing"
  | MicrosoftVisualStudioExtension => "MicrosoftVisualStudioExtension"
  | MicrosoftVisualStudioSolution => "MicrosoftVisualStudioSolution"
  | MicrosoftWordDocument => "MicrosoftWordDocument"
  | MicrosoftWorks6Spreadsheet => "MicrosoftWorks6Spreadsheet"
  | MicrosoftWorksDatabase => "MicrosoftWorksDatabase"
  | MicrosoftWorksSpreadsheet => "MicrosoftWorksSpreadsheet"
  | MicrosoftWorksWordProcessor => "MicrosoftWorksWordProcessor"
  | MicrosoftWrite => "MicrosoftWrite"
  | Mobipocket => "Mobipocket"
  | Model3dAscii => "Model3dAscii"
  | Model3dBinary => "Model3dBinary"
  | MonkeysAudio => "MonkeysAudio"
  | MozillaArchive => "MozillaArchive"
  | Mp3Url => "Mp3Url"
  | Mpeg12AudioLayer2 => "Mpeg12AudioLayer2"
  | Mpeg12AudioLayer3 => "Mpeg12AudioLayer3"
  | Mpeg12Video => "Mpeg12Video"
  | Mpeg2TransportStream => "Mpeg2TransportStream"
  | Mpeg4Part14 => "Mpeg4Part14"
  | Mpeg4Part14Audio => "Mpeg4Part14Audio"
  | Mpeg4Part14Subtitles => "Mpeg4Part14Subtitles"
  | Mpeg4Part14Video => "Mpeg4Part14Video"
  | MpegDashMpd => "MpegDashMpd"
  | MsDosBatch => "MsDosBatch"
  | MsDosExecutable => "MsDosExecutable"
  | Mtv => "Mtv"
  | MultiLayerArchive => "MultiLayerArchive"
  | MultipleImageNetworkGraphics => "MultipleImageNetworkGraphics"
  | Musepack => "Musepack"
  | MusicalInstrumentDigitalInterface => "MusicalInstrumentDigitalInterface"
  | Musicxml => "Musicxml"
  | MusicxmlZip => "MusicxmlZip"
  | NeoGeoPocketColorRom => "NeoGeoPocketColorRom"
  | NeoGeoPocketRom => "NeoGeoPocketRom"
  | NewExecutable => "NewExecutable"
  | NikonElectronicFile => "NikonElectronicFile"
  | Nintendo64Rom => "Nintendo64Rom"
  | NintendoDsRom => "NintendoDsRom"
  | NintendoEntertainmentSystemRom => "NintendoEntertainmentSystemRom"
  | NintendoSwitchExecutable => "NintendoSwitchExecutable"
  | NintendoSwitchPackage => "NintendoSwitchPackage"
  | NintendoSwitchRom => "NintendoSwitchRom"
  | OfficeOpenXmlDocument => "OfficeOpenXmlDocument"
  | OfficeOpenXmlDrawing => "OfficeOpenXmlDrawing"
  | OfficeOpenXmlPresentation => "OfficeOpenXmlPresentation"
  | OfficeOpenXmlSpreadsheet => "OfficeOpenXmlSpreadsheet"
  | OggFlac => "OggFlac"
  | OggMedia => "OggMedia"
  | OggMultiplexedMedia => "OggMultiplexedMedia"
  | OggOpus => "OggOpus"
  | OggSpeex => "OggSpeex"
  | OggTheora => "OggTheora"
  | OggVorbis => "OggVorbis"
  | OlympusRawFormat => "OlympusRawFormat"
  | OpendocumentDatabase => "OpendocumentDatabase"
  | OpendocumentFormula => "OpendocumentFormula"
  | OpendocumentFormulaTemplate => "OpendocumentFormulaTemplate"
  | OpendocumentGraphics => "OpendocumentGraphics"
  | OpendocumentGraphicsTemplate => "OpendocumentGraphicsTemplate"
  | OpendocumentPresentation => "OpendocumentPresentation"
  | OpendocumentPresentationTemplate => "OpendocumentPresentationTemplate"
  | OpendocumentSpreadsheet => "OpendocumentSpreadsheet"
  | OpendocumentSpreadsheetTemplate => "OpendocumentSpreadsheetTemplate"
  | OpendocumentText => "OpendocumentText"
  | OpendocumentTextMaster => "OpendocumentTextMaster"
  | OpendocumentTextMasterTemplate => "OpendocumentTextMasterTemplate"
  | OpendocumentTextTemplate => "OpendocumentTextTemplate"
  | Openexr => "Openexr"
  | Opennurbs => "Opennurbs"
  | Openraster => "Openraster"
  | Opentype => "Opentype"
  | Openxps => "Openxps"
  | OptimizedDalvikExecutable => "OptimizedDalvikExecutable"
  | PanasonicRaw => "PanasonicRaw"
  | PcapDump => "PcapDump"
  | PcapNextGenerationDump => "PcapNextGenerationDump"
  | PemCertificate => "PemCertificate"
  | PemCertificateSigningRequest => "PemCertificateSigningRequest"
  | PemPrivateKey => "PemPrivateKey"
  | PemPublicKey => "PemPublicKey"
  | PerlScript => "PerlScript"
  | PersonalStorageTable => "PersonalStorageTable"
  | PgpMessage => "PgpMessage"
  | PgpPrivateKeyBlock => "PgpPrivateKeyBlock"
  | PgpPublicKeyBlock => "PgpPublicKeyBlock"
  | PgpSignature => "PgpSignature"
  | PgpSignedMessage => "PgpSignedMessage"
  | PictureExchange => "PictureExchange"
  | PlainText => "PlainText"
  | Pmarc => "Pmarc"
  | PolygonAscii => "PolygonAscii"
  | PolygonBinary => "PolygonBinary"
  | PortableArbitraryMap => "PortableArbitraryMap"
  | PortableBitmap => "PortableBitmap"
  | PortableDocumentFormat => "PortableDocumentFormat"
  | PortableExecutable => "PortableExecutable"
  | PortableFloatmap => "PortableFloatmap"
  | PortableGraymap => "PortableGraymap"
  | PortableNetworkGraphics => "PortableNetworkGraphics"
  | PortablePixmap => "PortablePixmap"
  | Postscript => "Postscript"
  | PythonScript => "PythonScript"
  | QemuCopyOnWrite => "QemuCopyOnWrite"
  | QualcommPurevoice => "QualcommPurevoice"
  | QuiteOkAudio => "QuiteOkAudio"
  | QuiteOkImage => "QuiteOkImage"
  | RadianceHdr => "RadianceHdr"
  | Realaudio => "Realaudio"
  | ReallySimpleSyndication => "ReallySimpleSyndication"
  | Realmedia => "Realmedia"
  | Realvideo => "Realvideo"
  | RedHatPackageManager => "RedHatPackageManager"
  | RichTextFormat => "RichTextFormat"
  | RoshalArchive => "RoshalArchive"
  | RubyScript => "RubyScript"
  | Rzip => "Rzip"
  | ScalableVectorGraphics => "ScalableVectorGraphics"
  | ScreamTracker3Module => "ScreamTracker3Module"
  | SegaMasterSystemRom => "SegaMasterSystemRom"
  | Seqbox => "Seqbox"
  | SevenZip => "SevenZip"
  | Shapefile => "Shapefile"
  | ShellScript => "ShellScript"
  | ShoutcastPlaylist => "ShoutcastPlaylist"
  | SiliconGraphicsImage => "SiliconGraphicsImage"
  | SiliconGraphicsMovie => "SiliconGraphicsMovie"
  | SimpleObjectAccessProtocol => "SimpleObjectAccessProtocol"
  | Sketch => "Sketch"
  | Sketch43 => "Sketch43"
  | Sketchup => "Sketchup"
  | SmallWebFormat => "SmallWebFormat"
  | Snappy => "Snappy"
  | SolidworksAssembly => "SolidworksAssembly"
  | SolidworksDrawing => "SolidworksDrawing"
  | SolidworksPart => "SolidworksPart"
  | SonyDsdStreamFile => "SonyDsdStreamFile"
  | SonyMovie => "SonyMovie"
  | Soundfont2 => "Soundfont2"
  | SpaceclaimDocument => "SpaceclaimDocument"
  | Sqlite3 => "Sqlite3"
  | Squashfs => "Squashfs"
  | StandardForTheExchangeOfProductModelData => "StandardForTheExchangeOfProductModelData"
  | Starcalc => "Starcalc"
  | Starchart => "Starchart"
  | Stardraw => "Stardraw"
  | Starimpress => "Starimpress"
  | Starmath => "Starmath"
  | Starwriter => "Starwriter"
  | StereolithographyAscii => "StereolithographyAscii"
  | Stuffit => "Stuffit"
  | StuffitX => "StuffitX"
  | SubripText => "SubripText"
  | SunXmlCalc => "SunXmlCalc"
  | SunXmlCalcTemplate => "SunXmlCalcTemplate"
  | SunXmlDraw => "SunXmlDraw"
  | SunXmlDrawTemplate => "SunXmlDrawTemplate"
  | SunXmlImpress => "SunXmlImpress"
  | SunXmlImpressTemplate => "SunXmlImpressTemplate"
  | SunXmlMath => "SunXmlMath"
  | SunXmlWriter => "SunXmlWriter"
  | SunXmlWriterGlobal => "SunXmlWriterGlobal"
  | SunXmlWriterTemplate => "SunXmlWriterTemplate"
  | TagImageFileFormat => "TagImageFileFormat"
  | TapeArchive => "TapeArchive"
  | Tasty => "Tasty"
  | ThirdGenerationPartnershipProject => "ThirdGenerationPartnershipProject"
  | ThirdGenerationPartnershipProject2 => "ThirdGenerationPartnershipProject2"
  | ThreeDimensionalManufacturingFormat => "ThreeDimensionalManufacturingFormat"
  | ThreeDimensionalStudio => "ThreeDimensionalStudio"
  | ThreeDimensionalStudioMax => "ThreeDimensionalStudioMax"
  | TiledMapXml => "TiledMapXml"
  | TiledTilesetXml => "TiledTilesetXml"
  | TimedTextMarkupLanguage => "TimedTextMarkupLanguage"
  | ToolCommandLanguageScript => "ToolCommandLanguageScript"
  | TrainingCenterXml => "TrainingCenterXml"
  | Truetype => "Truetype"
  | TruetypeCollection => "TruetypeCollection"
  | UltimateSoundtrackerModule => "UltimateSoundtrackerModule"
  | UniformOfficeFormatPresentation => "UniformOfficeFormatPresentation"
  | UniformOfficeFormatSpreadsheet => "UniformOfficeFormatSpreadsheet"
  | UniformOfficeFormatText => "UniformOfficeFormatText"
  | Universal3d => "Universal3d"
  | UniversalSceneDescriptionAscii => "UniversalSceneDescriptionAscii"
  | UniversalSceneDescriptionBinary => "UniversalSceneDescriptionBinary"
  | UniversalSceneDescriptionZip => "UniversalSceneDescriptionZip"
  | UniversalSubtitleFormat => "UniversalSubtitleFormat"
  | UnixArchiver => "UnixArchiver"
  | UnixCompress => "UnixCompress"
  | Vcalendar => "Vcalendar"
  | Vcard => "Vcard"
  | VirtualMachineDisk => "VirtualMachineDisk"
  | VirtualRealityModelingLanguage => "VirtualRealityModelingLanguage"
  | VirtualboxVirtualDiskImage => "VirtualboxVirtualDiskImage"
  | WaveformAudio => "WaveformAudio"
  | Wavpack => "Wavpack"
  | WebApplicationArchive => "WebApplicationArchive"
  | WebOpenFontFormat => "WebOpenFontFormat"
  | WebOpenFontFormat2 => "WebOpenFontFormat2"
  | WebVideoTextTracks => "WebVideoTextTracks"
  | WebassemblyBinary => "WebassemblyBinary"
  | WebassemblyText => "WebassemblyText"
  | Webm => "Webm"
  | Webp => "Webp"
  | WindowsAnimatedCursor => "WindowsAnimatedCursor"
  | WindowsAppBundle => "WindowsAppBundle"
  | WindowsAppPackage => "WindowsAppPackage"
  | WindowsBitmap => "WindowsBitmap"
  | WindowsCursor => "WindowsCursor"
  | WindowsIcon => "WindowsIcon"
  | WindowsImagingFormat => "WindowsImagingFormat"
  | WindowsMediaAudio => "WindowsMediaAudio"
  | WindowsMediaPlaylist => "WindowsMediaPlaylist"
  | WindowsMediaVideo => "WindowsMediaVideo"
  | WindowsMetafile => "WindowsMetafile"
  | WindowsRecordedTvShow => "WindowsRecordedTvShow"
  | WindowsShortcut => "WindowsShortcut"
  | WordperfectDocument => "WordperfectDocument"
  | WordperfectGraphics => "WordperfectGraphics"
  | WordperfectMacro => "WordperfectMacro"
  | WordperfectPresentations => "WordperfectPresentations"
  | XPixmap => "XPixmap"
  | Xap => "Xap"
  | Xbox360Executable => "Xbox360Executable"
  | XboxExecutable => "XboxExecutable"
  | XmlLocalizationInterchangeFileFormat => "XmlLocalizationInterchangeFileFormat"
  | XmlShareablePlaylistFormat => "XmlShareablePlaylistFormat"
  | Xpinstall => "Xpinstall"
  | Xz => "Xz"
  | Zip => "Zip"
  | Zoo => "Zoo"
  | Zpaq => "Zpaq"
  | Zstandard => "Zstandard"
  end.
(** Derived Debug of [Kind], /repo/src/lib.rs lines 333-382. *)
Definition debug_kind (k : Kind) : string :=
  match k with
  | KArchive => "Archive"
  | KAudio => "Audio"
  | KCompressed => "Compressed"
  | KDatabase => "Database"
  | KDiagram => "Diagram"
  | KDisk => "Disk"
  | KDocument => "Document"
  | KEbook => "Ebook"
  | KExecutable => "Executable"
  | KFont => "Font"
  | KFormula => "Formula"
  | KGeospatial => "Geospatial"
  | KImage => "Image"
  | KMetadata => "Metadata"
  | KModel => "Model"
  | KOther => "Other"
  | KPackage => "Package"
  | KPlaylist => "Playlist"
  | KPresentation => "Presentation"
  | KRom => "Rom"
  | KSpreadsheet => "Spreadsheet"
  | KSubtitle => "Subtitle"
  | KVideo => "Video"
  end.
(** Discriminant ([f as isize]): variants without explicit values are numbered from 0 in the order of
    their declaration. *)
Definition discriminant (f : FileFormat) : N :=
  match f with
  | Abiword => 0
  | AbiwordTemplate => 1
  | Ace => 2
  | ActionsMediaVideo => 3
  | Activemime => 4
  | AdaptableScalableTextureCompression => 5
  | AdaptiveMultiRate => 6
  | AdditiveManufacturingFormat => 7
  | AdobeIllustratorArtwork => 8
  | AdobeIndesignDocument => 9
  | AdobeIntegratedRuntime => 10
  | AdobePhotoshopDocument => 11
  | AdvancedAudioCoding => 12
  | AdvancedStreamRedirector => 13
  | AdvancedSystemsFormat => 14
  | AgeEncryption => 15
  | Alz => 16
  | AmigaDiskFile => 17
  | AndroidAppBundle => 18
  | AndroidBinaryXml => 19
  | AndroidPackage => 20
  | AndroidResourceStorageContainer => 21
  | AnimatedPortableNetworkGraphics => 22
  | ApacheArrowColumnar => 23
  | ApacheAvro => 24
  | ApacheParquet => 25
  | Appimage => 26
  | AppleDiskImage => 27
  | AppleIconImage => 28
  | AppleItunesAudio => 29
  | AppleItunesAudiobook => 30
  | AppleItunesProtectedAudio => 31
  | AppleItunesVideo => 32
  | AppleQuicktime => 33
  | ArbitraryBinaryData => 34
  | ArchivedByRobertJung => 35
  | Atari7800Rom => 36
  | Atom => 37
  | Au => 38
  | AudioCodec3 => 39
  | AudioInterchangeFileFormat => 40
  | AudioVideoInterleave => 41
  | AudioVisualResearch => 42
  | AutocadDrawing => 43
  | Autodesk123d => 44
  | AutodeskAlias => 45
  | AutodeskAnimator => 46
  | AutodeskAnimatorPro => 47
  | AutodeskInventorAssembly => 48
  | AutodeskInventorDrawing => 49
  | AutodeskInventorPart => 50
  | AutodeskInventorPresentation => 51
  | Av1ImageFileFormat => 52
  | Av1ImageFileFormatSequence => 53
  | BdavMpeg2TransportStream => 54
  | BetterPortableGraphics => 55
  | Bittorrent => 56
  | Blender => 57
  | BmfontAscii => 58
  | BmfontBinary => 59
  | BroadBandEbook => 60
  | Bzip => 61
  | Bzip2 => 62
  | Bzip3 => 63
  | Cabinet => 64
  | CanonRaw => 65
  | CanonRaw2 => 66
  | CanonRaw3 => 67
  | CdAudio => 68
  | Cinema4d => 69
  | Cineon => 70
  | CircuitDiagramDocument => 71
  | ClojureScript => 72
  | CollaborativeDesignActivity => 73
  | Commodore64Cartridge => 74
  | Commodore64Program => 75
  | CommonObjectFileFormat => 76
  | CompoundFileBinary => 77
  | CorelPresentations => 78
  | CorelPresentations7 => 79
  | Cpio => 80
  | CreativeVoice => 81
  | DalvikExecutable => 82
  | DebianPackage => 83
  | DerCertificate => 84
  | DesignWebFormat => 85
  | DesignWebFormatXps => 86
  | DigitalImagingAndCommunicationsInMedicine => 87
  | DigitalPictureExchange => 88
  | Djvu => 89
  | DrawingExchangeFormatAscii => 90
  | DrawingExchangeFormatBinary => 91
  | Drawio => 92
  | DynamicLinkLibrary => 93
  | EightBitSampledVoice => 94
  | ElectronicPublication => 95
  | EmbeddedOpentype => 96
  | Empty => 97
  | EncapsulatedPostscript => 98
  | EnhancedMetafile => 99
  | EnterpriseApplicationArchive => 100
  | ExecutableAndLinkableFormat => 101
  | ExperimentalComputingFacility => 102
  | Extensible3d => 103
  | ExtensibleArchive => 104
  | ExtensibleBinaryMetaLanguage => 105
  | ExtensibleMarkupLanguage => 106
  | ExtensibleStylesheetLanguageTransformations => 107
  | Farbfeld => 108
  | Fasttracker2ExtendedModule => 109
  | Fictionbook => 110
  | FictionbookZip => 111
  | FigletFont => 112
  | FigmaDesign => 113
  | Filmbox => 114
  | FlashCs5Project => 115
  | FlashMp4Audio => 116
  | FlashMp4Audiobook => 117
  | FlashMp4ProtectedVideo => 118
  | FlashMp4Video => 119
  | FlashProject => 120
  | FlashVideo => 121
  | FlexibleAndInteroperableDataTransfer => 122
  | FlexibleImageTransportSystem => 123
  | FreeLosslessAudioCodec => 124
  | FreeLosslessImageFormat => 125
  | FujifilmRaw => 126
  | Fusion360 => 127
  | GameBoyAdvanceRom => 128
  | GameBoyColorRom => 129
  | GameBoyRom => 130
  | GameGearRom => 131
  | GeographyMarkupLanguage => 132
  | GettextMachineObject => 133
  | GlTransmissionFormatBinary => 134
  | Glyphs => 135
  | GoogleChromeExtension => 136
  | GoogleDraco => 137
  | GpsExchangeFormat => 138
  | GraphicsInterchangeFormat => 139
  | Gzip => 140
  | HighEfficiencyImageCoding => 141
  | HighEfficiencyImageCodingSequence => 142
  | HighEfficiencyImageFileFormat => 143
  | HighEfficiencyImageFileFormatSequence => 144
  | HypertextMarkupLanguage => 145
  | Icalendar => 146
  | IccProfile => 147
  | Id3v2 => 148
  | ImpulseTrackerModule => 149
  | IndesignMarkupLanguage => 150
  | InitialGraphicsExchangeSpecification => 151
  | InterQuakeExport => 152
  | InterQuakeModel => 153
  | IosAppStorePackage => 154
  | Iso9660 => 155
  | JavaArchive => 156
  | JavaClass => 157
  | JavaKeystore => 158
  | JointPhotographicExpertsGroup => 159
  | Jpeg2000Codestream => 160
  | Jpeg2000Part1 => 161
  | Jpeg2000Part2 => 162
  | Jpeg2000Part3 => 163
  | Jpeg2000Part6 => 164
  | JpegExtendedRange => 165
  | JpegLs => 166
  | JpegNetworkGraphics => 167
  | JpegXl => 168
  | JsonFeed => 169
  | KeyholeMarkupLanguage => 170
  | KeyholeMarkupLanguageZip => 171
  | KhronosTexture => 172
  | KhronosTexture2 => 173
  | Larc => 174
  | Latex => 175
  | LempelZivFiniteStateEntropy => 176
  | LempelZivMarkovChainAlgorithm => 177
  | Lha => 178
  | LinearExecutable => 179
  | LlvmBitcode => 180
  | LongRangeZip => 181
  | LuaBytecode => 182
  | LuaScript => 183
  | Lz4 => 184
  | Lzip => 185
  | Lzop => 186
  | MachO => 187
  | MacosAlias => 188
  | Magicavoxel => 189
  | MagickImageFileFormat => 190
  | MaterialExchangeFormat => 191
  | MathematicalMarkupLanguage => 192
  | Matroska3dVideo => 193
  | MatroskaAudio => 194
  | MatroskaSubtitles => 195
  | MatroskaVideo => 196
  | MayaAscii => 197
  | MayaBinary => 198
  | MegaDriveRom => 199
  | MetaInformationEncapsulation => 200
  | MicrosoftAccess2007Database => 201
  | MicrosoftAccessDatabase => 202
  | MicrosoftCompiledHtmlHelp => 203
  | MicrosoftDigitalVideoRecording => 204
  | MicrosoftDirectdrawSurface => 205
  | MicrosoftExcelSpreadsheet => 206
  | MicrosoftPowerpointPresentation => 207
  | MicrosoftProjectPlan => 208
  | MicrosoftPublisherDocument => 209
  | MicrosoftReader => 210
  | MicrosoftSoftwareInstaller => 211
  | MicrosoftVirtualHardDisk => 212
  | MicrosoftVirtualHardDisk2 => 213
  | MicrosoftVisioDrawing => 214
  | MicrosoftVisualStudioExtension => 215
  | MicrosoftVisualStudioSolution => 216
  | MicrosoftWordDocument => 217
  | MicrosoftWorks6Spreadsheet => 218
  | MicrosoftWorksDatabase => 219
  | MicrosoftWorksSpreadsheet => 220
  | MicrosoftWorksWordProcessor => 221
  | MicrosoftWrite => 222
  | Mobipocket => 223
  | Model3dAscii => 224
  | Model3dBinary => 225
  | MonkeysAudio => 226
  | MozillaArchive => 227
  | Mp3Url => 228
  | Mpeg12AudioLayer2 => 229
  | Mpeg12AudioLayer3 => 230
  | Mpeg12Video => 231
  | Mpeg2TransportStream => 232
  | Mpeg4Part14 => 233
  | Mpeg4Part14Audio => 234
  | Mpeg4Part14Subtitles => 235
  | Mpeg4Part14Video => 236
  | MpegDashMpd => 237
  | MsDosBatch => 238
  | MsDosExecutable => 239
  | Mtv => 240
  | MultiLayerArchive => 241
  | MultipleImageNetworkGraphics => 242
  | Musepack => 243
  | MusicalInstrumentDigitalInterface => 244
  | Musicxml => 245
  | MusicxmlZip => 246
  | NeoGeoPocketColorRom => 247
  | NeoGeoPocketRom => 248
  | NewExecutable => 249
  | NikonElectronicFile => 250
  | Nintendo64Rom => 251
  | NintendoDsRom => 252
  | NintendoEntertainmentSystemRom => 253
  | NintendoSwitchExecutable => 254
  | NintendoSwitchPackage => 255
  | NintendoSwitchRom => 256
  | OfficeOpenXmlDocument => 257
  | OfficeOpenXmlDrawing => 258
  | OfficeOpenXmlPresentation => 259
  | OfficeOpenXmlSpreadsheet => 260
  | OggFlac => 261
  | OggMedia => 262
  | OggMultiplexedMedia => 263
  | OggOpus => 264
  | OggSpeex => 265
  | OggTheora => 266
  | OggVorbis => 267
  | OlympusRawFormat => 268
  | OpendocumentDatabase => 269
  | OpendocumentFormula => 270
  | OpendocumentFormulaTemplate => 271
  | OpendocumentGraphics => 272
  | OpendocumentGraphicsTemplate => 273
  | OpendocumentPresentation => 274
  | OpendocumentPresentationTemplate => 275
  | OpendocumentSpreadsheet => 276
  | OpendocumentSpreadsheetTemplate => 277
  | OpendocumentText => 278
  | OpendocumentTextMaster => 279
  | OpendocumentTextMasterTemplate => 280
  | OpendocumentTextTemplate => 281
  | Openexr => 282
  | Opennurbs => 283
  | Openraster => 284
  | Opentype => 285
  | Openxps => 286
  | OptimizedDalvikExecutable => 287
  | PanasonicRaw => 288
  | PcapDump => 289
  | PcapNextGenerationDump => 290
  | PemCertificate => 291
  | PemCertificateSigningRequest => 292
  | PemPrivateKey => 293
  | PemPublicKey => 294
  | PerlScript => 295
  | PersonalStorageTable => 296
  | PgpMessage => 297
  | PgpPrivateKeyBlock => 298
  | PgpPublicKeyBlock => 299
  | PgpSignature => 300
  | PgpSignedMessage => 301
  | PictureExchange => 302
  | PlainText => 303
  | Pmarc => 304
  | PolygonAscii => 305
  | PolygonBinary => 306
  | PortableArbitraryMap => 307
  | PortableBitmap => 308
  | PortableDocumentFormat => 309
  | PortableExecutable => 310
  | PortableFloatmap => 311
  | PortableGraymap => 312
  | PortableNetworkGraphics => 313
  | PortablePixmap => 314
  | Postscript => 315
  | PythonScript => 316
  | QemuCopyOnWrite => 317
  | QualcommPurevoice => 318
  | QuiteOkAudio => 319
  | QuiteOkImage => 320
  | RadianceHdr => 321
  | Realaudio => 322
  | ReallySimpleSyndication => 323
  | Realmedia => 324
  | Realvideo => 325
  | RedHatPackageManager => 326
  | RichTextFormat => 327
  | RoshalArchive => 328
  | RubyScript => 329
  | Rzip => 330
  | ScalableVectorGraphics => 331
  | ScreamTracker3Module => 332
  | SegaMasterSystemRom => 333
  | Seqbox => 334
  | SevenZip => 335
  | Shapefile => 336
  | ShellScript => 337
  | ShoutcastPlaylist => 338
  | SiliconGraphicsImage => 339
  | SiliconGraphicsMovie => 340
  | SimpleObjectAccessProtocol => 341
  | Sketch => 342
  | Sketch43 => 343
  | Sketchup => 344
  | SmallWebFormat => 345
  | Snappy => 346
  | SolidworksAssembly => 347
  | SolidworksDrawing => 348
  | SolidworksPart => 349
  | SonyDsdStreamFile => 350
  | SonyMovie => 351
  | Soundfont2 => 352
  | SpaceclaimDocument => 353
  | Sqlite3 => 354
  | Squashfs => 355
  | StandardForTheExchangeOfProductModelData => 356
  | Starcalc => 357
  | Starchart => 358
  | Stardraw => 359
  | Starimpress => 360
  | Starmath => 361
  | Starwriter => 362
  | StereolithographyAscii => 363
  | Stuffit => 364
  | StuffitX => 365
  | SubripText => 366
  | SunXmlCalc => 367
  | SunXmlCalcTemplate => 368
  | SunXmlDraw => 369
  | SunXmlDrawTemplate => 370
  | SunXmlImpress => 371
  | SunXmlImpressTemplate => 372
  | SunXmlMath => 373
  | SunXmlWriter => 374
  | SunXmlWriterGlobal => 375
  | SunXmlWriterTemplate => 376
  | TagImageFileFormat => 377
  | TapeArchive => 378
  | Tasty => 379
  | ThirdGenerationPartnershipProject => 380
  | ThirdGenerationPartnershipProject2 => 381
  | ThreeDimensionalManufacturingFormat => 382
  | ThreeDimensionalStudio => 383
  | ThreeDimensionalStudioMax => 384
  | TiledMapXml => 385
  | TiledTilesetXml => 386
  | TimedTextMarkupLanguage => 387
  | ToolCommandLanguageScript => 388
  | TrainingCenterXml => 389
  | Truetype => 390
  | TruetypeCollection => 391
  | UltimateSoundtrackerModule => 392
  | UniformOfficeFormatPresentation => 393
  | UniformOfficeFormatSpreadsheet => 394
  | UniformOfficeFormatText => 395
  | Universal3d => 396
  | UniversalSceneDescriptionAscii => 397
  | UniversalSceneDescriptionBinary => 398
  | UniversalSceneDescriptionZip => 399
  | UniversalSubtitleFormat => 400
  | UnixArchiver => 401
  | UnixCompress => 402
  | Vcalendar => 403
  | Vcard => 404
  | VirtualMachineDisk => 405
  | VirtualRealityModelingLanguage => 406
  | VirtualboxVirtualDiskImage => 407
  | WaveformAudio => 408
  | Wavpack => 409
  | WebApplicationArchive => 410
  | WebOpenFontFormat => 411
  | WebOpenFontFormat2 => 412
  | WebVideoTextTracks => 413
  | WebassemblyBinary => 414
  | WebassemblyText => 415
  | Webm => 416
  | Webp => 417
  | WindowsAnimatedCursor => 418
  | WindowsAppBundle => 419
  | WindowsAppPackage => 420
  | WindowsBitmap => 421
  | WindowsCursor => 422
  | WindowsIcon => 423
  | WindowsImagingFormat => 424
  | WindowsMediaAudio => 425
  | WindowsMediaPlaylist => 426
  | WindowsMediaVideo => 427
  | WindowsMetafile => 428
  | WindowsRecordedTvShow => 429
  | WindowsShortcut => 430
  | WordperfectDocument => 431
  | WordperfectGraphics => 432
  | WordperfectMacro => 433
  | WordperfectPresentations => 434
  | XPixmap => 435
  | Xap => 436
  | Xbox360Executable => 437
  | XboxExecutable => 438
  | XmlLocalizationInterchangeFileFormat => 439
  | XmlShareablePlaylistFormat => 440
  | Xpinstall => 441
  | Xz => 442
  | Zip => 443
  | Zoo => 444
  | Zpaq => 445
  | Zstandard => 446
  end%N.
Definition kind_discriminant (k : Kind) : N :=
  match k with
  | KArchive => 0
  | KAudio => 1
  | KCompressed => 2
  | KDatabase => 3
  | KDiagram => 4
  | KDisk => 5
  | KDocument => 6
  | KEbook => 7
  | KExecutable => 8
  | KFont => 9
  | KFormula => 10
  | KGeospatial => 11
  | KImage => 12
  | KMetadata => 13
  | KModel => 14
  | KOther => 15
  | KPackage => 16
  | KPlaylist => 17
  | KPresentation => 18
  | KRom => 19
  | KSpreadsheet => 20
  | KSubtitle => 21
  | KVideo => 22
  end%N.
(** Derived PartialEq: variants without fields are equal iff their discriminants are; [Eq] adds no code. *)
Definition eq_format (f g : FileFormat) : bool := N.eqb (discriminant f) (discriminant g).
Definition eq_kind (k j : Kind) : bool := N.eqb (kind_discriminant k) (kind_discriminant j).
(** Derived Clone of a Copy type: [*self]. *)
Definition clone (f : FileFormat) : FileFormat := f.
Definition clone_kind (k : Kind) : Kind := k.
