(** GENERATED by tools/gen_tables.py from /repo/src/formats.rs and /repo/src/lib.rs.  Do not edit.

    [FileFormat], [Kind] and the metadata methods produced by the macro [formats!]
    (/repo/src/macros.rs lines 13-146) from the list in /repo/src/formats.rs. *)
From Coq Require Import List String NArith.
Import ListNotations.
Local Open Scope string_scope.

(** /repo/src/lib.rs lines 332-382: enum Kind.  Constructors get the prefix [K] only to keep
    them apart from the formats. *)
Inductive Kind : Set :=
| KArchive
| KAudio
| KCompressed
| KDatabase
| KDiagram
| KDisk
| KDocument
| KEbook
| KExecutable
| KFont
| KFormula
| KGeospatial
| KImage
| KMetadata
| KModel
| KOther
| KPackage
| KPlaylist
| KPresentation
| KRom
| KSpreadsheet
| KSubtitle
| KVideo.

Definition all_kinds : list Kind := [KArchive; KAudio; KCompressed; KDatabase; KDiagram; KDisk; KDocument; KEbook; KExecutable; KFont; KFormula; KGeospatial; KImage; KMetadata; KModel; KOther; KPackage; KPlaylist; KPresentation; KRom; KSpreadsheet; KSubtitle; KVideo].

(** /repo/src/formats.rs: enum FileFormat, one constructor per [format = ...] line. *)
Inductive FileFormat : Set :=
| Abiword (* formats.rs:4 *)
| AbiwordTemplate (* formats.rs:11 *)
| Ace (* formats.rs:18 *)
| ActionsMediaVideo (* formats.rs:24 *)
| Activemime (* formats.rs:31 *)
| AdaptableScalableTextureCompression (* formats.rs:38 *)
| AdaptiveMultiRate (* formats.rs:45 *)
| AdditiveManufacturingFormat (* formats.rs:52 *)
| AdobeIllustratorArtwork (* formats.rs:59 *)
| AdobeIndesignDocument (* formats.rs:66 *)
| AdobeIntegratedRuntime (* formats.rs:73 *)
| AdobePhotoshopDocument (* formats.rs:80 *)
| AdvancedAudioCoding (* formats.rs:87 *)
| AdvancedStreamRedirector (* formats.rs:94 *)
| AdvancedSystemsFormat (* formats.rs:101 *)
| AgeEncryption (* formats.rs:108 *)
| Alz (* formats.rs:114 *)
| AmigaDiskFile (* formats.rs:120 *)
| AndroidAppBundle (* formats.rs:127 *)
| AndroidBinaryXml (* formats.rs:134 *)
| AndroidPackage (* formats.rs:141 *)
| AndroidResourceStorageContainer (* formats.rs:148 *)
| AnimatedPortableNetworkGraphics (* formats.rs:155 *)
| ApacheArrowColumnar (* formats.rs:162 *)
| ApacheAvro (* formats.rs:169 *)
| ApacheParquet (* formats.rs:176 *)
| Appimage (* formats.rs:183 *)
| AppleDiskImage (* formats.rs:189 *)
| AppleIconImage (* formats.rs:196 *)
| AppleItunesAudio (* formats.rs:203 *)
| AppleItunesAudiobook (* formats.rs:210 *)
| AppleItunesProtectedAudio (* formats.rs:217 *)
| AppleItunesVideo (* formats.rs:224 *)
| AppleQuicktime (* formats.rs:231 *)
| ArbitraryBinaryData (* formats.rs:238 *)
| ArchivedByRobertJung (* formats.rs:245 *)
| Atari7800Rom (* formats.rs:252 *)
| Atom (* formats.rs:259 *)
| Au (* formats.rs:265 *)
| AudioCodec3 (* formats.rs:271 *)
| AudioInterchangeFileFormat (* formats.rs:278 *)
| AudioVideoInterleave (* formats.rs:285 *)
| AudioVisualResearch (* formats.rs:292 *)
| AutocadDrawing (* formats.rs:299 *)
| Autodesk123d (* formats.rs:306 *)
| AutodeskAlias (* formats.rs:313 *)
| AutodeskAnimator (* formats.rs:320 *)
| AutodeskAnimatorPro (* formats.rs:327 *)
| AutodeskInventorAssembly (* formats.rs:334 *)
| AutodeskInventorDrawing (* formats.rs:341 *)
| AutodeskInventorPart (* formats.rs:348 *)
| AutodeskInventorPresentation (* formats.rs:355 *)
| Av1ImageFileFormat (* formats.rs:362 *)
| Av1ImageFileFormatSequence (* formats.rs:369 *)
| BdavMpeg2TransportStream (* formats.rs:376 *)
| BetterPortableGraphics (* formats.rs:383 *)
| Bittorrent (* formats.rs:390 *)
| Blender (* formats.rs:397 *)
| BmfontAscii (* formats.rs:404 *)
| BmfontBinary (* formats.rs:411 *)
| BroadBandEbook (* formats.rs:418 *)
| Bzip (* formats.rs:425 *)
| Bzip2 (* formats.rs:432 *)
| Bzip3 (* formats.rs:439 *)
| Cabinet (* formats.rs:446 *)
| CanonRaw (* formats.rs:453 *)
| CanonRaw2 (* formats.rs:460 *)
| CanonRaw3 (* formats.rs:467 *)
| CdAudio (* formats.rs:474 *)
| Cinema4d (* formats.rs:481 *)
| Cineon (* formats.rs:488 *)
| CircuitDiagramDocument (* formats.rs:495 *)
| ClojureScript (* formats.rs:502 *)
| CollaborativeDesignActivity (* formats.rs:508 *)
| Commodore64Cartridge (* formats.rs:515 *)
| Commodore64Program (* formats.rs:522 *)
| CommonObjectFileFormat (* formats.rs:529 *)
| CompoundFileBinary (* formats.rs:536 *)
| CorelPresentations (* formats.rs:543 *)
| CorelPresentations7 (* formats.rs:550 *)
| Cpio (* formats.rs:557 *)
| CreativeVoice (* formats.rs:563 *)
| DalvikExecutable (* formats.rs:570 *)
| DebianPackage (* formats.rs:577 *)
| DerCertificate (* formats.rs:584 *)
| DesignWebFormat (* formats.rs:591 *)
| DesignWebFormatXps (* formats.rs:598 *)
| DigitalImagingAndCommunicationsInMedicine (* formats.rs:605 *)
| DigitalPictureExchange (* formats.rs:612 *)
| Djvu (* formats.rs:619 *)
| DrawingExchangeFormatAscii (* formats.rs:625 *)
| DrawingExchangeFormatBinary (* formats.rs:632 *)
| Drawio (* formats.rs:639 *)
| DynamicLinkLibrary (* formats.rs:646 *)
| EightBitSampledVoice (* formats.rs:653 *)
| ElectronicPublication (* formats.rs:660 *)
| EmbeddedOpentype (* formats.rs:667 *)
| Empty (* formats.rs:674 *)
| EncapsulatedPostscript (* formats.rs:680 *)
| EnhancedMetafile (* formats.rs:687 *)
| EnterpriseApplicationArchive (* formats.rs:694 *)
| ExecutableAndLinkableFormat (* formats.rs:701 *)
| ExperimentalComputingFacility (* formats.rs:708 *)
| Extensible3d (* formats.rs:715 *)
| ExtensibleArchive (* formats.rs:722 *)
| ExtensibleBinaryMetaLanguage (* formats.rs:729 *)
| ExtensibleMarkupLanguage (* formats.rs:736 *)
| ExtensibleStylesheetLanguageTransformations (* formats.rs:743 *)
| Farbfeld (* formats.rs:750 *)
| Fasttracker2ExtendedModule (* formats.rs:757 *)
| Fictionbook (* formats.rs:764 *)
| FictionbookZip (* formats.rs:771 *)
| FigletFont (* formats.rs:778 *)
| FigmaDesign (* formats.rs:785 *)
| Filmbox (* formats.rs:792 *)
| FlashCs5Project (* formats.rs:799 *)
| FlashMp4Audio (* formats.rs:806 *)
| FlashMp4Audiobook (* formats.rs:813 *)
| FlashMp4ProtectedVideo (* formats.rs:820 *)
| FlashMp4Video (* formats.rs:827 *)
| FlashProject (* formats.rs:834 *)
| FlashVideo (* formats.rs:841 *)
| FlexibleAndInteroperableDataTransfer (* formats.rs:848 *)
| FlexibleImageTransportSystem (* formats.rs:855 *)
| FreeLosslessAudioCodec (* formats.rs:862 *)
| FreeLosslessImageFormat (* formats.rs:869 *)
| FujifilmRaw (* formats.rs:876 *)
| Fusion360 (* formats.rs:883 *)
| GameBoyAdvanceRom (* formats.rs:890 *)
| GameBoyColorRom (* formats.rs:897 *)
| GameBoyRom (* formats.rs:904 *)
| GameGearRom (* formats.rs:911 *)
| GeographyMarkupLanguage (* formats.rs:918 *)
| GettextMachineObject (* formats.rs:925 *)
| GlTransmissionFormatBinary (* formats.rs:932 *)
| Glyphs (* formats.rs:939 *)
| GoogleChromeExtension (* formats.rs:945 *)
| GoogleDraco (* formats.rs:952 *)
| GpsExchangeFormat (* formats.rs:959 *)
| GraphicsInterchangeFormat (* formats.rs:966 *)
| Gzip (* formats.rs:973 *)
| HighEfficiencyImageCoding (* formats.rs:980 *)
| HighEfficiencyImageCodingSequence (* formats.rs:987 *)
| HighEfficiencyImageFileFormat (* formats.rs:994 *)
| HighEfficiencyImageFileFormatSequence (* formats.rs:1001 *)
| HypertextMarkupLanguage (* formats.rs:1008 *)
| Icalendar (* formats.rs:1015 *)
| IccProfile (* formats.rs:1022 *)
| Id3v2 (* formats.rs:1029 *)
| ImpulseTrackerModule (* formats.rs:1036 *)
| IndesignMarkupLanguage (* formats.rs:1043 *)
| InitialGraphicsExchangeSpecification (* formats.rs:1050 *)
| InterQuakeExport (* formats.rs:1057 *)
| InterQuakeModel (* formats.rs:1064 *)
| IosAppStorePackage (* formats.rs:1071 *)
| Iso9660 (* formats.rs:1078 *)
| JavaArchive (* formats.rs:1085 *)
| JavaClass (* formats.rs:1092 *)
| JavaKeystore (* formats.rs:1098 *)
| JointPhotographicExpertsGroup (* formats.rs:1105 *)
| Jpeg2000Codestream (* formats.rs:1112 *)
| Jpeg2000Part1 (* formats.rs:1119 *)
| Jpeg2000Part2 (* formats.rs:1126 *)
| Jpeg2000Part3 (* formats.rs:1133 *)
| Jpeg2000Part6 (* formats.rs:1140 *)
| JpegExtendedRange (* formats.rs:1147 *)
| JpegLs (* formats.rs:1154 *)
| JpegNetworkGraphics (* formats.rs:1161 *)
| JpegXl (* formats.rs:1168 *)
| JsonFeed (* formats.rs:1175 *)
| KeyholeMarkupLanguage (* formats.rs:1181 *)
| KeyholeMarkupLanguageZip (* formats.rs:1188 *)
| KhronosTexture (* formats.rs:1195 *)
| KhronosTexture2 (* formats.rs:1202 *)
| Larc (* formats.rs:1209 *)
| Latex (* formats.rs:1216 *)
| LempelZivFiniteStateEntropy (* formats.rs:1223 *)
| LempelZivMarkovChainAlgorithm (* formats.rs:1230 *)
| Lha (* formats.rs:1237 *)
| LinearExecutable (* formats.rs:1243 *)
| LlvmBitcode (* formats.rs:1250 *)
| LongRangeZip (* formats.rs:1257 *)
| LuaBytecode (* formats.rs:1264 *)
| LuaScript (* formats.rs:1270 *)
| Lz4 (* formats.rs:1276 *)
| Lzip (* formats.rs:1282 *)
| Lzop (* formats.rs:1289 *)
| MachO (* formats.rs:1296 *)
| MacosAlias (* formats.rs:1302 *)
| Magicavoxel (* formats.rs:1308 *)
| MagickImageFileFormat (* formats.rs:1315 *)
| MaterialExchangeFormat (* formats.rs:1322 *)
| MathematicalMarkupLanguage (* formats.rs:1329 *)
| Matroska3dVideo (* formats.rs:1336 *)
| MatroskaAudio (* formats.rs:1343 *)
| MatroskaSubtitles (* formats.rs:1350 *)
| MatroskaVideo (* formats.rs:1357 *)
| MayaAscii (* formats.rs:1364 *)
| MayaBinary (* formats.rs:1371 *)
| MegaDriveRom (* formats.rs:1378 *)
| MetaInformationEncapsulation (* formats.rs:1385 *)
| MicrosoftAccess2007Database (* formats.rs:1392 *)
| MicrosoftAccessDatabase (* formats.rs:1399 *)
| MicrosoftCompiledHtmlHelp (* formats.rs:1406 *)
| MicrosoftDigitalVideoRecording (* formats.rs:1413 *)
| MicrosoftDirectdrawSurface (* formats.rs:1420 *)
| MicrosoftExcelSpreadsheet (* formats.rs:1427 *)
| MicrosoftPowerpointPresentation (* formats.rs:1434 *)
| MicrosoftProjectPlan (* formats.rs:1441 *)
| MicrosoftPublisherDocument (* formats.rs:1448 *)
| MicrosoftReader (* formats.rs:1455 *)
| MicrosoftSoftwareInstaller (* formats.rs:1462 *)
| MicrosoftVirtualHardDisk (* formats.rs:1469 *)
| MicrosoftVirtualHardDisk2 (* formats.rs:1476 *)
| MicrosoftVisioDrawing (* formats.rs:1483 *)
| MicrosoftVisualStudioExtension (* formats.rs:1490 *)
| MicrosoftVisualStudioSolution (* formats.rs:1497 *)
| MicrosoftWordDocument (* formats.rs:1504 *)
| MicrosoftWorks6Spreadsheet (* formats.rs:1511 *)
| MicrosoftWorksDatabase (* formats.rs:1518 *)
| MicrosoftWorksSpreadsheet (* formats.rs:1525 *)
| MicrosoftWorksWordProcessor (* formats.rs:1532 *)
| MicrosoftWrite (* formats.rs:1539 *)
| Mobipocket (* formats.rs:1546 *)
| Model3dAscii (* formats.rs:1553 *)
| Model3dBinary (* formats.rs:1560 *)
| MonkeysAudio (* formats.rs:1567 *)
| MozillaArchive (* formats.rs:1574 *)
| Mp3Url (* formats.rs:1581 *)
| Mpeg12AudioLayer2 (* formats.rs:1588 *)
| Mpeg12AudioLayer3 (* formats.rs:1595 *)
| Mpeg12Video (* formats.rs:1602 *)
| Mpeg2TransportStream (* formats.rs:1609 *)
| Mpeg4Part14 (* formats.rs:1616 *)
| Mpeg4Part14Audio (* formats.rs:1623 *)
| Mpeg4Part14Subtitles (* formats.rs:1630 *)
| Mpeg4Part14Video (* formats.rs:1637 *)
| MpegDashMpd (* formats.rs:1644 *)
| MsDosBatch (* formats.rs:1651 *)
| MsDosExecutable (* formats.rs:1658 *)
| Mtv (* formats.rs:1665 *)
| MultiLayerArchive (* formats.rs:1671 *)
| MultipleImageNetworkGraphics (* formats.rs:1678 *)
| Musepack (* formats.rs:1685 *)
| MusicalInstrumentDigitalInterface (* formats.rs:1692 *)
| Musicxml (* formats.rs:1699 *)
| MusicxmlZip (* formats.rs:1705 *)
| NeoGeoPocketColorRom (* formats.rs:1712 *)
| NeoGeoPocketRom (* formats.rs:1719 *)
| NewExecutable (* formats.rs:1726 *)
| NikonElectronicFile (* formats.rs:1733 *)
| Nintendo64Rom (* formats.rs:1740 *)
| NintendoDsRom (* formats.rs:1747 *)
| NintendoEntertainmentSystemRom (* formats.rs:1754 *)
| NintendoSwitchExecutable (* formats.rs:1761 *)
| NintendoSwitchPackage (* formats.rs:1768 *)
| NintendoSwitchRom (* formats.rs:1775 *)
| OfficeOpenXmlDocument (* formats.rs:1782 *)
| OfficeOpenXmlDrawing (* formats.rs:1789 *)
| OfficeOpenXmlPresentation (* formats.rs:1796 *)
| OfficeOpenXmlSpreadsheet (* formats.rs:1803 *)
| OggFlac (* formats.rs:1810 *)
| OggMedia (* formats.rs:1817 *)
| OggMultiplexedMedia (* formats.rs:1824 *)
| OggOpus (* formats.rs:1831 *)
| OggSpeex (* formats.rs:1838 *)
| OggTheora (* formats.rs:1845 *)
| OggVorbis (* formats.rs:1852 *)
| OlympusRawFormat (* formats.rs:1859 *)
| OpendocumentDatabase (* formats.rs:1866 *)
| OpendocumentFormula (* formats.rs:1873 *)
| OpendocumentFormulaTemplate (* formats.rs:1880 *)
| OpendocumentGraphics (* formats.rs:1887 *)
| OpendocumentGraphicsTemplate (* formats.rs:1894 *)
| OpendocumentPresentation (* formats.rs:1901 *)
| OpendocumentPresentationTemplate (* formats.rs:1908 *)
| OpendocumentSpreadsheet (* formats.rs:1915 *)
| OpendocumentSpreadsheetTemplate (* formats.rs:1922 *)
| OpendocumentText (* formats.rs:1929 *)
| OpendocumentTextMaster (* formats.rs:1936 *)
| OpendocumentTextMasterTemplate (* formats.rs:1943 *)
| OpendocumentTextTemplate (* formats.rs:1950 *)
| Openexr (* formats.rs:1957 *)
| Opennurbs (* formats.rs:1964 *)
| Openraster (* formats.rs:1971 *)
| Opentype (* formats.rs:1978 *)
| Openxps (* formats.rs:1985 *)
| OptimizedDalvikExecutable (* formats.rs:1992 *)
| PanasonicRaw (* formats.rs:1999 *)
| PcapDump (* formats.rs:2006 *)
| PcapNextGenerationDump (* formats.rs:2013 *)
| PemCertificate (* formats.rs:2020 *)
| PemCertificateSigningRequest (* formats.rs:2027 *)
| PemPrivateKey (* formats.rs:2034 *)
| PemPublicKey (* formats.rs:2041 *)
| PerlScript (* formats.rs:2048 *)
| PersonalStorageTable (* formats.rs:2054 *)
| PgpMessage (* formats.rs:2061 *)
| PgpPrivateKeyBlock (* formats.rs:2068 *)
| PgpPublicKeyBlock (* formats.rs:2075 *)
| PgpSignature (* formats.rs:2082 *)
| PgpSignedMessage (* formats.rs:2089 *)
| PictureExchange (* formats.rs:2096 *)
| PlainText (* formats.rs:2103 *)
| Pmarc (* formats.rs:2110 *)
| PolygonAscii (* formats.rs:2117 *)
| PolygonBinary (* formats.rs:2124 *)
| PortableArbitraryMap (* formats.rs:2131 *)
| PortableBitmap (* formats.rs:2138 *)
| PortableDocumentFormat (* formats.rs:2145 *)
| PortableExecutable (* formats.rs:2152 *)
| PortableFloatmap (* formats.rs:2159 *)
| PortableGraymap (* formats.rs:2166 *)
| PortableNetworkGraphics (* formats.rs:2173 *)
| PortablePixmap (* formats.rs:2180 *)
| Postscript (* formats.rs:2187 *)
| PythonScript (* formats.rs:2194 *)
| QemuCopyOnWrite (* formats.rs:2200 *)
| QualcommPurevoice (* formats.rs:2207 *)
| QuiteOkAudio (* formats.rs:2214 *)
| QuiteOkImage (* formats.rs:2221 *)
| RadianceHdr (* formats.rs:2228 *)
| Realaudio (* formats.rs:2235 *)
| ReallySimpleSyndication (* formats.rs:2242 *)
| Realmedia (* formats.rs:2249 *)
| Realvideo (* formats.rs:2256 *)
| RedHatPackageManager (* formats.rs:2263 *)
| RichTextFormat (* formats.rs:2270 *)
| RoshalArchive (* formats.rs:2277 *)
| RubyScript (* formats.rs:2284 *)
| Rzip (* formats.rs:2290 *)
| ScalableVectorGraphics (* formats.rs:2297 *)
| ScreamTracker3Module (* formats.rs:2304 *)
| SegaMasterSystemRom (* formats.rs:2311 *)
| Seqbox (* formats.rs:2318 *)
| SevenZip (* formats.rs:2325 *)
| Shapefile (* formats.rs:2332 *)
| ShellScript (* formats.rs:2339 *)
| ShoutcastPlaylist (* formats.rs:2345 *)
| SiliconGraphicsImage (* formats.rs:2352 *)
| SiliconGraphicsMovie (* formats.rs:2359 *)
| SimpleObjectAccessProtocol (* formats.rs:2366 *)
| Sketch (* formats.rs:2373 *)
| Sketch43 (* formats.rs:2379 *)
| Sketchup (* formats.rs:2385 *)
| SmallWebFormat (* formats.rs:2392 *)
| Snappy (* formats.rs:2399 *)
| SolidworksAssembly (* formats.rs:2405 *)
| SolidworksDrawing (* formats.rs:2412 *)
| SolidworksPart (* formats.rs:2419 *)
| SonyDsdStreamFile (* formats.rs:2426 *)
| SonyMovie (* formats.rs:2433 *)
| Soundfont2 (* formats.rs:2440 *)
| SpaceclaimDocument (* formats.rs:2447 *)
| Sqlite3 (* formats.rs:2454 *)
| Squashfs (* formats.rs:2460 *)
| StandardForTheExchangeOfProductModelData (* formats.rs:2466 *)
| Starcalc (* formats.rs:2473 *)
| Starchart (* formats.rs:2480 *)
| Stardraw (* formats.rs:2487 *)
| Starimpress (* formats.rs:2494 *)
| Starmath (* formats.rs:2501 *)
| Starwriter (* formats.rs:2508 *)
| StereolithographyAscii (* formats.rs:2515 *)
| Stuffit (* formats.rs:2522 *)
| StuffitX (* formats.rs:2529 *)
| SubripText (* formats.rs:2536 *)
| SunXmlCalc (* formats.rs:2543 *)
| SunXmlCalcTemplate (* formats.rs:2550 *)
| SunXmlDraw (* formats.rs:2557 *)
| SunXmlDrawTemplate (* formats.rs:2564 *)
| SunXmlImpress (* formats.rs:2571 *)
| SunXmlImpressTemplate (* formats.rs:2578 *)
| SunXmlMath (* formats.rs:2585 *)
| SunXmlWriter (* formats.rs:2592 *)
| SunXmlWriterGlobal (* formats.rs:2599 *)
| SunXmlWriterTemplate (* formats.rs:2606 *)
| TagImageFileFormat (* formats.rs:2613 *)
| TapeArchive (* formats.rs:2620 *)
| Tasty (* formats.rs:2627 *)
| ThirdGenerationPartnershipProject (* formats.rs:2633 *)
| ThirdGenerationPartnershipProject2 (* formats.rs:2640 *)
| ThreeDimensionalManufacturingFormat (* formats.rs:2647 *)
| ThreeDimensionalStudio (* formats.rs:2654 *)
| ThreeDimensionalStudioMax (* formats.rs:2661 *)
| TiledMapXml (* formats.rs:2668 *)
| TiledTilesetXml (* formats.rs:2675 *)
| TimedTextMarkupLanguage (* formats.rs:2682 *)
| ToolCommandLanguageScript (* formats.rs:2689 *)
| TrainingCenterXml (* formats.rs:2696 *)
| Truetype (* formats.rs:2703 *)
| TruetypeCollection (* formats.rs:2710 *)
| UltimateSoundtrackerModule (* formats.rs:2717 *)
| UniformOfficeFormatPresentation (* formats.rs:2724 *)
| UniformOfficeFormatSpreadsheet (* formats.rs:2731 *)
| UniformOfficeFormatText (* formats.rs:2738 *)
| Universal3d (* formats.rs:2745 *)
| UniversalSceneDescriptionAscii (* formats.rs:2752 *)
| UniversalSceneDescriptionBinary (* formats.rs:2759 *)
| UniversalSceneDescriptionZip (* formats.rs:2766 *)
| UniversalSubtitleFormat (* formats.rs:2773 *)
| UnixArchiver (* formats.rs:2780 *)
| UnixCompress (* formats.rs:2787 *)
| Vcalendar (* formats.rs:2794 *)
| Vcard (* formats.rs:2801 *)
| VirtualMachineDisk (* formats.rs:2808 *)
| VirtualRealityModelingLanguage (* formats.rs:2815 *)
| VirtualboxVirtualDiskImage (* formats.rs:2822 *)
| WaveformAudio (* formats.rs:2829 *)
| Wavpack (* formats.rs:2836 *)
| WebApplicationArchive (* formats.rs:2843 *)
| WebOpenFontFormat (* formats.rs:2850 *)
| WebOpenFontFormat2 (* formats.rs:2857 *)
| WebVideoTextTracks (* formats.rs:2864 *)
| WebassemblyBinary (* formats.rs:2871 *)
| WebassemblyText (* formats.rs:2878 *)
| Webm (* formats.rs:2885 *)
| Webp (* formats.rs:2891 *)
| WindowsAnimatedCursor (* formats.rs:2897 *)
| WindowsAppBundle (* formats.rs:2904 *)
| WindowsAppPackage (* formats.rs:2911 *)
| WindowsBitmap (* formats.rs:2918 *)
| WindowsCursor (* formats.rs:2925 *)
| WindowsIcon (* formats.rs:2932 *)
| WindowsImagingFormat (* formats.rs:2939 *)
| WindowsMediaAudio (* formats.rs:2946 *)
| WindowsMediaPlaylist (* formats.rs:2953 *)
| WindowsMediaVideo (* formats.rs:2960 *)
| WindowsMetafile (* formats.rs:2967 *)
| WindowsRecordedTvShow (* formats.rs:2974 *)
| WindowsShortcut (* formats.rs:2981 *)
| WordperfectDocument (* formats.rs:2988 *)
| WordperfectGraphics (* formats.rs:2995 *)
| WordperfectMacro (* formats.rs:3002 *)
| WordperfectPresentations (* formats.rs:3009 *)
| XPixmap (* formats.rs:3016 *)
| Xap (* formats.rs:3023 *)
| Xbox360Executable (* formats.rs:3029 *)
| XboxExecutable (* formats.rs:3036 *)
| XmlLocalizationInterchangeFileFormat (* formats.rs:3043 *)
| XmlShareablePlaylistFormat (* formats.rs:3050 *)
| Xpinstall (* formats.rs:3057 *)
| Xz (* formats.rs:3064 *)
| Zip (* formats.rs:3070 *)
| Zoo (* formats.rs:3076 *)
| Zpaq (* formats.rs:3082 *)
| Zstandard (* formats.rs:3088 *) .

(** The variants in declaration order. *)
Definition all_formats : list FileFormat :=
  [ Abiword;
    AbiwordTemplate;
    Ace;
    ActionsMediaVideo;
    Activemime;
    AdaptableScalableTextureCompression;
    AdaptiveMultiRate;
    AdditiveManufacturingFormat;
    AdobeIllustratorArtwork;
    AdobeIndesignDocument;
    AdobeIntegratedRuntime;
    AdobePhotoshopDocument;
    AdvancedAudioCoding;
    AdvancedStreamRedirector;
    AdvancedSystemsFormat;
    AgeEncryption;
    Alz;
    AmigaDiskFile;
    AndroidAppBundle;
    AndroidBinaryXml;
    AndroidPackage;
    AndroidResourceStorageContainer;
    AnimatedPortableNetworkGraphics;
    ApacheArrowColumnar;
    ApacheAvro;
    ApacheParquet;
    Appimage;
    AppleDiskImage;
    AppleIconImage;
    AppleItunesAudio;
    AppleItunesAudiobook;
    AppleItunesProtectedAudio;
    AppleItunesVideo;
    AppleQuicktime;
    ArbitraryBinaryData;
    ArchivedByRobertJung;
    Atari7800Rom;
    Atom;
    Au;
    AudioCodec3;
    AudioInterchangeFileFormat;
    AudioVideoInterleave;
    AudioVisualResearch;
    AutocadDrawing;
    Autodesk123d;
    AutodeskAlias;
    AutodeskAnimator;
    AutodeskAnimatorPro;
    AutodeskInventorAssembly;
    AutodeskInventorDrawing;
    AutodeskInventorPart;
    AutodeskInventorPresentation;
    Av1ImageFileFormat;
    Av1ImageFileFormatSequence;
    BdavMpeg2TransportStream;
    BetterPortableGraphics;
    Bittorrent;
    Blender;
    BmfontAscii;
    BmfontBinary;
    BroadBandEbook;
    Bzip;
    Bzip2;
    Bzip3;
    Cabinet;
    CanonRaw;
    CanonRaw2;
    CanonRaw3;
    CdAudio;
    Cinema4d;
    Cineon;
    CircuitDiagramDocument;
    ClojureScript;
    CollaborativeDesignActivity;
    Commodore64Cartridge;
    Commodore64Program;
    CommonObjectFileFormat;
    CompoundFileBinary;
    CorelPresentations;
    CorelPresentations7;
    Cpio;
    CreativeVoice;
    DalvikExecutable;
    DebianPackage;
    DerCertificate;
    DesignWebFormat;
    DesignWebFormatXps;
    DigitalImagingAndCommunicationsInMedicine;
    DigitalPictureExchange;
    Djvu;
    DrawingExchangeFormatAscii;
    DrawingExchangeFormatBinary;
    Drawio;
    DynamicLinkLibrary;
    EightBitSampledVoice;
    ElectronicPublication;
    EmbeddedOpentype;
    Empty;
    EncapsulatedPostscript;
    EnhancedMetafile;
    EnterpriseApplicationArchive;
    ExecutableAndLinkableFormat;
    ExperimentalComputingFacility;
    Extensible3d;
    ExtensibleArchive;
    ExtensibleBinaryMetaLanguage;
    ExtensibleMarkupLanguage;
    ExtensibleStylesheetLanguageTransformations;
    Farbfeld;
    Fasttracker2ExtendedModule;
    Fictionbook;
    FictionbookZip;
    FigletFont;
    FigmaDesign;
    Filmbox;
    FlashCs5Project;
    FlashMp4Audio;
    FlashMp4Audiobook;
    FlashMp4ProtectedVideo;
    FlashMp4Video;
    FlashProject;
    FlashVideo;
    FlexibleAndInteroperableDataTransfer;
    FlexibleImageTransportSystem;
    FreeLosslessAudioCodec;
    FreeLosslessImageFormat;
    FujifilmRaw;
    Fusion360;
    GameBoyAdvanceRom;
    GameBoyColorRom;
    GameBoyRom;
    GameGearRom;
    GeographyMarkupLanguage;
    GettextMachineObject;
    GlTransmissionFormatBinary;
    Glyphs;
    GoogleChromeExtension;
    GoogleDraco;
    GpsExchangeFormat;
    GraphicsInterchangeFormat;
    Gzip;
    HighEfficiencyImageCoding;
    HighEfficiencyImageCodingSequence;
    HighEfficiencyImageFileFormat;
    HighEfficiencyImageFileFormatSequence;
    HypertextMarkupLanguage;
    Icalendar;
    IccProfile;
    Id3v2;
    ImpulseTrackerModule;
    IndesignMarkupLanguage;
    InitialGraphicsExchangeSpecification;
    InterQuakeExport;
    InterQuakeModel;
    IosAppStorePackage;
    Iso9660;
    JavaArchive;
    JavaClass;
    JavaKeystore;
    JointPhotographicExpertsGroup;
    Jpeg2000Codestream;
    Jpeg2000Part1;
    Jpeg2000Part2;
    Jpeg2000Part3;
    Jpeg2000Part6;
    JpegExtendedRange;
    JpegLs;
    JpegNetworkGraphics;
    JpegXl;
    JsonFeed;
    KeyholeMarkupLanguage;
    KeyholeMarkupLanguageZip;
    KhronosTexture;
    KhronosTexture2;
    Larc;
    Latex;
    LempelZivFiniteStateEntropy;
    LempelZivMarkovChainAlgorithm;
    Lha;
    LinearExecutable;
    LlvmBitcode;
    LongRangeZip;
    LuaBytecode;
    LuaScript;
    Lz4;
    Lzip;
    Lzop;
    MachO;
    MacosAlias;
    Magicavoxel;
    MagickImageFileFormat;
    MaterialExchangeFormat;
    MathematicalMarkupLanguage;
    Matroska3dVideo;
    MatroskaAudio;
    MatroskaSubtitles;
    MatroskaVideo;
    MayaAscii;
    MayaBinary;
    MegaDriveRom;
    MetaInformationEncapsulation;
    MicrosoftAccess2007Database;
    MicrosoftAccessDatabase;
    MicrosoftCompiledHtmlHelp;
    MicrosoftDigitalVideoRecording;
    MicrosoftDirectdrawSurface;
    MicrosoftExcelSpreadsheet;
    MicrosoftPowerpointPresentation;
    MicrosoftProjectPlan;
    MicrosoftPublisherDocument;
    MicrosoftReader;
    MicrosoftSoftwareInstaller;
    MicrosoftVirtualHardDisk;
    MicrosoftVirtualHardDisk2;
    MicrosoftVisioDrawing;
    MicrosoftVisualStudioExtension;
    MicrosoftVisualStudioSolution;
    MicrosoftWordDocument;
    MicrosoftWorks6Spreadsheet;
    MicrosoftWorksDatabase;
    MicrosoftWorksSpreadsheet;
    MicrosoftWorksWordProcessor;
    MicrosoftWrite;
    Mobipocket;
    Model3dAscii;
    Model3dBinary;
    MonkeysAudio;
    MozillaArchive;
    Mp3Url;
    Mpeg12AudioLayer2;
    Mpeg12AudioLayer3;
    Mpeg12Video;
    Mpeg2TransportStream;
    Mpeg4Part14;
    Mpeg4Part14Audio;
    Mpeg4Part14Subtitles;
    Mpeg4Part14Video;
    MpegDashMpd;
    MsDosBatch;
    MsDosExecutable;
    Mtv;
    MultiLayerArchive;
    MultipleImageNetworkGraphics;
    Musepack;
    MusicalInstrumentDigitalInterface;
    Musicxml;
    MusicxmlZip;
    NeoGeoPocketColorRom;
    NeoGeoPocketRom;
    NewExecutable;
    NikonElectronicFile;
    Nintendo64Rom;
    NintendoDsRom;
    NintendoEntertainmentSystemRom;
    NintendoSwitchExecutable;
    NintendoSwitchPackage;
    NintendoSwitchRom;
    OfficeOpenXmlDocument;
    OfficeOpenXmlDrawing;
    OfficeOpenXmlPresentation;
    OfficeOpenXmlSpreadsheet;
    OggFlac;
    OggMedia;
    OggMultiplexedMedia;
    OggOpus;
    OggSpeex;
    OggTheora;
    OggVorbis;
    OlympusRawFormat;
    OpendocumentDatabase;
    OpendocumentFormula;
    OpendocumentFormulaTemplate;
    OpendocumentGraphics;
    OpendocumentGraphicsTemplate;
    OpendocumentPresentation;
    OpendocumentPresentationTemplate;
    OpendocumentSpreadsheet;
    OpendocumentSpreadsheetTemplate;
    OpendocumentText;
    OpendocumentTextMaster;
    OpendocumentTextMasterTemplate;
    OpendocumentTextTemplate;
    Openexr;
    Opennurbs;
    Openraster;
    Opentype;
    Openxps;
    OptimizedDalvikExecutable;
    PanasonicRaw;
    PcapDump;
    PcapNextGenerationDump;
    PemCertificate;
    PemCertificateSigningRequest;
    PemPrivateKey;
    PemPublicKey;
    PerlScript;
    PersonalStorageTable;
    PgpMessage;
    PgpPrivateKeyBlock;
    PgpPublicKeyBlock;
    PgpSignature;
    PgpSignedMessage;
    PictureExchange;
    PlainText;
    Pmarc;
    PolygonAscii;
    PolygonBinary;
    PortableArbitraryMap;
    PortableBitmap;
    PortableDocumentFormat;
    PortableExecutable;
    PortableFloatmap;
    PortableGraymap;
    PortableNetworkGraphics;
    PortablePixmap;
    Postscript;
    PythonScript;
    QemuCopyOnWrite;
    QualcommPurevoice;
    QuiteOkAudio;
    QuiteOkImage;
    RadianceHdr;
    Realaudio;
    ReallySimpleSyndication;
    Realmedia;
    Realvideo;
    RedHatPackageManager;
    RichTextFormat;
    RoshalArchive;
    RubyScript;
    Rzip;
    ScalableVectorGraphics;
    ScreamTracker3Module;
    SegaMasterSystemRom;
    Seqbox;
    SevenZip;
    Shapefile;
    ShellScript;
    ShoutcastPlaylist;
    SiliconGraphicsImage;
    SiliconGraphicsMovie;
    SimpleObjectAccessProtocol;
    Sketch;
    Sketch43;
    Sketchup;
    SmallWebFormat;
    Snappy;
    SolidworksAssembly;
    SolidworksDrawing;
    SolidworksPart;
    SonyDsdStreamFile;
    SonyMovie;
    Soundfont2;
    SpaceclaimDocument;
    Sqlite3;
    Squashfs;
    StandardForTheExchangeOfProductModelData;
    Starcalc;
    Starchart;
    Stardraw;
    Starimpress;
    Starmath;
    Starwriter;
    StereolithographyAscii;
    Stuffit;
    StuffitX;
    SubripText;
    SunXmlCalc;
    SunXmlCalcTemplate;
    SunXmlDraw;
    SunXmlDrawTemplate;
    SunXmlImpress;
    SunXmlImpressTemplate;
    SunXmlMath;
    SunXmlWriter;
    SunXmlWriterGlobal;
    SunXmlWriterTemplate;
    TagImageFileFormat;
    TapeArchive;
    Tasty;
    ThirdGenerationPartnershipProject;
    ThirdGenerationPartnershipProject2;
    ThreeDimensionalManufacturingFormat;
    ThreeDimensionalStudio;
    ThreeDimensionalStudioMax;
    TiledMapXml;
    TiledTilesetXml;
    TimedTextMarkupLanguage;
    ToolCommandLanguageScript;
    TrainingCenterXml;
    Truetype;
    TruetypeCollection;
    UltimateSoundtrackerModule;
    UniformOfficeFormatPresentation;
    UniformOfficeFormatSpreadsheet;
    UniformOfficeFormatText;
    Universal3d;
    UniversalSceneDescriptionAscii;
    UniversalSceneDescriptionBinary;
    UniversalSceneDescriptionZip;
    UniversalSubtitleFormat;
    UnixArchiver;
    UnixCompress;
    Vcalendar;
    Vcard;
    VirtualMachineDisk;
    VirtualRealityModelingLanguage;
    VirtualboxVirtualDiskImage;
    WaveformAudio;
    Wavpack;
    WebApplicationArchive;
    WebOpenFontFormat;
    WebOpenFontFormat2;
    WebVideoTextTracks;
    WebassemblyBinary;
    WebassemblyText;
    Webm;
    Webp;
    WindowsAnimatedCursor;
    WindowsAppBundle;
    WindowsAppPackage;
    WindowsBitmap;
    WindowsCursor;
    WindowsIcon;
    WindowsImagingFormat;
    WindowsMediaAudio;
    WindowsMediaPlaylist;
    WindowsMediaVideo;
    WindowsMetafile;
    WindowsRecordedTvShow;
    WindowsShortcut;
    WordperfectDocument;
    WordperfectGraphics;
    WordperfectMacro;
    WordperfectPresentations;
    XPixmap;
    Xap;
    Xbox360Executable;
    XboxExecutable;
    XmlLocalizationInterchangeFileFormat;
    XmlShareablePlaylistFormat;
    Xpinstall;
    Xz;
    Zip;
    Zoo;
    Zpaq;
    Zstandard ].

(** Position of a variant in the enumeration (Rust's derived discriminant; used for the
    derived PartialEq, macros.rs line 26). *)
Definition fmt_index (f : FileFormat) : N :=
  match f with
  | Abiword => 0
  | AbiwordTemplate => 1
  | Ace => 2
  | ActionsMediaVideo => 3
  | Activemime => 4
  | AdaptableScalableTextureCompression => 5
  | AdaptiveMultiRate => 6
  | AdditiveManufacturingFormat => 7
  | AdobeIllustratorArtwork => 8
  | AdobeIndesignDocument => 9
  | AdobeIntegratedRuntime => 10
  | AdobePhotoshopDocument => 11
  | AdvancedAudioCoding => 12
  | AdvancedStreamRedirector => 13
  | AdvancedSystemsFormat => 14
  | AgeEncryption => 15
  | Alz => 16
  | AmigaDiskFile => 17
  | AndroidAppBundle => 18
  | AndroidBinaryXml => 19
  | AndroidPackage => 20
  | AndroidResourceStorageContainer => 21
  | AnimatedPortableNetworkGraphics => 22
  | ApacheArrowColumnar => 23
  | ApacheAvro => 24
  | ApacheParquet => 25
  | Appimage => 26
  | AppleDiskImage => 27
  | AppleIconImage => 28
  | AppleItunesAudio => 29
  | AppleItunesAudiobook => 30
  | AppleItunesProtectedAudio => 31
  | AppleItunesVideo => 32
  | AppleQuicktime => 33
  | ArbitraryBinaryData => 34
  | ArchivedByRobertJung => 35
  | Atari7800Rom => 36
  | Atom => 37
  | Au => 38
  | AudioCodec3 => 39
  | AudioInterchangeFileFormat => 40
  | AudioVideoInterleave => 41
  | AudioVisualResearch => 42
  | AutocadDrawing => 43
  | Autodesk123d => 44
  | AutodeskAlias => 45
  | AutodeskAnimator => 46
  | AutodeskAnimatorPro => 47
  | AutodeskInventorAssembly => 48
  | AutodeskInventorDrawing => 49
  | AutodeskInventorPart => 50
  | AutodeskInventorPresentation => 51
  | Av1ImageFileFormat => 52
  | Av1ImageFileFormatSequence => 53
  | BdavMpeg2TransportStream => 54
  | BetterPortableGraphics => 55
  | Bittorrent => 56
  | Blender => 57
  | BmfontAscii => 58
  | BmfontBinary => 59
  | BroadBandEbook => 60
  | Bzip => 61
  | Bzip2 => 62
  | Bzip3 => 63
  | Cabinet => 64
  | CanonRaw => 65
  | CanonRaw2 => 66
  | CanonRaw3 => 67
  | CdAudio => 68
  | Cinema4d => 69
  | Cineon => 70
  | CircuitDiagramDocument => 71
  | ClojureScript => 72
  | CollaborativeDesignActivity => 73
  | Commodore64Cartridge => 74
  | Commodore64Program => 75
  | CommonObjectFileFormat => 76
  | CompoundFileBinary => 77
  | CorelPresentations => 78
  | CorelPresentations7 => 79
  | Cpio => 80
  | CreativeVoice => 81
  | DalvikExecutable => 82
  | DebianPackage => 83
  | DerCertificate => 84
  | DesignWebFormat => 85
  | DesignWebFormatXps => 86
  | DigitalImagingAndCommunicationsInMedicine => 87
  | DigitalPictureExchange => 88
  | Djvu => 89
  | DrawingExchangeFormatAscii => 90
  | DrawingExchangeFormatBinary => 91
  | Drawio => 92
  | DynamicLinkLibrary => 93
  | EightBitSampledVoice => 94
  | ElectronicPublication => 95
  | EmbeddedOpentype => 96
  | Empty => 97
  | EncapsulatedPostscript => 98
  | EnhancedMetafile => 99
  | EnterpriseApplicationArchive => 100
  | ExecutableAndLinkableFormat => 101
  | ExperimentalComputingFacility => 102
  | Extensible3d => 103
  | ExtensibleArchive => 104
  | ExtensibleBinaryMetaLanguage => 105
  | ExtensibleMarkupLanguage => 106
  | ExtensibleStylesheetLanguageTransformations => 107
  | Farbfeld => 108
  | Fasttracker2ExtendedModule => 109
  | Fictionbook => 110
  | FictionbookZip => 111
  | FigletFont => 112
  | FigmaDesign => 113
  | Filmbox => 114
  | FlashCs5Project => 115
  | FlashMp4Audio => 116
  | FlashMp4Audiobook => 117
  | FlashMp4ProtectedVideo => 118
  | FlashMp4Video => 119
  | FlashProject => 120
  | FlashVideo => 121
  | FlexibleAndInteroperableDataTransfer => 122
  | FlexibleImageTransportSystem => 123
  | FreeLosslessAudioCodec => 124
  | FreeLosslessImageFormat => 125
  | FujifilmRaw => 126
  | Fusion360 => 127
  | GameBoyAdvanceRom => 128
  | GameBoyColorRom => 129
  | GameBoyRom => 130
  | GameGearRom => 131
  | GeographyMarkupLanguage => 132
  | GettextMachineObject => 133
  | GlTransmissionFormatBinary => 134
  | Glyphs => 135
  | GoogleChromeExtension => 136
  | GoogleDraco => 137
  | GpsExchangeFormat => 138
  | GraphicsInterchangeFormat => 139
  | Gzip => 140
  | HighEfficiencyImageCoding => 141
  | HighEfficiencyImageCodingSequence => 142
  | HighEfficiencyImageFileFormat => 143
  | HighEfficiencyImageFileFormatSequence => 144
  | HypertextMarkupLanguage => 145
  | Icalendar => 146
  | IccProfile => 147
  | Id3v2 => 148
  | ImpulseTrackerModule => 149
  | IndesignMarkupLanguage => 150
  | InitialGraphicsExchangeSpecification => 151
  | InterQuakeExport => 152
  | InterQuakeModel => 153
  | IosAppStorePackage => 154
  | Iso9660 => 155
  | JavaArchive => 156
  | JavaClass => 157
  | JavaKeystore => 158
  | JointPhotographicExpertsGroup => 159
  | Jpeg2000Codestream => 160
  | Jpeg2000Part1 => 161
  | Jpeg2000Part2 => 162
  | Jpeg2000Part3 => 163
  | Jpeg2000Part6 => 164
  | JpegExtendedRange => 165
  | JpegLs => 166
  | JpegNetworkGraphics => 167
  | JpegXl => 168
  | JsonFeed => 169
  | KeyholeMarkupLanguage => 170
  | KeyholeMarkupLanguageZip => 171
  | KhronosTexture => 172
  | KhronosTexture2 => 173
  | Larc => 174
  | Latex => 175
  | LempelZivFiniteStateEntropy => 176
  | LempelZivMarkovChainAlgorithm => 177
  | Lha => 178
  | LinearExecutable => 179
  | LlvmBitcode => 180
  | LongRangeZip => 181
  | LuaBytecode => 182
  | LuaScript => 183
  | Lz4 => 184
  | Lzip => 185
  | Lzop => 186
  | MachO => 187
  | MacosAlias => 188
  | Magicavoxel => 189
  | MagickImageFileFormat => 190
  | MaterialExchangeFormat => 191
  | MathematicalMarkupLanguage => 192
  | Matroska3dVideo => 193
  | MatroskaAudio => 194
  | MatroskaSubtitles => 195
  | MatroskaVideo => 196
  | MayaAscii => 197
  | MayaBinary => 198
  | MegaDriveRom => 199
  | MetaInformationEncapsulation => 200
  | MicrosoftAccess2007Database => 201
  | MicrosoftAccessDatabase => 202
  | MicrosoftCompiledHtmlHelp => 203
  | MicrosoftDigitalVideoRecording => 204
  | MicrosoftDirectdrawSurface => 205
  | MicrosoftExcelSpreadsheet => 206
  | MicrosoftPowerpointPresentation => 207
  | MicrosoftProjectPlan => 208
  | MicrosoftPublisherDocument => 209
  | MicrosoftReader => 210
  | MicrosoftSoftwareInstaller => 211
  | MicrosoftVirtualHardDisk => 212
  | MicrosoftVirtualHardDisk2 => 213
  | MicrosoftVisioDrawing => 214
  | MicrosoftVisualStudioExtension => 215
  | MicrosoftVisualStudioSolution => 216
  | MicrosoftWordDocument => 217
  | MicrosoftWorks6Spreadsheet => 218
  | MicrosoftWorksDatabase => 219
  | MicrosoftWorksSpreadsheet => 220
  | MicrosoftWorksWordProcessor => 221
  | MicrosoftWrite => 222
  | Mobipocket => 223
  | Model3dAscii => 224
  | Model3dBinary => 225
  | MonkeysAudio => 226
  | MozillaArchive => 227
  | Mp3Url => 228
  | Mpeg12AudioLayer2 => 229
  | Mpeg12AudioLayer3 => 230
  | Mpeg12Video => 231
  | Mpeg2TransportStream => 232
  | Mpeg4Part14 => 233
  | Mpeg4Part14Audio => 234
  | Mpeg4Part14Subtitles => 235
  | Mpeg4Part14Video => 236
  | MpegDashMpd => 237
  | MsDosBatch => 238
  | MsDosExecutable => 239
  | Mtv => 240
  | MultiLayerArchive => 241
  | MultipleImageNetworkGraphics => 242
  | Musepack => 243
  | MusicalInstrumentDigitalInterface => 244
  | Musicxml => 245
  | MusicxmlZip => 246
  | NeoGeoPocketColorRom => 247
  | NeoGeoPocketRom => 248
  | NewExecutable => 249
  | NikonElectronicFile => 250
  | Nintendo64Rom => 251
  | NintendoDsRom => 252
  | NintendoEntertainmentSystemRom => 253
  | NintendoSwitchExecutable => 254
  | NintendoSwitchPackage => 255
  | NintendoSwitchRom => 256
  | OfficeOpenXmlDocument => 257
  | OfficeOpenXmlDrawing => 258
  | OfficeOpenXmlPresentation => 259
  | OfficeOpenXmlSpreadsheet => 260
  | OggFlac => 261
  | OggMedia => 262
  | OggMultiplexedMedia => 263
  | OggOpus => 264
  | OggSpeex => 265
  | OggTheora => 266
  | OggVorbis => 267
  | OlympusRawFormat => 268
  | OpendocumentDatabase => 269
  | OpendocumentFormula => 270
  | OpendocumentFormulaTemplate => 271
  | OpendocumentGraphics => 272
  | OpendocumentGraphicsTemplate => 273
  | OpendocumentPresentation => 274
  | OpendocumentPresentationTemplate => 275
  | OpendocumentSpreadsheet => 276
  | OpendocumentSpreadsheetTemplate => 277
  | OpendocumentText => 278
  | OpendocumentTextMaster => 279
  | OpendocumentTextMasterTemplate => 280
  | OpendocumentTextTemplate => 281
  | Openexr => 282
  | Opennurbs => 283
  | Openraster => 284
  | Opentype => 285
  | Openxps => 286
  | OptimizedDalvikExecutable => 287
  | PanasonicRaw => 288
  | PcapDump => 289
  | PcapNextGenerationDump => 290
  | PemCertificate => 291
  | PemCertificateSigningRequest => 292
  | PemPrivateKey => 293
  | PemPublicKey => 294
  | PerlScript => 295
  | PersonalStorageTable => 296
  | PgpMessage => 297
  | PgpPrivateKeyBlock => 298
  | PgpPublicKeyBlock => 299
  | PgpSignature => 300
  | PgpSignedMessage => 301
  | PictureExchange => 302
  | PlainText => 303
  | Pmarc => 304
  | PolygonAscii => 305
  | PolygonBinary => 306
  | PortableArbitraryMap => 307
  | PortableBitmap => 308
  | PortableDocumentFormat => 309
  | PortableExecutable => 310
  | PortableFloatmap => 311
  | PortableGraymap => 312
  | PortableNetworkGraphics => 313
  | PortablePixmap => 314
  | Postscript => 315
  | PythonScript => 316
  | QemuCopyOnWrite => 317
  | QualcommPurevoice => 318
  | QuiteOkAudio => 319
  | QuiteOkImage => 320
  | RadianceHdr => 321
  | Realaudio => 322
  | ReallySimpleSyndication => 323
  | Realmedia => 324
  | Realvideo => 325
  | RedHatPackageManager => 326
  | RichTextFormat => 327
  | RoshalArchive => 328
  | RubyScript => 329
  | Rzip => 330
  | ScalableVectorGraphics => 331
  | ScreamTracker3Module => 332
  | SegaMasterSystemRom => 333
  | Seqbox => 334
  | SevenZip => 335
  | Shapefile => 336
  | ShellScript => 337
  | ShoutcastPlaylist => 338
  | SiliconGraphicsImage => 339
  | SiliconGraphicsMovie => 340
  | SimpleObjectAccessProtocol => 341
  | Sketch => 342
  | Sketch43 => 343
  | Sketchup => 344
  | SmallWebFormat => 345
  | Snappy => 346
  | SolidworksAssembly => 347
  | SolidworksDrawing => 348
  | SolidworksPart => 349
  | SonyDsdStreamFile => 350
  | SonyMovie => 351
  | Soundfont2 => 352
  | SpaceclaimDocument => 353
  | Sqlite3 => 354
  | Squashfs => 355
  | StandardForTheExchangeOfProductModelData => 356
  | Starcalc => 357
  | Starchart => 358
  | Stardraw => 359
  | Starimpress => 360
  | Starmath => 361
  | Starwriter => 362
  | StereolithographyAscii => 363
  | Stuffit => 364
  | StuffitX => 365
  | SubripText => 366
  | SunXmlCalc => 367
  | SunXmlCalcTemplate => 368
  | SunXmlDraw => 369
  | SunXmlDrawTemplate => 370
  | SunXmlImpress => 371
  | SunXmlImpressTemplate => 372
  | SunXmlMath => 373
  | SunXmlWriter => 374
  | SunXmlWriterGlobal => 375
  | SunXmlWriterTemplate => 376
  | TagImageFileFormat => 377
  | TapeArchive => 378
  | Tasty => 379
  | ThirdGenerationPartnershipProject => 380
  | ThirdGenerationPartnershipProject2 => 381
  | ThreeDimensionalManufacturingFormat => 382
  | ThreeDimensionalStudio => 383
  | ThreeDimensionalStudioMax => 384
  | TiledMapXml => 385
  | TiledTilesetXml => 386
  | TimedTextMarkupLanguage => 387
  | ToolCommandLanguageScript => 388
  | TrainingCenterXml => 389
  | Truetype => 390
  | TruetypeCollection => 391
  | UltimateSoundtrackerModule => 392
  | UniformOfficeFormatPresentation => 393
  | UniformOfficeFormatSpreadsheet => 394
  | UniformOfficeFormatText => 395
  | Universal3d => 396
  | UniversalSceneDescriptionAscii => 397
  | UniversalSceneDescriptionBinary => 398
  | UniversalSceneDescriptionZip => 399
  | UniversalSubtitleFormat => 400
  | UnixArchiver => 401
  | UnixCompress => 402
  | Vcalendar => 403
  | Vcard => 404
  | VirtualMachineDisk => 405
  | VirtualRealityModelingLanguage => 406
  | VirtualboxVirtualDiskImage => 407
  | WaveformAudio => 408
  | Wavpack => 409
  | WebApplicationArchive => 410
  | WebOpenFontFormat => 411
  | WebOpenFontFormat2 => 412
  | WebVideoTextTracks => 413
  | WebassemblyBinary => 414
  | WebassemblyText => 415
  | Webm => 416
  | Webp => 417
  | WindowsAnimatedCursor => 418
  | WindowsAppBundle => 419
  | WindowsAppPackage => 420
  | WindowsBitmap => 421
  | WindowsCursor => 422
  | WindowsIcon => 423
  | WindowsImagingFormat => 424
  | WindowsMediaAudio => 425
  | WindowsMediaPlaylist => 426
  | WindowsMediaVideo => 427
  | WindowsMetafile => 428
  | WindowsRecordedTvShow => 429
  | WindowsShortcut => 430
  | WordperfectDocument => 431
  | WordperfectGraphics => 432
  | WordperfectMacro => 433
  | WordperfectPresentations => 434
  | XPixmap => 435
  | Xap => 436
  | Xbox360Executable => 437
  | XboxExecutable => 438
  | XmlLocalizationInterchangeFileFormat => 439
  | XmlShareablePlaylistFormat => 440
  | Xpinstall => 441
  | Xz => 442
  | Zip => 443
  | Zoo => 444
  | Zpaq => 445
  | Zstandard => 446
  end%N.

(** macros.rs lines 50-56: FileFormat::name *)
Definition name (f : FileFormat) : string :=
  match f with
  | Abiword => "AbiWord"
  | AbiwordTemplate => "AbiWord Template"
  | Ace => "ACE"
  | ActionsMediaVideo => "Actions Media Video"
  | Activemime => "ActiveMime"
  | AdaptableScalableTextureCompression => "Adaptable Scalable Texture Compression"
  | AdaptiveMultiRate => "Adaptive Multi-Rate"
  | AdditiveManufacturingFormat => "Additive Manufacturing Format"
  | AdobeIllustratorArtwork => "Adobe Illustrator Artwork"
  | AdobeIndesignDocument => "Adobe InDesign Document"
  | AdobeIntegratedRuntime => "Adobe Integrated Runtime"
  | AdobePhotoshopDocument => "Adobe Photoshop Document"
  | AdvancedAudioCoding => "Advanced Audio Coding"
  | AdvancedStreamRedirector => "Advanced Stream Redirector"
  | AdvancedSystemsFormat => "Advanced Systems Format"
  | AgeEncryption => "age encryption"
  | Alz => "ALZ"
  | AmigaDiskFile => "Amiga Disk File"
  | AndroidAppBundle => "Android App Bundle"
  | AndroidBinaryXml => "Android Binary XML"
  | AndroidPackage => "Android Package"
  | AndroidResourceStorageContainer => "Android Resource Storage Container"
  | AnimatedPortableNetworkGraphics => "Animated Portable Network Graphics"
  | ApacheArrowColumnar => "Apache Arrow Columnar"
  | ApacheAvro => "Apache Avro"
  | ApacheParquet => "Apache Parquet"
  | Appimage => "AppImage"
  | AppleDiskImage => "Apple Disk Image"
  | AppleIconImage => "Apple Icon Image"
  | AppleItunesAudio => "Apple iTunes Audio"
  | AppleItunesAudiobook => "Apple iTunes Audiobook"
  | AppleItunesProtectedAudio => "Apple iTunes Protected Audio"
  | AppleItunesVideo => "Apple iTunes Video"
  | AppleQuicktime => "Apple QuickTime"
  | ArbitraryBinaryData => "Arbitrary Binary Data"
  | ArchivedByRobertJung => "Archived by Robert Jung"
  | Atari7800Rom => "Atari 7800 ROM"
  | Atom => "Atom"
  | Au => "Au"
  | AudioCodec3 => "Audio Codec 3"
  | AudioInterchangeFileFormat => "Audio Interchange File Format"
  | AudioVideoInterleave => "Audio Video Interleave"
  | AudioVisualResearch => "Audio Visual Research"
  | AutocadDrawing => "AutoCAD Drawing"
  | Autodesk123d => "Autodesk 123D"
  | AutodeskAlias => "Autodesk Alias"
  | AutodeskAnimator => "Autodesk Animator"
  | AutodeskAnimatorPro => "Autodesk Animator Pro"
  | AutodeskInventorAssembly => "Autodesk Inventor Assembly"
  | AutodeskInventorDrawing => "Autodesk Inventor Drawing"
  | AutodeskInventorPart => "Autodesk Inventor Part"
  | AutodeskInventorPresentation => "Autodesk Inventor Presentation"
  | Av1ImageFileFormat => "AV1 Image File Format"
  | Av1ImageFileFormatSequence => "AV1 Image File Format Sequence"
  | BdavMpeg2TransportStream => "BDAV MPEG-2 Transport Stream"
  | BetterPortableGraphics => "Better Portable Graphics"
  | Bittorrent => "BitTorrent"
  | Blender => "Blender"
  | BmfontAscii => "BMFont ASCII"
  | BmfontBinary => "BMFont Binary"
  | BroadBandEbook => "Broad Band eBook"
  | Bzip => "bzip"
  | Bzip2 => "bzip2"
  | Bzip3 => "BZip3"
  | Cabinet => "Cabinet"
  | CanonRaw => "Canon Raw"
  | CanonRaw2 => "Canon Raw 2"
  | CanonRaw3 => "Canon Raw 3"
  | CdAudio => "CD Audio"
  | Cinema4d => "Cinema 4D"
  | Cineon => "Cineon"
  | CircuitDiagramDocument => "Circuit Diagram Document"
  | ClojureScript => "Clojure Script"
  | CollaborativeDesignActivity => "Collaborative Design Activity"
  | Commodore64Cartridge => "Commodore 64 Cartridge"
  | Commodore64Program => "Commodore 64 Program"
  | CommonObjectFileFormat => "Common Object File Format"
  | CompoundFileBinary => "Compound File Binary"
  | CorelPresentations => "Corel Presentations"
  | CorelPresentations7 => "Corel Presentations 7"
  | Cpio => "cpio"
  | CreativeVoice => "Creative Voice"
  | DalvikExecutable => "Dalvik Executable"
  | DebianPackage => "Debian Package"
  | DerCertificate => "DER Certificate"
  | DesignWebFormat => "Design Web Format"
  | DesignWebFormatXps => "Design Web Format XPS"
  | DigitalImagingAndCommunicationsInMedicine => "Digital Imaging and Communications in Medicine"
  | DigitalPictureExchange => "Digital Picture Exchange"
  | Djvu => "DjVu"
  | DrawingExchangeFormatAscii => "Drawing Exchange Format ASCII"
  | DrawingExchangeFormatBinary => "Drawing Exchange Format Binary"
  | Drawio => "draw.io"
  | DynamicLinkLibrary => "Dynamic Link Library"
  | EightBitSampledVoice => "8-Bit Sampled Voice"
  | ElectronicPublication => "Electronic Publication"
  | EmbeddedOpentype => "Embedded OpenType"
  | Empty => "Empty"
  | EncapsulatedPostscript => "Encapsulated PostScript"
  | EnhancedMetafile => "Enhanced Metafile"
  | EnterpriseApplicationArchive => "Enterprise Application Archive"
  | ExecutableAndLinkableFormat => "Executable and Linkable Format"
  | ExperimentalComputingFacility => "Experimental Computing Facility"
  | Extensible3d => "Extensible 3D"
  | ExtensibleArchive => "Extensible Archive"
  | ExtensibleBinaryMetaLanguage => "Extensible Binary Meta Language"
  | ExtensibleMarkupLanguage => "Extensible Markup Language"
  | ExtensibleStylesheetLanguageTransformations => "Extensible Stylesheet Language Transformations"
  | Farbfeld => "farbfeld"
  | Fasttracker2ExtendedModule => "FastTracker 2 Extended Module"
  | Fictionbook => "FictionBook"
  | FictionbookZip => "FictionBook ZIP"
  | FigletFont => "FIGlet Font"
  | FigmaDesign => "Figma Design"
  | Filmbox => "Filmbox"
  | FlashCs5Project => "Flash CS5 Project"
  | FlashMp4Audio => "Flash MP4 Audio"
  | FlashMp4Audiobook => "Flash MP4 Audiobook"
  | FlashMp4ProtectedVideo => "Flash MP4 Protected Video"
  | FlashMp4Video => "Flash MP4 Video"
  | FlashProject => "Flash Project"
  | FlashVideo => "Flash Video"
  | FlexibleAndInteroperableDataTransfer => "Flexible and Interoperable Data Transfer"
  | FlexibleImageTransportSystem => "Flexible Image Transport System"
  | FreeLosslessAudioCodec => "Free Lossless Audio Codec"
  | FreeLosslessImageFormat => "Free Lossless Image Format"
  | FujifilmRaw => "Fujifilm Raw"
  | Fusion360 => "Fusion 360"
  | GameBoyAdvanceRom => "Game Boy Advance ROM"
  | GameBoyColorRom => "Game Boy Color ROM"
  | GameBoyRom => "Game Boy ROM"
  | GameGearRom => "Game Gear ROM"
  | GeographyMarkupLanguage => "Geography Markup Language"
  | GettextMachineObject => "gettext Machine Object"
  | GlTransmissionFormatBinary => "GL Transmission Format Binary"
  | Glyphs => "Glyphs"
  | GoogleChromeExtension => "Google Chrome Extension"
  | GoogleDraco => "Google Draco"
  | GpsExchangeFormat => "GPS Exchange Format"
  | GraphicsInterchangeFormat => "Graphics Interchange Format"
  | Gzip => "gzip"
  | HighEfficiencyImageCoding => "High Efficiency Image Coding"
  | HighEfficiencyImageCodingSequence => "High Efficiency Image Coding Sequence"
  | HighEfficiencyImageFileFormat => "High Efficiency Image File Format"
  | HighEfficiencyImageFileFormatSequence => "High Efficiency Image File Format Sequence"
  | HypertextMarkupLanguage => "HyperText Markup Language"
  | Icalendar => "iCalendar"
  | IccProfile => "ICC Profile"
  | Id3v2 => "ID3v2"
  | ImpulseTrackerModule => "Impulse Tracker Module"
  | IndesignMarkupLanguage => "InDesign Markup Language"
  | InitialGraphicsExchangeSpecification => "Initial Graphics Exchange Specification"
  | InterQuakeExport => "Inter-Quake Export"
  | InterQuakeModel => "Inter-Quake Model"
  | IosAppStorePackage => "iOS App Store Package"
  | Iso9660 => "ISO 9660"
  | JavaArchive => "Java Archive"
  | JavaClass => "Java Class"
  | JavaKeystore => "Java KeyStore"
  | JointPhotographicExpertsGroup => "Joint Photographic Experts Group"
  | Jpeg2000Codestream => "JPEG 2000 Codestream"
  | Jpeg2000Part1 => "JPEG 2000 Part 1"
  | Jpeg2000Part2 => "JPEG 2000 Part 2"
  | Jpeg2000Part3 => "JPEG 2000 Part 3"
  | Jpeg2000Part6 => "JPEG 2000 Part 6"
  | JpegExtendedRange => "JPEG Extended Range"
  | JpegLs => "JPEG-LS"
  | JpegNetworkGraphics => "JPEG Network Graphics"
  | JpegXl => "JPEG XL"
  | JsonFeed => "JSON Feed"
  | KeyholeMarkupLanguage => "Keyhole Markup Language"
  | KeyholeMarkupLanguageZip => "Keyhole Markup Language ZIP"
  | KhronosTexture => "Khronos Texture"
  | KhronosTexture2 => "Khronos Texture 2"
  | Larc => "LArc"
  | Latex => "LaTeX"
  | LempelZivFiniteStateEntropy => "Lempel-Ziv Finite State Entropy"
  | LempelZivMarkovChainAlgorithm => "Lempel-Ziv-Markov chain algorithm"
  | Lha => "LHA"
  | LinearExecutable => "Linear Executable"
  | LlvmBitcode => "LLVM Bitcode"
  | LongRangeZip => "Long Range ZIP"
  | LuaBytecode => "Lua Bytecode"
  | LuaScript => "Lua Script"
  | Lz4 => "LZ4"
  | Lzip => "lzip"
  | Lzop => "lzop"
  | MachO => "Mach-O"
  | MacosAlias => "macOS Alias"
  | Magicavoxel => "MagicaVoxel"
  | MagickImageFileFormat => "Magick Image File Format"
  | MaterialExchangeFormat => "Material Exchange Format"
  | MathematicalMarkupLanguage => "Mathematical Markup Language"
  | Matroska3dVideo => "Matroska 3D Video"
  | MatroskaAudio => "Matroska Audio"
  | MatroskaSubtitles => "Matroska Subtitles"
  | MatroskaVideo => "Matroska Video"
  | MayaAscii => "Maya ASCII"
  | MayaBinary => "Maya Binary"
  | MegaDriveRom => "Mega Drive ROM"
  | MetaInformationEncapsulation => "Meta Information Encapsulation"
  | MicrosoftAccess2007Database => "Microsoft Access 2007 Database"
  | MicrosoftAccessDatabase => "Microsoft Access Database"
  | MicrosoftCompiledHtmlHelp => "Microsoft Compiled HTML Help"
  | MicrosoftDigitalVideoRecording => "Microsoft Digital Video Recording"
  | MicrosoftDirectdrawSurface => "Microsoft DirectDraw Surface"
  | MicrosoftExcelSpreadsheet => "Microsoft Excel Spreadsheet"
  | MicrosoftPowerpointPresentation => "Microsoft PowerPoint Presentation"
  | MicrosoftProjectPlan => "Microsoft Project Plan"
  | MicrosoftPublisherDocument => "Microsoft Publisher Document"
  | MicrosoftReader => "Microsoft Reader"
  | MicrosoftSoftwareInstaller => "Microsoft Software Installer"
  | MicrosoftVirtualHardDisk => "Microsoft Virtual Hard Disk"
  | MicrosoftVirtualHardDisk2 => "Microsoft Virtual Hard Disk 2"
  | MicrosoftVisioDrawing => "Microsoft Visio Drawing"
  | MicrosoftVisualStudioExtension => "Microsoft Visual Studio Extension"
  | MicrosoftVisualStudioSolution => "Microsoft Visual Studio Solution"
  | MicrosoftWordDocument => "Microsoft Word Document"
  | MicrosoftWorks6Spreadsheet => "Microsoft Works 6 Spreadsheet"
  | MicrosoftWorksDatabase => "Microsoft Works Database"
  | MicrosoftWorksSpreadsheet => "Microsoft Works Spreadsheet"
  | MicrosoftWorksWordProcessor => "Microsoft Works Word Processor"
  | MicrosoftWrite => "Microsoft Write"
  | Mobipocket => "Mobipocket"
  | Model3dAscii => "Model 3D ASCII"
  | Model3dBinary => "Model 3D Binary"
  | MonkeysAudio => "Monkey's Audio"
  | MozillaArchive => "Mozilla Archive"
  | Mp3Url => "MP3 URL"
  | Mpeg12AudioLayer2 => "MPEG-1/2 Audio Layer 2"
  | Mpeg12AudioLayer3 => "MPEG-1/2 Audio Layer 3"
  | Mpeg12Video => "MPEG-1/2 Video"
  | Mpeg2TransportStream => "MPEG-2 Transport Stream"
  | Mpeg4Part14 => "MPEG-4 Part 14"
  | Mpeg4Part14Audio => "MPEG-4 Part 14 Audio"
  | Mpeg4Part14Subtitles => "MPEG-4 Part 14 Subtitles"
  | Mpeg4Part14Video => "MPEG-4 Part 14 Video"
  | MpegDashMpd => "MPEG-DASH MPD"
  | MsDosBatch => "MS-DOS Batch"
  | MsDosExecutable => "MS-DOS Executable"
  | Mtv => "MTV"
  | MultiLayerArchive => "Multi Layer Archive"
  | MultipleImageNetworkGraphics => "Multiple-image Network Graphics"
  | Musepack => "Musepack"
  | MusicalInstrumentDigitalInterface => "Musical Instrument Digital Interface"
  | Musicxml => "MusicXML"
  | MusicxmlZip => "MusicXML ZIP"
  | NeoGeoPocketColorRom => "Neo Geo Pocket Color ROM"
  | NeoGeoPocketRom => "Neo Geo Pocket ROM"
  | NewExecutable => "New Executable"
  | NikonElectronicFile => "Nikon Electronic File"
  | Nintendo64Rom => "Nintendo 64 ROM"
  | NintendoDsRom => "Nintendo DS ROM"
  | NintendoEntertainmentSystemRom => "Nintendo Entertainment System ROM"
  | NintendoSwitchExecutable => "Nintendo Switch Executable"
  | NintendoSwitchPackage => "Nintendo Switch Package"
  | NintendoSwitchRom => "Nintendo Switch ROM"
  | OfficeOpenXmlDocument => "Office Open XML Document"
  | OfficeOpenXmlDrawing => "Office Open XML Drawing"
  | OfficeOpenXmlPresentation => "Office Open XML Presentation"
  | OfficeOpenXmlSpreadsheet => "Office Open XML Spreadsheet"
  | OggFlac => "Ogg FLAC"
  | OggMedia => "Ogg Media"
  | OggMultiplexedMedia => "Ogg Multiplexed Media"
  | OggOpus => "Ogg Opus"
  | OggSpeex => "Ogg Speex"
  | OggTheora => "Ogg Theora"
  | OggVorbis => "Ogg Vorbis"
  | OlympusRawFormat => "Olympus Raw Format"
  | OpendocumentDatabase => "OpenDocument Database"
  | OpendocumentFormula => "OpenDocument Formula"
  | OpendocumentFormulaTemplate => "OpenDocument Formula Template"
  | OpendocumentGraphics => "OpenDocument Graphics"
  | OpendocumentGraphicsTemplate => "OpenDocument Graphics Template"
  | OpendocumentPresentation => "OpenDocument Presentation"
  | OpendocumentPresentationTemplate => "OpenDocument Presentation Template"
  | OpendocumentSpreadsheet => "OpenDocument Spreadsheet"
  | OpendocumentSpreadsheetTemplate => "OpenDocument Spreadsheet Template"
  | OpendocumentText => "OpenDocument Text"
  | OpendocumentTextMaster => "OpenDocument Text Master"
  | OpendocumentTextMasterTemplate => "OpenDocument Text Master Template"
  | OpendocumentTextTemplate => "OpenDocument Text Template"
  | Openexr => "OpenEXR"
  | Opennurbs => "openNURBS"
  | Openraster => "OpenRaster"
  | Opentype => "OpenType"
  | Openxps => "OpenXPS"
  | OptimizedDalvikExecutable => "Optimized Dalvik Executable"
  | PanasonicRaw => "Panasonic Raw"
  | PcapDump => "PCAP Dump"
  | PcapNextGenerationDump => "PCAP Next Generation Dump"
  | PemCertificate => "PEM Certificate"
  | PemCertificateSigningRequest => "PEM Certificate Signing Request"
  | PemPrivateKey => "PEM Private Key"
  | PemPublicKey => "PEM Public Key"
  | PerlScript => "Perl Script"
  | PersonalStorageTable => "Personal Storage Table"
  | PgpMessage => "PGP Message"
  | PgpPrivateKeyBlock => "PGP Private Key Block"
  | PgpPublicKeyBlock => "PGP Public Key Block"
  | PgpSignature => "PGP Signature"
  | PgpSignedMessage => "PGP Signed Message"
  | PictureExchange => "Picture Exchange"
  | PlainText => "Plain Text"
  | Pmarc => "PMarc"
  | PolygonAscii => "Polygon ASCII"
  | PolygonBinary => "Polygon Binary"
  | PortableArbitraryMap => "Portable Arbitrary Map"
  | PortableBitmap => "Portable BitMap"
  | PortableDocumentFormat => "Portable Document Format"
  | PortableExecutable => "Portable Executable"
  | PortableFloatmap => "Portable FloatMap"
  | PortableGraymap => "Portable GrayMap"
  | PortableNetworkGraphics => "Portable Network Graphics"
  | PortablePixmap => "Portable PixMap"
  | Postscript => "PostScript"
  | PythonScript => "Python Script"
  | QemuCopyOnWrite => "QEMU Copy On Write"
  | QualcommPurevoice => "Qualcomm PureVoice"
  | QuiteOkAudio => "Quite OK Audio"
  | QuiteOkImage => "Quite OK Image"
  | RadianceHdr => "Radiance HDR"
  | Realaudio => "RealAudio"
  | ReallySimpleSyndication => "Really Simple Syndication"
  | Realmedia => "RealMedia"
  | Realvideo => "RealVideo"
  | RedHatPackageManager => "Red Hat Package Manager"
  | RichTextFormat => "Rich Text Format"
  | RoshalArchive => "Roshal Archive"
  | RubyScript => "Ruby Script"
  | Rzip => "rzip"
  | ScalableVectorGraphics => "Scalable Vector Graphics"
  | ScreamTracker3Module => "Scream Tracker 3 Module"
  | SegaMasterSystemRom => "Sega Master System ROM"
  | Seqbox => "SeqBox"
  | SevenZip => "7-Zip"
  | Shapefile => "Shapefile"
  | ShellScript => "Shell Script"
  | ShoutcastPlaylist => "SHOUTcast Playlist"
  | SiliconGraphicsImage => "Silicon Graphics Image"
  | SiliconGraphicsMovie => "Silicon Graphics Movie"
  | SimpleObjectAccessProtocol => "Simple Object Access Protocol"
  | Sketch => "Sketch"
  | Sketch43 => "Sketch 43"
  | Sketchup => "SketchUp"
  | SmallWebFormat => "Small Web Format"
  | Snappy => "Snappy"
  | SolidworksAssembly => "SolidWorks Assembly"
  | SolidworksDrawing => "SolidWorks Drawing"
  | SolidworksPart => "SolidWorks Part"
  | SonyDsdStreamFile => "Sony DSD Stream File"
  | SonyMovie => "Sony Movie"
  | Soundfont2 => "SoundFont 2"
  | SpaceclaimDocument => "SpaceClaim Document"
  | Sqlite3 => "SQLite 3"
  | Squashfs => "Squashfs"
  | StandardForTheExchangeOfProductModelData => "Standard for the Exchange of Product model data"
  | Starcalc => "StarCalc"
  | Starchart => "StarChart"
  | Stardraw => "StarDraw"
  | Starimpress => "StarImpress"
  | Starmath => "StarMath"
  | Starwriter => "StarWriter"
  | StereolithographyAscii => "Stereolithography ASCII"
  | Stuffit => "StuffIt"
  | StuffitX => "StuffIt X"
  | SubripText => "SubRip Text"
  | SunXmlCalc => "Sun XML Calc"
  | SunXmlCalcTemplate => "Sun XML Calc Template"
  | SunXmlDraw => "Sun XML Draw"
  | SunXmlDrawTemplate => "Sun XML Draw Template"
  | SunXmlImpress => "Sun XML Impress"
  | SunXmlImpressTemplate => "Sun XML Impress Template"
  | SunXmlMath => "Sun XML Math"
  | SunXmlWriter => "Sun XML Writer"
  | SunXmlWriterGlobal => "Sun XML Writer Global"
  | SunXmlWriterTemplate => "Sun XML Writer Template"
  | TagImageFileFormat => "Tag Image File Format"
  | TapeArchive => "Tape Archive"
  | Tasty => "TASTy"
  | ThirdGenerationPartnershipProject => "3rd Generation Partnership Project"
  | ThirdGenerationPartnershipProject2 => "3rd Generation Partnership Project 2"
  | ThreeDimensionalManufacturingFormat => "3D Manufacturing Format"
  | ThreeDimensionalStudio => "3D Studio"
  | ThreeDimensionalStudioMax => "3D Studio Max"
  | TiledMapXml => "Tiled Map XML"
  | TiledTilesetXml => "Tiled Tileset XML"
  | TimedTextMarkupLanguage => "Timed Text Markup Language"
  | ToolCommandLanguageScript => "Tool Command Language Script"
  | TrainingCenterXml => "Training Center XML"
  | Truetype => "TrueType"
  | TruetypeCollection => "TrueType Collection"
  | UltimateSoundtrackerModule => "Ultimate Soundtracker Module"
  | UniformOfficeFormatPresentation => "Uniform Office Format Presentation"
  | UniformOfficeFormatSpreadsheet => "Uniform Office Format Spreadsheet"
  | UniformOfficeFormatText => "Uniform Office Format Text"
  | Universal3d => "Universal 3D"
  | UniversalSceneDescriptionAscii => "Universal Scene Description ASCII"
  | UniversalSceneDescriptionBinary => "Universal Scene Description Binary"
  | UniversalSceneDescriptionZip => "Universal Scene Description ZIP"
  | UniversalSubtitleFormat => "Universal Subtitle Format"
  | UnixArchiver => "UNIX archiver"
  | UnixCompress => "UNIX compress"
  | Vcalendar => "vCalendar"
  | Vcard => "vCard"
  | VirtualMachineDisk => "Virtual Machine Disk"
  | VirtualRealityModelingLanguage => "Virtual Reality Modeling Language"
  | VirtualboxVirtualDiskImage => "VirtualBox Virtual Disk Image"
  | WaveformAudio => "Waveform Audio"
  | Wavpack => "WavPack"
  | WebApplicationArchive => "Web Application Archive"
  | WebOpenFontFormat => "Web Open Font Format"
  | WebOpenFontFormat2 => "Web Open Font Format 2"
  | WebVideoTextTracks => "Web Video Text Tracks"
  | WebassemblyBinary => "WebAssembly Binary"
  | WebassemblyText => "WebAssembly Text"
  | Webm => "WebM"
  | Webp => "WebP"
  | WindowsAnimatedCursor => "Windows Animated Cursor"
  | WindowsAppBundle => "Windows App Bundle"
  | WindowsAppPackage => "Windows App Package"
  | WindowsBitmap => "Windows Bitmap"
  | WindowsCursor => "Windows Cursor"
  | WindowsIcon => "Windows Icon"
  | WindowsImagingFormat => "Windows Imaging Format"
  | WindowsMediaAudio => "Windows Media Audio"
  | WindowsMediaPlaylist => "Windows Media Playlist"
  | WindowsMediaVideo => "Windows Media Video"
  | WindowsMetafile => "Windows Metafile"
  | WindowsRecordedTvShow => "Windows Recorded TV Show"
  | WindowsShortcut => "Windows Shortcut"
  | WordperfectDocument => "WordPerfect Document"
  | WordperfectGraphics => "WordPerfect Graphics"
  | WordperfectMacro => "WordPerfect Macro"
  | WordperfectPresentations => "WordPerfect Presentations"
  | XPixmap => "X PixMap"
  | Xap => "XAP"
  | Xbox360Executable => "Xbox 360 Executable"
  | XboxExecutable => "Xbox Executable"
  | XmlLocalizationInterchangeFileFormat => "XML Localization Interchange File Format"
  | XmlShareablePlaylistFormat => "XML Shareable Playlist Format"
  | Xpinstall => "XPInstall"
  | Xz => "XZ"
  | Zip => "ZIP"
  | Zoo => "zoo"
  | Zpaq => "ZPAQ"
  | Zstandard => "Zstandard"
  end.

(** macros.rs lines 73-80: FileFormat::short_name *)
Definition short_name (f : FileFormat) : option string :=
  match f with
  | Abiword => Some "ABW"
  | AbiwordTemplate => Some "AWT"
  | Ace => None
  | ActionsMediaVideo => Some "AMV"
  | Activemime => Some "MSO"
  | AdaptableScalableTextureCompression => Some "ASTC"
  | AdaptiveMultiRate => Some "AMR"
  | AdditiveManufacturingFormat => Some "AMF"
  | AdobeIllustratorArtwork => Some "AI"
  | AdobeIndesignDocument => Some "INDD"
  | AdobeIntegratedRuntime => Some "AIR"
  | AdobePhotoshopDocument => Some "PSD"
  | AdvancedAudioCoding => Some "AAC"
  | AdvancedStreamRedirector => Some "ASX"
  | AdvancedSystemsFormat => Some "ASF"
  | AgeEncryption => None
  | Alz => None
  | AmigaDiskFile => Some "ADF"
  | AndroidAppBundle => Some "AAB"
  | AndroidBinaryXml => Some "AXML"
  | AndroidPackage => Some "APK"
  | AndroidResourceStorageContainer => Some "ARSC"
  | AnimatedPortableNetworkGraphics => Some "APNG"
  | ApacheArrowColumnar => Some "Arrow"
  | ApacheAvro => Some "Avro"
  | ApacheParquet => Some "Parquet"
  | Appimage => None
  | AppleDiskImage => Some "DMG"
  | AppleIconImage => Some "ICNS"
  | AppleItunesAudio => Some "M4A"
  | AppleItunesAudiobook => Some "M4B"
  | AppleItunesProtectedAudio => Some "M4P"
  | AppleItunesVideo => Some "M4V"
  | AppleQuicktime => Some "MOV"
  | ArbitraryBinaryData => Some "BIN"
  | ArchivedByRobertJung => Some "ARJ"
  | Atari7800Rom => Some "A78"
  | Atom => None
  | Au => None
  | AudioCodec3 => Some "AC-3"
  | AudioInterchangeFileFormat => Some "AIFF"
  | AudioVideoInterleave => Some "AVI"
  | AudioVisualResearch => Some "AVR"
  | AutocadDrawing => Some "DWG"
  | Autodesk123d => Some "123DX"
  | AutodeskAlias => Some "WIRE"
  | AutodeskAnimator => Some "FLI"
  | AutodeskAnimatorPro => Some "FLC"
  | AutodeskInventorAssembly => Some "IAM"
  | AutodeskInventorDrawing => Some "IDW"
  | AutodeskInventorPart => Some "IPT"
  | AutodeskInventorPresentation => Some "IPN"
  | Av1ImageFileFormat => Some "AVIF"
  | Av1ImageFileFormatSequence => Some "AVIFS"
  | BdavMpeg2TransportStream => Some "M2TS"
  | BetterPortableGraphics => Some "BPG"
  | Bittorrent => Some "Torrent"
  | Blender => Some "BLEND"
  | BmfontAscii => Some "FNT"
  | BmfontBinary => Some "FNT"
  | BroadBandEbook => Some "BBeB"
  | Bzip => Some "BZ"
  | Bzip2 => Some "BZ2"
  | Bzip3 => Some "BZ3"
  | Cabinet => Some "CAB"
  | CanonRaw => Some "CRW"
  | CanonRaw2 => Some "CR2"
  | CanonRaw3 => Some "CR3"
  | CdAudio => Some "CDA"
  | Cinema4d => Some "C4D"
  | Cineon => Some "CIN"
  | CircuitDiagramDocument => Some "CDDX"
  | ClojureScript => None
  | CollaborativeDesignActivity => Some "COLLADA"
  | Commodore64Cartridge => Some "CRT"
  | Commodore64Program => Some "PRG"
  | CommonObjectFileFormat => Some "COFF"
  | CompoundFileBinary => Some "CFB"
  | CorelPresentations => Some "SHW"
  | CorelPresentations7 => Some "SHW"
  | Cpio => None
  | CreativeVoice => Some "VOC"
  | DalvikExecutable => Some "DEX"
  | DebianPackage => Some "DEB"
  | DerCertificate => Some "DER"
  | DesignWebFormat => Some "DWF"
  | DesignWebFormatXps => Some "DWFX"
  | DigitalImagingAndCommunicationsInMedicine => Some "DICOM"
  | DigitalPictureExchange => Some "DPX"
  | Djvu => None
  | DrawingExchangeFormatAscii => Some "DXF"
  | DrawingExchangeFormatBinary => Some "DXF"
  | Drawio => Some "DRAWIO"
  | DynamicLinkLibrary => Some "DLL"
  | EightBitSampledVoice => Some "8SVX"
  | ElectronicPublication => Some "EPUB"
  | EmbeddedOpentype => Some "EOT"
  | Empty => None
  | EncapsulatedPostscript => Some "EPS"
  | EnhancedMetafile => Some "EMF"
  | EnterpriseApplicationArchive => Some "EAR"
  | ExecutableAndLinkableFormat => Some "ELF"
  | ExperimentalComputingFacility => Some "XCF"
  | Extensible3d => Some "X3D"
  | ExtensibleArchive => Some "XAR"
  | ExtensibleBinaryMetaLanguage => Some "EBML"
  | ExtensibleMarkupLanguage => Some "XML"
  | ExtensibleStylesheetLanguageTransformations => Some "XSLT"
  | Farbfeld => Some "FF"
  | Fasttracker2ExtendedModule => Some "XM"
  | Fictionbook => Some "FB2"
  | FictionbookZip => Some "FBZ"
  | FigletFont => Some "FLF"
  | FigmaDesign => Some "FIG"
  | Filmbox => Some "FBX"
  | FlashCs5Project => Some "FLA"
  | FlashMp4Audio => Some "F4A"
  | FlashMp4Audiobook => Some "F4B"
  | FlashMp4ProtectedVideo => Some "F4P"
  | FlashMp4Video => Some "F4V"
  | FlashProject => Some "FLA"
  | FlashVideo => Some "FLV"
  | FlexibleAndInteroperableDataTransfer => Some "FIT"
  | FlexibleImageTransportSystem => Some "FITS"
  | FreeLosslessAudioCodec => Some "FLAC"
  | FreeLosslessImageFormat => Some "FLIF"
  | FujifilmRaw => Some "RAF"
  | Fusion360 => Some "F3D"
  | GameBoyAdvanceRom => Some "GBA"
  | GameBoyColorRom => Some "GBC"
  | GameBoyRom => Some "GB"
  | GameGearRom => Some "GG"
  | GeographyMarkupLanguage => Some "GML"
  | GettextMachineObject => Some "MO"
  | GlTransmissionFormatBinary => Some "GLB"
  | Glyphs => None
  | GoogleChromeExtension => Some "CRX"
  | GoogleDraco => Some "Draco"
  | GpsExchangeFormat => Some "GPX"
  | GraphicsInterchangeFormat => Some "GIF"
  | Gzip => Some "GZ"
  | HighEfficiencyImageCoding => Some "HEIC"
  | HighEfficiencyImageCodingSequence => Some "HEICS"
  | HighEfficiencyImageFileFormat => Some "HEIF"
  | HighEfficiencyImageFileFormatSequence => Some "HEIFS"
  | HypertextMarkupLanguage => Some "HTML"
  | Icalendar => Some "ICS"
  | IccProfile => Some "ICC"
  | Id3v2 => Some "ID3"
  | ImpulseTrackerModule => Some "IT"
  | IndesignMarkupLanguage => Some "IDML"
  | InitialGraphicsExchangeSpecification => Some "IGES"
  | InterQuakeExport => Some "IQE"
  | InterQuakeModel => Some "IQM"
  | IosAppStorePackage => Some "IPA"
  | Iso9660 => Some "ISO"
  | JavaArchive => Some "JAR"
  | JavaClass => None
  | JavaKeystore => Some "JKS"
  | JointPhotographicExpertsGroup => Some "JPEG"
  | Jpeg2000Codestream => Some "J2C"
  | Jpeg2000Part1 => Some "JP2"
  | Jpeg2000Part2 => Some "JPX"
  | Jpeg2000Part3 => Some "MJ2"
  | Jpeg2000Part6 => Some "JPM"
  | JpegExtendedRange => Some "JXR"
  | JpegLs => Some "JLS"
  | JpegNetworkGraphics => Some "JNG"
  | JpegXl => Some "JXL"
  | JsonFeed => None
  | KeyholeMarkupLanguage => Some "KML"
  | KeyholeMarkupLanguageZip => Some "KMZ"
  | KhronosTexture => Some "KTX"
  | KhronosTexture2 => Some "KTX2"
  | Larc => Some "LZS"
  | Latex => Some "TeX"
  | LempelZivFiniteStateEntropy => Some "LZFSE"
  | LempelZivMarkovChainAlgorithm => Some "LZMA"
  | Lha => None
  | LinearExecutable => Some "LE"
  | LlvmBitcode => Some "BC"
  | LongRangeZip => Some "LRZIP"
  | LuaBytecode => None
  | LuaScript => None
  | Lz4 => None
  | Lzip => Some "LZ"
  | Lzop => Some "LZO"
  | MachO => None
  | MacosAlias => None
  | Magicavoxel => Some "VOX"
  | MagickImageFileFormat => Some "MIFF"
  | MaterialExchangeFormat => Some "MXF"
  | MathematicalMarkupLanguage => Some "MathML"
  | Matroska3dVideo => Some "MK3D"
  | MatroskaAudio => Some "MKA"
  | MatroskaSubtitles => Some "MKS"
  | MatroskaVideo => Some "MKV"
  | MayaAscii => Some "MA"
  | MayaBinary => Some "MB"
  | MegaDriveRom => Some "MD"
  | MetaInformationEncapsulation => Some "MIE"
  | MicrosoftAccess2007Database => Some "ACCDB"
  | MicrosoftAccessDatabase => Some "MDB"
  | MicrosoftCompiledHtmlHelp => Some "CHM"
  | MicrosoftDigitalVideoRecording => Some "DVR-MS"
  | MicrosoftDirectdrawSurface => Some "DDS"
  | MicrosoftExcelSpreadsheet => Some "XLS"
  | MicrosoftPowerpointPresentation => Some "PPT"
  | MicrosoftProjectPlan => Some "MPP"
  | MicrosoftPublisherDocument => Some "PUB"
  | MicrosoftReader => Some "LIT"
  | MicrosoftSoftwareInstaller => Some "MSI"
  | MicrosoftVirtualHardDisk => Some "VHD"
  | MicrosoftVirtualHardDisk2 => Some "VHDX"
  | MicrosoftVisioDrawing => Some "VSD"
  | MicrosoftVisualStudioExtension => Some "VSIX"
  | MicrosoftVisualStudioSolution => Some "SLN"
  | MicrosoftWordDocument => Some "DOC"
  | MicrosoftWorks6Spreadsheet => Some "XLR"
  | MicrosoftWorksDatabase => Some "WDB"
  | MicrosoftWorksSpreadsheet => Some "WKS"
  | MicrosoftWorksWordProcessor => Some "WPS"
  | MicrosoftWrite => Some "WRI"
  | Mobipocket => Some "MOBI"
  | Model3dAscii => Some "A3D"
  | Model3dBinary => Some "M3D"
  | MonkeysAudio => Some "APE"
  | MozillaArchive => Some "MAR"
  | Mp3Url => Some "M3U"
  | Mpeg12AudioLayer2 => Some "MP2"
  | Mpeg12AudioLayer3 => Some "MP3"
  | Mpeg12Video => Some "MPG"
  | Mpeg2TransportStream => Some "TS"
  | Mpeg4Part14 => Some "MP4"
  | Mpeg4Part14Audio => Some "MP4"
  | Mpeg4Part14Subtitles => Some "MP4"
  | Mpeg4Part14Video => Some "MP4"
  | MpegDashMpd => Some "MPD"
  | MsDosBatch => Some "Batch"
  | MsDosExecutable => Some "EXE"
  | Mtv => None
  | MultiLayerArchive => Some "MLA"
  | MultipleImageNetworkGraphics => Some "MNG"
  | Musepack => Some "MPC"
  | MusicalInstrumentDigitalInterface => Some "MIDI"
  | Musicxml => None
  | MusicxmlZip => Some "MXL"
  | NeoGeoPocketColorRom => Some "NGC"
  | NeoGeoPocketRom => Some "NGP"
  | NewExecutable => Some "NE"
  | NikonElectronicFile => Some "NEF"
  | Nintendo64Rom => Some "Z64"
  | NintendoDsRom => Some "NDS"
  | NintendoEntertainmentSystemRom => Some "NES"
  | NintendoSwitchExecutable => Some "NSO"
  | NintendoSwitchPackage => Some "NSP"
  | NintendoSwitchRom => Some "XCI"
  | OfficeOpenXmlDocument => Some "DOCX"
  | OfficeOpenXmlDrawing => Some "VSDX"
  | OfficeOpenXmlPresentation => Some "PPTX"
  | OfficeOpenXmlSpreadsheet => Some "XLSX"
  | OggFlac => Some "OGA"
  | OggMedia => Some "OGM"
  | OggMultiplexedMedia => Some "OGX"
  | OggOpus => Some "Opus"
  | OggSpeex => Some "Speex"
  | OggTheora => Some "Theora"
  | OggVorbis => Some "Vorbis"
  | OlympusRawFormat => Some "ORF"
  | OpendocumentDatabase => Some "ODB"
  | OpendocumentFormula => Some "ODF"
  | OpendocumentFormulaTemplate => Some "OTF"
  | OpendocumentGraphics => Some "ODG"
  | OpendocumentGraphicsTemplate => Some "OTG"
  | OpendocumentPresentation => Some "ODP"
  | OpendocumentPresentationTemplate => Some "OTP"
  | OpendocumentSpreadsheet => Some "ODS"
  | OpendocumentSpreadsheetTemplate => Some "OTS"
  | OpendocumentText => Some "ODT"
  | OpendocumentTextMaster => Some "ODM"
  | OpendocumentTextMasterTemplate => Some "OTM"
  | OpendocumentTextTemplate => Some "OTT"
  | Openexr => Some "EXR"
  | Opennurbs => Some "3DM"
  | Openraster => Some "ORA"
  | Opentype => Some "OTF"
  | Openxps => Some "OXPS"
  | OptimizedDalvikExecutable => Some "DEY"
  | PanasonicRaw => Some "RW2"
  | PcapDump => Some "PCAP"
  | PcapNextGenerationDump => Some "PCAPNG"
  | PemCertificate => Some "PEM"
  | PemCertificateSigningRequest => Some "PEM"
  | PemPrivateKey => Some "PEM"
  | PemPublicKey => Some "PEM"
  | PerlScript => None
  | PersonalStorageTable => Some "PST"
  | PgpMessage => Some "PGP"
  | PgpPrivateKeyBlock => Some "PGP"
  | PgpPublicKeyBlock => Some "PGP"
  | PgpSignature => Some "PGP"
  | PgpSignedMessage => Some "PGP"
  | PictureExchange => Some "PCX"
  | PlainText => Some "TXT"
  | Pmarc => Some "PMA"
  | PolygonAscii => Some "PLY"
  | PolygonBinary => Some "PLY"
  | PortableArbitraryMap => Some "PAM"
  | PortableBitmap => Some "PBM"
  | PortableDocumentFormat => Some "PDF"
  | PortableExecutable => Some "PE"
  | PortableFloatmap => Some "PFM"
  | PortableGraymap => Some "PGM"
  | PortableNetworkGraphics => Some "PNG"
  | PortablePixmap => Some "PPM"
  | Postscript => Some "PS"
  | PythonScript => None
  | QemuCopyOnWrite => Some "QCOW"
  | QualcommPurevoice => Some "QCP"
  | QuiteOkAudio => Some "QOA"
  | QuiteOkImage => Some "QOI"
  | RadianceHdr => Some "HDR"
  | Realaudio => Some "RA"
  | ReallySimpleSyndication => Some "RSS"
  | Realmedia => Some "RM"
  | Realvideo => Some "RV"
  | RedHatPackageManager => Some "RPM"
  | RichTextFormat => Some "RTF"
  | RoshalArchive => Some "RAR"
  | RubyScript => None
  | Rzip => Some "RZ"
  | ScalableVectorGraphics => Some "SVG"
  | ScreamTracker3Module => Some "S3M"
  | SegaMasterSystemRom => Some "SMS"
  | Seqbox => Some "SBX"
  | SevenZip => Some "7Z"
  | Shapefile => Some "SHP"
  | ShellScript => None
  | ShoutcastPlaylist => Some "PLS"
  | SiliconGraphicsImage => Some "SGI"
  | SiliconGraphicsMovie => Some "SGI"
  | SimpleObjectAccessProtocol => Some "SOAP"
  | Sketch => None
  | Sketch43 => None
  | Sketchup => Some "SKP"
  | SmallWebFormat => Some "SWF"
  | Snappy => None
  | SolidworksAssembly => Some "SLDASM"
  | SolidworksDrawing => Some "SLDDRW"
  | SolidworksPart => Some "SLDPRT"
  | SonyDsdStreamFile => Some "DSF"
  | SonyMovie => Some "MQV"
  | Soundfont2 => Some "SF2"
  | SpaceclaimDocument => Some "SCDOC"
  | Sqlite3 => None
  | Squashfs => None
  | StandardForTheExchangeOfProductModelData => Some "STEP"
  | Starcalc => Some "SDC"
  | Starchart => Some "SDS"
  | Stardraw => Some "SDA"
  | Starimpress => Some "SDD"
  | Starmath => Some "SMF"
  | Starwriter => Some "SDW"
  | StereolithographyAscii => Some "STL"
  | Stuffit => Some "SIT"
  | StuffitX => Some "SITX"
  | SubripText => Some "SRT"
  | SunXmlCalc => Some "SXC"
  | SunXmlCalcTemplate => Some "STC"
  | SunXmlDraw => Some "SXD"
  | SunXmlDrawTemplate => Some "STD"
  | SunXmlImpress => Some "SXI"
  | SunXmlImpressTemplate => Some "STI"
  | SunXmlMath => Some "SXM"
  | SunXmlWriter => Some "SXW"
  | SunXmlWriterGlobal => Some "SGW"
  | SunXmlWriterTemplate => Some "STW"
  | TagImageFileFormat => Some "TIFF"
  | TapeArchive => Some "TAR"
  | Tasty => None
  | ThirdGenerationPartnershipProject => Some "3GPP"
  | ThirdGenerationPartnershipProject2 => Some "3GPP2"
  | ThreeDimensionalManufacturingFormat => Some "3MF"
  | ThreeDimensionalStudio => Some "3DS"
  | ThreeDimensionalStudioMax => Some "MAX"
  | TiledMapXml => Some "TMX"
  | TiledTilesetXml => Some "TSX"
  | TimedTextMarkupLanguage => Some "TTML"
  | ToolCommandLanguageScript => Some "Tcl Script"
  | TrainingCenterXml => Some "TCX"
  | Truetype => Some "TTF"
  | TruetypeCollection => Some "TTC"
  | UltimateSoundtrackerModule => Some "MOD"
  | UniformOfficeFormatPresentation => Some "UOP"
  | UniformOfficeFormatSpreadsheet => Some "UOS"
  | UniformOfficeFormatText => Some "UOT"
  | Universal3d => Some "U3D"
  | UniversalSceneDescriptionAscii => Some "USDA"
  | UniversalSceneDescriptionBinary => Some "USDC"
  | UniversalSceneDescriptionZip => Some "USDZ"
  | UniversalSubtitleFormat => Some "USF"
  | UnixArchiver => Some "archiver"
  | UnixCompress => Some "compress"
  | Vcalendar => Some "VCS"
  | Vcard => Some "VCF"
  | VirtualMachineDisk => Some "VMDK"
  | VirtualRealityModelingLanguage => Some "VRML"
  | VirtualboxVirtualDiskImage => Some "VDI"
  | WaveformAudio => Some "WAV"
  | Wavpack => Some "WV"
  | WebApplicationArchive => Some "WAR"
  | WebOpenFontFormat => Some "WOFF"
  | WebOpenFontFormat2 => Some "WOFF2"
  | WebVideoTextTracks => Some "WebVTT"
  | WebassemblyBinary => Some "Wasm"
  | WebassemblyText => Some "WAT"
  | Webm => None
  | Webp => None
  | WindowsAnimatedCursor => Some "ANI"
  | WindowsAppBundle => Some "APPXBUNDLE"
  | WindowsAppPackage => Some "APPX"
  | WindowsBitmap => Some "BMP"
  | WindowsCursor => Some "CUR"
  | WindowsIcon => Some "ICO"
  | WindowsImagingFormat => Some "WIM"
  | WindowsMediaAudio => Some "WMA"
  | WindowsMediaPlaylist => Some "WPL"
  | WindowsMediaVideo => Some "WMV"
  | WindowsMetafile => Some "WMF"
  | WindowsRecordedTvShow => Some "WTV"
  | WindowsShortcut => Some "LNK"
  | WordperfectDocument => Some "WPD"
  | WordperfectGraphics => Some "WPG"
  | WordperfectMacro => Some "WPM"
  | WordperfectPresentations => Some "SHW"
  | XPixmap => Some "XPM"
  | Xap => None
  | Xbox360Executable => Some "XEX"
  | XboxExecutable => Some "XBE"
  | XmlLocalizationInterchangeFileFormat => Some "XLIFF"
  | XmlShareablePlaylistFormat => Some "XSPF"
  | Xpinstall => Some "XPI"
  | Xz => None
  | Zip => None
  | Zoo => None
  | Zpaq => None
  | Zstandard => Some "zstd"
  end.

(** macros.rs lines 98-104: FileFormat::media_type *)
Definition media_type (f : FileFormat) : string :=
  match f with
  | Abiword => "application/x-abiword"
  | AbiwordTemplate => "application/x-abiword-template"
  | Ace => "application/x-ace-compressed"
  | ActionsMediaVideo => "video/x-amv"
  | Activemime => "application/x-mso"
  | AdaptableScalableTextureCompression => "image/x-astc"
  | AdaptiveMultiRate => "audio/amr"
  | AdditiveManufacturingFormat => "application/x-amf"
  | AdobeIllustratorArtwork => "application/vnd.adobe.illustrator"
  | AdobeIndesignDocument => "application/x-indesign"
  | AdobeIntegratedRuntime => "application/vnd.adobe.air-application-installer-package+zip"
  | AdobePhotoshopDocument => "image/vnd.adobe.photoshop"
  | AdvancedAudioCoding => "audio/aac"
  | AdvancedStreamRedirector => "video/x-ms-asx"
  | AdvancedSystemsFormat => "application/vnd.ms-asf"
  | AgeEncryption => "application/x-age-encryption"
  | Alz => "application/x-alz-compressed"
  | AmigaDiskFile => "application/x-amiga-disk-format"
  | AndroidAppBundle => "application/vnd.android.aab"
  | AndroidBinaryXml => "application/vnd.android.axml"
  | AndroidPackage => "application/vnd.android.package-archive"
  | AndroidResourceStorageContainer => "application/vnd.android.arsc"
  | AnimatedPortableNetworkGraphics => "image/apng"
  | ApacheArrowColumnar => "application/vnd.apache.arrow.file"
  | ApacheAvro => "application/vnd.apache.avro"
  | ApacheParquet => "application/vnd.apache.parquet"
  | Appimage => "application/x-appimage"
  | AppleDiskImage => "application/x-apple-diskimage"
  | AppleIconImage => "image/x-icns"
  | AppleItunesAudio => "audio/x-m4a"
  | AppleItunesAudiobook => "audio/mp4"
  | AppleItunesProtectedAudio => "audio/mp4"
  | AppleItunesVideo => "video/x-m4v"
  | AppleQuicktime => "video/quicktime"
  | ArbitraryBinaryData => "application/octet-stream"
  | ArchivedByRobertJung => "application/x-arj"
  | Atari7800Rom => "application/x-atari-7800-rom"
  | Atom => "application/atom+xml"
  | Au => "audio/basic"
  | AudioCodec3 => "audio/ac3"
  | AudioInterchangeFileFormat => "audio/x-aiff"
  | AudioVideoInterleave => "video/avi"
  | AudioVisualResearch => "audio/x-avr"
  | AutocadDrawing => "application/x-dwg"
  | Autodesk123d => "model/x-123dx"
  | AutodeskAlias => "model/x-wire"
  | AutodeskAnimator => "video/x-fli"
  | AutodeskAnimatorPro => "video/x-flc"
  | AutodeskInventorAssembly => "model/x-iam"
  | AutodeskInventorDrawing => "model/x-idw"
  | AutodeskInventorPart => "model/x-ipt"
  | AutodeskInventorPresentation => "model/x-ipn"
  | Av1ImageFileFormat => "image/avif"
  | Av1ImageFileFormatSequence => "image/avif-sequence"
  | BdavMpeg2TransportStream => "video/mp2t"
  | BetterPortableGraphics => "image/bpg"
  | Bittorrent => "application/x-bittorrent"
  | Blender => "application/x-blender"
  | BmfontAscii => "application/x-angelcode-bmfont"
  | BmfontBinary => "application/x-angelcode-bmfont"
  | BroadBandEbook => "application/x-lrf"
  | Bzip => "application/x-bzip"
  | Bzip2 => "application/x-bzip2"
  | Bzip3 => "application/x-bzip3"
  | Cabinet => "application/vnd.ms-cab-compressed"
  | CanonRaw => "image/x-canon-crw"
  | CanonRaw2 => "image/x-canon-cr2"
  | CanonRaw3 => "image/x-canon-cr3"
  | CdAudio => "application/x-cdf"
  | Cinema4d => "model/x-c4d"
  | Cineon => "image/cineon"
  | CircuitDiagramDocument => "application/vnd.circuitdiagram.document.main+xml"
  | ClojureScript => "text/x-clojure"
  | CollaborativeDesignActivity => "model/vnd.collada+xml"
  | Commodore64Cartridge => "application/x-commodore-64-cartridge"
  | Commodore64Program => "application/x-commodore-64-program"
  | CommonObjectFileFormat => "application/x-coff"
  | CompoundFileBinary => "application/x-cfb"
  | CorelPresentations => "application/x-corelpresentations"
  | CorelPresentations7 => "application/x-corelpresentations"
  | Cpio => "application/x-cpio"
  | CreativeVoice => "audio/x-voc"
  | DalvikExecutable => "application/vnd.android.dex"
  | DebianPackage => "application/vnd.debian.binary-package"
  | DerCertificate => "application/x-x509-ca-cert"
  | DesignWebFormat => "model/vnd.dwf"
  | DesignWebFormatXps => "model/vnd.dwfx+xps"
  | DigitalImagingAndCommunicationsInMedicine => "application/dicom"
  | DigitalPictureExchange => "image/x-dpx"
  | Djvu => "image/vnd.djvu"
  | DrawingExchangeFormatAscii => "application/x-dxf"
  | DrawingExchangeFormatBinary => "application/x-dxf"
  | Drawio => "application/vnd.jgraph.mxfile"
  | DynamicLinkLibrary => "application/vnd.microsoft.portable-executable"
  | EightBitSampledVoice => "audio/x-8svx"
  | ElectronicPublication => "application/epub+zip"
  | EmbeddedOpentype => "application/vnd.ms-fontobject"
  | Empty => "application/x-empty"
  | EncapsulatedPostscript => "application/eps"
  | EnhancedMetafile => "image/emf"
  | EnterpriseApplicationArchive => "application/java-archive"
  | ExecutableAndLinkableFormat => "application/x-executable"
  | ExperimentalComputingFacility => "image/x-xcf"
  | Extensible3d => "model/x3d+xml"
  | ExtensibleArchive => "application/x-xar"
  | ExtensibleBinaryMetaLanguage => "application/x-ebml"
  | ExtensibleMarkupLanguage => "text/xml"
  | ExtensibleStylesheetLanguageTransformations => "application/xslt+xml"
  | Farbfeld => "image/x-ff"
  | Fasttracker2ExtendedModule => "audio/x-xm"
  | Fictionbook => "application/x-fb2+xml"
  | FictionbookZip => "application/x-fbz"
  | FigletFont => "application/x-figlet"
  | FigmaDesign => "image/x-figma"
  | Filmbox => "application/vnd.autodesk.fbx"
  | FlashCs5Project => "application/vnd.adobe.fla"
  | FlashMp4Audio => "audio/mp4"
  | FlashMp4Audiobook => "audio/mp4"
  | FlashMp4ProtectedVideo => "video/mp4"
  | FlashMp4Video => "video/mp4"
  | FlashProject => "application/vnd.adobe.fla"
  | FlashVideo => "video/x-flv"
  | FlexibleAndInteroperableDataTransfer => "application/x-fit"
  | FlexibleImageTransportSystem => "application/fits"
  | FreeLosslessAudioCodec => "audio/flac"
  | FreeLosslessImageFormat => "image/flif"
  | FujifilmRaw => "image/x-fuji-raf"
  | Fusion360 => "model/x-f3d"
  | GameBoyAdvanceRom => "application/x-gba-rom"
  | GameBoyColorRom => "application/x-gameboy-color-rom"
  | GameBoyRom => "application/x-gameboy-rom"
  | GameGearRom => "application/x-gamegear-rom"
  | GeographyMarkupLanguage => "application/gml+xml"
  | GettextMachineObject => "application/x-gettext-translation"
  | GlTransmissionFormatBinary => "model/gltf-binary"
  | Glyphs => "font/x-glyphs"
  | GoogleChromeExtension => "application/x-google-chrome-extension"
  | GoogleDraco => "model/x-draco"
  | GpsExchangeFormat => "application/gpx+xml"
  | GraphicsInterchangeFormat => "image/gif"
  | Gzip => "application/gzip"
  | HighEfficiencyImageCoding => "image/heic"
  | HighEfficiencyImageCodingSequence => "image/heic-sequence"
  | HighEfficiencyImageFileFormat => "image/heif"
  | HighEfficiencyImageFileFormatSequence => "image/heif-sequence"
  | HypertextMarkupLanguage => "text/html"
  | Icalendar => "text/calendar"
  | IccProfile => "application/vnd.iccprofile"
  | Id3v2 => "application/x-id3v2"
  | ImpulseTrackerModule => "audio/x-it"
  | IndesignMarkupLanguage => "application/vnd.adobe.indesign-idml-package"
  | InitialGraphicsExchangeSpecification => "model/iges"
  | InterQuakeExport => "model/x-iqe"
  | InterQuakeModel => "model/x-iqm"
  | IosAppStorePackage => "application/x-ios-app"
  | Iso9660 => "application/x-iso9660-image"
  | JavaArchive => "application/java-archive"
  | JavaClass => "application/java-vm"
  | JavaKeystore => "application/x-java-keystore"
  | JointPhotographicExpertsGroup => "image/jpeg"
  | Jpeg2000Codestream => "image/x-jp2-codestream"
  | Jpeg2000Part1 => "image/jp2"
  | Jpeg2000Part2 => "image/jpx"
  | Jpeg2000Part3 => "video/mj2"
  | Jpeg2000Part6 => "image/jpm"
  | JpegExtendedRange => "image/jxr"
  | JpegLs => "image/jls"
  | JpegNetworkGraphics => "image/x-jng"
  | JpegXl => "image/jxl"
  | JsonFeed => "application/feed+json"
  | KeyholeMarkupLanguage => "application/vnd.google-earth.kml+xml"
  | KeyholeMarkupLanguageZip => "application/vnd.google-earth.kmz"
  | KhronosTexture => "image/ktx"
  | KhronosTexture2 => "image/ktx2"
  | Larc => "application/x-lzh-compressed"
  | Latex => "text/x-tex"
  | LempelZivFiniteStateEntropy => "application/x-lzfse"
  | LempelZivMarkovChainAlgorithm => "application/x-lzma"
  | Lha => "application/x-lzh-compressed"
  | LinearExecutable => "application/x-dosexec"
  | LlvmBitcode => "application/x-llvm"
  | LongRangeZip => "application/x-lrzip"
  | LuaBytecode => "application/x-lua-bytecode"
  | LuaScript => "text/x-lua"
  | Lz4 => "application/x-lz4"
  | Lzip => "application/x-lzip"
  | Lzop => "application/x-lzop"
  | MachO => "application/x-mach-binary"
  | MacosAlias => "application/x-apple-alias"
  | Magicavoxel => "model/x-vox"
  | MagickImageFileFormat => "image/x-miff"
  | MaterialExchangeFormat => "application/mxf"
  | MathematicalMarkupLanguage => "application/mathml+xml"
  | Matroska3dVideo => "video/matroska"
  | MatroskaAudio => "audio/matroska"
  | MatroskaSubtitles => "application/x-matroska"
  | MatroskaVideo => "video/matroska"
  | MayaAscii => "application/x-maya-ascii"
  | MayaBinary => "application/x-maya-binary"
  | MegaDriveRom => "application/x-genesis-rom"
  | MetaInformationEncapsulation => "application/x-mie"
  | MicrosoftAccess2007Database => "application/x-msaccess"
  | MicrosoftAccessDatabase => "application/x-msaccess"
  | MicrosoftCompiledHtmlHelp => "application/vnd.ms-htmlhelp"
  | MicrosoftDigitalVideoRecording => "video/x-ms-asf"
  | MicrosoftDirectdrawSurface => "image/vnd.ms-dds"
  | MicrosoftExcelSpreadsheet => "application/vnd.ms-excel"
  | MicrosoftPowerpointPresentation => "application/vnd.ms-powerpoint"
  | MicrosoftProjectPlan => "application/vnd.ms-project"
  | MicrosoftPublisherDocument => "application/vnd.ms-publisher"
  | MicrosoftReader => "application/x-ms-reader"
  | MicrosoftSoftwareInstaller => "application/x-msi"
  | MicrosoftVirtualHardDisk => "application/x-vhd"
  | MicrosoftVirtualHardDisk2 => "application/x-vhdx"
  | MicrosoftVisioDrawing => "application/vnd.visio"
  | MicrosoftVisualStudioExtension => "application/vsix"
  | MicrosoftVisualStudioSolution => "application/vnd.ms-developer"
  | MicrosoftWordDocument => "application/msword"
  | MicrosoftWorks6Spreadsheet => "application/vnd.ms-works"
  | MicrosoftWorksDatabase => "application/vnd.ms-works-db"
  | MicrosoftWorksSpreadsheet => "application/vnd.ms-works"
  | MicrosoftWorksWordProcessor => "application/vnd.ms-works"
  | MicrosoftWrite => "application/x-mswrite"
  | Mobipocket => "application/x-mobipocket-ebook"
  | Model3dAscii => "text/x-3d-model"
  | Model3dBinary => "model/x-3d-model"
  | MonkeysAudio => "audio/x-ape"
  | MozillaArchive => "application/x-mozilla-archive"
  | Mp3Url => "audio/x-mpegurl"
  | Mpeg12AudioLayer2 => "audio/mpeg"
  | Mpeg12AudioLayer3 => "audio/mpeg"
  | Mpeg12Video => "video/mpeg"
  | Mpeg2TransportStream => "video/mp2t"
  | Mpeg4Part14 => "application/mp4"
  | Mpeg4Part14Audio => "audio/mp4"
  | Mpeg4Part14Subtitles => "application/mp4"
  | Mpeg4Part14Video => "video/mp4"
  | MpegDashMpd => "application/dash+xml"
  | MsDosBatch => "text/x-msdos-batch"
  | MsDosExecutable => "application/x-dosexec"
  | Mtv => "video/x-mtv"
  | MultiLayerArchive => "application/x-mla"
  | MultipleImageNetworkGraphics => "image/x-mng"
  | Musepack => "audio/x-musepack"
  | MusicalInstrumentDigitalInterface => "audio/midi"
  | Musicxml => "application/vnd.recordare.musicxml+xml"
  | MusicxmlZip => "application/vnd.recordare.musicxml"
  | NeoGeoPocketColorRom => "application/x-neo-geo-pocket-rom"
  | NeoGeoPocketRom => "application/x-neo-geo-pocket-rom"
  | NewExecutable => "application/x-ms-ne-executable"
  | NikonElectronicFile => "image/x-nikon-nef"
  | Nintendo64Rom => "application/x-n64-rom"
  | NintendoDsRom => "application/x-nintendo-ds-rom"
  | NintendoEntertainmentSystemRom => "application/x-nintendo-nes-rom"
  | NintendoSwitchExecutable => "application/x-nintendo-switch-executable"
  | NintendoSwitchPackage => "application/x-nintendo-switch-package"
  | NintendoSwitchRom => "application/x-nintendo-switch-rom"
  | OfficeOpenXmlDocument => "application/vnd.openxmlformats-officedocument.wordprocessingml.document"
  | OfficeOpenXmlDrawing => "application/vnd.ms-visio.drawing.main+xml"
  | OfficeOpenXmlPresentation => "application/vnd.openxmlformats-officedocument.presentationml.presentation"
  | OfficeOpenXmlSpreadsheet => "application/vnd.openxmlformats-officedocument.spreadsheetml.sheet"
  | OggFlac => "audio/ogg"
  | OggMedia => "video/ogg"
  | OggMultiplexedMedia => "application/ogg"
  | OggOpus => "audio/opus"
  | OggSpeex => "audio/ogg"
  | OggTheora => "video/ogg"
  | OggVorbis => "audio/ogg"
  | OlympusRawFormat => "image/x-olympus-orf"
  | OpendocumentDatabase => "application/vnd.oasis.opendocument.database"
  | OpendocumentFormula => "application/vnd.oasis.opendocument.formula"
  | OpendocumentFormulaTemplate => "application/vnd.oasis.opendocument.formula-template"
  | OpendocumentGraphics => "application/vnd.oasis.opendocument.graphics"
  | OpendocumentGraphicsTemplate => "application/vnd.oasis.opendocument.graphics-template"
  | OpendocumentPresentation => "application/vnd.oasis.opendocument.presentation"
  | OpendocumentPresentationTemplate => "application/vnd.oasis.opendocument.presentation-template"
  | OpendocumentSpreadsheet => "application/vnd.oasis.opendocument.spreadsheet"
  | OpendocumentSpreadsheetTemplate => "application/vnd.oasis.opendocument.spreadsheet-template"
  | OpendocumentText => "application/vnd.oasis.opendocument.text"
  | OpendocumentTextMaster => "application/vnd.oasis.opendocument.text-master"
  | OpendocumentTextMasterTemplate => "application/vnd.oasis.opendocument.text-master-template"
  | OpendocumentTextTemplate => "application/vnd.oasis.opendocument.text-template"
  | Openexr => "image/x-exr"
  | Opennurbs => "model/x-3dm"
  | Openraster => "image/openraster"
  | Opentype => "font/otf"
  | Openxps => "application/oxps"
  | OptimizedDalvikExecutable => "application/vnd.android.dey"
  | PanasonicRaw => "image/x-panasonic-rw2"
  | PcapDump => "application/vnd.tcpdump.pcap"
  | PcapNextGenerationDump => "application/x-pcapng"
  | PemCertificate => "application/x-pem-file"
  | PemCertificateSigningRequest => "application/x-pem-file"
  | PemPrivateKey => "application/x-pem-file"
  | PemPublicKey => "application/x-pem-file"
  | PerlScript => "text/x-perl"
  | PersonalStorageTable => "application/vnd.ms-outlook"
  | PgpMessage => "application/pgp"
  | PgpPrivateKeyBlock => "application/pgp-keys"
  | PgpPublicKeyBlock => "application/pgp-keys"
  | PgpSignature => "application/pgp-signature"
  | PgpSignedMessage => "application/pgp"
  | PictureExchange => "image/x-pcx"
  | PlainText => "text/plain"
  | Pmarc => "application/x-lzh-compressed"
  | PolygonAscii => "model/x-ply-ascii"
  | PolygonBinary => "model/x-ply-binary"
  | PortableArbitraryMap => "image/x-portable-arbitrarymap"
  | PortableBitmap => "image/x-portable-bitmap"
  | PortableDocumentFormat => "application/pdf"
  | PortableExecutable => "application/vnd.microsoft.portable-executable"
  | PortableFloatmap => "image/x-pfm"
  | PortableGraymap => "image/x-portable-graymap"
  | PortableNetworkGraphics => "image/png"
  | PortablePixmap => "image/x-portable-pixmap"
  | Postscript => "application/postscript"
  | PythonScript => "text/x-script.python"
  | QemuCopyOnWrite => "application/x-qemu-disk"
  | QualcommPurevoice => "audio/qcelp"
  | QuiteOkAudio => "audio/x-qoa"
  | QuiteOkImage => "image/x-qoi"
  | RadianceHdr => "image/vnd.radiance"
  | Realaudio => "audio/x-pn-realaudio"
  | ReallySimpleSyndication => "application/rss+xml"
  | Realmedia => "application/vnd.rn-realmedia"
  | Realvideo => "video/x-pn-realvideo"
  | RedHatPackageManager => "application/x-rpm"
  | RichTextFormat => "application/rtf"
  | RoshalArchive => "application/vnd.rar"
  | RubyScript => "text/x-ruby"
  | Rzip => "application/x-rzip"
  | ScalableVectorGraphics => "image/svg+xml"
  | ScreamTracker3Module => "audio/x-s3m"
  | SegaMasterSystemRom => "application/x-sms-rom"
  | Seqbox => "application/x-sbx"
  | SevenZip => "application/x-7z-compressed"
  | Shapefile => "application/x-esri-shape"
  | ShellScript => "text/x-shellscript"
  | ShoutcastPlaylist => "audio/x-scpls"
  | SiliconGraphicsImage => "image/x-sgi"
  | SiliconGraphicsMovie => "video/x-sgi-movie"
  | SimpleObjectAccessProtocol => "application/soap+xml"
  | Sketch => "image/x-sketch"
  | Sketch43 => "image/x-sketch"
  | Sketchup => "application/vnd.sketchup.skp"
  | SmallWebFormat => "application/x-shockwave-flash"
  | Snappy => "application/x-snappy-framed"
  | SolidworksAssembly => "model/x-sldasm"
  | SolidworksDrawing => "model/x-slddrw"
  | SolidworksPart => "model/x-sldprt"
  | SonyDsdStreamFile => "audio/x-dsf"
  | SonyMovie => "video/quicktime"
  | Soundfont2 => "audio/x-soundfont"
  | SpaceclaimDocument => "model/x-scdoc"
  | Sqlite3 => "application/vnd.sqlite3"
  | Squashfs => "application/x-squashfs"
  | StandardForTheExchangeOfProductModelData => "model/step"
  | Starcalc => "application/vnd.stardivision.calc"
  | Starchart => "application/vnd.stardivision.chart"
  | Stardraw => "application/vnd.stardivision.draw"
  | Starimpress => "application/vnd.stardivision.impress"
  | Starmath => "application/vnd.stardivision.math"
  | Starwriter => "application/vnd.stardivision.writer"
  | StereolithographyAscii => "model/x-stl-ascii"
  | Stuffit => "application/x-stuffit"
  | StuffitX => "application/x-stuffitx"
  | SubripText => "application/x-subrip"
  | SunXmlCalc => "application/vnd.sun.xml.calc"
  | SunXmlCalcTemplate => "application/vnd.sun.xml.calc.template"
  | SunXmlDraw => "application/vnd.sun.xml.draw"
  | SunXmlDrawTemplate => "application/vnd.sun.xml.draw.template"
  | SunXmlImpress => "application/vnd.sun.xml.impress"
  | SunXmlImpressTemplate => "application/vnd.sun.xml.impress.template"
  | SunXmlMath => "application/vnd.sun.xml.math"
  | SunXmlWriter => "application/vnd.sun.xml.writer"
  | SunXmlWriterGlobal => "application/vnd.sun.xml.writer.global"
  | SunXmlWriterTemplate => "application/vnd.sun.xml.writer.template"
  | TagImageFileFormat => "image/tiff"
  | TapeArchive => "application/x-tar"
  | Tasty => "application/x-tasty"
  | ThirdGenerationPartnershipProject => "video/3gpp"
  | ThirdGenerationPartnershipProject2 => "video/3gpp2"
  | ThreeDimensionalManufacturingFormat => "application/vnd.ms-package.3dmanufacturing-3dmodel+xml"
  | ThreeDimensionalStudio => "application/x-3ds"
  | ThreeDimensionalStudioMax => "application/x-max"
  | TiledMapXml => "application/x-tmx+xml"
  | TiledTilesetXml => "application/x-tsx+xml"
  | TimedTextMarkupLanguage => "application/ttml+xml"
  | ToolCommandLanguageScript => "text/x-tcl"
  | TrainingCenterXml => "application/vnd.garmin.tcx+xml"
  | Truetype => "font/ttf"
  | TruetypeCollection => "font/collection"
  | UltimateSoundtrackerModule => "audio/x-mod"
  | UniformOfficeFormatPresentation => "application/vnd.uof.presentation"
  | UniformOfficeFormatSpreadsheet => "application/vnd.uof.spreadsheet"
  | UniformOfficeFormatText => "application/vnd.uof.text"
  | Universal3d => "model/u3d"
  | UniversalSceneDescriptionAscii => "model/x-usd"
  | UniversalSceneDescriptionBinary => "model/x-usd"
  | UniversalSceneDescriptionZip => "model/vnd.usdz+zip"
  | UniversalSubtitleFormat => "application/x-usf"
  | UnixArchiver => "application/x-archive"
  | UnixCompress => "application/x-compress"
  | Vcalendar => "text/calendar"
  | Vcard => "text/vcard"
  | VirtualMachineDisk => "application/x-vmdk"
  | VirtualRealityModelingLanguage => "model/vrml"
  | VirtualboxVirtualDiskImage => "application/x-virtualbox-vdi"
  | WaveformAudio => "audio/vnd.wave"
  | Wavpack => "audio/wavpack"
  | WebApplicationArchive => "application/java-archive"
  | WebOpenFontFormat => "font/woff"
  | WebOpenFontFormat2 => "font/woff2"
  | WebVideoTextTracks => "text/vtt"
  | WebassemblyBinary => "application/wasm"
  | WebassemblyText => "text/wasm"
  | Webm => "video/webm"
  | Webp => "image/webp"
  | WindowsAnimatedCursor => "application/x-navi-animation"
  | WindowsAppBundle => "application/vnd.ms-appx.bundle"
  | WindowsAppPackage => "application/vnd.ms-appx"
  | WindowsBitmap => "image/bmp"
  | WindowsCursor => "image/x-icon"
  | WindowsIcon => "image/x-icon"
  | WindowsImagingFormat => "application/x-ms-wim"
  | WindowsMediaAudio => "audio/x-ms-wma"
  | WindowsMediaPlaylist => "application/vnd.ms-wpl"
  | WindowsMediaVideo => "video/x-ms-wmv"
  | WindowsMetafile => "image/wmf"
  | WindowsRecordedTvShow => "video/x-wtv"
  | WindowsShortcut => "application/x-ms-shortcut"
  | WordperfectDocument => "application/vnd.wordperfect"
  | WordperfectGraphics => "application/vnd.wordperfect"
  | WordperfectMacro => "application/vnd.wordperfect"
  | WordperfectPresentations => "application/vnd.wordperfect"
  | XPixmap => "image/x-xpixmap"
  | Xap => "application/x-silverlight-app"
  | Xbox360Executable => "application/x-xbox360-executable"
  | XboxExecutable => "application/x-xbox-executable"
  | XmlLocalizationInterchangeFileFormat => "application/xliff+xml"
  | XmlShareablePlaylistFormat => "application/xspf+xml"
  | Xpinstall => "application/x-xpinstall"
  | Xz => "application/x-xz"
  | Zip => "application/zip"
  | Zoo => "application/x-zoo"
  | Zpaq => "application/x-zpaq"
  | Zstandard => "application/zstd"
  end.

(** macros.rs lines 120-126: FileFormat::extension *)
Definition extension (f : FileFormat) : string :=
  match f with
  | Abiword => "abw"
  | AbiwordTemplate => "awt"
  | Ace => "ace"
  | ActionsMediaVideo => "amv"
  | Activemime => "mso"
  | AdaptableScalableTextureCompression => "astc"
  | AdaptiveMultiRate => "amr"
  | AdditiveManufacturingFormat => "amf"
  | AdobeIllustratorArtwork => "ai"
  | AdobeIndesignDocument => "indd"
  | AdobeIntegratedRuntime => "air"
  | AdobePhotoshopDocument => "psd"
  | AdvancedAudioCoding => "aac"
  | AdvancedStreamRedirector => "asx"
  | AdvancedSystemsFormat => "asf"
  | AgeEncryption => "age"
  | Alz => "alz"
  | AmigaDiskFile => "adf"
  | AndroidAppBundle => "aab"
  | AndroidBinaryXml => "xml"
  | AndroidPackage => "apk"
  | AndroidResourceStorageContainer => "arsc"
  | AnimatedPortableNetworkGraphics => "apng"
  | ApacheArrowColumnar => "arrow"
  | ApacheAvro => "avro"
  | ApacheParquet => "parquet"
  | Appimage => "AppImage"
  | AppleDiskImage => "dmg"
  | AppleIconImage => "icns"
  | AppleItunesAudio => "m4a"
  | AppleItunesAudiobook => "m4b"
  | AppleItunesProtectedAudio => "m4p"
  | AppleItunesVideo => "m4v"
  | AppleQuicktime => "mov"
  | ArbitraryBinaryData => "bin"
  | ArchivedByRobertJung => "arj"
  | Atari7800Rom => "a78"
  | Atom => "atom"
  | Au => "au"
  | AudioCodec3 => "ac3"
  | AudioInterchangeFileFormat => "aiff"
  | AudioVideoInterleave => "avi"
  | AudioVisualResearch => "avr"
  | AutocadDrawing => "dwg"
  | Autodesk123d => "123dx"
  | AutodeskAlias => "wire"
  | AutodeskAnimator => "fli"
  | AutodeskAnimatorPro => "flc"
  | AutodeskInventorAssembly => "iam"
  | AutodeskInventorDrawing => "idw"
  | AutodeskInventorPart => "ipt"
  | AutodeskInventorPresentation => "ipn"
  | Av1ImageFileFormat => "avif"
  | Av1ImageFileFormatSequence => "avifs"
  | BdavMpeg2TransportStream => "m2ts"
  | BetterPortableGraphics => "bpg"
  | Bittorrent => "torrent"
  | Blender => "blend"
  | BmfontAscii => "fnt"
  | BmfontBinary => "fnt"
  | BroadBandEbook => "lrf"
  | Bzip => "bz"
  | Bzip2 => "bz2"
  | Bzip3 => "bz3"
  | Cabinet => "cab"
  | CanonRaw => "crw"
  | CanonRaw2 => "cr2"
  | CanonRaw3 => "cr3"
  | CdAudio => "cda"
  | Cinema4d => "c4d"
  | Cineon => "cin"
  | CircuitDiagramDocument => "cddx"
  | ClojureScript => "clj"
  | CollaborativeDesignActivity => "dae"
  | Commodore64Cartridge => "crt"
  | Commodore64Program => "prg"
  | CommonObjectFileFormat => "coff"
  | CompoundFileBinary => "cfb"
  | CorelPresentations => "shw"
  | CorelPresentations7 => "shw"
  | Cpio => "cpio"
  | CreativeVoice => "voc"
  | DalvikExecutable => "dex"
  | DebianPackage => "deb"
  | DerCertificate => "der"
  | DesignWebFormat => "dwf"
  | DesignWebFormatXps => "dwfx"
  | DigitalImagingAndCommunicationsInMedicine => "dcm"
  | DigitalPictureExchange => "dpx"
  | Djvu => "djvu"
  | DrawingExchangeFormatAscii => "dxf"
  | DrawingExchangeFormatBinary => "dxf"
  | Drawio => "drawio"
  | DynamicLinkLibrary => "dll"
  | EightBitSampledVoice => "8svx"
  | ElectronicPublication => "epub"
  | EmbeddedOpentype => "eot"
  | Empty => "empty"
  | EncapsulatedPostscript => "eps"
  | EnhancedMetafile => "emf"
  | EnterpriseApplicationArchive => "ear"
  | ExecutableAndLinkableFormat => "elf"
  | ExperimentalComputingFacility => "xcf"
  | Extensible3d => "x3d"
  | ExtensibleArchive => "xar"
  | ExtensibleBinaryMetaLanguage => "ebml"
  | ExtensibleMarkupLanguage => "xml"
  | ExtensibleStylesheetLanguageTransformations => "xsl"
  | Farbfeld => "ff"
  | Fasttracker2ExtendedModule => "xm"
  | Fictionbook => "fb2"
  | FictionbookZip => "fbz"
  | FigletFont => "flf"
  | FigmaDesign => "fig"
  | Filmbox => "fbx"
  | FlashCs5Project => "fla"
  | FlashMp4Audio => "f4a"
  | FlashMp4Audiobook => "f4b"
  | FlashMp4ProtectedVideo => "f4p"
  | FlashMp4Video => "f4v"
  | FlashProject => "fla"
  | FlashVideo => "flv"
  | FlexibleAndInteroperableDataTransfer => "fit"
  | FlexibleImageTransportSystem => "fits"
  | FreeLosslessAudioCodec => "flac"
  | FreeLosslessImageFormat => "flif"
  | FujifilmRaw => "raf"
  | Fusion360 => "f3d"
  | GameBoyAdvanceRom => "gba"
  | GameBoyColorRom => "gbc"
  | GameBoyRom => "gb"
  | GameGearRom => "gg"
  | GeographyMarkupLanguage => "gml"
  | GettextMachineObject => "mo"
  | GlTransmissionFormatBinary => "glb"
  | Glyphs => "glyphs"
  | GoogleChromeExtension => "crx"
  | GoogleDraco => "drc"
  | GpsExchangeFormat => "gpx"
  | GraphicsInterchangeFormat => "gif"
  | Gzip => "gz"
  | HighEfficiencyImageCoding => "heic"
  | HighEfficiencyImageCodingSequence => "heics"
  | HighEfficiencyImageFileFormat => "heif"
  | HighEfficiencyImageFileFormatSequence => "heifs"
  | HypertextMarkupLanguage => "html"
  | Icalendar => "ics"
  | IccProfile => "icc"
  | Id3v2 => "id3"
  | ImpulseTrackerModule => "it"
  | IndesignMarkupLanguage => "idml"
  | InitialGraphicsExchangeSpecification => "iges"
  | InterQuakeExport => "iqe"
  | InterQuakeModel => "iqm"
  | IosAppStorePackage => "ipa"
  | Iso9660 => "iso"
  | JavaArchive => "jar"
  | JavaClass => "class"
  | JavaKeystore => "jks"
  | JointPhotographicExpertsGroup => "jpg"
  | Jpeg2000Codestream => "j2c"
  | Jpeg2000Part1 => "jp2"
  | Jpeg2000Part2 => "jpx"
  | Jpeg2000Part3 => "mj2"
  | Jpeg2000Part6 => "jpm"
  | JpegExtendedRange => "jxr"
  | JpegLs => "jls"
  | JpegNetworkGraphics => "jng"
  | JpegXl => "jxl"
  | JsonFeed => "json"
  | KeyholeMarkupLanguage => "kml"
  | KeyholeMarkupLanguageZip => "kmz"
  | KhronosTexture => "ktx"
  | KhronosTexture2 => "ktx2"
  | Larc => "lzs"
  | Latex => "tex"
  | LempelZivFiniteStateEntropy => "lzfse"
  | LempelZivMarkovChainAlgorithm => "lzma"
  | Lha => "lzh"
  | LinearExecutable => "exe"
  | LlvmBitcode => "bc"
  | LongRangeZip => "lrz"
  | LuaBytecode => "luac"
  | LuaScript => "lua"
  | Lz4 => "lz4"
  | Lzip => "lz"
  | Lzop => "lzo"
  | MachO => "mach"
  | MacosAlias => "alias"
  | Magicavoxel => "vox"
  | MagickImageFileFormat => "miff"
  | MaterialExchangeFormat => "mxf"
  | MathematicalMarkupLanguage => "mathml"
  | Matroska3dVideo => "mk3d"
  | MatroskaAudio => "mka"
  | MatroskaSubtitles => "mks"
  | MatroskaVideo => "mkv"
  | MayaAscii => "ma"
  | MayaBinary => "mb"
  | MegaDriveRom => "md"
  | MetaInformationEncapsulation => "mie"
  | MicrosoftAccess2007Database => "accdb"
  | MicrosoftAccessDatabase => "mdb"
  | MicrosoftCompiledHtmlHelp => "chm"
  | MicrosoftDigitalVideoRecording => "dvr-ms"
  | MicrosoftDirectdrawSurface => "dds"
  | MicrosoftExcelSpreadsheet => "xls"
  | MicrosoftPowerpointPresentation => "ppt"
  | MicrosoftProjectPlan => "mpp"
  | MicrosoftPublisherDocument => "pub"
  | MicrosoftReader => "lit"
  | MicrosoftSoftwareInstaller => "msi"
  | MicrosoftVirtualHardDisk => "vhd"
  | MicrosoftVirtualHardDisk2 => "vhdx"
  | MicrosoftVisioDrawing => "vsd"
  | MicrosoftVisualStudioExtension => "vsix"
  | MicrosoftVisualStudioSolution => "sln"
  | MicrosoftWordDocument => "doc"
  | MicrosoftWorks6Spreadsheet => "xlr"
  | MicrosoftWorksDatabase => "wdb"
  | MicrosoftWorksSpreadsheet => "wks"
  | MicrosoftWorksWordProcessor => "wps"
  | MicrosoftWrite => "wri"
  | Mobipocket => "mobi"
  | Model3dAscii => "a3d"
  | Model3dBinary => "m3d"
  | MonkeysAudio => "ape"
  | MozillaArchive => "mar"
  | Mp3Url => "m3u"
  | Mpeg12AudioLayer2 => "mp2"
  | Mpeg12AudioLayer3 => "mp3"
  | Mpeg12Video => "mpg"
  | Mpeg2TransportStream => "ts"
  | Mpeg4Part14 => "mp4"
  | Mpeg4Part14Audio => "mp4"
  | Mpeg4Part14Subtitles => "mp4"
  | Mpeg4Part14Video => "mp4"
  | MpegDashMpd => "mpd"
  | MsDosBatch => "bat"
  | MsDosExecutable => "exe"
  | Mtv => "mtv"
  | MultiLayerArchive => "mla"
  | MultipleImageNetworkGraphics => "mng"
  | Musepack => "mpc"
  | MusicalInstrumentDigitalInterface => "mid"
  | Musicxml => "musicxml"
  | MusicxmlZip => "mxl"
  | NeoGeoPocketColorRom => "ngc"
  | NeoGeoPocketRom => "ngp"
  | NewExecutable => "exe"
  | NikonElectronicFile => "nef"
  | Nintendo64Rom => "z64"
  | NintendoDsRom => "nds"
  | NintendoEntertainmentSystemRom => "nes"
  | NintendoSwitchExecutable => "nso"
  | NintendoSwitchPackage => "nsp"
  | NintendoSwitchRom => "xci"
  | OfficeOpenXmlDocument => "docx"
  | OfficeOpenXmlDrawing => "vsdx"
  | OfficeOpenXmlPresentation => "pptx"
  | OfficeOpenXmlSpreadsheet => "xlsx"
  | OggFlac => "oga"
  | OggMedia => "ogm"
  | OggMultiplexedMedia => "ogx"
  | OggOpus => "opus"
  | OggSpeex => "spx"
  | OggTheora => "ogv"
  | OggVorbis => "ogg"
  | OlympusRawFormat => "orf"
  | OpendocumentDatabase => "odb"
  | OpendocumentFormula => "odf"
  | OpendocumentFormulaTemplate => "otf"
  | OpendocumentGraphics => "odg"
  | OpendocumentGraphicsTemplate => "otg"
  | OpendocumentPresentation => "odp"
  | OpendocumentPresentationTemplate => "otp"
  | OpendocumentSpreadsheet => "ods"
  | OpendocumentSpreadsheetTemplate => "ots"
  | OpendocumentText => "odt"
  | OpendocumentTextMaster => "odm"
  | OpendocumentTextMasterTemplate => "otm"
  | OpendocumentTextTemplate => "ott"
  | Openexr => "exr"
  | Opennurbs => "3dm"
  | Openraster => "ora"
  | Opentype => "otf"
  | Openxps => "xps"
  | OptimizedDalvikExecutable => "dey"
  | PanasonicRaw => "rw2"
  | PcapDump => "pcap"
  | PcapNextGenerationDump => "pcapng"
  | PemCertificate => "crt"
  | PemCertificateSigningRequest => "csr"
  | PemPrivateKey => "key"
  | PemPublicKey => "pub"
  | PerlScript => "pl"
  | PersonalStorageTable => "pst"
  | PgpMessage => "asc"
  | PgpPrivateKeyBlock => "asc"
  | PgpPublicKeyBlock => "asc"
  | PgpSignature => "asc"
  | PgpSignedMessage => "asc"
  | PictureExchange => "pcx"
  | PlainText => "txt"
  | Pmarc => "pma"
  | PolygonAscii => "ply"
  | PolygonBinary => "ply"
  | PortableArbitraryMap => "pam"
  | PortableBitmap => "pbm"
  | PortableDocumentFormat => "pdf"
  | PortableExecutable => "exe"
  | PortableFloatmap => "pfm"
  | PortableGraymap => "pgm"
  | PortableNetworkGraphics => "png"
  | PortablePixmap => "ppm"
  | Postscript => "ps"
  | PythonScript => "py"
  | QemuCopyOnWrite => "qcow"
  | QualcommPurevoice => "qcp"
  | QuiteOkAudio => "qoa"
  | QuiteOkImage => "qoi"
  | RadianceHdr => "hdr"
  | Realaudio => "ra"
  | ReallySimpleSyndication => "rss"
  | Realmedia => "rm"
  | Realvideo => "rv"
  | RedHatPackageManager => "rpm"
  | RichTextFormat => "rtf"
  | RoshalArchive => "rar"
  | RubyScript => "rb"
  | Rzip => "rz"
  | ScalableVectorGraphics => "svg"
  | ScreamTracker3Module => "s3m"
  | SegaMasterSystemRom => "sms"
  | Seqbox => "sbx"
  | SevenZip => "7z"
  | Shapefile => "shp"
  | ShellScript => "sh"
  | ShoutcastPlaylist => "pls"
  | SiliconGraphicsImage => "sgi"
  | SiliconGraphicsMovie => "sgi"
  | SimpleObjectAccessProtocol => "soap"
  | Sketch => "sketch"
  | Sketch43 => "sketch"
  | Sketchup => "skp"
  | SmallWebFormat => "swf"
  | Snappy => "sz"
  | SolidworksAssembly => "sldasm"
  | SolidworksDrawing => "slddrw"
  | SolidworksPart => "sldprt"
  | SonyDsdStreamFile => "dsf"
  | SonyMovie => "mqv"
  | Soundfont2 => "sf2"
  | SpaceclaimDocument => "scdoc"
  | Sqlite3 => "sqlite"
  | Squashfs => "sqsh"
  | StandardForTheExchangeOfProductModelData => "step"
  | Starcalc => "sdc"
  | Starchart => "sds"
  | Stardraw => "sda"
  | Starimpress => "sdd"
  | Starmath => "smf"
  | Starwriter => "sdw"
  | StereolithographyAscii => "stl"
  | Stuffit => "sit"
  | StuffitX => "sitx"
  | SubripText => "srt"
  | SunXmlCalc => "sxc"
  | SunXmlCalcTemplate => "stc"
  | SunXmlDraw => "sxd"
  | SunXmlDrawTemplate => "std"
  | SunXmlImpress => "sxi"
  | SunXmlImpressTemplate => "sti"
  | SunXmlMath => "sxm"
  | SunXmlWriter => "sxw"
  | SunXmlWriterGlobal => "sgw"
  | SunXmlWriterTemplate => "stw"
  | TagImageFileFormat => "tiff"
  | TapeArchive => "tar"
  | Tasty => "tasty"
  | ThirdGenerationPartnershipProject => "3gp"
  | ThirdGenerationPartnershipProject2 => "3g2"
  | ThreeDimensionalManufacturingFormat => "3mf"
  | ThreeDimensionalStudio => "3ds"
  | ThreeDimensionalStudioMax => "max"
  | TiledMapXml => "tmx"
  | TiledTilesetXml => "tsx"
  | TimedTextMarkupLanguage => "ttml"
  | ToolCommandLanguageScript => "tcl"
  | TrainingCenterXml => "tcx"
  | Truetype => "ttf"
  | TruetypeCollection => "ttc"
  | UltimateSoundtrackerModule => "mod"
  | UniformOfficeFormatPresentation => "uop"
  | UniformOfficeFormatSpreadsheet => "uos"
  | UniformOfficeFormatText => "uot"
  | Universal3d => "u3d"
  | UniversalSceneDescriptionAscii => "usda"
  | UniversalSceneDescriptionBinary => "usdc"
  | UniversalSceneDescriptionZip => "usdz"
  | UniversalSubtitleFormat => "usf"
  | UnixArchiver => "a"
  | UnixCompress => "Z"
  | Vcalendar => "vcs"
  | Vcard => "vcf"
  | VirtualMachineDisk => "vmdk"
  | VirtualRealityModelingLanguage => "wrl"
  | VirtualboxVirtualDiskImage => "vdi"
  | WaveformAudio => "wav"
  | Wavpack => "wv"
  | WebApplicationArchive => "war"
  | WebOpenFontFormat => "woff"
  | WebOpenFontFormat2 => "woff2"
  | WebVideoTextTracks => "vtt"
  | WebassemblyBinary => "wasm"
  | WebassemblyText => "wat"
  | Webm => "webm"
  | Webp => "webp"
  | WindowsAnimatedCursor => "ani"
  | WindowsAppBundle => "appxbundle"
  | WindowsAppPackage => "appx"
  | WindowsBitmap => "bmp"
  | WindowsCursor => "cur"
  | WindowsIcon => "ico"
  | WindowsImagingFormat => "wim"
  | WindowsMediaAudio => "wma"
  | WindowsMediaPlaylist => "wpl"
  | WindowsMediaVideo => "wmv"
  | WindowsMetafile => "wmf"
  | WindowsRecordedTvShow => "wtv"
  | WindowsShortcut => "lnk"
  | WordperfectDocument => "wpd"
  | WordperfectGraphics => "wpg"
  | WordperfectMacro => "wpm"
  | WordperfectPresentations => "shw"
  | XPixmap => "xpm"
  | Xap => "xap"
  | Xbox360Executable => "xex"
  | XboxExecutable => "xbe"
  | XmlLocalizationInterchangeFileFormat => "xlf"
  | XmlShareablePlaylistFormat => "xspf"
  | Xpinstall => "xpi"
  | Xz => "xz"
  | Zip => "zip"
  | Zoo => "zoo"
  | Zpaq => "zpaq"
  | Zstandard => "zst"
  end.

(** macros.rs lines 140-146: FileFormat::kind *)
Definition kind (f : FileFormat) : Kind :=
  match f with
  | Abiword => KDocument
  | AbiwordTemplate => KDocument
  | Ace => KArchive
  | ActionsMediaVideo => KVideo
  | Activemime => KOther
  | AdaptableScalableTextureCompression => KImage
  | AdaptiveMultiRate => KAudio
  | AdditiveManufacturingFormat => KModel
  | AdobeIllustratorArtwork => KImage
  | AdobeIndesignDocument => KDocument
  | AdobeIntegratedRuntime => KPackage
  | AdobePhotoshopDocument => KImage
  | AdvancedAudioCoding => KAudio
  | AdvancedStreamRedirector => KPlaylist
  | AdvancedSystemsFormat => KOther
  | AgeEncryption => KOther
  | Alz => KArchive
  | AmigaDiskFile => KDisk
  | AndroidAppBundle => KPackage
  | AndroidBinaryXml => KMetadata
  | AndroidPackage => KPackage
  | AndroidResourceStorageContainer => KOther
  | AnimatedPortableNetworkGraphics => KImage
  | ApacheArrowColumnar => KOther
  | ApacheAvro => KOther
  | ApacheParquet => KOther
  | Appimage => KPackage
  | AppleDiskImage => KDisk
  | AppleIconImage => KImage
  | AppleItunesAudio => KAudio
  | AppleItunesAudiobook => KAudio
  | AppleItunesProtectedAudio => KAudio
  | AppleItunesVideo => KVideo
  | AppleQuicktime => KVideo
  | ArbitraryBinaryData => KOther
  | ArchivedByRobertJung => KArchive
  | Atari7800Rom => KRom
  | Atom => KOther
  | Au => KAudio
  | AudioCodec3 => KAudio
  | AudioInterchangeFileFormat => KAudio
  | AudioVideoInterleave => KVideo
  | AudioVisualResearch => KAudio
  | AutocadDrawing => KModel
  | Autodesk123d => KModel
  | AutodeskAlias => KModel
  | AutodeskAnimator => KVideo
  | AutodeskAnimatorPro => KVideo
  | AutodeskInventorAssembly => KModel
  | AutodeskInventorDrawing => KModel
  | AutodeskInventorPart => KModel
  | AutodeskInventorPresentation => KModel
  | Av1ImageFileFormat => KImage
  | Av1ImageFileFormatSequence => KImage
  | BdavMpeg2TransportStream => KVideo
  | BetterPortableGraphics => KImage
  | Bittorrent => KMetadata
  | Blender => KModel
  | BmfontAscii => KFont
  | BmfontBinary => KFont
  | BroadBandEbook => KEbook
  | Bzip => KCompressed
  | Bzip2 => KCompressed
  | Bzip3 => KCompressed
  | Cabinet => KArchive
  | CanonRaw => KImage
  | CanonRaw2 => KImage
  | CanonRaw3 => KImage
  | CdAudio => KMetadata
  | Cinema4d => KModel
  | Cineon => KImage
  | CircuitDiagramDocument => KDiagram
  | ClojureScript => KOther
  | CollaborativeDesignActivity => KModel
  | Commodore64Cartridge => KRom
  | Commodore64Program => KExecutable
  | CommonObjectFileFormat => KExecutable
  | CompoundFileBinary => KOther
  | CorelPresentations => KPresentation
  | CorelPresentations7 => KPresentation
  | Cpio => KArchive
  | CreativeVoice => KAudio
  | DalvikExecutable => KExecutable
  | DebianPackage => KPackage
  | DerCertificate => KOther
  | DesignWebFormat => KModel
  | DesignWebFormatXps => KModel
  | DigitalImagingAndCommunicationsInMedicine => KOther
  | DigitalPictureExchange => KImage
  | Djvu => KDocument
  | DrawingExchangeFormatAscii => KModel
  | DrawingExchangeFormatBinary => KModel
  | Drawio => KDiagram
  | DynamicLinkLibrary => KExecutable
  | EightBitSampledVoice => KAudio
  | ElectronicPublication => KEbook
  | EmbeddedOpentype => KFont
  | Empty => KOther
  | EncapsulatedPostscript => KImage
  | EnhancedMetafile => KImage
  | EnterpriseApplicationArchive => KPackage
  | ExecutableAndLinkableFormat => KExecutable
  | ExperimentalComputingFacility => KImage
  | Extensible3d => KModel
  | ExtensibleArchive => KArchive
  | ExtensibleBinaryMetaLanguage => KOther
  | ExtensibleMarkupLanguage => KOther
  | ExtensibleStylesheetLanguageTransformations => KOther
  | Farbfeld => KImage
  | Fasttracker2ExtendedModule => KAudio
  | Fictionbook => KEbook
  | FictionbookZip => KEbook
  | FigletFont => KFont
  | FigmaDesign => KImage
  | Filmbox => KModel
  | FlashCs5Project => KOther
  | FlashMp4Audio => KAudio
  | FlashMp4Audiobook => KAudio
  | FlashMp4ProtectedVideo => KVideo
  | FlashMp4Video => KVideo
  | FlashProject => KOther
  | FlashVideo => KVideo
  | FlexibleAndInteroperableDataTransfer => KGeospatial
  | FlexibleImageTransportSystem => KOther
  | FreeLosslessAudioCodec => KAudio
  | FreeLosslessImageFormat => KImage
  | FujifilmRaw => KImage
  | Fusion360 => KModel
  | GameBoyAdvanceRom => KRom
  | GameBoyColorRom => KRom
  | GameBoyRom => KRom
  | GameGearRom => KRom
  | GeographyMarkupLanguage => KGeospatial
  | GettextMachineObject => KOther
  | GlTransmissionFormatBinary => KModel
  | Glyphs => KFont
  | GoogleChromeExtension => KPackage
  | GoogleDraco => KModel
  | GpsExchangeFormat => KGeospatial
  | GraphicsInterchangeFormat => KImage
  | Gzip => KCompressed
  | HighEfficiencyImageCoding => KImage
  | HighEfficiencyImageCodingSequence => KImage
  | HighEfficiencyImageFileFormat => KImage
  | HighEfficiencyImageFileFormatSequence => KImage
  | HypertextMarkupLanguage => KOther
  | Icalendar => KOther
  | IccProfile => KOther
  | Id3v2 => KMetadata
  | ImpulseTrackerModule => KAudio
  | IndesignMarkupLanguage => KDocument
  | InitialGraphicsExchangeSpecification => KModel
  | InterQuakeExport => KModel
  | InterQuakeModel => KModel
  | IosAppStorePackage => KPackage
  | Iso9660 => KDisk
  | JavaArchive => KPackage
  | JavaClass => KExecutable
  | JavaKeystore => KOther
  | JointPhotographicExpertsGroup => KImage
  | Jpeg2000Codestream => KImage
  | Jpeg2000Part1 => KImage
  | Jpeg2000Part2 => KImage
  | Jpeg2000Part3 => KVideo
  | Jpeg2000Part6 => KImage
  | JpegExtendedRange => KImage
  | JpegLs => KImage
  | JpegNetworkGraphics => KImage
  | JpegXl => KImage
  | JsonFeed => KOther
  | KeyholeMarkupLanguage => KGeospatial
  | KeyholeMarkupLanguageZip => KGeospatial
  | KhronosTexture => KImage
  | KhronosTexture2 => KImage
  | Larc => KArchive
  | Latex => KDocument
  | LempelZivFiniteStateEntropy => KCompressed
  | LempelZivMarkovChainAlgorithm => KCompressed
  | Lha => KArchive
  | LinearExecutable => KExecutable
  | LlvmBitcode => KExecutable
  | LongRangeZip => KCompressed
  | LuaBytecode => KExecutable
  | LuaScript => KOther
  | Lz4 => KCompressed
  | Lzip => KCompressed
  | Lzop => KCompressed
  | MachO => KExecutable
  | MacosAlias => KMetadata
  | Magicavoxel => KModel
  | MagickImageFileFormat => KImage
  | MaterialExchangeFormat => KVideo
  | MathematicalMarkupLanguage => KFormula
  | Matroska3dVideo => KVideo
  | MatroskaAudio => KAudio
  | MatroskaSubtitles => KSubtitle
  | MatroskaVideo => KVideo
  | MayaAscii => KModel
  | MayaBinary => KModel
  | MegaDriveRom => KRom
  | MetaInformationEncapsulation => KMetadata
  | MicrosoftAccess2007Database => KDatabase
  | MicrosoftAccessDatabase => KDatabase
  | MicrosoftCompiledHtmlHelp => KOther
  | MicrosoftDigitalVideoRecording => KVideo
  | MicrosoftDirectdrawSurface => KImage
  | MicrosoftExcelSpreadsheet => KSpreadsheet
  | MicrosoftPowerpointPresentation => KPresentation
  | MicrosoftProjectPlan => KOther
  | MicrosoftPublisherDocument => KDocument
  | MicrosoftReader => KEbook
  | MicrosoftSoftwareInstaller => KPackage
  | MicrosoftVirtualHardDisk => KDisk
  | MicrosoftVirtualHardDisk2 => KDisk
  | MicrosoftVisioDrawing => KDiagram
  | MicrosoftVisualStudioExtension => KPackage
  | MicrosoftVisualStudioSolution => KOther
  | MicrosoftWordDocument => KDocument
  | MicrosoftWorks6Spreadsheet => KSpreadsheet
  | MicrosoftWorksDatabase => KDatabase
  | MicrosoftWorksSpreadsheet => KSpreadsheet
  | MicrosoftWorksWordProcessor => KDocument
  | MicrosoftWrite => KDocument
  | Mobipocket => KEbook
  | Model3dAscii => KModel
  | Model3dBinary => KModel
  | MonkeysAudio => KAudio
  | MozillaArchive => KArchive
  | Mp3Url => KPlaylist
  | Mpeg12AudioLayer2 => KAudio
  | Mpeg12AudioLayer3 => KAudio
  | Mpeg12Video => KVideo
  | Mpeg2TransportStream => KVideo
  | Mpeg4Part14 => KOther
  | Mpeg4Part14Audio => KAudio
  | Mpeg4Part14Subtitles => KSubtitle
  | Mpeg4Part14Video => KVideo
  | MpegDashMpd => KPlaylist
  | MsDosBatch => KOther
  | MsDosExecutable => KExecutable
  | Mtv => KVideo
  | MultiLayerArchive => KArchive
  | MultipleImageNetworkGraphics => KImage
  | Musepack => KAudio
  | MusicalInstrumentDigitalInterface => KAudio
  | Musicxml => KOther
  | MusicxmlZip => KOther
  | NeoGeoPocketColorRom => KRom
  | NeoGeoPocketRom => KRom
  | NewExecutable => KExecutable
  | NikonElectronicFile => KImage
  | Nintendo64Rom => KRom
  | NintendoDsRom => KRom
  | NintendoEntertainmentSystemRom => KRom
  | NintendoSwitchExecutable => KExecutable
  | NintendoSwitchPackage => KPackage
  | NintendoSwitchRom => KRom
  | OfficeOpenXmlDocument => KDocument
  | OfficeOpenXmlDrawing => KDiagram
  | OfficeOpenXmlPresentation => KPresentation
  | OfficeOpenXmlSpreadsheet => KSpreadsheet
  | OggFlac => KAudio
  | OggMedia => KVideo
  | OggMultiplexedMedia => KOther
  | OggOpus => KAudio
  | OggSpeex => KAudio
  | OggTheora => KVideo
  | OggVorbis => KAudio
  | OlympusRawFormat => KImage
  | OpendocumentDatabase => KDatabase
  | OpendocumentFormula => KFormula
  | OpendocumentFormulaTemplate => KFormula
  | OpendocumentGraphics => KImage
  | OpendocumentGraphicsTemplate => KImage
  | OpendocumentPresentation => KPresentation
  | OpendocumentPresentationTemplate => KPresentation
  | OpendocumentSpreadsheet => KSpreadsheet
  | OpendocumentSpreadsheetTemplate => KSpreadsheet
  | OpendocumentText => KDocument
  | OpendocumentTextMaster => KDocument
  | OpendocumentTextMasterTemplate => KDocument
  | OpendocumentTextTemplate => KDocument
  | Openexr => KImage
  | Opennurbs => KModel
  | Openraster => KImage
  | Opentype => KFont
  | Openxps => KDocument
  | OptimizedDalvikExecutable => KExecutable
  | PanasonicRaw => KImage
  | PcapDump => KOther
  | PcapNextGenerationDump => KOther
  | PemCertificate => KOther
  | PemCertificateSigningRequest => KOther
  | PemPrivateKey => KOther
  | PemPublicKey => KOther
  | PerlScript => KOther
  | PersonalStorageTable => KOther
  | PgpMessage => KOther
  | PgpPrivateKeyBlock => KOther
  | PgpPublicKeyBlock => KOther
  | PgpSignature => KOther
  | PgpSignedMessage => KOther
  | PictureExchange => KImage
  | PlainText => KOther
  | Pmarc => KArchive
  | PolygonAscii => KModel
  | PolygonBinary => KModel
  | PortableArbitraryMap => KImage
  | PortableBitmap => KImage
  | PortableDocumentFormat => KDocument
  | PortableExecutable => KExecutable
  | PortableFloatmap => KImage
  | PortableGraymap => KImage
  | PortableNetworkGraphics => KImage
  | PortablePixmap => KImage
  | Postscript => KDocument
  | PythonScript => KOther
  | QemuCopyOnWrite => KDisk
  | QualcommPurevoice => KAudio
  | QuiteOkAudio => KAudio
  | QuiteOkImage => KImage
  | RadianceHdr => KImage
  | Realaudio => KAudio
  | ReallySimpleSyndication => KOther
  | Realmedia => KOther
  | Realvideo => KVideo
  | RedHatPackageManager => KPackage
  | RichTextFormat => KDocument
  | RoshalArchive => KArchive
  | RubyScript => KOther
  | Rzip => KCompressed
  | ScalableVectorGraphics => KImage
  | ScreamTracker3Module => KAudio
  | SegaMasterSystemRom => KRom
  | Seqbox => KArchive
  | SevenZip => KArchive
  | Shapefile => KGeospatial
  | ShellScript => KOther
  | ShoutcastPlaylist => KPlaylist
  | SiliconGraphicsImage => KImage
  | SiliconGraphicsMovie => KVideo
  | SimpleObjectAccessProtocol => KOther
  | Sketch => KImage
  | Sketch43 => KImage
  | Sketchup => KModel
  | SmallWebFormat => KOther
  | Snappy => KCompressed
  | SolidworksAssembly => KModel
  | SolidworksDrawing => KModel
  | SolidworksPart => KModel
  | SonyDsdStreamFile => KAudio
  | SonyMovie => KVideo
  | Soundfont2 => KAudio
  | SpaceclaimDocument => KModel
  | Sqlite3 => KDatabase
  | Squashfs => KArchive
  | StandardForTheExchangeOfProductModelData => KModel
  | Starcalc => KSpreadsheet
  | Starchart => KDiagram
  | Stardraw => KImage
  | Starimpress => KPresentation
  | Starmath => KFormula
  | Starwriter => KDocument
  | StereolithographyAscii => KModel
  | Stuffit => KArchive
  | StuffitX => KArchive
  | SubripText => KSubtitle
  | SunXmlCalc => KSpreadsheet
  | SunXmlCalcTemplate => KSpreadsheet
  | SunXmlDraw => KImage
  | SunXmlDrawTemplate => KImage
  | SunXmlImpress => KPresentation
  | SunXmlImpressTemplate => KPresentation
  | SunXmlMath => KFormula
  | SunXmlWriter => KDocument
  | SunXmlWriterGlobal => KDocument
  | SunXmlWriterTemplate => KDocument
  | TagImageFileFormat => KImage
  | TapeArchive => KArchive
  | Tasty => KMetadata
  | ThirdGenerationPartnershipProject => KVideo
  | ThirdGenerationPartnershipProject2 => KVideo
  | ThreeDimensionalManufacturingFormat => KModel
  | ThreeDimensionalStudio => KModel
  | ThreeDimensionalStudioMax => KModel
  | TiledMapXml => KOther
  | TiledTilesetXml => KOther
  | TimedTextMarkupLanguage => KSubtitle
  | ToolCommandLanguageScript => KOther
  | TrainingCenterXml => KGeospatial
  | Truetype => KFont
  | TruetypeCollection => KFont
  | UltimateSoundtrackerModule => KAudio
  | UniformOfficeFormatPresentation => KPresentation
  | UniformOfficeFormatSpreadsheet => KSpreadsheet
  | UniformOfficeFormatText => KDocument
  | Universal3d => KModel
  | UniversalSceneDescriptionAscii => KModel
  | UniversalSceneDescriptionBinary => KModel
  | UniversalSceneDescriptionZip => KModel
  | UniversalSubtitleFormat => KSubtitle
  | UnixArchiver => KArchive
  | UnixCompress => KCompressed
  | Vcalendar => KOther
  | Vcard => KOther
  | VirtualMachineDisk => KDisk
  | VirtualRealityModelingLanguage => KModel
  | VirtualboxVirtualDiskImage => KDisk
  | WaveformAudio => KAudio
  | Wavpack => KAudio
  | WebApplicationArchive => KPackage
  | WebOpenFontFormat => KFont
  | WebOpenFontFormat2 => KFont
  | WebVideoTextTracks => KSubtitle
  | WebassemblyBinary => KExecutable
  | WebassemblyText => KOther
  | Webm => KVideo
  | Webp => KImage
  | WindowsAnimatedCursor => KImage
  | WindowsAppBundle => KPackage
  | WindowsAppPackage => KPackage
  | WindowsBitmap => KImage
  | WindowsCursor => KImage
  | WindowsIcon => KImage
  | WindowsImagingFormat => KArchive
  | WindowsMediaAudio => KAudio
  | WindowsMediaPlaylist => KPlaylist
  | WindowsMediaVideo => KVideo
  | WindowsMetafile => KImage
  | WindowsRecordedTvShow => KVideo
  | WindowsShortcut => KMetadata
  | WordperfectDocument => KDocument
  | WordperfectGraphics => KImage
  | WordperfectMacro => KOther
  | WordperfectPresentations => KPresentation
  | XPixmap => KImage
  | Xap => KPackage
  | Xbox360Executable => KExecutable
  | XboxExecutable => KExecutable
  | XmlLocalizationInterchangeFileFormat => KOther
  | XmlShareablePlaylistFormat => KPlaylist
  | Xpinstall => KPackage
  | Xz => KCompressed
  | Zip => KArchive
  | Zoo => KArchive
  | Zpaq => KArchive
  | Zstandard => KCompressed
  end.
