(** GENERATED by tools/gen_documented.py from the crate documentation, /repo/src/lib.rs lines
    52-213: for every reader feature the container format it is about and the list of formats
    the documentation says it enables.  Part of the specification (C09, C10). *)
From Coq Require Import List.
From Verif Require Import Formats IO.
Import ListNotations.

Definition container (x : feature) : FileFormat :=
  match x with
  | FAsf => AdvancedSystemsFormat
  | FCfb => CompoundFileBinary
  | FEbml => ExtensibleBinaryMetaLanguage
  | FExe => MsDosExecutable
  | FId3v2 => Id3v2
  | FMp4 => Mpeg4Part14
  | FPdf => PortableDocumentFormat
  | FRm => Realmedia
  | FSqlite3 => Sqlite3
  | FTxt => PlainText
  | FXml => ExtensibleMarkupLanguage
  | FZip => Zip
  end.

Definition documented (x : feature) : list FileFormat :=
  match x with
  | FAsf =>
      [ MicrosoftDigitalVideoRecording;
        WindowsMediaAudio;
        WindowsMediaVideo ]
  | FCfb =>
      [ ThreeDimensionalStudioMax;
        AutodeskInventorAssembly;
        AutodeskInventorDrawing;
        AutodeskInventorPart;
        AutodeskInventorPresentation;
        CorelPresentations7;
        FlashProject;
        MicrosoftExcelSpreadsheet;
        MicrosoftPowerpointPresentation;
        MicrosoftProjectPlan;
        MicrosoftPublisherDocument;
        MicrosoftSoftwareInstaller;
        MicrosoftVisioDrawing;
        MicrosoftWordDocument;
        MicrosoftWorks6Spreadsheet;
        MicrosoftWorksDatabase;
        MicrosoftWorksWordProcessor;
        SolidworksAssembly;
        SolidworksDrawing;
        SolidworksPart;
        Starcalc;
        Starchart;
        Stardraw;
        Starimpress;
        Starmath;
        Starwriter;
        WordperfectDocument;
        WordperfectGraphics ]
  | FEbml =>
      [ Matroska3dVideo;
        MatroskaAudio;
        MatroskaSubtitles;
        MatroskaVideo;
        Webm ]
  | FExe =>
      [ DynamicLinkLibrary;
        LinearExecutable;
        NewExecutable;
        PortableExecutable ]
  | FId3v2 =>
      [ FreeLosslessAudioCodec;
        Mpeg12AudioLayer3 ]
  | FMp4 =>
      [ Mpeg4Part14Audio;
        Mpeg4Part14Subtitles;
        Mpeg4Part14Video ]
  | FPdf =>
      [ AdobeIllustratorArtwork ]
  | FRm =>
      [ Realaudio;
        Realvideo ]
  | FSqlite3 =>
      [ Sketch ]
  | FTxt => []
  | FXml =>
      [ Abiword;
        AbiwordTemplate;
        AdditiveManufacturingFormat;
        AdvancedStreamRedirector;
        Atom;
        CollaborativeDesignActivity;
        Extensible3d;
        ExtensibleStylesheetLanguageTransformations;
        Fictionbook;
        GpsExchangeFormat;
        GeographyMarkupLanguage;
        KeyholeMarkupLanguage;
        MpegDashMpd;
        MathematicalMarkupLanguage;
        Musicxml;
        ReallySimpleSyndication;
        ScalableVectorGraphics;
        SimpleObjectAccessProtocol;
        TiledMapXml;
        TiledTilesetXml;
        TimedTextMarkupLanguage;
        TrainingCenterXml;
        UniformOfficeFormatPresentation;
        UniformOfficeFormatSpreadsheet;
        UniformOfficeFormatText;
        UniversalSubtitleFormat;
        XmlLocalizationInterchangeFileFormat;
        XmlShareablePlaylistFormat;
        Drawio ]
  | FZip =>
      [ ThreeDimensionalManufacturingFormat;
        AdobeIntegratedRuntime;
        AndroidAppBundle;
        AndroidPackage;
        Autodesk123d;
        CircuitDiagramDocument;
        DesignWebFormatXps;
        ElectronicPublication;
        EnterpriseApplicationArchive;
        FictionbookZip;
        FigmaDesign;
        FlashCs5Project;
        Fusion360;
        IndesignMarkupLanguage;
        JavaArchive;
        KeyholeMarkupLanguageZip;
        MicrosoftVisualStudioExtension;
        MusicxmlZip;
        OfficeOpenXmlDocument;
        OfficeOpenXmlDrawing;
        OfficeOpenXmlPresentation;
        OfficeOpenXmlSpreadsheet;
        OpendocumentDatabase;
        OpendocumentFormula;
        OpendocumentFormulaTemplate;
        OpendocumentGraphics;
        OpendocumentGraphicsTemplate;
        OpendocumentPresentation;
        OpendocumentPresentationTemplate;
        OpendocumentSpreadsheet;
        OpendocumentSpreadsheetTemplate;
        OpendocumentText;
        OpendocumentTextMaster;
        OpendocumentTextMasterTemplate;
        OpendocumentTextTemplate;
        Openraster;
        Openxps;
        Sketch43;
        SpaceclaimDocument;
        SunXmlCalc;
        SunXmlCalcTemplate;
        SunXmlDraw;
        SunXmlDrawTemplate;
        SunXmlImpress;
        SunXmlImpressTemplate;
        SunXmlMath;
        SunXmlWriter;
        SunXmlWriterGlobal;
        SunXmlWriterTemplate;
        UniversalSceneDescriptionZip;
        WebApplicationArchive;
        WindowsAppBundle;
        WindowsAppPackage;
        Xap;
        Xpinstall;
        IosAppStorePackage ]
  end.
