(** Marker searches.  Specifications of C19-C21, independent of the code. *)
From Coq Require Import List NArith ZArith Bool String.
From Verif Require Import Base Formats Spec.
Local Open Scope N_scope.

(** The XML dialects in order of priority: a dialect is recognised when all markers of one of its
    alternatives occur. *)
Definition xml_dialects : list (list (list string) * FileFormat) :=
  [ ([["<abiword template=""false"""]], Abiword);
    ([["<abiword template=""true"""]], AbiwordTemplate);
    ([["<amf"]], AdditiveManufacturingFormat);
    ([["<ASX"]; ["<asx"]], AdvancedStreamRedirector);
    ([["<feed"]], Atom);
    ([["<COLLADA"]], CollaborativeDesignActivity);
    ([["<mxfile"]], Drawio);
    ([["<X3D"]], Extensible3d);
    ([["<xsl"]], ExtensibleStylesheetLanguageTransformations);
    ([["<FictionBook"]], Fictionbook);
    ([["<gml"]], GeographyMarkupLanguage);
    ([["<gpx"]], GpsExchangeFormat);
    ([["<kml"]], KeyholeMarkupLanguage);
    ([["<math"]], MathematicalMarkupLanguage);
    ([["<MPD"]], MpegDashMpd);
    ([["<score-partwise"]], Musicxml);
    ([["<rss"]], ReallySimpleSyndication);
    ([["<SVG"]; ["<svg"]], ScalableVectorGraphics);
    ([["<soap"]], SimpleObjectAccessProtocol);
    ([["<map"]], TiledMapXml);
    ([["<tileset"]], TiledTilesetXml);
    ([["<tt"; "xmlns=""http://www.w3.org/ns/ttml"""]], TimedTextMarkupLanguage);
    ([["<TrainingCenterDatabase"]], TrainingCenterXml);
    ([["<uof:UOF"; "uof:mimetype=""vnd.uof.presentation"""]], UniformOfficeFormatPresentation);
    ([["<uof:UOF"; "uof:mimetype=""vnd.uof.spreadsheet"""]], UniformOfficeFormatSpreadsheet);
    ([["<uof:UOF"; "uof:mimetype=""vnd.uof.text"""]], UniformOfficeFormatText);
    ([["<USFSubtitles"]], UniversalSubtitleFormat);
    ([["<xliff"]], XmlLocalizationInterchangeFileFormat);
    ([["<playlist"]], XmlShareablePlaylistFormat) ]%string.

Definition dialect_present (window : bytes) (alts : list (list string)) : Prop :=
  exists markers, In markers alts /\ forall m, In m markers -> occurs (bs m) window.

(** The first dialect present, else plain XML. *)
Definition xml_dialect (window : bytes) (f : FileFormat) : Prop :=
  (exists before alts after, xml_dialects = before ++ (alts, f) :: after /\
     dialect_present window alts /\
     forall alts' g, In (alts', g) before -> ~ dialect_present window alts') \/
  (f = ExtensibleMarkupLanguage /\
   forall alts g, In (alts, g) xml_dialects -> ~ dialect_present window alts).
