(** XML vocabularies (C63): the root element of a document, from the specification of the vocabulary. *)
From Coq Require Import List NArith String.
From Verif Require Import Base Formats Spec SpecScan.
Import ListNotations.
Local Open Scope string_scope.

Definition roots : list (string * FileFormat) :=
[
  ("amf", AdditiveManufacturingFormat);                  (* ISO/ASTM 52915 *)
  ("asx", AdvancedStreamRedirector); ("ASX", AdvancedStreamRedirector);
  ("feed", Atom);                                        (* RFC 4287 *)
  ("COLLADA", CollaborativeDesignActivity);
  ("mxfile", Drawio);
  ("X3D", Extensible3d);                                 (* ISO/IEC 19776-1 *)
  ("xsl:stylesheet", ExtensibleStylesheetLanguageTransformations);
  ("xsl:transform", ExtensibleStylesheetLanguageTransformations);
  ("FictionBook", Fictionbook);
  ("gml:FeatureCollection", GeographyMarkupLanguage);
  ("gpx", GpsExchangeFormat);
  ("kml", KeyholeMarkupLanguage);
  ("math", MathematicalMarkupLanguage);
  ("MPD", MpegDashMpd);                                  (* ISO/IEC 23009-1 *)
  ("score-partwise", Musicxml);
  ("rss", ReallySimpleSyndication);
  ("svg", ScalableVectorGraphics); ("svg:svg", ScalableVectorGraphics);
  ("soap:Envelope", SimpleObjectAccessProtocol);
  ("map", TiledMapXml);
  ("tileset", TiledTilesetXml);
  ("TrainingCenterDatabase", TrainingCenterXml);
  ("USFSubtitles", UniversalSubtitleFormat);
  ("xliff", XmlLocalizationInterchangeFileFormat);
  ("playlist", XmlShareablePlaylistFormat)
].
(** The start tag of an element called [name] is at offset [at_] of [l]. *)
Definition start_tag (l : bytes) (at_ : N) (name : string) : Prop :=
  exists pre post, (l = pre ++ bs "<" ++ bs name ++ post)%list /\ lenN pre = at_.
(** Nothing that marks another vocabulary is in the part of the document that is looked at. *)
Definition only_vocabulary (l : bytes) (f : FileFormat) : Prop :=
  forall alts g, In (alts, g) xml_dialects -> g <> f -> ~ dialect_present (slice 5 8192 l) alts.

(** Documents and the vocabulary of their root element: XHTML with an inline drawing, XHTML with an
    inline formula, SOAP 1.1 and 1.2 with the prefixes of their specifications, Atom with a prefix, partwise
    and timewise MusicXML. *)
Definition prologue : bytes := bs "<?xml version='1.0'?>".
Definition missed : list (string * FileFormat * FileFormat) :=
[
  ("<SOAP-ENV:Envelope xmlns:SOAP-ENV=""http://schemas.xmlsoap.org/soap/envelope/"">", SimpleObjectAccessProtocol, ExtensibleMarkupLanguage);
  ("<env:Envelope xmlns:env=""http://www.w3.org/2003/05/soap-envelope"">", SimpleObjectAccessProtocol, ExtensibleMarkupLanguage);
  ("<atom:feed xmlns:atom=""http://www.w3.org/2005/Atom"">", Atom, ExtensibleMarkupLanguage);
  ("<score-timewise version=""4.0"">", Musicxml, ExtensibleMarkupLanguage);
  ("<html xmlns=""http://www.w3.org/1999/xhtml""><body><svg/></body></html>", HypertextMarkupLanguage, ScalableVectorGraphics);
  ("<html xmlns=""http://www.w3.org/1999/xhtml""><body><math/></body></html>", HypertextMarkupLanguage, MathematicalMarkupLanguage);
  ("<kml xmlns=""http://www.opengis.net/kml/2.2""><!-- from <feed> --></kml>", KeyholeMarkupLanguage, Atom)
].
(** Documents of other vocabularies whose root element merely begins like one of the known ones, or that
    mention one in a comment: a MyBatis mapper, a feedback form, a document about drawings. *)
Definition mistaken : list (string * FileFormat) :=
[
  ("<mapper namespace=""org.example.BlogMapper"">", TiledMapXml);
  ("<feedback/>", Atom);
  ("<!-- draws <svg> --><article/>", ScalableVectorGraphics)
].
