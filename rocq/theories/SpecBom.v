(** Byte order marks (C62): the mark, and the formats that are written in text and may begin with it
    (XML vocabularies, HTML, WebVTT, SubRip). *)
From Coq Require Import List NArith String.
From Coq.Strings Require Import Byte.
From Verif Require Import Base Formats Signatures SpecSig.
Import ListNotations.
Local Open Scope N_scope.

Definition bom : bytes := [xef; xbb; xbf].
Definition marked_formats : list FileFormat :=
  [ TimedTextMarkupLanguage; TrainingCenterXml; MathematicalMarkupLanguage; Extensible3d; Musicxml;
    HypertextMarkupLanguage; UniversalSubtitleFormat; Fictionbook; XmlShareablePlaylistFormat;
    CollaborativeDesignActivity; TiledTilesetXml; Drawio; SubripText; WebVideoTextTracks;
    XmlLocalizationInterchangeFileFormat; Atom; ExtensibleMarkupLanguage; SimpleObjectAccessProtocol;
    AdditiveManufacturingFormat; AdvancedStreamRedirector; ExtensibleStylesheetLanguageTransformations;
    GeographyMarkupLanguage; GpsExchangeFormat; KeyholeMarkupLanguage; MpegDashMpd;
    ReallySimpleSyndication; ScalableVectorGraphics; TiledMapXml ].
(** No signature that is (partly) located behind the first byte is present. *)
Definition nothing_further (l : bytes) : Prop :=
  forall g alts alt off v, In (g, alts) signatures -> In alt alts -> In (off, v) alt -> 0 < off -> ~ alt_matches l alt.
(** An XML declaration: the target xml is followed by white space (XML 1.0, production 23). *)
Definition xml_declared (l : bytes) : Prop :=
  exists s rest, In s [x20; x09; x0d; x0a] /\ l = bs "<?xml" ++ s :: rest.
