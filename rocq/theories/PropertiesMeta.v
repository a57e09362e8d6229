(** C40: the metadata of the formats (specification: SpecMeta.v). *)
From Coq Require Import NArith Bool String Ascii List.
From Verif Require Import Base Formats FormatsProofs Signatures IO Lib SpecMeta MetaProofs.
Import ListNotations.
Local Open Scope string_scope.

(** No two formats have the same name, so the name (and what Display prints) identifies the format. *)
Theorem C40_names_identify_the_format : forall f g : FileFormat, name f = name g -> f = g.
Proof.
  intros f g H. eapply (NoDup_map_inj name all_formats); eauto using all_formats_complete.
  apply distinctb_ok. vm_compute. reflexivity.
Qed.
Print Assumptions C40_names_identify_the_format.

Theorem C40_name_is_a_label : forall f : FileFormat, is_label (name f).
Proof. intros f. apply labelb_ok. apply (forall_formats (fun f => labelb (name f))). vm_compute. reflexivity. Qed.
Print Assumptions C40_name_is_a_label.

Theorem C40_short_name_is_a_label : forall (f : FileFormat) s, short_name f = Some s -> is_label s.
Proof.
  intros f s H. apply labelb_ok.
  assert (K : match short_name f with Some s => labelb s | None => true end = true).
  { apply (forall_formats (fun f => match short_name f with Some s => labelb s | None => true end)).
    vm_compute. reflexivity. }
  now rewrite H in K.
Qed.
Print Assumptions C40_short_name_is_a_label.

Theorem C40_media_type_is_rfc6838 : forall f : FileFormat, is_media_type (media_type f).
Proof. intros f. apply media_typeb_ok. apply (forall_formats (fun f => media_typeb (media_type f))). vm_compute. reflexivity. Qed.
Print Assumptions C40_media_type_is_rfc6838.

Theorem C40_extension_is_a_suffix : forall f : FileFormat, is_extension (extension f).
Proof. intros f. apply extensionb_ok. apply (forall_formats (fun f => extensionb (extension f))). vm_compute. reflexivity. Qed.
Print Assumptions C40_extension_is_a_suffix.

(** Every kind of the public enumeration is the kind of some format. *)
Definition kind_example (k : Kind) : FileFormat :=
  match List.find (fun f => match kind f, k with
    | KArchive, KArchive | KAudio, KAudio | KCompressed, KCompressed | KDatabase, KDatabase
    | KDiagram, KDiagram | KDisk, KDisk | KDocument, KDocument | KEbook, KEbook
    | KExecutable, KExecutable | KFont, KFont | KFormula, KFormula | KGeospatial, KGeospatial
    | KImage, KImage | KMetadata, KMetadata | KModel, KModel | KOther, KOther | KPackage, KPackage
    | KPlaylist, KPlaylist | KPresentation, KPresentation | KRom, KRom | KSpreadsheet, KSpreadsheet
    | KSubtitle, KSubtitle | KVideo, KVideo => true
    | _, _ => false end) all_formats with Some f => f | None => ArbitraryBinaryData end.
Theorem C40_every_kind_is_used : forall k : Kind, exists f : FileFormat, kind f = k.
Proof. intros k. exists (kind_example k). destruct k; vm_compute; reflexivity. Qed.
Print Assumptions C40_every_kind_is_used.

(** What is printed tells the formats apart. *)
Theorem C40_display_is_injective : forall f g : FileFormat, display f = display g -> f = g.
Proof. exact C40_names_identify_the_format. Qed.
Print Assumptions C40_display_is_injective.

(** Literal cases, and what the predicates reject. *)
Example C40_mp3 : name Mpeg12AudioLayer3 = "MPEG-1/2 Audio Layer 3" /\ extension WindowsMediaVideo = "wmv" /\
  media_type Zstandard = "application/zstd" /\ short_name MusicalInstrumentDigitalInterface = Some "MIDI" /\
  kind Zip = KArchive.
Proof. vm_compute. repeat split. Qed.
Example C40_rejects : ~ is_extension ".zip" /\ ~ is_label "" /\ ~ is_label "Zip " /\ ~ is_media_type "application".
Proof.
  split; [|split; [|split]].
  - intros [_ H]. cbn in H. destruct H as [H _]. unfold digit, lower, upper in H.
    destruct H as [[H1 H2]|[[H1 H2]|[[H1 H2]|H]]]; vm_compute in *; try (now elim H1; reflexivity); try (now elim H2; reflexivity).
    destruct H as [H|[H|[H|[]]]]; discriminate.
  - intros [H _]. now apply H.
  - intros (_ & _ & _ & H). apply (H "Zip"). reflexivity.
  - intros (t & u & E & Ht & _). unfold top_level in Ht. cbn in Ht.
    repeat (destruct Ht as [<-|Ht]; [discriminate E|]). exact Ht.
Qed.
