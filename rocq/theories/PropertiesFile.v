(** C17: files of the containers whose readers can meet offsets that a file refuses.  Statements
    use SpecMp4.v, SpecMedia.v, SpecZip.v, SpecEbml.v and SpecApi.v. *)
From Coq Require Import NArith ZArith Bool String List Lia ZifyBool ZifyNat ZifyN.
From Verif Require Import Base BaseProofs Formats FormatsProofs Signatures IO Readers Lib Mem
  Documented Static ReaderStatic Spec SpecSig SpecText SpecBin SpecMp4 SpecEbml SpecMedia SpecZip SpecApi FindProofs
  LibProofs Ideal SigProofs CoreProofs BinProofs Exec ExeProofs Mp4Proofs EbmlProofs MediaProofs ZipProofs Glue Conf
  PropertiesBin PropertiesMedia PropertiesZip PropertiesZip2.
Ltac Zify.zify_post_hook ::= idtac.
Local Open Scope N_scope.

Lemma file_ok (c : cfg) x l max f : supported c -> lenN l <= max -> max < 2 ^ 64 -> signed c x l ->
  mreader c l max x = Done (Ok f) -> from_file c (FsRegular l max) = Done (Ok f).
Proof.
  intros Hc Hl Hmax (Hf & Hx & Hs) Hm. cbn [from_file]. rewrite cursor_ideal by assumption.
  pose proof (first_match_nonempty _ _ Hs) as Hne. apply from_signature_some in Hs. unfold ideal_detect.
  destruct (takeN window l) as [|b t] eqn:E; [exfalso; exact (Hne (proj1 (takeN_window_nil l) E))|].
  rewrite <- E, from_signature_window, Hs, feature_of_container, Hf, Hm by exact Hx. reflexivity.
Qed.

(** A well-formed file is classified on disk as in memory, however small the largest offset the
    file system accepts. *)
Theorem C17_wellformed_mp4 : forall (c : cfg) boxes content max, supported c -> Forall wf_box boxes ->
  content = flat_map box_bytes boxes -> rust_slice content -> signed c FMp4 content ->
  lenN content <= max -> max < 2 ^ 64 ->
  from_file c (FsRegular content max) = Done (Ok (mp4_class (firstn 256 (flat_map doc_order boxes)))) /\
  from_bytes c content = Done (mp4_class (firstn 256 (flat_map doc_order boxes))).
Proof.
  intros c boxes content max Hc Hw E Hl Hs Hm Hm2. split; [|now apply C27_mp4_tracks].
  subst content. apply (file_ok c FMp4); auto. apply mp4_reader_spec; auto.
Qed.
Print Assumptions C17_wellformed_mp4.
Theorem C17_wellformed_asf : forall (c : cfg) head reserved objects data content f max, supported c ->
  content = asf_file head reserved objects data ->
  lenN head = 24 -> lenN reserved = 2 -> lenN objects < 2 ^ 32 -> Forall wf_asf_object objects ->
  rust_slice content -> signed c FAsf content -> asf_class (firstn 256 objects) f ->
  lenN content <= max -> max < 2 ^ 64 ->
  from_file c (FsRegular content max) = Done (Ok f) /\ from_bytes c content = Done f.
Proof.
  intros c head reserved objects data content f max Hc E Hh Hr Hn Hw Hl Hs Hf Hm Hm2.
  split; [|eapply C31_asf_streams; eauto].
  subst content. apply (file_ok c FAsf); auto.
  destruct (asf_reader_spec c head reserved objects data max Hc Hh Hr Hn Hw Hl ltac:(lia)) as (g & Hg & E).
  now rewrite (asf_class_fun _ _ _ Hf Hg).
Qed.
Print Assumptions C17_wellformed_asf.
Theorem C17_wellformed_zip : forall (c : cfg) before disks count size offset len2 rest local entries tail content f max,
  supported c -> addressable c content -> signed c FZip content ->
  content = before ++ eocd_signature ++ eocd_fields disks count size offset len2 ++ rest ->
  lenN disks = 6 -> count < 2 ^ 16 -> lenN size = 4 -> offset < 2 ^ 32 -> lenN rest < 2 ^ 16 ->
  ~ occurs eocd_signature (eocd_fields disks count size offset len2 ++ rest) -> no_locator before ->
  content = local ++ directory entries ++ tail -> lenN local = offset ->
  Forall wf_entry entries -> lenN entries = N.min 1024 count ->
  zip_class content Zip entries f -> lenN content <= max -> max < 2 ^ 64 ->
  from_file c (FsRegular content max) = Done (Ok f) /\ from_bytes c content = Done f.
Proof.
  intros c before disks count size offset len2 rest local entries tail content f max Hc Had Hs E H1 H2 H3 H4 H5 H6 H7 E2 H8 H9 H10 Hcl Hm Hm2.
  split; [|eapply C37_last_record_decides; eauto].
  apply (file_ok c FZip); auto. eapply zip_last_spec; eauto.
Qed.
Print Assumptions C17_wellformed_zip.
Theorem C17_wellformed_zip64 : forall (c : cfg) local entries gap head size ext disk disks fields comment content f max, supported c ->
  wf_zip64 entries head size disk disks fields comment ->
  content = zip64_archive local entries gap head size ext disk disks fields comment ->
  addressable c content -> signed c FZip content ->
  zip_class content Zip (firstn 1024 entries) f -> lenN content <= max -> max < 2 ^ 64 ->
  from_file c (FsRegular content max) = Done (Ok f) /\ from_bytes c content = Done f.
Proof.
  intros c local entries gap head size ext disk disks fields comment content f max Hc Hw E Had Hs Hcl Hm Hm2.
  split; [|eapply C36_zip64; eauto].
  subst content. apply (file_ok c FZip); auto. now apply zip64_reader_spec.
Qed.
Print Assumptions C17_wellformed_zip64.
Theorem C17_wellformed_ebml : forall (c : cfg) els content max, supported c -> Forall wf_element els ->
  content = flat_map element_bytes els -> rust_slice content -> signed c FEbml content ->
  lenN content <= max -> max < 2 ^ 64 ->
  from_file c (FsRegular content max) = Done (Ok (ebml_class (firstn 256 (flat_map events els)))) /\
  from_bytes c content = Done (ebml_class (firstn 256 (flat_map events els))).
Proof.
  intros c els content max Hc Hw E Hl Hs Hm Hm2. split; [|now apply C29_matroska].
  subst content. apply (file_ok c FEbml); auto. apply ebml_reader_spec; auto.
Qed.
Print Assumptions C17_wellformed_ebml.
Example C17_witness :
  from_file cfg_all (FsRegular (flat_map box_bytes [ftyp; track false "soun"]) 1000) = Done (Ok Mpeg4Part14Audio) /\
  from_file cfg_all (FsRegular (asf_sample asf_audio_only) 1000) = Done (Ok WindowsMediaAudio).
Proof. split; vm_compute; reflexivity. Qed.
