(** C34-C37: ZIP-based formats.  Statements use SpecZip.v and SpecApi.v. *)
From Coq Require Import NArith ZArith Bool String List Lia ZifyBool ZifyNat ZifyN.
From Verif Require Import Base BaseProofs Formats FormatsProofs Signatures IO Readers Lib Mem
  Documented Static ReaderStatic Spec SpecSig SpecText SpecBin SpecZip SpecApi FindProofs
  LibProofs Ideal SigProofs CoreProofs BinProofs Exec ExeProofs MediaProofs ZipProofs Glue Conf PropertiesBin.
Ltac Zify.zify_post_hook ::= idtac.
Local Open Scope N_scope.

Lemma addressable_slice c l : supported c -> addressable c l -> rust_slice l.
Proof. intros Hc H. apply (addressable_fits c l Hc H). Qed.

(** ** C34 *)
Theorem C34_zip_entries : forall (c : cfg) local entries gap disks size comment content f, supported c ->
  wf_zip local entries gap disks size comment ->
  content = zip_archive local entries gap disks size comment ->
  addressable c content -> signed c FZip content ->
  zip_class content Zip (firstn 1024 entries) f -> from_bytes c content = Done f.
Proof.
  intros c local entries gap disks size comment content f Hc Hw -> Had Hs Hcl.
  pose proof (addressable_slice c _ Hc Had) as Hl. pose proof (slice_room _ Hl).
  apply (detect_ok c FZip); auto. apply zip_reader_spec; auto. lia.
Qed.
Print Assumptions C34_zip_entries.
Lemma entry_data_fun content e a b : entry_data content e a -> entry_data content e b -> a = b.
Proof.
  intros (p & h & n & x & q & E & H1 & H2 & H3 & H4 & H5) (p' & h' & n' & x' & q' & E' & H1' & H2' & H3' & H4' & H5').
  rewrite E in E'. clear E.
  assert (K : forall (u v r s : bytes), lenN u = lenN v -> u ++ r = v ++ s -> u = v /\ r = s).
  { intros u v r s Hl H. apply app_eq_app' in H; [exact H|]. unfold lenN in Hl. lia. }
  apply K in E' as [-> E']; [|congruence]. apply K in E' as [-> E']; [|congruence].
  apply K in E' as [En E']; [|now rewrite !lenN_le_bytes]. apply K in E' as [Ex E']; [|now rewrite !lenN_le_bytes].
  apply (f_equal le_val) in En, Ex.
  rewrite !le_val_le_bytes in En by assumption. rewrite !le_val_le_bytes in Ex by assumption.
  apply K in E' as [-> E']; [|exact En]. apply K in E' as [-> E']; [|exact Ex].
  apply K in E' as [-> E']; [reflexivity|congruence].
Qed.
(** The classification is a function of the archive and, unless a stored mimetype entry points
    outside of it, defined. *)
Theorem C34_unique : forall content d entries f g,
  zip_class content d entries f -> zip_class content d entries g -> f = g.
Proof.
  intros content d entries f g Hf. revert g.
  induction Hf as [d|d e l f Hd|d e l data f Hs Hda Hm|d e l f Hman Hr IH|d e l f Hn Hns Hnm Hr IH]; intros g Hg;
    inversion Hg as [|? ? ? ? Hd'|? ? ? data' ? Hs' Hda' Hm'|? ? ? ? Hman' Hr'|? ? ? ? Hn' Hns' Hnm' Hr']; subst; try reflexivity.
  - eapply names_disjoint; eassumption.
  - exfalso. destruct Hs' as [E _]. rewrite E in Hd. apply first_pass_iff in Hd. vm_compute in Hd. discriminate Hd.
  - exfalso. unfold is_manifest in Hman'. rewrite Hman' in Hd. apply first_pass_iff in Hd. vm_compute in Hd. discriminate Hd.
  - exfalso. exact (Hn' _ Hd).
  - exfalso. destruct Hs as [E _]. rewrite E in Hd'. apply first_pass_iff in Hd'. vm_compute in Hd'. discriminate Hd'.
  - rewrite (entry_data_fun content e data data' Hda Hda') in Hm. apply media_class_result in Hm, Hm'. congruence.
  - exfalso. destruct Hs as [E _]. unfold is_manifest in Hman'. rewrite E in Hman'. discriminate Hman'.
  - contradiction.
  - exfalso. unfold is_manifest in Hman. rewrite Hman in Hd'. apply first_pass_iff in Hd'. vm_compute in Hd'. discriminate Hd'.
  - exfalso. destruct Hs' as [E _]. unfold is_manifest in Hman. rewrite E in Hman. discriminate Hman.
  - now apply IH.
  - contradiction.
  - exfalso. exact (Hn _ Hd').
  - contradiction.
  - contradiction.
  - now apply IH.
Qed.
Print Assumptions C34_unique.
Theorem C34_complete : forall content entries d,
  (forall e, In e entries -> is_stored_mimetype e -> exists data, entry_data content e data) ->
  exists f, zip_class content d entries f.
Proof.
  intros content. induction entries as [|e l IH]; intros d Hm; [exists d; constructor|].
  assert (Hm' : forall e', In e' l -> is_stored_mimetype e' -> exists data, entry_data content e' data)
    by (intros e' Hin; apply Hm; now right).
  destruct (first_pass (e_name e) decisive_names) as [f|] eqn:E.
  { exists f. apply zip_decisive. now apply first_pass_iff. }
  assert (Hnd : forall g, ~ decisive_name (e_name e) g) by (intros g Hg; apply first_pass_iff in Hg; congruence).
  destruct (beqb (e_name e) manifest_name) eqn:Em.
  { destruct (IH JavaArchive Hm') as (f & Hf). exists f. apply zip_manifest; [now apply beqb_eq in Em|exact Hf]. }
  destruct (beqb (e_name e) mimetype_name && (e_csize e =? e_usize e)) eqn:Es.
  { apply andb_prop in Es as [E1 E2]. apply beqb_eq in E1.
    assert (Hs : is_stored_mimetype e) by (split; [exact E1|lia]).
    destruct (Hm e ltac:(now left) Hs) as (data & Hd). eexists.
    eapply zip_mimetype; [exact Hs|exact Hd|]. apply media_class_result. reflexivity. }
  destruct (IH d Hm') as (f & Hf). exists f. apply zip_skip; [exact Hnd| | |exact Hf].
  - intros [E1 E2]. apply beqb_eq in E1. apply N.eqb_eq in E2. fold mimetype_name in E1. rewrite E1, E2 in Es. discriminate Es.
  - intros K. apply beqb_eq in K. fold manifest_name in K. congruence.
Qed.
Print Assumptions C34_complete.

(** *** Example archives *)
Definition entry (name : string) (offset : N) : zip_entry :=
  mkentry ([x50; x4b; x01; x02] ++ repeat x00 16) 3 9 (repeat x00 8) offset (bs name) (bs "xx") (bs "a comment").
Definition mimetype_entry (data : bytes) : zip_entry :=
  mkentry ([x50; x4b; x01; x02] ++ repeat x00 16) (lenN data) (lenN data) (repeat x00 8) 0 (bs "mimetype") [] [].
Definition local_head : bytes := [x50; x4b; x03; x04] ++ repeat x00 22.
Definition archive (local : bytes) (entries : list zip_entry) (comment : bytes) : bytes :=
  zip_archive local entries [] (repeat x00 6) (repeat x00 4) comment.
Definition docx_entries : list zip_entry :=
  [entry "[Content_Types].xml" 0; entry "META-INF/MANIFEST.MF" 0; entry "word/document.xml" 30; entry "xl/x" 0].
Lemma no_locator_dec l : beqb (takeN 4 (dropN (lenN l - 20) l)) locator_signature = false -> no_locator l.
Proof.
  intros H a b E Hb. assert (Hl : lenN l = lenN a + 20) by (rewrite E, !lenN_app, Hb; reflexivity).
  assert (K : takeN 4 (dropN (lenN l - 20) l) = locator_signature).
  { replace (lenN l - 20) with (lenN a) by lia. rewrite E, dropN_app_len by reflexivity. now apply takeN_app_len. }
  rewrite K, beqb_refl in H. discriminate H.
Qed.
Lemma unambiguous_dec f comment : bcontains (f ++ comment) eocd_signature = false -> unambiguous f comment.
Proof. intros H K. apply bcontains_iff in K. congruence. Qed.
Ltac wf_zip_by_computation :=
  repeat match goal with
  | |- Forall _ [] => constructor
  | |- Forall _ (_ :: _) => constructor
  | |- wf_entry _ => hnf
  | |- no_locator _ => apply no_locator_dec; vm_compute; reflexivity
  | |- unambiguous _ _ => apply unambiguous_dec; vm_compute; reflexivity
  | |- _ /\ _ => split
  | |- _ < _ => vm_compute; reflexivity
  | |- _ = _ => vm_compute; reflexivity
  end.
Example C34_witness :
  let local := local_head ++ bs "some data" in
  let content := archive local docx_entries (bs "hello PK") in
  wf_zip local docx_entries [] (repeat x00 6) (repeat x00 4) (bs "hello PK") /\
  addressable cfg_all content /\ signed cfg_all FZip content /\
  zip_class content Zip docx_entries OfficeOpenXmlDocument /\
  from_bytes cfg_all content = Done OfficeOpenXmlDocument /\
  from_bytes cfg_all (archive local (firstn 2 docx_entries) []) = Done JavaArchive /\
  from_bytes cfg_all (archive local (firstn 1 docx_entries) []) = Done Zip.
Proof.
  cbv zeta. split; [unfold wf_zip, docx_entries; wf_zip_by_computation|].
  split; [vm_compute; reflexivity|]. split; [signed_by_computation|]. split.
  { apply zip_skip.
    - intros g Hg. apply first_pass_iff in Hg. vm_compute in Hg. discriminate Hg.
    - intros [H _]. discriminate H.
    - intros H. discriminate H.
    - apply zip_manifest; [reflexivity|]. apply zip_decisive. apply first_pass_iff. vm_compute. reflexivity. }
  repeat split; vm_compute; reflexivity.
Qed.

(** ** C35 *)
Lemma mimetype_class content d e rest before after data f :
  is_stored_mimetype e -> entry_data content e data -> media_class data f ->
  (forall x, In x before -> (forall g, ~ decisive_name (e_name x) g) /\ ~ is_stored_mimetype x) ->
  after = before ++ e :: rest -> zip_class content d after f.
Proof.
  intros Hs Hd Hm Hb ->. revert d. induction before as [|x before IH]; intros d.
  - cbn [app]. eapply zip_mimetype; eassumption.
  - cbn [app]. destruct (Hb x ltac:(now left)) as [H1 H2].
    assert (Hb' : forall y, In y before -> (forall g, ~ decisive_name (e_name y) g) /\ ~ is_stored_mimetype y)
      by (intros y Hy; apply Hb; now right).
    destruct (beqb (e_name x) manifest_name) eqn:E.
    + apply zip_manifest; [now apply beqb_eq in E|exact (IH Hb' _)].
    + apply zip_skip; auto. intros K. apply beqb_eq in K. fold manifest_name in K. congruence.
Qed.
(** A stored "mimetype" entry among the first 1024 entries with no decisive entry before it:
    whatever white space surrounds the media type. *)
Theorem C35_mimetype : forall (c : cfg) local before e rest gap disks size comment content blank1 blank2 m f, supported c ->
  wf_zip local (before ++ e :: rest) gap disks size comment ->
  content = zip_archive local (before ++ e :: rest) gap disks size comment ->
  addressable c content -> signed c FZip content ->
  (List.length before < 1024)%nat ->
  (forall x, In x before -> (forall g, ~ decisive_name (e_name x) g) /\ ~ is_stored_mimetype x) ->
  is_stored_mimetype e -> blank blank1 -> blank blank2 ->
  entry_data content e (blank1 ++ bs m ++ blank2) ->
  In (m, f) media_types -> from_bytes c content = Done f.
Proof.
  intros c local before e rest gap disks size comment content blank1 blank2 m f Hc Hw E Had Hs Hn Hb He Hb1 Hb2 Hd Hin.
  eapply C34_zip_entries; [exact Hc|exact Hw|exact E|exact Had|exact Hs|].
  apply (mimetype_class content Zip e (firstn (1023 - List.length before) rest) before _ (blank1 ++ bs m ++ blank2) f He Hd).
  - apply (media_known _ m); [exact Hin|]. now exists blank1, blank2.
  - exact Hb.
  - rewrite firstn_app, firstn_all2 by lia. f_equal.
    destruct (1024 - Datatypes.length before)%nat as [|k] eqn:Ek; [lia|]. cbn [firstn]. do 2 f_equal. lia.
Qed.
Print Assumptions C35_mimetype.
Theorem C35_unknown_media_type : forall (c : cfg) local before e rest gap disks size comment content data, supported c ->
  wf_zip local (before ++ e :: rest) gap disks size comment ->
  content = zip_archive local (before ++ e :: rest) gap disks size comment ->
  addressable c content -> signed c FZip content ->
  (List.length before < 1024)%nat ->
  (forall x, In x before -> (forall g, ~ decisive_name (e_name x) g) /\ ~ is_stored_mimetype x) ->
  is_stored_mimetype e -> entry_data content e data ->
  (forall m f, In (m, f) media_types -> ~ is_media_type data m) -> from_bytes c content = Done Zip.
Proof.
  intros c local before e rest gap disks size comment content data Hc Hw E Had Hs Hn Hb He Hd Hno.
  eapply C34_zip_entries; [exact Hc|exact Hw|exact E|exact Had|exact Hs|].
  apply (mimetype_class content Zip e (firstn (1023 - List.length before) rest) before _ data Zip He Hd).
  - now apply media_unknown.
  - exact Hb.
  - rewrite firstn_app, firstn_all2 by lia. f_equal.
    destruct (1024 - Datatypes.length before)%nat as [|k] eqn:Ek; [lia|]. cbn [firstn]. do 2 f_equal. lia.
Qed.
Print Assumptions C35_unknown_media_type.
Definition local_file (data : bytes) : bytes :=
  local_head ++ le_bytes 2 8 ++ le_bytes 2 3 ++ bs "mimetype" ++ bs "ext" ++ data.
Example C35_witness :
  let data := utf8_encode 0x3000 ++ bs "application/epub+zip" ++ bs " " ++ [x0a] in
  let e := mimetype_entry data in
  let content := archive (local_file data) [entry "readme.txt" 0; e; entry "word/x" 0] [] in
  wf_zip (local_file data) [entry "readme.txt" 0; e; entry "word/x" 0] [] (repeat x00 6) (repeat x00 4) [] /\
  signed cfg_all FZip content /\ is_stored_mimetype e /\ entry_data content e data /\
  is_media_type data "application/epub+zip" /\ from_bytes cfg_all content = Done ElectronicPublication.
Proof.
  cbv zeta. split; [unfold wf_zip; wf_zip_by_computation|]. split; [signed_by_computation|].
  split; [split; reflexivity|]. split.
  { unfold archive, zip_archive, local_file, entry_data.
    eexists [], local_head, (bs "mimetype"), (bs "ext"), _.
    split; [rewrite <- !app_assoc; reflexivity|]. repeat split; vm_compute; reflexivity. }
  split; [|vm_compute; reflexivity].
  exists (utf8_encode 0x3000), (bs " " ++ [x0a]). split.
  { exists [0x3000]. split; [constructor; [vm_compute; tauto|constructor]|reflexivity]. }
  split; [|reflexivity]. exists [32; 10]. split; [|reflexivity].
  constructor; [vm_compute; tauto|constructor; [vm_compute; tauto|constructor]].
Qed.

(** ** C36 *)
Theorem C36_zip64 : forall (c : cfg) local entries gap head size ext disk disks fields comment content f, supported c ->
  wf_zip64 entries head size disk disks fields comment ->
  content = zip64_archive local entries gap head size ext disk disks fields comment ->
  addressable c content -> signed c FZip content ->
  zip_class content Zip (firstn 1024 entries) f -> from_bytes c content = Done f.
Proof.
  intros c local entries gap head size ext disk disks fields comment content f Hc Hw -> Had Hs Hcl.
  pose proof (addressable_slice c _ Hc Had) as Hl. pose proof (slice_room _ Hl).
  apply (detect_ok c FZip); auto. apply zip64_reader_spec; auto. lia.
Qed.
Print Assumptions C36_zip64.
Example C36_witness :
  let local := local_head ++ bs "some data" in
  let content := zip64_archive local docx_entries (bs "gap") (repeat x00 32) (repeat x00 8) (bs "ext")
                   (repeat x00 4) (repeat x00 4) (repeat xff 18) (bs "hello") in
  wf_zip64 docx_entries (repeat x00 32) (repeat x00 8) (repeat x00 4) (repeat x00 4) (repeat xff 18) (bs "hello") /\
  addressable cfg_all content /\ signed cfg_all FZip content /\
  from_bytes cfg_all content = Done OfficeOpenXmlDocument.
Proof.
  cbv zeta. split; [unfold wf_zip64, docx_entries; wf_zip_by_computation|].
  split; [vm_compute; reflexivity|]. split; [signed_by_computation|]. vm_compute; reflexivity.
Qed.

(** ** C37: a comment that holds an end record of its own is believed. *)
Theorem C37_comment_refuted : exists local entries comment,
  lenN comment < 2 ^ 16 /\ Forall wf_entry entries /\
  from_bytes cfg_all (archive local entries []) = Done OfficeOpenXmlDocument /\
  from_bytes cfg_all (archive local entries comment) = Done Zip.
Proof.
  exists (local_head ++ bs "some data"), docx_entries, (eocd (repeat x00 18) []).
  split; [reflexivity|]. split; [unfold docx_entries; wf_zip_by_computation|]. split; vm_compute; reflexivity.
Qed.
(** Such a comment can even choose the format: a document becomes an Android package. *)
Theorem C37_comment_chooses_refuted : exists local entries comment,
  lenN comment < 2 ^ 16 /\ Forall wf_entry entries /\
  from_bytes cfg_all (archive local entries []) = Done OfficeOpenXmlDocument /\
  from_bytes cfg_all (archive local entries comment) = Done AndroidPackage.
Proof.
  exists (local_head ++ bs "some data"), docx_entries.
  exists (directory [entry "AndroidManifest.xml" 0] ++
          eocd (eocd_fields (repeat x00 6) 1 (repeat x00 4) (lenN (archive (local_head ++ bs "some data") docx_entries [])) 0) []).
  split; [reflexivity|]. split; [unfold docx_entries; wf_zip_by_computation|]. split; vm_compute; reflexivity.
Qed.
(** Every comment without the signature is harmless. *)
Theorem C37_harmless_comments : forall (c : cfg) local entries gap disks size comment content f, supported c ->
  wf_zip local entries gap disks size comment ->
  content = zip_archive local entries gap disks size comment ->
  addressable c content -> signed c FZip content ->
  zip_class content Zip (firstn 1024 entries) f -> from_bytes c content = Done f.
Proof. exact C34_zip_entries. Qed.
Print Assumptions C37_harmless_comments.
