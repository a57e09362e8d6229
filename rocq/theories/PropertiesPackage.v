(** C60: packages that are ZIP archives.  Statements use SpecPackage.v, SpecZip.v and SpecApi.v. *)
From Coq Require Import NArith ZArith Bool String List Lia ZifyBool ZifyNat ZifyN Permutation.
From Verif Require Import Base BaseProofs Formats FormatsProofs Signatures IO Lib Spec SpecText SpecBin SpecSig SpecApi SpecZip SpecPackage
  LibProofs Ideal SigProofs CoreProofs Glue ZipProofs Conf PropertiesText PropertiesBin PropertiesZip.
Import ListNotations.
Ltac Zify.zify_post_hook ::= idtac.
Local Open Scope N_scope.

(** ** Archives whose decisive entries agree *)
Lemma class_agree content f : forall entries d,
  (forall e, In e entries -> ~ is_stored_mimetype e) ->
  (forall e g, In e entries -> decisive_name (e_name e) g -> g = f) ->
  (exists e, In e entries /\ decisive_name (e_name e) f) -> zip_class content d entries f.
Proof.
  induction entries as [|e l IH]; intros d Hm Ha (e0 & Hin & Hd); [destruct Hin|].
  destruct (first_pass (e_name e) decisive_names) as [g|] eqn:E.
  - apply first_pass_iff in E. rewrite (Ha e g (or_introl eq_refl) E) in E. now apply zip_decisive.
  - assert (Hn : forall g, ~ decisive_name (e_name e) g).
    { intros g K. apply first_pass_iff in K. rewrite K in E. discriminate E. }
    assert (Hr : forall d', zip_class content d' l f).
    { intros d'. apply IH.
      - intros x Hx. apply Hm. now right.
      - intros x g Hx. apply Ha. now right.
      - destruct Hin as [->|Hin]; [now apply Hn in Hd|]. now exists e0. }
    destruct (list_eq_dec Byte.byte_eq_dec (e_name e) (bs "META-INF/MANIFEST.MF")) as [Em|Em].
    + apply zip_manifest; [exact Em|apply Hr].
    + apply zip_skip; auto. apply Hm. now left.
Qed.
Lemma class_none content : forall entries d,
  (forall e, In e entries -> ~ is_stored_mimetype e) ->
  (forall e g, In e entries -> ~ decisive_name (e_name e) g) ->
  zip_class content d entries (if existsb (fun e => if list_eq_dec Byte.byte_eq_dec (e_name e) (bs "META-INF/MANIFEST.MF") then true else false) entries
                               then JavaArchive else d).
Proof.
  induction entries as [|e l IH]; intros d Hm Hd; [constructor|].
  assert (Hr : forall d', zip_class content d' l (if existsb (fun e => if list_eq_dec Byte.byte_eq_dec (e_name e) (bs "META-INF/MANIFEST.MF") then true else false) l
                               then JavaArchive else d')).
  { intros d'. apply IH; intros x; [|intros g]; intros Hx; [apply Hm|apply Hd]; now right. }
  cbn [existsb]. destruct (list_eq_dec Byte.byte_eq_dec (e_name e) (bs "META-INF/MANIFEST.MF")) as [Em|Em]; cbn [orb].
  - apply zip_manifest; [exact Em|]. specialize (Hr JavaArchive). now destruct (existsb _ l).
  - apply zip_skip; auto; [intros g; apply Hd; now left|apply Hm; now left].
Qed.

(** ** C60: order *)
(** If the decisive entries agree and the media type is not stored in an entry, neither the order of the
    entries nor anything else in the archive matters. *)
Theorem C60_order_is_irrelevant : forall (c : cfg) local1 local2 entries1 entries2 gap1 gap2 disks1 disks2 size1 size2 comment1 comment2 content1 content2,
  supported c ->
  wf_zip local1 entries1 gap1 disks1 size1 comment1 -> content1 = zip_archive local1 entries1 gap1 disks1 size1 comment1 ->
  addressable c content1 -> signed c FZip content1 ->
  wf_zip local2 entries2 gap2 disks2 size2 comment2 -> content2 = zip_archive local2 entries2 gap2 disks2 size2 comment2 ->
  addressable c content2 -> signed c FZip content2 ->
  (List.length entries1 <= 1024)%nat -> Permutation (map e_name entries1) (map e_name entries2) ->
  ~ In (bs "mimetype") (map e_name entries1) ->
  (forall a b f g, In a entries1 -> In b entries1 -> decisive_name (e_name a) f -> decisive_name (e_name b) g -> f = g) ->
  from_bytes c content1 = from_bytes c content2.
Proof.
  intros c local1 local2 es1 es2 gap1 gap2 disks1 disks2 size1 size2 cm1 cm2 content1 content2 Hc W1 E1 A1 S1 W2 E2 A2 S2 Hlen Hp Hm Ha.
  assert (Hlen2 : (List.length es2 <= 1024)%nat).
  { apply Permutation_length in Hp. rewrite !map_length in Hp. lia. }
  assert (Hin : forall e, In e es2 -> exists e1, In e1 es1 /\ e_name e1 = e_name e).
  { intros e He. apply (in_map e_name) in He. apply (Permutation_in _ (Permutation_sym Hp)) in He.
    apply in_map_iff in He as (e1 & E & H1). now exists e1. }
  assert (Hin' : forall e, In e es1 -> exists e2, In e2 es2 /\ e_name e2 = e_name e).
  { intros e He. apply (in_map e_name) in He. apply (Permutation_in _ Hp) in He.
    apply in_map_iff in He as (e2 & E & H2). now exists e2. }
  assert (M1 : forall e, In e es1 -> ~ is_stored_mimetype e).
  { intros e He [K _]. apply Hm. rewrite <- K. now apply in_map. }
  assert (M2 : forall e, In e es2 -> ~ is_stored_mimetype e).
  { intros e He [K _]. destruct (Hin e He) as (e1 & H1 & En). apply Hm. rewrite <- K, <- En. now apply in_map. }
  assert (Main : exists f, zip_class content1 Zip es1 f /\ zip_class content2 Zip es2 f).
  { destruct (find (fun e => match first_pass (e_name e) decisive_names with Some _ => true | None => false end) es1) as [e|] eqn:F.
    - apply find_some in F as [He F]. destruct (first_pass (e_name e) decisive_names) as [f|] eqn:D; [|discriminate].
      apply first_pass_iff in D. exists f. split; apply class_agree; auto.
      + intros x g Hx Dx. exact (Ha x e g f Hx He Dx D).
      + now exists e.
      + intros x g Hx Dx. destruct (Hin x Hx) as (x1 & H1 & En). rewrite <- En in Dx. exact (Ha x1 e g f H1 He Dx D).
      + destruct (Hin' e He) as (e2 & H2 & En). exists e2. split; [exact H2|]. now rewrite En.
    - assert (N1 : forall e g, In e es1 -> ~ decisive_name (e_name e) g).
      { intros e g He D. apply first_pass_iff in D. pose proof (find_none _ _ F e He) as K. cbv beta in K. rewrite D in K. discriminate K. }
      assert (N2 : forall e g, In e es2 -> ~ decisive_name (e_name e) g).
      { intros e g He D. destruct (Hin e He) as (e1 & H1 & En). rewrite <- En in D. exact (N1 e1 g H1 D). }
      eexists. split; [apply class_none; assumption|].
      match goal with |- zip_class _ _ _ ?x => replace x with
        (if existsb (fun e => if list_eq_dec Byte.byte_eq_dec (e_name e) (bs "META-INF/MANIFEST.MF") then true else false) es2
         then JavaArchive else Zip); [apply class_none; assumption|] end.
      assert (Ex : forall a b, (forall e, In e a -> exists e', In e' b /\ e_name e' = e_name e) ->
        existsb (fun e => if list_eq_dec Byte.byte_eq_dec (e_name e) (bs "META-INF/MANIFEST.MF") then true else false) a = true ->
        existsb (fun e => if list_eq_dec Byte.byte_eq_dec (e_name e) (bs "META-INF/MANIFEST.MF") then true else false) b = true).
      { intros a b Hab K. apply existsb_exists in K as (e & He & K). destruct (Hab e He) as (e' & He' & En).
        apply existsb_exists. exists e'. split; [exact He'|]. now rewrite En. }
      destruct (existsb _ es1) eqn:X1, (existsb _ es2) eqn:X2; try reflexivity.
      + rewrite (Ex es1 es2 Hin' X1) in X2. discriminate X2.
      + rewrite (Ex es2 es1 Hin X2) in X1. discriminate X1. }
  destruct Main as (f & K1 & K2).
  rewrite (C34_zip_entries c local1 es1 gap1 disks1 size1 cm1 content1 f); auto; [|now rewrite firstn_all2].
  symmetry. apply (C34_zip_entries c local2 es2 gap2 disks2 size2 cm2 content2 f); auto. now rewrite firstn_all2.
Qed.
Print Assumptions C60_order_is_irrelevant.
(** A document in two orders, with other comments and other bytes between the entries. *)
Definition docx_parts : list zip_entry :=
  [entry "[Content_Types].xml" 0; entry "_rels/.rels" 7; entry "word/document.xml" 30; entry "docProps/app.xml" 9].
Definition package_local : bytes := local_head ++ bs "some data".
Example C60_order_witness :
  let one := archive package_local docx_parts (bs "hello") in
  let two := archive (package_local ++ bs "more") (rev docx_parts) [] in
  wf_zip package_local docx_parts [] (repeat x00 6) (repeat x00 4) (bs "hello") /\
  wf_zip (package_local ++ bs "more") (rev docx_parts) [] (repeat x00 6) (repeat x00 4) [] /\
  addressable cfg_all one /\ addressable cfg_all two /\ signed cfg_all FZip one /\ signed cfg_all FZip two /\
  Permutation (map e_name docx_parts) (map e_name (rev docx_parts)) /\ ~ In (bs "mimetype") (map e_name docx_parts) /\
  (forall a b f g, In a docx_parts -> In b docx_parts -> decisive_name (e_name a) f -> decisive_name (e_name b) g -> f = g) /\
  from_bytes cfg_all one = Done OfficeOpenXmlDocument /\ from_bytes cfg_all two = Done OfficeOpenXmlDocument.
Proof.
  cbv zeta. split; [unfold wf_zip, docx_parts; wf_zip_by_computation|].
  split; [unfold wf_zip, docx_parts; cbn [rev app]; wf_zip_by_computation|].
  split; [vm_compute; reflexivity|]. split; [vm_compute; reflexivity|].
  split; [signed_by_computation|]. split; [signed_by_computation|].
  split; [rewrite map_rev; apply Permutation_rev|].
  split. { intros H. cbn [map docx_parts] in H. repeat (destruct H as [H|H]; [discriminate H|]). exact H. }
  split; [|split; vm_compute; reflexivity].
  assert (K : forall a f, In a docx_parts -> decisive_name (e_name a) f -> f = OfficeOpenXmlDocument).
  { intros a f H D. apply first_pass_iff in D. unfold docx_parts in H.
    repeat (destruct H as [<-|H]; [vm_compute in D; congruence|]). destruct H. }
  intros a b f g Ha Hb Da Db. now rewrite (K a f Ha Da), (K b g Hb Db).
Qed.
(** If the decisive entries disagree the order does matter. *)
Theorem C60_order_refuted : exists local entries1 entries2,
  wf_zip local entries1 [] (repeat x00 6) (repeat x00 4) [] /\ wf_zip local entries2 [] (repeat x00 6) (repeat x00 4) [] /\
  Permutation entries1 entries2 /\
  from_bytes cfg_all (archive local entries1 []) = Done AndroidPackage /\
  from_bytes cfg_all (archive local entries2 []) = Done OfficeOpenXmlSpreadsheet.
Proof.
  exists package_local, [entry "AndroidManifest.xml" 0; entry "xl/workbook.xml" 0], [entry "xl/workbook.xml" 0; entry "AndroidManifest.xml" 0].
  split; [unfold wf_zip; wf_zip_by_computation|]. split; [unfold wf_zip; wf_zip_by_computation|].
  split; [apply perm_swap|]. split; vm_compute; reflexivity.
Qed.
Print Assumptions C60_order_refuted.

(** ** C60: packages *)
Definition package_ok (p : package) : bool :=
  forallb (fun t => incompatible t (Is "mimetype")) (mark p ++ parts p) &&
  forallb (fun t => forallb (fun u => feqb (snd u) (package_format p) || incompatible t (fst u)) decisive_names) (mark p ++ parts p) &&
  (forallb (fun t => existsb (fun u => match t, fst u with
      | Is a, Is b | Under a, Under b | TopLevel a, TopLevel b => String.eqb a b
      | UnderEnding a b, UnderEnding a' b' | UnderHolding a b, UnderHolding a' b' => String.eqb a a' && String.eqb b b'
      | _, _ => false end && feqb (snd u) (package_format p)) decisive_names) (mark p) ||
   feqb (package_format p) JavaArchive && forallb (fun t => match t with Is a => String.eqb a "META-INF/MANIFEST.MF" | _ => false end) (mark p)).
Lemma packages_checked : forallb package_ok packages = true.
Proof. vm_compute. reflexivity. Qed.
Lemma test_eq_passes name t u : match t, u with
      | Is a, Is b | Under a, Under b | TopLevel a, TopLevel b => String.eqb a b
      | UnderEnding a b, UnderEnding a' b' | UnderHolding a b, UnderHolding a' b' => String.eqb a a' && String.eqb b b'
      | _, _ => false end = true -> passes name t -> passes name u.
Proof.
  destruct t, u; try discriminate; intros H; try (apply andb_prop in H as [H H']; apply String.eqb_eq in H'; subst);
    apply String.eqb_eq in H; subst; exact (fun x => x).
Qed.
Lemma conforming_class p content entries : In p packages -> conforms p entries -> zip_class content Zip entries (package_format p).
Proof.
  intros Hp (Hall & e0 & t0 & He0 & Ht0 & Hp0). pose proof packages_checked as K. rewrite forallb_forall in K. specialize (K p Hp).
  unfold package_ok in K. apply andb_prop in K as [K K3]. apply andb_prop in K as [K1 K2].
  rewrite forallb_forall in K1, K2.
  assert (Hm : forall e, In e entries -> ~ is_stored_mimetype e).
  { intros e He [E _]. destruct (Hall e He) as (t & Ht & Hpt). exact (incompatible_sound _ _ _ (K1 t Ht) Hpt E). }
  assert (Hd : forall e g, In e entries -> decisive_name (e_name e) g -> g = package_format p).
  { intros e g He (u & Hu & Hpu). destruct (Hall e He) as (t & Ht & Hpt). specialize (K2 t Ht). rewrite forallb_forall in K2.
    specialize (K2 _ Hu). cbn [fst snd] in K2. apply orb_prop in K2 as [K2|K2]; [now apply feqb_eq|].
    exfalso. exact (incompatible_sound _ _ _ K2 Hpt Hpu). }
  apply orb_prop in K3 as [K3|K3].
  - rewrite forallb_forall in K3. specialize (K3 t0 Ht0). apply existsb_exists in K3 as ([u g] & Hu & K3).
    apply andb_prop in K3 as [K3 K4]. cbn [fst snd] in *. apply feqb_eq in K4. subst g.
    apply class_agree; auto. exists e0. split; [exact He0|]. exists u. split; [exact Hu|]. now apply (test_eq_passes _ t0).
  - apply andb_prop in K3 as [K3 K4]. apply feqb_eq in K3. rewrite K3 in *.
    assert (Hn : forall e g, In e entries -> ~ decisive_name (e_name e) g).
    { intros e g He D. pose proof (Hd e g He D). subst g. destruct D as (u & Hu & _). 
      assert (N : forallb (fun u => negb (feqb (snd u) JavaArchive)) decisive_names = true) by (vm_compute; reflexivity).
      rewrite forallb_forall in N. specialize (N _ Hu). discriminate N. }
    pose proof (class_none content entries Zip Hm Hn) as C.
    replace (existsb _ entries) with true in C; [exact C|]. symmetry. apply existsb_exists. exists e0. split; [exact He0|].
    rewrite forallb_forall in K4. specialize (K4 t0 Ht0). destruct t0; try discriminate. apply String.eqb_eq in K4. subst.
    cbn [passes] in Hp0. rewrite Hp0. now destruct (list_eq_dec _ _ _).
Qed.
(** A package with at most 1024 parts is recognised, in whatever order its parts are listed. *)
Theorem C60_packages : forall (c : cfg) p local entries gap disks size comment content,
  supported c -> In p packages -> conforms p entries -> (List.length entries <= 1024)%nat ->
  wf_zip local entries gap disks size comment -> content = zip_archive local entries gap disks size comment ->
  addressable c content -> signed c FZip content ->
  from_bytes c content = Done (package_format p).
Proof.
  intros c p local entries gap disks size comment content Hc Hp Hcf Hlen Hw E Ha Hs.
  apply (C34_zip_entries c local entries gap disks size comment content); auto. rewrite firstn_all2 by exact Hlen.
  now apply conforming_class.
Qed.
Print Assumptions C60_packages.
(** ... and with a ZIP64 end record. *)
Theorem C60_packages_zip64 : forall (c : cfg) p local entries gap head size ext disk disks fields comment content,
  supported c -> In p packages -> conforms p entries -> (List.length entries <= 1024)%nat ->
  wf_zip64 entries head size disk disks fields comment ->
  content = zip64_archive local entries gap head size ext disk disks fields comment ->
  addressable c content -> signed c FZip content ->
  from_bytes c content = Done (package_format p).
Proof.
  intros c p local entries gap head size ext disk disks fields comment content Hc Hp Hcf Hlen Hw E Ha Hs.
  apply (C36_zip64 c local entries gap head size ext disk disks fields comment content); auto. rewrite firstn_all2 by exact Hlen.
  now apply conforming_class.
Qed.
Print Assumptions C60_packages_zip64.
(** Concrete packages: for every row of the table, its decisive part behind everything else. *)
Definition sample_names : list (FileFormat * list string) :=
[ (OfficeOpenXmlDocument, ["[Content_Types].xml"; "docProps/core.xml"; "word/document.xml"]);
  (OfficeOpenXmlPresentation, ["[Content_Types].xml"; "ppt/presentation.xml"]);
  (OfficeOpenXmlSpreadsheet, ["_rels/.rels"; "xl/workbook.xml"; "[Content_Types].xml"]);
  (OfficeOpenXmlDrawing, ["visio/document.xml"]);
  (ThreeDimensionalManufacturingFormat, ["3D/_rels/3dmodel.model.rels"; "Metadata/thumbnail.png"; "3D/3dmodel.model"]);
  (Openxps, ["FixedDocumentSequence.fdseq"; "Documents/1/FixedDocument.fdoc"; "Documents/1/Pages/1.fpage"]);
  (WindowsAppPackage, ["Assets/logo.png"; "AppxManifest.xml"; "AppxBlockMap.xml"]);
  (WindowsAppBundle, ["app_x64.appx"; "AppxMetadata/AppxBundleManifest.xml"]);
  (MicrosoftVisualStudioExtension, ["package/a.js"; "extension.vsixmanifest"]);
  (AndroidPackage, ["META-INF/MANIFEST.MF"; "classes.dex"; "res/layout/a.xml"; "AndroidManifest.xml"]);
  (AndroidAppBundle, ["base/manifest/AndroidManifest.xml"; "BundleConfig.pb"]);
  (JavaArchive, ["META-INF/"; "META-INF/MANIFEST.MF"; "com/example/Main.class"]);
  (WebApplicationArchive, ["META-INF/MANIFEST.MF"; "WEB-INF/classes/A.class"; "index.jsp"; "WEB-INF/web.xml"]);
  (EnterpriseApplicationArchive, ["META-INF/MANIFEST.MF"; "shop.war"; "META-INF/application.xml"]);
  (IosAppStorePackage, ["iTunesArtwork"; "Payload/"; "Payload/Game.app/Info.plist"]);
  (KeyholeMarkupLanguageZip, ["images/a.png"; "doc.kml"]);
  (UniversalSceneDescriptionZip, ["textures/a.png"; "scene.usdc"]);
  (Sketch43, ["pages/1.json"; "document.json"]);
  (Xap, ["App.dll"; "AppManifest.xaml"]) ]%string.
Definition passes_any (name : bytes) (l : list name_test) : bool := existsb (passesb name) l.
Lemma passes_any_iff name l : passes_any name l = true <-> exists t, In t l /\ passes name t.
Proof.
  unfold passes_any. rewrite existsb_exists. split; intros (t & H & K); exists t; (split; [exact H|]); now apply passesb_iff.
Qed.
Definition conformsb (p : package) (entries : list zip_entry) : bool :=
  forallb (fun e => passes_any (e_name e) (mark p ++ parts p)) entries && existsb (fun e => passes_any (e_name e) (mark p)) entries.
Lemma conformsb_sound p entries : conformsb p entries = true -> conforms p entries.
Proof.
  intros H. apply andb_prop in H as [H1 H2]. split.
  - intros e He. rewrite forallb_forall in H1. now apply passes_any_iff, H1.
  - apply existsb_exists in H2 as (e & He & H2). apply passes_any_iff in H2 as (t & Ht & H2). now exists e, t.
Qed.
Definition sample_entries (l : list string) : list zip_entry := map (fun n => entry n 0) l.
Example C60_packages_witness :
  map fst sample_names = map package_format packages /\
  Forall2 (fun p s => conforms p (sample_entries (snd s)) /\
                      from_bytes cfg_all (archive package_local (sample_entries (snd s)) []) = Done (package_format p))
          packages sample_names /\
  (let entries := sample_entries ["META-INF/MANIFEST.MF"; "classes.dex"; "res/layout/a.xml"; "AndroidManifest.xml"]%string in
   wf_zip package_local entries [] (repeat x00 6) (repeat x00 4) [] /\
   addressable cfg_all (archive package_local entries []) /\ signed cfg_all FZip (archive package_local entries [])).
Proof.
  split; [reflexivity|]. split.
  - repeat (constructor; [split; [apply conformsb_sound; vm_compute; reflexivity|vm_compute; reflexivity]|]). constructor.
  - cbv zeta. unfold sample_entries. cbn [map].
    split; [unfold wf_zip; wf_zip_by_computation|]. split; [vm_compute; reflexivity|signed_by_computation].
Qed.
Example C60_packages_zip64_witness :
  let entries := sample_entries ["[Content_Types].xml"; "docProps/core.xml"; "word/document.xml"]%string in
  let content := zip64_archive package_local entries (bs "gap") (repeat x00 32) (repeat x00 8) (bs "ext")
                   (repeat x00 4) (repeat x00 4) (repeat xff 18) (bs "hello") in
  wf_zip64 entries (repeat x00 32) (repeat x00 8) (repeat x00 4) (repeat x00 4) (repeat xff 18) (bs "hello") /\
  addressable cfg_all content /\ signed cfg_all FZip content /\
  (exists p, In p packages /\ package_format p = OfficeOpenXmlDocument /\ conforms p entries) /\
  from_bytes cfg_all content = Done OfficeOpenXmlDocument.
Proof.
  cbv zeta. unfold sample_entries. cbn [map]. split; [unfold wf_zip64; wf_zip_by_computation|].
  split; [vm_compute; reflexivity|]. split; [signed_by_computation|]. split; [|vm_compute; reflexivity].
  eexists. split; [left; reflexivity|]. split; [reflexivity|]. apply conformsb_sound. vm_compute. reflexivity.
Qed.
(** The limits of the table are real.  A Java archive with a package called [word] (or a web site with
    such a folder) is taken for a word processor document: the content types part, which OPC requires, is
    not looked for. *)
Theorem C60_java_package_refuted : exists local entries,
  wf_zip local entries [] (repeat x00 6) (repeat x00 4) [] /\ signed cfg_all FZip (archive local entries []) /\
  map e_name entries = [bs "META-INF/"; bs "META-INF/MANIFEST.MF"; bs "word/Count.class"] /\
  from_bytes cfg_all (archive local entries []) = Done OfficeOpenXmlDocument.
Proof.
  exists package_local, (sample_entries ["META-INF/"; "META-INF/MANIFEST.MF"; "word/Count.class"]%string).
  unfold sample_entries. cbn [map].
  split; [unfold wf_zip; wf_zip_by_computation|]. split; [signed_by_computation|]. split; vm_compute; reflexivity.
Qed.
Print Assumptions C60_java_package_refuted.
(** An OpenXPS document made by Windows (its pages under [Documents/1/Pages/]) is recognised, and so is one
    in the folder layout of the standard's examples only if the folder is called [Documents]. *)
Theorem C60_openxps_folder_refuted : exists local entries,
  wf_zip local entries [] (repeat x00 6) (repeat x00 4) [] /\ signed cfg_all FZip (archive local entries []) /\
  map e_name entries = [bs "[Content_Types].xml"; bs "_rels/.rels"; bs "FixedDocSeq.fdseq"; bs "Doc1/FixedDoc.fdoc"; bs "Doc1/Page1.fpage"] /\
  from_bytes cfg_all (archive local entries []) = Done Zip.
Proof.
  exists package_local, (sample_entries ["[Content_Types].xml"; "_rels/.rels"; "FixedDocSeq.fdseq"; "Doc1/FixedDoc.fdoc"; "Doc1/Page1.fpage"]%string).
  unfold sample_entries. cbn [map].
  split; [unfold wf_zip; wf_zip_by_computation|]. split; [signed_by_computation|]. split; vm_compute; reflexivity.
Qed.
Print Assumptions C60_openxps_folder_refuted.
(** A compressed MusicXML score without the (optional) mimetype entry is a plain archive. *)
Theorem C60_musicxml_refuted : exists local entries,
  wf_zip local entries [] (repeat x00 6) (repeat x00 4) [] /\ signed cfg_all FZip (archive local entries []) /\
  map e_name entries = [bs "META-INF/container.xml"; bs "score.musicxml"] /\
  from_bytes cfg_all (archive local entries []) = Done Zip.
Proof.
  exists package_local, (sample_entries ["META-INF/container.xml"; "score.musicxml"]%string).
  unfold sample_entries. cbn [map].
  split; [unfold wf_zip; wf_zip_by_computation|]. split; [signed_by_computation|]. split; vm_compute; reflexivity.
Qed.
Print Assumptions C60_musicxml_refuted.

(** ** C60: packages that begin with their media type *)
Lemma ocf_known m f x : In (m, f, x) ocf_types -> In (m, f) media_types.
Proof.
  assert (K : forallb (fun t => existsb (fun u => String.eqb (fst (fst t)) (fst u) && feqb (snd (fst t)) (snd u)) media_types) ocf_types = true)
    by (vm_compute; reflexivity).
  intros H. rewrite forallb_forall in K. specialize (K _ H). apply existsb_exists in K as ([m' f'] & Hin & K). cbn [fst snd] in K.
  apply andb_prop in K as [K1 K2]. apply String.eqb_eq in K1. apply feqb_eq in K2. now subst.
Qed.
Theorem C60_media_type_first : forall (c : cfg) m f x local e rest gap disks size comment content,
  supported c -> In (m, f, x) ocf_types ->
  wf_zip local (e :: rest) gap disks size comment -> content = zip_archive local (e :: rest) gap disks size comment ->
  stored_first content e (bs "mimetype") (bs m) ->
  addressable c content -> signed c FZip content ->
  from_bytes c content = Done f /\ extension f = x /\ (f <> OpendocumentDatabase -> media_type f = m).
Proof.
  intros c m f x local e rest gap disks size comment content Hc Hin Hw E (H1 & H2 & H3 & H4 & head & after & Hh & Ec) Ha Hs.
  split.
  - assert (B : blank []) by (exists []; split; [constructor|reflexivity]).
    assert (D : entry_data content e ([] ++ bs m ++ [])).
    { cbn [app]. rewrite app_nil_r. exists [], head, (bs "mimetype"), [], after. split; [cbn [app]; exact Ec|].
      split; [now rewrite H2|]. split; [exact Hh|]. split; [reflexivity|]. split; [reflexivity|now symmetry]. }
    refine (C35_mimetype c local [] e rest gap disks size comment content [] [] m f Hc Hw E Ha Hs _ _ _ B B D (ocf_known m f x Hin)).
    + cbn. lia.
    + intros y [].
    + split; [exact H1|]. now rewrite H3, H4.
  - assert (K : forallb (fun t : string * FileFormat * string => let '(m, f, x) := t in String.eqb (extension f) x &&
        (feqb f OpendocumentDatabase || String.eqb (media_type f) m)) ocf_types = true) by (vm_compute; reflexivity).
    rewrite forallb_forall in K. specialize (K _ Hin). cbv beta iota in K. apply andb_prop in K as [K1 K2].
    split; [now apply String.eqb_eq|]. intros Hn. apply orb_prop in K2 as [K2|K2]; [apply feqb_eq in K2; contradiction|now apply String.eqb_eq].
Qed.
Print Assumptions C60_media_type_first.
(** An EPUB: the media type, stored first without an extra field. *)
Definition stored_media (m : string) : bytes := local_head ++ le_bytes 2 8 ++ le_bytes 2 0 ++ bs "mimetype" ++ bs m.
Definition stored_entry (m : string) : zip_entry := mimetype_entry (bs m).
Example C60_media_type_first_witness :
  let m := "application/epub+zip"%string in
  let entries := [stored_entry m; entry "META-INF/container.xml" 58; entry "word/x" 0] in
  let content := archive (stored_media m) entries [] in
  wf_zip (stored_media m) entries [] (repeat x00 6) (repeat x00 4) [] /\
  stored_first content (stored_entry m) (bs "mimetype") (bs m) /\ In (m, ElectronicPublication, "epub"%string) ocf_types /\
  addressable cfg_all content /\ signed cfg_all FZip content /\
  from_bytes cfg_all content = Done ElectronicPublication.
Proof.
  cbv zeta. split; [unfold wf_zip, stored_entry; wf_zip_by_computation|]. split.
  { unfold stored_first. repeat (split; [reflexivity|]). eexists local_head, _. split; [reflexivity|].
    unfold archive, zip_archive, stored_media. rewrite <- !app_assoc. reflexivity. }
  split; [left; reflexivity|]. split; [vm_compute; reflexivity|]. split; [signed_by_computation|vm_compute; reflexivity].
Qed.
(** An AIR package is required to begin with such an entry too; the library knows the format (by
    [META-INF/AIR/application.xml]) but not its media type, and stops there. *)
Theorem C60_air_refuted : exists local e rest,
  let m := "application/vnd.adobe.air-application-installer-package+zip"%string in
  let content := archive local (e :: rest) [] in
  wf_zip local (e :: rest) [] (repeat x00 6) (repeat x00 4) [] /\ signed cfg_all FZip content /\
  stored_first content e (bs "mimetype") (bs m) /\
  map e_name rest = [bs "META-INF/AIR/application.xml"; bs "Main.swf"] /\
  from_bytes cfg_all (archive local rest []) = Done AdobeIntegratedRuntime /\
  from_bytes cfg_all content = Done Zip.
Proof.
  set (m := "application/vnd.adobe.air-application-installer-package+zip"%string).
  exists (stored_media m), (stored_entry m), (sample_entries ["META-INF/AIR/application.xml"; "Main.swf"]%string).
  cbv zeta. unfold sample_entries. cbn [map].
  split; [unfold wf_zip, stored_entry; wf_zip_by_computation|]. split; [signed_by_computation|]. split.
  { unfold stored_first. repeat (split; [reflexivity|]). eexists local_head, _. split; [reflexivity|].
    unfold archive, zip_archive, stored_media. rewrite <- !app_assoc. reflexivity. }
  split; [reflexivity|]. split; vm_compute; reflexivity.
Qed.
Print Assumptions C60_air_refuted.
