(** C50: what appending data (or, read backwards, cutting a file) can do to a result of the container
    readers.  Statements use SpecApi.v, SpecScan.v, SpecWalk.v and the table below. *)
From Coq Require Import NArith ZArith Bool String List Lia ZifyBool ZifyNat ZifyN.
From Verif Require Import Base BaseProofs Formats FormatsProofs Signatures IO Readers Lib Mem
  Documented Static ReaderStatic Spec SpecSig SpecText SpecScan SpecBin SpecExe SpecId3 SpecMp4 SpecEbml SpecMedia SpecWalk
  SpecApi LibProofs Ideal SigProofs CoreProofs ExeProofs ScanProofs Glue Conf AppendProofs
  PropertiesSig PropertiesText PropertiesBin PropertiesWalk.
Ltac Zify.zify_post_hook ::= idtac.
Local Open Scope N_scope.

(** Not a result of a container reader, but what is reported when it gives up. *)
Definition is_generic (f : FileFormat) : Prop := f = PlainText \/ f = ArbitraryBinaryData.

(** Results that no data behind the input can change. *)
Definition final (x : feature) (f : FileFormat) : Prop :=
  match x with
  | FAsf | FCfb | FId3v2 | FRm => ~ is_generic f
  | FEbml => f = Webm \/ f = Matroska3dVideo
  | FExe => f = DynamicLinkLibrary \/ f = PortableExecutable \/ f = LinearExecutable \/ f = NewExecutable
  | FPdf => f = AdobeIllustratorArtwork
  | FSqlite3 => f = Sketch
  | _ => False
  end.

Lemma generic_decided (c : cfg) l f : generic_result c l f -> is_generic f.
Proof. destruct 1; [now left|now right]. Qed.
Lemma slice_prefix (l t : bytes) : rust_slice (l ++ t) -> rust_slice l.
Proof. unfold rust_slice. rewrite lenN_app'. lia. Qed.
Lemma decided_some (c : cfg) l r f : decided c l r f -> ~ is_generic f -> r = Some f.
Proof. destruct r; cbn; [intros; congruence|]. intros H K. destruct K. eapply generic_decided; eauto. Qed.

Lemma c50_asf (c : cfg) l t f : supported c -> (FAsf = FAsf -> ovf c = false) -> rust_slice (l ++ t) -> rust_slice l ->
  signed c FAsf l -> signed c FAsf (l ++ t) -> from_bytes c l = Done f -> final FAsf f -> from_bytes c (l ++ t) = Done f.
Proof.
  intros Hc Ho Hl Hl0 Hs Hs' H Hf. cbn [final] in Hf.
    specialize (Ho eq_refl). apply C47_asf_every_input in H; auto. apply C47_asf_every_input; auto.
    rewrite (asf_result_app l t _ f); [reflexivity|]. eapply decided_some; eauto.
Qed.
Lemma c50_cfb (c : cfg) l t f : supported c -> (FCfb = FAsf -> ovf c = false) -> rust_slice (l ++ t) -> rust_slice l ->
  signed c FCfb l -> signed c FCfb (l ++ t) -> from_bytes c l = Done f -> final FCfb f -> from_bytes c (l ++ t) = Done f.
Proof.
  intros Hc Ho Hl Hl0 Hs Hs' H Hf. cbn [final] in Hf.
    destruct (C32_complete l Hl0) as (r & Hr). destruct (C32_compound_files c l r Hc Hl0 Hs Hr) as (g & E & D).
    rewrite H in E. injection E as <-. apply decided_some in D; [|exact Hf]. subst r.
    destruct (C32_compound_files c _ _ Hc Hl Hs' (cfb_class_app l t f Hr)) as (g & E & D). cbn in D. congruence.
Qed.
Lemma ebml_result_final bits l t limit f : forall n pos, f = Webm \/ f = Matroska3dVideo ->
  option_map ebml_class (ebml_walk l limit bits n pos) = Some f ->
  option_map ebml_class (ebml_walk (l ++ t) limit bits n pos) = Some f.
Proof.
  intros n pos Hf H.
  destruct (ebml_walk l limit bits n pos) as [v|] eqn:E; [|discriminate]. cbn [option_map] in H. injection H as <-.
  rewrite (ebml_walk_final l t _ _ _ _ _ E); [reflexivity|].
  unfold ebml_class in Hf. destruct (first_decisive (before_cluster v)) as [g|] eqn:Ed.
  { now apply first_decisive_stops in Ed. }
  exfalso. destruct Hf as [K|K]; revert K;
    repeat match goal with |- context [if ?b then _ else _] => destruct b end; discriminate.
Qed.
Lemma ebml_result_stays bits l t limit f : f = Webm \/ f = Matroska3dVideo ->
  ebml_result l limit bits = Some f -> ebml_result (l ++ t) limit bits = Some f.
Proof. intros Hf. unfold ebml_result. exact (ebml_result_final bits l t limit f 256 0 Hf). Qed.
Lemma c50_ebml (c : cfg) l t f : supported c -> (FEbml = FAsf -> ovf c = false) -> rust_slice (l ++ t) -> rust_slice l ->
  signed c FEbml l -> signed c FEbml (l ++ t) -> from_bytes c l = Done f -> final FEbml f -> from_bytes c (l ++ t) = Done f.
Proof.
  intros Hc Ho Hl Hl0 Hs Hs' H Hf. cbn [final] in Hf.
  assert (Hg : ~ is_generic f) by (destruct Hf; subst f; intros [K|K]; discriminate).
  apply (proj2 (C47_ebml_every_input c (l ++ t) f Hc Hl Hs')). apply (proj1 (C47_ebml_every_input c l f Hc Hl0 Hs)) in H.
  apply decided_some in H; [|exact Hg].
  rewrite (ebml_result_stays _ l t _ f Hf H). reflexivity.
Qed.
Lemma c50_exe (c : cfg) l t f : supported c -> (FExe = FAsf -> ovf c = false) -> rust_slice (l ++ t) -> rust_slice l ->
  signed c FExe l -> signed c FExe (l ++ t) -> from_bytes c l = Done f -> final FExe f -> from_bytes c (l ++ t) = Done f.
Proof.
  intros Hc Ho Hl Hl0 Hs Hs' H Hf. cbn [final] in Hf.
    destruct (C24_executables c l Hc Hl0 Hs) as (g & E & D). rewrite H in E. injection E as <-.
    destruct (C24_executables c _ Hc Hl Hs') as (g & E & D').
    assert (Hg : ~ is_generic f /\ f <> MsDosExecutable)
      by (destruct Hf as [K|[K|[K|K]]]; subst f; split; try discriminate; intros [K|K]; discriminate).
    apply decided_some in D; [|apply Hg].
    rewrite (exe_class_app l t f) in D' by (auto; apply Hg). cbn in D'. congruence.
Qed.
Lemma c50_id3v2 (c : cfg) l t f : supported c -> (FId3v2 = FAsf -> ovf c = false) -> rust_slice (l ++ t) -> rust_slice l ->
  signed c FId3v2 l -> signed c FId3v2 (l ++ t) -> from_bytes c l = Done f -> final FId3v2 f -> from_bytes c (l ++ t) = Done f.
Proof.
  intros Hc Ho Hl Hl0 Hs Hs' H Hf. cbn [final] in Hf.
    apply C47_id3v2_every_input in H; auto. apply C47_id3v2_every_input; auto.
    destruct H as (r & Hw & D). apply decided_some in D; [|exact Hf]. subst r.
    exists (Some f). split; [|reflexivity]. eapply id3_walk_app; eauto.
Qed.
Lemma c50_pdf (c : cfg) l t f : supported c -> (FPdf = FAsf -> ovf c = false) -> rust_slice (l ++ t) -> rust_slice l ->
  signed c FPdf l -> signed c FPdf (l ++ t) -> from_bytes c l = Done f -> final FPdf f -> from_bytes c (l ++ t) = Done f.
Proof.
  intros Hc Ho Hl Hl0 Hs Hs' H Hf. cbn [final] in Hf.
    subst f. apply (C20_illustrator_iff c l Hc Hl0 Hs) in H. apply (C20_illustrator_iff c _ Hc Hl Hs').
    now apply occurs_window.
Qed.
Lemma c50_rm (c : cfg) l t f : supported c -> (FRm = FAsf -> ovf c = false) -> rust_slice (l ++ t) -> rust_slice l ->
  signed c FRm l -> signed c FRm (l ++ t) -> from_bytes c l = Done f -> final FRm f -> from_bytes c (l ++ t) = Done f.
Proof.
  intros Hc Ho Hl Hl0 Hs Hs' H Hf. cbn [final] in Hf.
    apply C47_realmedia_every_input in H; auto. apply C47_realmedia_every_input; auto.
    rewrite (rm_result_app l t _ f); [reflexivity|]. eapply decided_some; eauto.
Qed.
Lemma c50_sqlite (c : cfg) l t f : supported c -> (FSqlite3 = FAsf -> ovf c = false) -> rust_slice (l ++ t) -> rust_slice l ->
  signed c FSqlite3 l -> signed c FSqlite3 (l ++ t) -> from_bytes c l = Done f -> final FSqlite3 f -> from_bytes c (l ++ t) = Done f.
Proof.
  intros Hc Ho Hl Hl0 Hs Hs' H Hf. cbn [final] in Hf.
    subst f. apply (C21_sketch_iff c l Hc Hl0 Hs) in H. apply (C21_sketch_iff c _ Hc Hl Hs').
    now apply occurs_window.
Qed.
Lemma c50_final (c : cfg) x l t f : supported c -> (x = FAsf -> ovf c = false) -> rust_slice (l ++ t) ->
  signed c x l -> signed c x (l ++ t) -> from_bytes c l = Done f -> final x f -> from_bytes c (l ++ t) = Done f.
Proof.
  intros Hc Ho Hl Hs Hs' H Hf. pose proof (slice_prefix _ _ Hl) as Hl0.
  destruct x; try (exfalso; exact Hf).
  - exact (c50_asf c l t f Hc Ho Hl Hl0 Hs Hs' H Hf).
  - exact (c50_cfb c l t f Hc Ho Hl Hl0 Hs Hs' H Hf).
  - exact (c50_ebml c l t f Hc Ho Hl Hl0 Hs Hs' H Hf).
  - exact (c50_exe c l t f Hc Ho Hl Hl0 Hs Hs' H Hf).
  - exact (c50_id3v2 c l t f Hc Ho Hl Hl0 Hs Hs' H Hf).
  - exact (c50_pdf c l t f Hc Ho Hl Hl0 Hs Hs' H Hf).
  - exact (c50_rm c l t f Hc Ho Hl Hl0 Hs Hs' H Hf).
  - exact (c50_sqlite c l t f Hc Ho Hl Hl0 Hs Hs' H Hf).
Qed.

(** A final result survives any extension of the input, as long as the extension does not complete a
    signature of higher priority. *)
Theorem C50_final_results_stay : forall (c : cfg) x l t f, supported c -> (x = FAsf -> ovf c = false) ->
  rust_slice (l ++ t) -> signed c x l -> signed c x (l ++ t) ->
  from_bytes c l = Done f -> final x f -> from_bytes c (l ++ t) = Done f.
Proof. exact c50_final. Qed.
Print Assumptions C50_final_results_stay.

(** It cannot complete one when the first 36870 bytes are there. *)
Lemma signed_window (c : cfg) x l t : 36870 <= lenN l -> signed c x l -> signed c x (l ++ t).
Proof.
  intros H (H1 & H2 & H3). split; [exact H1|]. split; [exact H2|].
  apply (proj1 (proj2 C05_window_suffices (l ++ t) l (container x) (takeN_app_le _ _ _ H))). exact H3.
Qed.
Theorem C50_long_enough : forall (c : cfg) x l t f, supported c -> (x = FAsf -> ovf c = false) ->
  rust_slice (l ++ t) -> 36870 <= lenN l -> signed c x l ->
  from_bytes c l = Done f -> final x f -> from_bytes c (l ++ t) = Done f.
Proof. intros. eapply c50_final; eauto. now apply signed_window. Qed.
Print Assumptions C50_long_enough.

(** Two splits of one list. *)
Lemma list_split_cases {A} (b b' : list A) : forall e e' a a', b ++ e :: a = b' ++ e' :: a' ->
  (b = b' /\ e = e') \/ In e' b \/ In e b'.
Proof.
  revert b'. induction b as [|x b IH]; intros [|y b'] e e' a a' E; cbn in E.
  - injection E as -> _. now left.
  - injection E as -> _. right. right. now left.
  - injection E as -> _. right. left. now left.
  - injection E as -> E. destruct (IH _ _ _ _ _ E) as [(-> & ->)|[K|K]]; [now left|right; left; now right|right; right; now right].
Qed.

(** XML: appended text can only bring in a dialect of higher priority. *)
Lemma c50_xml (c : cfg) l t f : supported c -> rust_slice (l ++ t) -> signed c FXml l -> signed c FXml (l ++ t) ->
  from_bytes c l = Done f ->
  exists g, from_bytes c (l ++ t) = Done g /\
    (g = f \/ f = ExtensibleMarkupLanguage \/
     exists before alts after galts, xml_dialects = before ++ (alts, f) :: after /\ In (galts, g) before).
Proof.
  intros Hc Hl Hs Hs' H. pose proof (slice_prefix _ _ Hl) as Hl0.
  assert (T : exists g, from_bytes c (l ++ t) = Done g).
  { destruct (xml_reader_spec c (l ++ t) (u64_max1 - 1)) as (g & Hg & _); [discriminate|].
    exists g. exact (detect_ok c FXml _ g Hc Hl Hs' Hg). }
  destruct T as (g & Eg). exists g. split; [exact Eg|].
  apply (C19_xml_dialects c l Hc Hl0 Hs) in H. apply (C19_xml_dialects c _ Hc Hl Hs') in Eg.
  destruct H as [(b & alts & a & E & Hp & Hn)|(-> & _)]; [|auto].
  assert (Hp' : dialect_present (slice 5 8192 (l ++ t)) alts).
  { destruct Hp as (ms & Hin & Hm). exists ms. split; [exact Hin|]. intros m Hm'. apply occurs_window. auto. }
  destruct Eg as [(b' & alts' & a' & E' & Hq & Hn')|(-> & Hn')].
  - rewrite E in E'. destruct (list_split_cases _ _ _ _ _ _ E') as [(E1 & E2)|[Hin|Hin]].
    + left. congruence.
    + right. right. exists b, alts, a, alts'. split; [exact E|exact Hin].
    + exfalso. eapply Hn'; eauto.
  - exfalso. eapply Hn'; [|exact Hp']. rewrite E. apply in_or_app. right. left. reflexivity.
Qed.
Theorem C50_xml_dialects : forall (c : cfg) l t f, supported c -> rust_slice (l ++ t) ->
  signed c FXml l -> signed c FXml (l ++ t) -> from_bytes c l = Done f ->
  exists g, from_bytes c (l ++ t) = Done g /\
    (g = f \/ f = ExtensibleMarkupLanguage \/
     exists before alts after galts, xml_dialects = before ++ (alts, f) :: after /\ In (galts, g) before).
Proof. exact c50_xml. Qed.
Print Assumptions C50_xml_dialects.

(** MP4: an extension has at least the tracks of the input, unless it ends within a box header. *)
Definition mp4_rank (f : FileFormat) : option N :=
  match f with
  | Mpeg4Part14Video => Some 3
  | Mpeg4Part14Audio => Some 2
  | Mpeg4Part14Subtitles => Some 1
  | Mpeg4Part14 => Some 0
  | _ => None
  end.
Lemma mp4_class_app a b : exists r s, mp4_rank (mp4_class a) = Some r /\ mp4_rank (mp4_class (a ++ b)) = Some s /\ r <= s.
Proof.
  unfold mp4_class.
  destruct (has_handler ["vide"%string] a) eqn:E1.
  { rewrite (has_handler_app _ _ b E1). exists 3, 3. split; [reflexivity|]. split; [reflexivity|lia]. }
  destruct (has_handler ["soun"%string] a) eqn:E2.
  { rewrite (has_handler_app _ _ b E2). destruct (has_handler ["vide"%string] (a ++ b));
      eexists; eexists; (split; [reflexivity|]); (split; [reflexivity|]); lia. }
  destruct (has_handler ["sbtl"; "subt"; "text"]%string a) eqn:E3.
  { rewrite (has_handler_app _ _ b E3). destruct (has_handler ["vide"%string] (a ++ b)), (has_handler ["soun"%string] (a ++ b));
      eexists; eexists; (split; [reflexivity|]); (split; [reflexivity|]); lia. }
  repeat match goal with |- context [if ?b then _ else _] => destruct b end;
    eexists; eexists; (split; [reflexivity|]); (split; [reflexivity|]); lia.
Qed.
Lemma mp4_result_gen l t limit f : forall n pos,
  option_map mp4_class (mp4_walk l limit n pos) = Some f ->
  option_map mp4_class (mp4_walk (l ++ t) limit n pos) = None \/
  exists g, option_map mp4_class (mp4_walk (l ++ t) limit n pos) = Some g /\
    exists r s, mp4_rank f = Some r /\ mp4_rank g = Some s /\ r <= s.
Proof.
  intros n pos H. destruct (mp4_walk l limit n pos) as [v|] eqn:E; [|discriminate].
  cbn [option_map] in H. injection H as <-.
  destruct (mp4_walk_app l t _ _ _ _ E) as [K|(w & K)]; rewrite K; cbn [option_map]; [now left|].
  right. eexists. split; [reflexivity|]. apply mp4_class_app.
Qed.
Lemma mp4_result_app l t limit f : mp4_result l limit = Some f ->
  mp4_result (l ++ t) limit = None \/
  exists g, mp4_result (l ++ t) limit = Some g /\ exists r s, mp4_rank f = Some r /\ mp4_rank g = Some s /\ r <= s.
Proof. unfold mp4_result. exact (mp4_result_gen l t limit f 256 0). Qed.
Lemma c50_mp4 (c : cfg) l t f : supported c -> ovf c = false -> rust_slice (l ++ t) ->
  signed c FMp4 l -> signed c FMp4 (l ++ t) -> from_bytes c l = Done f -> ~ is_generic f ->
  exists g, from_bytes c (l ++ t) = Done g /\
    (is_generic g \/ exists r s, mp4_rank f = Some r /\ mp4_rank g = Some s /\ r <= s).
Proof.
  intros Hc Ho Hl Hs Hs' H Hf. pose proof (slice_prefix _ _ Hl) as Hl0.
  apply C47_mp4_every_input in H; auto. apply decided_some in H; [|exact Hf].
  destruct (detect_gives c FMp4 (l ++ t) (mp4_result (l ++ t) memory_limit) Hc Hl Hs') as (g & Eg & D).
  { apply WalkProofs.mp4_reader_walk; auto using room. }
  exists g. split; [exact Eg|].
  destruct (mp4_result_app l t _ f H) as [K|(g' & K & HR)]; rewrite K in D.
  - left. cbn [decided] in D. eapply generic_decided; eauto.
  - right. cbn [decided] in D. subst g. exact HR.
Qed.
Theorem C50_mp4_tracks_are_kept : forall (c : cfg) l t f, supported c -> ovf c = false -> rust_slice (l ++ t) ->
  signed c FMp4 l -> signed c FMp4 (l ++ t) -> from_bytes c l = Done f -> ~ is_generic f ->
  exists g, from_bytes c (l ++ t) = Done g /\
    (is_generic g \/ exists r s, mp4_rank f = Some r /\ mp4_rank g = Some s /\ r <= s).
Proof. exact c50_mp4. Qed.
Print Assumptions C50_mp4_tracks_are_kept.
(** The exception is real: three bytes of garbage behind a complete video make it unrecognisable. *)
Definition zeros (n : nat) : bytes := repeat x00 n.
Definition mp4_complete : bytes :=
  be_bytes 4 16 ++ bs "ftypisom" ++ be_bytes 4 0 ++
  be_bytes 4 60 ++ bs "moov" ++ be_bytes 4 52 ++ bs "trak" ++ be_bytes 4 44 ++ bs "mdia" ++
  be_bytes 4 36 ++ bs "hdlr" ++ zeros 8 ++ bs "vide" ++ zeros 16.
Theorem C50_mp4_stays_recognised_refuted : exists (c : cfg) l t, supported c /\ ovf c = false /\
  rust_slice (l ++ t) /\ signed c FMp4 l /\ signed c FMp4 (l ++ t) /\
  from_bytes c l = Done Mpeg4Part14Video /\ from_bytes c (l ++ t) = Done ArbitraryBinaryData.
Proof.
  exists cfg_all, mp4_complete, (zeros 3). split; [now right|]. split; [reflexivity|]. split; [reflexivity|].
  split; [signed_by_computation|]. split; [signed_by_computation|]. split; vm_compute; reflexivity.
Qed.
Print Assumptions C50_mp4_stays_recognised_refuted.

(** EBML: once the walk has met a cluster, the rest of the file is irrelevant. *)
Lemma ebml_cluster_stays l t limit bits events : ebml_walk l limit bits 256 0 = Some events -> In EvCluster events ->
  ebml_result l limit bits = Some (ebml_class events) /\ ebml_result (l ++ t) limit bits = Some (ebml_class events).
Proof.
  intros E Hin.
  assert (K : ebml_walk (l ++ t) limit bits 256 0 = Some events).
  { apply (ebml_walk_final l t limit bits 256 0 events E).
    apply existsb_exists. exists EvCluster. split; [exact Hin|reflexivity]. }
  unfold ebml_result. rewrite E, K. split; reflexivity.
Qed.
Theorem C50_ebml_behind_a_cluster : forall (c : cfg) l t f events, supported c -> rust_slice (l ++ t) ->
  signed c FEbml l -> signed c FEbml (l ++ t) ->
  ebml_walk l memory_limit (usize_bits c) 256 0 = Some events -> In EvCluster events ->
  from_bytes c l = Done f -> from_bytes c (l ++ t) = Done f.
Proof.
  intros c l t f v Hc Hl Hs Hs' E Hin H. pose proof (slice_prefix _ _ Hl) as Hl0.
  apply C47_ebml_every_input in H; auto. apply C47_ebml_every_input; auto.
  destruct (ebml_cluster_stays l t _ _ v E Hin) as (K1 & K2). rewrite K1 in H. rewrite K2. exact H.
Qed.
Print Assumptions C50_ebml_behind_a_cluster.

(** Witnesses: a RealMedia video, an executable whose extended header comes with the appended bytes,
    an SVG that turns out to be an earlier dialect, an audio track followed by a video track. *)
Example C50_witness_final :
  let t := bs "anything" in
  signed cfg_all FRm rm_cut /\ signed cfg_all FRm (rm_cut ++ t) /\ final FRm Realvideo /\
  from_bytes cfg_all rm_cut = Done Realvideo /\ from_bytes cfg_all (rm_cut ++ t) = Done Realvideo /\
  signed cfg_all FEbml ebml_cut /\ signed cfg_all FEbml (ebml_cut ++ t) /\ final FEbml Webm /\
  from_bytes cfg_all (ebml_cut ++ t) = Done Webm.
Proof.
  cbv zeta. split; [signed_by_computation|]. split; [signed_by_computation|].
  split; [intros [K|K]; discriminate|]. split; [vm_compute; reflexivity|]. split; [vm_compute; reflexivity|].
  split; [signed_by_computation|]. split; [signed_by_computation|]. split; [now left|vm_compute; reflexivity].
Qed.
Example C50_witness_not_final :
  let dos := exe_sample x40 [] in let ne := bs "NE..x" in
  let svg := bs "<?xml version='1.0'?><svg/>" in let kml := bs "<kml/>" in
  signed cfg_all FExe dos /\ signed cfg_all FExe (dos ++ ne) /\
  from_bytes cfg_all dos = Done MsDosExecutable /\ from_bytes cfg_all (dos ++ ne) = Done NewExecutable /\
  signed cfg_all FXml svg /\ signed cfg_all FXml (svg ++ kml) /\
  from_bytes cfg_all svg = Done ScalableVectorGraphics /\ from_bytes cfg_all (svg ++ kml) = Done KeyholeMarkupLanguage.
Proof.
  cbv zeta. split; [signed_by_computation|]. split; [signed_by_computation|].
  split; [vm_compute; reflexivity|]. split; [vm_compute; reflexivity|].
  split; [signed_by_computation|]. split; [signed_by_computation|]. split; vm_compute; reflexivity.
Qed.
Definition mp4_track : bytes :=
  be_bytes 4 52 ++ bs "trak" ++ be_bytes 4 44 ++ bs "mdia" ++
  be_bytes 4 36 ++ bs "hdlr" ++ zeros 8 ++ bs "vide" ++ zeros 16.
Example C50_witness_mp4 :
  let l := takeN 76 mp4_cut in
  signed cfg_all FMp4 l /\ signed cfg_all FMp4 (l ++ mp4_track) /\
  from_bytes cfg_all l = Done Mpeg4Part14Audio /\ from_bytes cfg_all (l ++ mp4_track) = Done Mpeg4Part14Video.
Proof.
  cbv zeta. split; [signed_by_computation|]. split; [signed_by_computation|]. split; vm_compute; reflexivity.
Qed.
Definition ebml_cluster : bytes :=
  [x1a; x45; xdf; xa3; x8b; x42; x82; x88] ++ bs "matroska" ++ [x86; x85] ++ bs "A_AAC" ++ [x1f; x43; xb6; x75; x81].
Example C50_witness_cluster :
  let t := [x86; x85] ++ bs "V_VP8" in
  signed cfg_all FEbml ebml_cluster /\ signed cfg_all FEbml (ebml_cluster ++ t) /\
  In EvCluster match ebml_walk ebml_cluster memory_limit 64 256 0 with Some v => v | None => [] end /\
  from_bytes cfg_all ebml_cluster = Done MatroskaAudio /\ from_bytes cfg_all (ebml_cluster ++ t) = Done MatroskaAudio.
Proof.
  cbv zeta. split; [signed_by_computation|]. split; [signed_by_computation|].
  split; [vm_compute; auto 10|]. split; vm_compute; reflexivity.
Qed.
