(** C24-C30, C32, C41: binary containers.  Statements use SpecBin.v, SpecExe.v, SpecId3.v,
    SpecMp4.v, SpecEbml.v and SpecApi.v. *)
From Coq Require Import NArith ZArith Bool String List Lia ZifyBool ZifyNat ZifyN.
From Verif Require Import Base BaseProofs Formats FormatsProofs Signatures IO Readers Lib Mem
  Documented Static ReaderStatic Spec SpecSig SpecText SpecBin SpecExe SpecId3 SpecMp4 SpecEbml SpecApi
  LibProofs Ideal SigProofs CoreProofs BinProofs Exec ExeProofs Id3Proofs Mp4Proofs EbmlProofs Glue Conf.
Ltac Zify.zify_post_hook ::= idtac.
Local Open Scope N_scope.

Lemma slice_room l : rust_slice l -> lenN l + 400 <= u64_max1 - 1.
Proof.
  unfold rust_slice. change (2 ^ 63) with 9223372036854775808.
  change (u64_max1 - 1) with 18446744073709551615. lia.
Qed.
Lemma sig_first l f : from_signature l = Some f -> first_match signatures l f.
Proof. apply from_signature_some. Qed.
Ltac signed_by_computation :=
  split; [reflexivity|]; split; [discriminate|]; apply sig_first; vm_compute; reflexivity.
(** A Matroska file. *)
Definition mkv (doctype : string) (unknown : bool) (tracks : list element) : list element :=
  [Master MEbml false 1 [Element 2 0x4286 1 [x01]; DocType 1 (bs doctype)];
   Master MSegment unknown 8 [Element 1 0xEC 2 (repeat x00 5); Master MTracks false 2 tracks; Cluster true 8 (bs "....")]].
(** Side conditions of concrete examples. *)
Ltac small := first [ vm_compute; reflexivity | vm_compute; tauto | vm_compute; intuition discriminate | lia ].
Ltac wf_step :=
  lazymatch goal with
  | |- Forall _ [] => constructor
  | |- Forall _ (_ :: _) => constructor
  | |- Forall _ (mkv _ _ _) => unfold mkv
  | |- Forall _ (_ ++ _) => cbn [app]
  | |- _ /\ _ => split
  | |- True => exact I
  | |- wf_piece _ => hnf
  | |- wf_epiece _ => hnf
  | |- wf_box _ => hnf
  | |- wf_element _ => hnf
  | |- wf_size _ _ => split
  | |- element_id _ _ => split
  | |- (_ <= _)%nat => lia
  | |- (_ <= _ <= _)%nat => lia
  | |- _ -> False => small
  | |- _ -> _ => intros
  | _ => small
  end.
Ltac wf_by_computation := repeat wf_step.

(** ** C24 *)
Lemma c24_lemma (c : cfg) l : supported c -> rust_slice l -> signed c FExe l ->
  exists f, from_bytes c l = Done f /\ decided c l (exe_class l) f.
Proof.
  intros Hc Hl Hs. apply (detect_gives c FExe); auto. apply exe_reader_spec; [exact Hc|now apply slice_room].
Qed.
Theorem C24_executables : forall (c : cfg) l, supported c -> rust_slice l -> signed c FExe l ->
  exists f, from_bytes c l = Done f /\ decided c l (exe_class l) f.
Proof. exact c24_lemma. Qed.
Print Assumptions C24_executables.
Definition exe_sample (e_lfanew : byte) (ext : bytes) : bytes :=
  bs "MZ" ++ repeat x00 58 ++ [e_lfanew; x00; x00; x00] ++ ext.
Example C24_witness :
  let pe := exe_sample x40 ([x50; x45; x00; x00] ++ repeat x00 18 ++ [x02; x20] ++ repeat x00 4) in
  let ne := exe_sample x40 (bs "NE..x") in
  signed cfg_all FExe pe /\ exe_class pe = Some DynamicLinkLibrary /\ from_bytes cfg_all pe = Done DynamicLinkLibrary /\
  signed cfg_all FExe ne /\ exe_class ne = Some NewExecutable /\
  from_bytes cfg_all (exe_sample xff []) = Done MsDosExecutable.
Proof.
  split; [signed_by_computation|]. split; [vm_compute; reflexivity|]. split; [vm_compute; reflexivity|].
  split; [signed_by_computation|]. split; vm_compute; reflexivity.
Qed.

(** ** C25, C26 *)
Lemma id3_lemma (c : cfg) items audio content r : supported c ->
  content = flat_map item_bytes items ++ audio -> rust_slice content -> signed c FId3v2 content ->
  Forall wf_item items -> (forall s, audio <> bs "ID3" ++ s) -> id3_class audio r ->
  exists f, from_bytes c content = Done f /\ decided c content r f.
Proof.
  intros Hc -> Hl Hs Hw Hn Hr. apply (detect_gives c FId3v2); auto.
  pose proof (slice_room _ Hl). apply id3_reader_spec; auto. lia.
Qed.
Lemma c25_lemma (c : cfg) tags audio content r : supported c ->
  content = flat_map tag_bytes tags ++ audio -> rust_slice content -> signed c FId3v2 content ->
  Forall (fun t => wf_tag t /\ has_extended t = false) tags ->
  (forall s, audio <> bs "ID3" ++ s) -> id3_class audio r ->
  exists f, from_bytes c content = Done f /\ decided c content r f.
Proof.
  intros Hc E Hl Hs Hw Hn Hr. apply (id3_lemma c (map (fun t => (t, [])) tags) audio); auto.
  - rewrite E. f_equal. clear. induction tags as [|t tags IH]; [reflexivity|]. cbn [map flat_map].
    rewrite IH. f_equal. unfold item_bytes. cbn [fst snd]. symmetry. apply app_nil_r.
  - apply Forall_map. eapply Forall_impl; [|exact Hw]. intros t [H1 H2]. cbn. split; [exact H1|].
    split; [reflexivity|]. cbn. congruence.
Qed.
Theorem C25_tags_are_skipped : forall (c : cfg) tags audio content r, supported c ->
  content = flat_map tag_bytes tags ++ audio -> rust_slice content -> signed c FId3v2 content ->
  Forall (fun t => wf_tag t /\ has_extended t = false) tags ->
  (forall s, audio <> bs "ID3" ++ s) -> id3_class audio r ->
  exists f, from_bytes c content = Done f /\ decided c content r f.
Proof. exact c25_lemma. Qed.
Print Assumptions C25_tags_are_skipped.
Example C25_witness :
  let t1 := mktag (x04, x00) x10 (bs "TIT2 some frames") in       (* with a footer *)
  let t2 := mktag (x03, x00) x00 (repeat x00 300) in
  let audio := bs "fLaC" ++ repeat x00 8 in
  let content := flat_map tag_bytes [t1; t2] ++ audio in
  signed cfg_all FId3v2 content /\ Forall (fun t => wf_tag t /\ has_extended t = false) [t1; t2] /\
  id3_class audio (Some FreeLosslessAudioCodec) /\
  from_bytes cfg_all content = Done FreeLosslessAudioCodec.
Proof.
  cbv zeta. split; [signed_by_computation|]. split; [repeat constructor|].
  split; [|vm_compute; reflexivity]. constructor; [vm_compute; discriminate|]. eexists. reflexivity.
Qed.

(** With extended headers, the tags are skipped if each is followed by as many bytes as the size
    field of its extended header says ... *)
Theorem C26_counted_twice : forall (c : cfg) items audio content r, supported c ->
  content = flat_map item_bytes items ++ audio -> rust_slice content -> signed c FId3v2 content ->
  Forall wf_item items -> (forall s, audio <> bs "ID3" ++ s) -> id3_class audio r ->
  exists f, from_bytes c content = Done f /\ decided c content r f.
Proof. exact id3_lemma. Qed.
Print Assumptions C26_counted_twice.
(** ... so a tag with an extended header in front of FLAC data hides the FLAC data. *)
Theorem C26_extended_header_refuted : exists t audio, wf_tag t /\ has_extended t = true /\
  (exists frames, tag_body t = be_bytes 4 6 ++ repeat x00 6 ++ frames) /\
  id3_class audio (Some FreeLosslessAudioCodec) /\
  from_bytes cfg_all (tag_bytes t ++ audio) = Done Id3v2.
Proof.
  exists (mktag (x03, x00) x40 (be_bytes 4 6 ++ repeat x00 6 ++ bs "TIT2....")), (bs "fLaC" ++ repeat x00 40).
  split; [vm_compute; reflexivity|]. split; [vm_compute; reflexivity|]. split; [eexists; reflexivity|].
  split; [constructor; [vm_compute; discriminate|eexists; reflexivity]|]. vm_compute. reflexivity.
Qed.

(** ** C27, C28 *)
Lemma c27_lemma (c : cfg) boxes content : supported c -> Forall wf_box boxes ->
  content = flat_map box_bytes boxes -> rust_slice content -> signed c FMp4 content ->
  from_bytes c content = Done (mp4_class (firstn 256 (flat_map doc_order boxes))).
Proof.
  intros Hc Hw -> Hl Hs. apply (detect_ok c FMp4); auto. pose proof (slice_room _ Hl).
  apply mp4_reader_spec; auto. lia.
Qed.
(** Container boxes (moov, trak, mdia) may use either size field; the others the 32-bit one. *)
Theorem C27_mp4_tracks : forall (c : cfg) boxes content, supported c -> Forall wf_box boxes ->
  content = flat_map box_bytes boxes -> rust_slice content -> signed c FMp4 content ->
  from_bytes c content = Done (mp4_class (firstn 256 (flat_map doc_order boxes))).
Proof. exact c27_lemma. Qed.
Print Assumptions C27_mp4_tracks.
(** In particular: with at most 256 boxes and a video handler anywhere, the file is video. *)
Theorem C27_video : forall (c : cfg) boxes content, supported c -> Forall wf_box boxes ->
  content = flat_map box_bytes boxes -> rust_slice content -> signed c FMp4 content ->
  (List.length (flat_map doc_order boxes) <= 256)%nat ->
  In (Some (bs "vide")) (flat_map doc_order boxes) -> from_bytes c content = Done Mpeg4Part14Video.
Proof.
  intros c boxes content Hc Hw E Hl Hs Hn Hin. rewrite (c27_lemma c boxes) by assumption.
  rewrite firstn_all2 by exact Hn. unfold mp4_class.
  replace (has_handler ["vide"%string] (flat_map doc_order boxes)) with true; [reflexivity|].
  symmetry. apply existsb_exists. eexists. split; [exact Hin|]. reflexivity.
Qed.
Print Assumptions C27_video.
Definition ftyp : mp4_box := Leaf (bs "ftyp") (bs "MSNV" ++ repeat x00 4).
Definition track (large : bool) (handler : string) : mp4_box :=
  Node large (bs "moov") [Leaf (bs "mvhd") (repeat x00 20);
    Node large (bs "trak") [Node large (bs "mdia") [Hdlr (repeat x00 8) (bs handler) (bs "name"); Leaf (bs "minf") []]]].
Example C27_witness :
  let boxes := [ftyp; Leaf (bs "free") (repeat x00 13); track false "soun"] in
  let content := flat_map box_bytes boxes in
  Forall wf_box boxes /\ signed cfg_all FMp4 content /\ from_bytes cfg_all content = Done Mpeg4Part14Audio.
Proof.
  cbv zeta. split; [|split; [signed_by_computation|vm_compute; reflexivity]].
  wf_by_computation.
Qed.
(** 64-bit sizes of container boxes are honoured; any other box with a 64-bit size swallows the 8
    bytes behind it. *)
Lemma c28_lemma (c : cfg) pieces content : supported c -> Forall wf_piece pieces ->
  content = flat_map piece_bytes pieces -> rust_slice content -> signed c FMp4 content ->
  from_bytes c content = Done (mp4_class (firstn 256 (flat_map piece_order pieces))).
Proof.
  intros Hc Hw -> Hl Hs. apply (detect_ok c FMp4); auto. pose proof (slice_room _ Hl).
  apply mp4_pieces_spec; auto. lia.
Qed.
Theorem C28_large_boxes : forall (c : cfg) pieces content, supported c -> Forall wf_piece pieces ->
  content = flat_map piece_bytes pieces -> rust_slice content -> signed c FMp4 content ->
  from_bytes c content = Done (mp4_class (firstn 256 (flat_map piece_order pieces))).
Proof. exact c28_lemma. Qed.
Print Assumptions C28_large_boxes.
Example C28_witness :
  let pieces := [Tree ftyp; LargeLeaf (bs "free") (repeat x00 5) (bs "8 bytes!"); Tree (track true "soun");
                 Head true (bs "moov") 1000; Head false (bs "trak") 0;
                 LargeHdlr (repeat x00 8) (bs "vide") (bs "x") (repeat xff 8)] in
  let content := flat_map piece_bytes pieces in
  Forall wf_piece pieces /\ signed cfg_all FMp4 content /\ from_bytes cfg_all content = Done Mpeg4Part14Video.
Proof.
  cbv zeta. split; [|split; [signed_by_computation|vm_compute; reflexivity]].
  wf_by_computation.
Qed.
(** So a file with such a box can lose its video track. *)
Theorem C28_large_leaf_refuted : exists payload after,
  Forall wf_box after /\
  mp4_class (doc_order ftyp ++ None :: flat_map doc_order after) = Mpeg4Part14Video /\
  from_bytes cfg_all (box_bytes ftyp ++ (box_header true (bs "free") (lenN payload) ++ payload) ++ flat_map box_bytes after)
    = Done Mpeg4Part14.
Proof.
  exists (repeat x00 16), [Leaf (bs "skip") (be_bytes 4 100 ++ bs "wide"); track false "vide"].
  split; [wf_by_computation|].
  split; vm_compute; reflexivity.
Qed.

(** ** C29, C30 *)
Lemma c29_lemma (c : cfg) els content : supported c -> Forall wf_element els ->
  content = flat_map element_bytes els -> rust_slice content -> signed c FEbml content ->
  from_bytes c content = Done (ebml_class (firstn 256 (flat_map events els))).
Proof.
  intros Hc Hw -> Hl Hs. apply (detect_ok c FEbml); auto. pose proof (slice_room _ Hl).
  apply ebml_reader_spec; auto. lia.
Qed.
Theorem C29_matroska : forall (c : cfg) els content, supported c -> Forall wf_element els ->
  content = flat_map element_bytes els -> rust_slice content -> signed c FEbml content ->
  from_bytes c content = Done (ebml_class (firstn 256 (flat_map events els))).
Proof. exact c29_lemma. Qed.
Print Assumptions C29_matroska.
Example C29_witness :
  let audio := [Master MTrackEntry false 1 [CodecID 1 (bs "A_OPUS")]] in
  let video3d := [Master MTrackEntry false 1 [CodecID 1 (bs "V_VP9"); Master MVideo false 1 [StereoMode 1 x01]]] in
  Forall wf_element (mkv "matroska" true video3d) /\
  signed cfg_all FEbml (flat_map element_bytes (mkv "matroska" true video3d)) /\
  from_bytes cfg_all (flat_map element_bytes (mkv "matroska" true video3d)) = Done Matroska3dVideo /\
  from_bytes cfg_all (flat_map element_bytes (mkv "matroska" true audio)) = Done MatroskaAudio /\
  from_bytes cfg_all (flat_map element_bytes (mkv "webm" false audio)) = Done Webm.
Proof.
  cbv zeta. split.
  - wf_by_computation.
  - split; [signed_by_computation|]. repeat split; vm_compute; reflexivity.
Qed.
(** A stereo mode stored in two bytes. *)
(** Of a StereoMode element one byte is consumed, whatever its declared size. *)
Lemma c30_lemma (c : cfg) pieces content : supported c -> Forall wf_epiece pieces ->
  content = flat_map epiece_bytes pieces -> rust_slice content -> signed c FEbml content ->
  from_bytes c content = Done (ebml_class (firstn 256 (flat_map epiece_events pieces))).
Proof.
  intros Hc Hw -> Hl Hs. apply (detect_ok c FEbml); auto. pose proof (slice_room _ Hl).
  apply ebml_pieces_spec; auto. lia.
Qed.
Theorem C30_one_byte_consumed : forall (c : cfg) pieces content, supported c -> Forall wf_epiece pieces ->
  content = flat_map epiece_bytes pieces -> rust_slice content -> signed c FEbml content ->
  from_bytes c content = Done (ebml_class (firstn 256 (flat_map epiece_events pieces))).
Proof. exact c30_lemma. Qed.
Print Assumptions C30_one_byte_consumed.
Example C30_witness :
  let pieces := [ETree (Master MEbml false 1 [DocType 1 (bs "matroska")]); EHead MSegment 8 1000; EHead MTracks 1 100;
                 EHead MTrackEntry 1 50; ETree (CodecID 1 (bs "V_VP9")); EHead MVideo 1 0; EStereo 1 0 x00;
                 EStereo 3 2 x01] in
  let content := flat_map epiece_bytes pieces in
  Forall wf_epiece pieces /\ signed cfg_all FEbml content /\ from_bytes cfg_all content = Done Matroska3dVideo.
Proof.
  cbv zeta. split; [|split; [signed_by_computation|vm_compute; reflexivity]].
  wf_by_computation.
Qed.
(** So a wider stereo mode is misread. *)
Theorem C30_wide_stereo_mode_refuted : exists before after,
  ebml_class (flat_map events before ++ EvStereo (be_val [x00; x01]) :: flat_map events after) = Matroska3dVideo /\
  Forall wf_element (before ++ after) /\
  from_bytes cfg_all (flat_map element_bytes before ++ leaf_bytes (be_bytes 2 ID_StereoMode) 1 [x00; x01]
                      ++ flat_map element_bytes after) = Done ArbitraryBinaryData.
Proof.
  exists [Master MEbml false 1 [DocType 1 (bs "matroska")]; Master MSegment true 8 [];
          Master MTracks true 8 []; Master MTrackEntry true 8 [CodecID 1 (bs "V_VP9")]; Master MVideo true 8 []],
         [Element 1 0xB0 1 [x01]].
  split; [vm_compute; reflexivity|]. split; [|vm_compute; reflexivity].
  wf_by_computation.
Qed.

(** ** C32 *)
Lemma c32_lemma (c : cfg) l r : supported c -> rust_slice l -> signed c FCfb l -> cfb_class l r ->
  exists f, from_bytes c l = Done f /\ decided c l r f.
Proof.
  intros Hc Hl Hs Hr. apply (detect_gives c FCfb); auto.
  destruct (cfb_reader_spec c l (u64_max1 - 1) Hc (slice_room l Hl)) as (r' & Hr' & Hg).
  now rewrite (cfb_class_fun l r r' Hr Hr').
Qed.
Theorem C32_compound_files : forall (c : cfg) l r, supported c -> rust_slice l -> signed c FCfb l -> cfb_class l r ->
  exists f, from_bytes c l = Done f /\ decided c l r f.
Proof. exact c32_lemma. Qed.
Print Assumptions C32_compound_files.
(** Every input is covered. *)
Theorem C32_complete : forall l, rust_slice l -> exists r, cfb_class l r.
Proof.
  intros l Hl. destruct (cfb_reader_spec (mkplat false 64) l (u64_max1 - 1) (or_intror eq_refl) (slice_room l Hl))
    as (r & Hr & _). now exists r.
Qed.
Print Assumptions C32_complete.
(** In particular: a header of version 3 or 4 with the number [n] of the first directory sector at
    offset 48, and a known class identifier in the root entry of that sector. *)
Theorem C32_known_class_id : forall (c : cfg) (v4 : bool) a b d tail n g f content,
  let size := if v4 then 4096 else 512 in
  supported c -> rust_slice content -> signed c FCfb content ->
  wf_guid g -> In (guid_text g, f) cfb_classes -> n < 2 ^ 32 ->
  lenN a = 26 -> lenN b = 20 -> 52 + lenN d = size * (1 + n) + 80 ->
  content = a ++ le_bytes 2 (if v4 then 4 else 3) ++ b ++ le_bytes 4 n ++ d ++ guid_bytes g ++ tail ->
  from_bytes c content = Done f.
Proof.
  intros c v4 a b d tail n g f content size Hc Hl Hs Hg Hin Hn Ha Hb Hd E.
  assert (Hd26 : dropN 26 content = le_bytes 2 (if v4 then 4 else 3) ++ b ++ le_bytes 4 n ++ d ++ guid_bytes g ++ tail).
  { rewrite E. now apply dropN_app_len. }
  assert (Hd48 : dropN 48 content = le_bytes 4 n ++ d ++ guid_bytes g ++ tail).
  { change 48 with (26 + 22). rewrite <- dropN_dropN, Hd26, app_assoc.
    apply dropN_app_len. rewrite lenN_app, lenN_le_bytes. lia. }
  assert (Hl16 : lenN (guid_bytes g) = 16).
  { destruct Hg as (_ & _ & _ & H4). unfold guid_bytes. rewrite !lenN_app, !lenN_le_bytes. unfold lenN. rewrite H4. reflexivity. }
  assert (Hdir : cfb_directory content = size * (1 + n)).
  { unfold cfb_directory, slice. rewrite Hd26, Hd48.
    rewrite !takeN_app_len by apply lenN_le_bytes.
    rewrite !le_val_le_bytes by (exact Hn || (destruct v4; vm_compute; reflexivity)).
    unfold size. destruct v4; reflexivity. }
  assert (Hroot : dropN (cfb_directory content + 80) content = guid_bytes g ++ tail).
  { rewrite Hdir. replace (size * (1 + n) + 80) with (48 + (4 + lenN d)) by lia.
    rewrite <- dropN_dropN, Hd48, app_assoc.
    apply dropN_app_len. rewrite lenN_app, lenN_le_bytes. lia. }
  assert (Hlen : cfb_directory content + 96 <= lenN content).
  { assert (K := f_equal lenN Hroot). rewrite lenN_dropN, lenN_app, Hl16 in K. lia. }
  destruct (c32_lemma c content (Some f) Hc Hl Hs) as (f' & Hf & Hdec).
  { apply cfb_known; [|exact Hlen|].
    - assert (K := f_equal lenN Hd48). rewrite lenN_dropN, lenN_app, lenN_le_bytes in K. lia.
    - unfold slice. rewrite Hroot, takeN_app_len by exact Hl16. exists g. auto. }
  cbn in Hdec. now rewrite Hf, Hdec.
Qed.
Print Assumptions C32_known_class_id.
(** A StarCalc document with its directory in sector 1. *)
Example C32_witness :
  let g := mkguid 0xc6a5b861 0x85d6 0x11d1 [x89; xcb; x00; x80; x29; xe4; xb0; xb1] in
  let a := [xd0; xcf; x11; xe0; xa1; xb1; x1a; xe1] ++ repeat x00 18 in
  let content := a ++ le_bytes 2 3 ++ repeat x00 20 ++ le_bytes 4 1 ++ repeat x00 (N.to_nat 1052) ++ guid_bytes g ++ repeat x00 32 in
  rust_slice content /\ signed cfg_all FCfb content /\ wf_guid g /\ In (guid_text g, Starcalc) cfb_classes /\
  52 + lenN (repeat x00 (N.to_nat 1052)) = 512 * (1 + 1) + 80 /\ from_bytes cfg_all content = Done Starcalc.
Proof.
  cbv zeta. split; [vm_compute; reflexivity|]. split; [signed_by_computation|].
  split; [repeat split; vm_compute; reflexivity|]. split; [vm_compute; tauto|]. split; vm_compute; reflexivity.
Qed.

(** ** C41 *)
Lemma run_int_at content max (f : bytes -> N) n pre a post : content = pre ++ a ++ post -> lenN a = n ->
  mrun content max (let! buf := read_exact n in ok (f buf)) (lenN pre) = (Done (Ok (f a)), lenN pre + n).
Proof.
  intros -> Hn. unfold mrun. rewrite run_bindio. cbn [read_exact run mem_machine m_read_exact].
  unfold mem_read_exact. rewrite dropN_app_len by reflexivity. rewrite takeN_app_len by exact Hn.
  rewrite Hn, N.eqb_refl. reflexivity.
Qed.
(** The integer readers decode what the encoders of SpecBin.v wrote, and move behind it. *)
Theorem C41_integers : forall content max pre post v,
  (v < 2 ^ 8 -> content = pre ++ le_bytes 1 v ++ post ->
     mrun content max read_u8 (lenN pre) = (Done (Ok v), lenN pre + 1)) /\
  (v < 2 ^ 16 -> content = pre ++ le_bytes 2 v ++ post ->
     mrun content max read_u16_le (lenN pre) = (Done (Ok v), lenN pre + 2)) /\
  (v < 2 ^ 32 -> content = pre ++ le_bytes 4 v ++ post ->
     mrun content max read_u32_le (lenN pre) = (Done (Ok v), lenN pre + 4)) /\
  (v < 2 ^ 32 -> content = pre ++ be_bytes 4 v ++ post ->
     mrun content max read_u32_be (lenN pre) = (Done (Ok v), lenN pre + 4)) /\
  (v < 2 ^ 64 -> content = pre ++ le_bytes 8 v ++ post ->
     mrun content max read_u64_le (lenN pre) = (Done (Ok v), lenN pre + 8)) /\
  (v < 2 ^ 64 -> content = pre ++ be_bytes 8 v ++ post ->
     mrun content max read_u64_be (lenN pre) = (Done (Ok v), lenN pre + 8)).
Proof.
  intros content max pre post v.
  repeat split; intros Hv E;
    unfold read_u8, read_u16_le, read_u32_le, read_u32_be, read_u64_le, read_u64_be;
    erewrite run_int_at by (first [exact E | apply lenN_le_bytes | apply lenN_be_bytes]);
    first [rewrite le_val_le_bytes by exact Hv | rewrite be_val_be_bytes by exact Hv]; reflexivity.
Qed.
Print Assumptions C41_integers.
Theorem C41_guids : forall (c : plat) content max pre g post, supported c -> wf_guid g ->
  content = pre ++ guid_bytes g ++ post ->
  mrun content max (read_guid c) (lenN pre) = (Done (Ok (guid_text g)), lenN pre + 16).
Proof.
  intros c content max pre g post Hc Hg E. pose proof (isize_max_ge c Hc) as Hi.
  rewrite <- (guid_string_text g Hg).
  assert (Hl16 : lenN (guid_bytes g) = 16).
  { destruct Hg as (_ & _ & _ & H4). unfold guid_bytes. rewrite !lenN_app, !lenN_le_bytes. unfold lenN. rewrite H4. reflexivity. }
  unfold mrun, read_guid. rewrite run_bindio, run_read_bytes by lia. cbn [mem_machine m_read_exact].
  unfold mem_read_exact. rewrite E, dropN_app_len by reflexivity. rewrite takeN_app_len by exact Hl16.
  rewrite Hl16. reflexivity.
Qed.
Print Assumptions C41_guids.
(** Every 16 bytes are a GUID, and different bytes have different texts. *)
Theorem C41_guids_total_injective :
  (forall b, lenN b = 16 -> exists g, wf_guid g /\ guid_bytes g = b) /\
  (forall g h, wf_guid g -> wf_guid h -> guid_text g = guid_text h -> g = h).
Proof.
  split.
  - intros b Hb. exists (guid_of b). now apply guid_of_ok.
  - exact guid_text_eq.
Qed.
Print Assumptions C41_guids_total_injective.
Example C41_witness :
  guid_text (mkguid 0x00020906 0 0 [xc0; x00; x00; x00; x00; x00; x00; x46]) = "00020906-0000-0000-c000-000000000046"%string.
Proof. vm_compute. reflexivity. Qed.
