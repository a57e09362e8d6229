(** C47: every input with the signature of a container, well formed or not, is classified by the walk
    through its bytes written down in SpecWalk.v; nothing is assumed about the input.  Statements use
    SpecWalk.v and SpecApi.v. *)
From Coq Require Import NArith ZArith Bool String List Lia ZifyBool ZifyNat ZifyN.
From Verif Require Import Base BaseProofs Formats FormatsProofs Signatures IO Readers Lib Mem
  Documented Static ReaderStatic Spec SpecSig SpecText SpecBin SpecId3 SpecMp4 SpecEbml SpecMedia SpecZip SpecWalk SpecApi
  LibProofs Ideal SigProofs CoreProofs ExeProofs Glue Conf WalkProofs WalkEbml WalkId3 WalkZip
  PropertiesBin PropertiesApi2 PropertiesBuilds.
Ltac Zify.zify_post_hook ::= idtac.
Local Open Scope N_scope.

Lemma decided_fun (c : cfg) l r f g : decided c l r f -> decided c l r g -> f = g.
Proof. destruct r; cbn; [congruence|]. apply generic_result_fun. Qed.
Lemma walk_iff (c : cfg) x l r f : supported c -> rust_slice l -> signed c x l ->
  gives (mreader c l (u64_max1 - 1) x) r -> from_bytes c l = Done f <-> decided c l r f.
Proof.
  intros Hc Hl Hs Hg. destruct (detect_gives c x l r Hc Hl Hs Hg) as (g & E & D). split.
  - intros H. rewrite H in E. injection E as ->. exact D.
  - intros H. now rewrite (decided_fun _ _ _ _ _ H D).
Qed.
(** A result of a checked build is the result of the release build. *)
Lemma walk_checked (c : cfg) x l r f : supported c -> rust_slice l -> signed c x l ->
  gives (mreader (with_checks false c) l (u64_max1 - 1) x) r -> from_bytes c l = Done f -> decided c l r f.
Proof.
  intros Hc Hl Hs Hg H.
  assert (E : from_bytes (with_checks false c) l = Done f).
  { destruct (ovf c) eqn:Ho; [now apply C03_debug_bytes_agree|].
    replace (with_checks false c) with c; [exact H|]. unfold with_checks, mkcfg.
    destruct c as [? [? ?]]; cbn in *. now rewrite Ho. }
  apply (walk_iff (with_checks false c) x l r f) in E; auto.
  destruct r; cbn in *; [exact E|]. destruct E; constructor; auto.
Qed.
Lemma room l : rust_slice l -> lenN l <= u64_max1 - 1.
Proof. intros H. pose proof (slice_room l H). lia. Qed.

(** ** MP4 *)
Theorem C47_mp4_every_input : forall (c : cfg) l f, supported c -> ovf c = false -> rust_slice l ->
  signed c FMp4 l -> from_bytes c l = Done f <-> decided c l (mp4_result l memory_limit) f.
Proof. intros. eapply walk_iff; eauto. apply mp4_reader_walk; auto using room. Qed.
Print Assumptions C47_mp4_every_input.
Theorem C47_mp4_any_build : forall (c : cfg) l f, supported c -> rust_slice l -> signed c FMp4 l ->
  from_bytes c l = Done f -> decided c l (mp4_result l memory_limit) f.
Proof. intros. eapply walk_checked; eauto. apply mp4_reader_walk; auto using room. Qed.
Print Assumptions C47_mp4_any_build.

(** ** ASF *)
Theorem C47_asf_every_input : forall (c : cfg) l f, supported c -> ovf c = false -> rust_slice l ->
  signed c FAsf l -> from_bytes c l = Done f <-> decided c l (asf_result l memory_limit) f.
Proof. intros. eapply walk_iff; eauto. apply asf_reader_walk; auto using room. reflexivity. Qed.
Print Assumptions C47_asf_every_input.
Theorem C47_asf_any_build : forall (c : cfg) l f, supported c -> rust_slice l -> signed c FAsf l ->
  from_bytes c l = Done f -> decided c l (asf_result l memory_limit) f.
Proof. intros. eapply walk_checked; eauto. apply asf_reader_walk; auto using room. reflexivity. Qed.
Print Assumptions C47_asf_any_build.

(** ** RealMedia *)
Theorem C47_realmedia_every_input : forall (c : cfg) l f, supported c -> rust_slice l -> signed c FRm l ->
  from_bytes c l = Done f <-> decided c l (rm_result l memory_limit) f.
Proof. intros. eapply walk_iff; eauto. apply rm_reader_walk; auto using room. Qed.
Print Assumptions C47_realmedia_every_input.

(** ** EBML *)
Theorem C47_ebml_every_input : forall (c : cfg) l f, supported c -> rust_slice l -> signed c FEbml l ->
  from_bytes c l = Done f <-> decided c l (ebml_result l memory_limit (usize_bits c)) f.
Proof. intros. eapply walk_iff; eauto. apply ebml_reader_walk; auto using room. Qed.
Print Assumptions C47_ebml_every_input.

(** ** ID3v2 *)
Theorem C47_id3v2_every_input : forall (c : cfg) l f, supported c -> rust_slice l -> signed c FId3v2 l ->
  from_bytes c l = Done f <-> exists r, id3_walk l memory_limit 0 r /\ decided c l r f.
Proof.
  intros c l f Hc Hl Hs.
  destruct (id3_reader_walk c l memory_limit Hc (room l Hl) Hl) as (r & Hw & Hg).
  rewrite (walk_iff c FId3v2 l r f Hc Hl Hs Hg). split; [eauto|].
  intros (r' & Hw' & D). now rewrite (id3_walk_fun _ _ _ _ _ Hw Hw').
Qed.
Print Assumptions C47_id3v2_every_input.

(** ** ZIP *)
Lemma addressable_slice (c : cfg) l : supported c -> addressable c l -> rust_slice l.
Proof.
  unfold addressable, rust_slice. intros [-> | ->] H; [|exact H]. change (2 ^ (32 - 1)) with 2147483648 in H.
  change (2 ^ 63) with 9223372036854775808. lia.
Qed.
Lemma zip_result (c : cfg) l : supported c -> ovf c = false -> addressable c l ->
  exists r, zip_walk l memory_limit (usize_bits c) r /\
    (gives (mreader c l (u64_max1 - 1) FZip) r \/ usize_bits c = 32 /\ mreader c l (u64_max1 - 1) FZip = Panicked).
Proof.
  intros Hc Ho Hl. pose proof (addressable_slice c l Hc Hl) as Hr. apply zip_reader_walk; auto using room. reflexivity.
Qed.
Lemma detect_panics (c : cfg) x l : supported c -> rust_slice l -> signed c x l ->
  mreader c l (u64_max1 - 1) x = Panicked -> from_bytes c l = Panicked.
Proof.
  intros Hc Hl (Hf & Hx & Hs) Hm. pose proof (first_match_nonempty _ _ Hs) as Hne.
  apply from_signature_some in Hs.
  rewrite from_bytes_ideal by (auto using rust_u64). unfold ideal_detect.
  destruct (takeN window l) as [|b t] eqn:E; [exfalso; exact (Hne (proj1 (takeN_window_nil l) E))|].
  rewrite <- E, from_signature_window, Hs, feature_of_container, Hf, Hm by exact Hx. reflexivity.
Qed.
Theorem C47_zip_every_input : forall (c : cfg) l f, usize_bits c = 64 -> ovf c = false -> rust_slice l ->
  signed c FZip l -> from_bytes c l = Done f <-> exists r, zip_walk l memory_limit 64 r /\ decided c l r f.
Proof.
  intros c l f Hc Ho Hl Hs.
  destruct (zip_result c l (or_intror Hc) Ho) as (r & Hw & [Hg|[K _]]).
  - unfold addressable. rewrite Hc. exact Hl.
  - rewrite Hc in Hw. rewrite (walk_iff c FZip l r f (or_intror Hc) Hl Hs Hg). split; [eauto|].
    intros (r' & Hw' & D). now rewrite (zip_walk_fun _ _ _ _ _ Hw Hw').
  - rewrite Hc in K. discriminate K.
Qed.
Print Assumptions C47_zip_every_input.
(** Every build: a result is that of the walk (where usize has 32 bits, the number of entries of a ZIP64
    record is truncated). *)
Theorem C47_zip_any_build : forall (c : cfg) l f, supported c -> addressable c l -> signed c FZip l ->
  from_bytes c l = Done f -> exists r, zip_walk l memory_limit (usize_bits c) r /\ decided c l r f.
Proof.
  intros c l f Hc Hl Hs H. pose proof (addressable_slice c l Hc Hl) as Hr.
  destruct (zip_result (with_checks false c) l Hc eq_refl Hl) as (r & Hw & [Hg|[_ Hp]]).
  - exists r. split; [exact Hw|]. eapply walk_checked; eauto.
  - exfalso. apply (detect_panics (with_checks false c) FZip l Hc Hr Hs) in Hp.
    assert (E : from_bytes (with_checks false c) l = Done f); [|congruence].
    destruct (ovf c) eqn:Ho; [now apply C03_debug_bytes_agree|].
    replace (with_checks false c) with c; [exact H|]. unfold with_checks, mkcfg.
    destruct c as [? [? ?]]; cbn in *. now rewrite Ho.
Qed.
Print Assumptions C47_zip_any_build.
(** Where usize has 32 bits and overflow is not checked: the result of the walk, or a panic. *)
Theorem C47_zip_32bit : forall (c : cfg) l, usize_bits c = 32 -> ovf c = false -> addressable c l -> signed c FZip l ->
  from_bytes c l = Panicked \/
  exists r f, zip_walk l memory_limit 32 r /\ decided c l r f /\ from_bytes c l = Done f.
Proof.
  intros c l Hb Ho Hl Hs. pose proof (or_introl Hb : supported c) as Hc. pose proof (addressable_slice c l Hc Hl) as Hr.
  destruct (zip_result c l Hc Ho Hl) as (r & Hw & [Hg|[_ Hp]]).
  - right. destruct (detect_gives c FZip l r Hc Hr Hs Hg) as (f & E & D). rewrite Hb in Hw. eauto.
  - left. now apply (detect_panics c FZip l).
Qed.
Print Assumptions C47_zip_32bit.

(** ** Malformed and truncated files *)
(** An MP4 file cut in the middle of its media data, and one whose last box header is cut. *)
Definition mp4_cut : bytes :=
  be_bytes 4 16 ++ bs "ftypisom" ++ be_bytes 4 0 ++
  be_bytes 4 60 ++ bs "moov" ++ be_bytes 4 52 ++ bs "trak" ++ be_bytes 4 44 ++ bs "mdia" ++
  be_bytes 4 36 ++ bs "hdlr" ++ zeros 8 ++ bs "soun" ++ zeros 16 ++
  be_bytes 4 100000 ++ bs "mdat" ++ bs "only some of the data".
Example C47_mp4_witness :
  signed cfg_all FMp4 mp4_cut /\ from_bytes cfg_all mp4_cut = Done Mpeg4Part14Audio /\
  mp4_result mp4_cut memory_limit = Some Mpeg4Part14Audio /\
  signed cfg_all FMp4 (takeN 21 mp4_cut) /\ mp4_result (takeN 21 mp4_cut) memory_limit = None /\
  from_bytes cfg_all (takeN 21 mp4_cut) = Done ArbitraryBinaryData.
Proof.
  split; [signed_by_computation|]. split; [vm_compute; reflexivity|]. split; [vm_compute; reflexivity|].
  split; [signed_by_computation|]. split; vm_compute; reflexivity.
Qed.
(** A RealMedia file that ends inside the media type of its only stream. *)
Definition rm_cut : bytes :=
  bs ".RMF" ++ be_bytes 4 18 ++ zeros 6 ++ be_bytes 4 2 ++
  bs "MDPR" ++ be_bytes 4 100 ++ zeros 32 ++ [x03] ++ bs "abc" ++ [x0a] ++ bs "video/rm.." ++ zeros 40.
Example C47_realmedia_witness :
  signed cfg_all FRm rm_cut /\ from_bytes cfg_all rm_cut = Done Realvideo /\
  rm_result rm_cut memory_limit = Some Realvideo /\
  signed cfg_all FRm (takeN 70 rm_cut) /\ rm_result (takeN 70 rm_cut) memory_limit = None /\
  from_bytes cfg_all (takeN 70 rm_cut) = Done ArbitraryBinaryData.
Proof.
  split; [signed_by_computation|]. split; [vm_compute; reflexivity|]. split; [vm_compute; reflexivity|].
  split; [signed_by_computation|]. split; vm_compute; reflexivity.
Qed.
(** A WebM file that ends right behind its document type, and one that ends in it. *)
Definition ebml_cut : bytes := [x1a; x45; xdf; xa3; x9f; x42; x82; x84] ++ bs "webm".
Example C47_ebml_witness :
  signed cfg_all FEbml ebml_cut /\ from_bytes cfg_all ebml_cut = Done Webm /\
  ebml_result ebml_cut memory_limit 64 = Some Webm /\
  signed cfg_all FEbml (takeN 11 ebml_cut) /\ ebml_result (takeN 11 ebml_cut) memory_limit 64 = None /\
  from_bytes cfg_all (takeN 11 ebml_cut) = Done ArbitraryBinaryData.
Proof.
  split; [signed_by_computation|]. split; [vm_compute; reflexivity|]. split; [vm_compute; reflexivity|].
  split; [signed_by_computation|]. split; vm_compute; reflexivity.
Qed.
(** An ASF header with an object whose size field is smaller than its header: the walk goes back. *)
Definition asf_back : bytes :=
  unhex "3026b2758e66cf11a6d900aa0062ce6c" ++ le_bytes 8 100 ++ le_bytes 4 2 ++ [x01; x02] ++
  guid_bytes guid_stream_properties ++ le_bytes 8 0 ++ guid_bytes guid_audio_media.
Example C47_asf_witness :
  signed cfg_all FAsf asf_back /\ from_bytes cfg_all asf_back = Done WindowsMediaAudio /\
  asf_result asf_back memory_limit = Some WindowsMediaAudio /\
  signed cfg_all FAsf (takeN 60 asf_back) /\ asf_result (takeN 60 asf_back) memory_limit = None /\
  from_bytes cfg_all (takeN 60 asf_back) = Done ArbitraryBinaryData.
Proof.
  split; [signed_by_computation|]. split; [vm_compute; reflexivity|]. split; [vm_compute; reflexivity|].
  split; [signed_by_computation|]. split; vm_compute; reflexivity.
Qed.
(** An ID3v2 tag alone: MPEG audio data is expected behind it, the file is reported as generic data. *)
Definition id3_alone : bytes := bs "ID3" ++ [x04; x00; x00; x00; x00; x00; x03] ++ bs "abc".
Example C47_id3v2_witness :
  signed cfg_all FId3v2 id3_alone /\ id3_walk id3_alone memory_limit 0 None /\
  from_bytes cfg_all id3_alone = Done ArbitraryBinaryData.
Proof.
  split; [signed_by_computation|]. split; [|vm_compute; reflexivity].
  apply id3_tag_plain; [discriminate|discriminate|reflexivity|reflexivity|].
  apply id3_end; [discriminate|]. apply id3_short. reflexivity.
Qed.
(** A ZIP archive cut before its central directory, and an end record that points behind the file. *)
Definition zip_cut : bytes := [x50; x4b; x03; x04] ++ zeros 30.
Definition zip_far : bytes :=
  [x50; x4b; x03; x04] ++ [x50; x4b; x05; x06] ++ zeros 6 ++ [x01; x00] ++ zeros 4 ++ [x00; x10; x00; x00] ++ zeros 2.
Example C47_zip_witness :
  signed cfg_all FZip zip_cut /\ zip_walk zip_cut memory_limit 64 None /\
  from_bytes cfg_all zip_cut = Done ArbitraryBinaryData /\
  signed cfg_all FZip zip_far /\ zip_walk zip_far memory_limit 64 None /\
  from_bytes cfg_all zip_far = Done ArbitraryBinaryData.
Proof.
  assert (K : forall l n, forallb (fun i => negb (beqb (slice (N.of_nat i) 4 l) eocd_signature)) (seq n 40) = true ->
    lenN l < 40 -> forall i, N.of_nat n <= i -> slice i 4 l <> eocd_signature).
  { intros l n H Hl i Hi. rewrite forallb_forall in H. destruct (N.lt_ge_cases i 40) as [Hi'|Hi'].
    - specialize (H (N.to_nat i)). rewrite in_seq, N2Nat.id in H. specialize (H ltac:(lia)).
      intros E. rewrite E in H. discriminate H.
    - unfold slice. rewrite dropN_all by lia. discriminate. }
  split; [signed_by_computation|]. split.
  { apply zw_no_eocd; [discriminate|]. intros i _. apply (K _ 0%nat); [vm_compute; reflexivity|reflexivity|lia]. }
  split; [vm_compute; reflexivity|]. split; [signed_by_computation|]. split; [|vm_compute; reflexivity].
  apply (zw_zip _ _ _ 4).
  - split; [discriminate|]. split; [reflexivity|]. intros i Hi.
    apply (K _ 5%nat); [vm_compute; reflexivity|reflexivity|lia].
  - discriminate.
  - intros [H _]. now apply H.
  - discriminate.
  - discriminate.
  - apply ew_cut. vm_compute. reflexivity.
Qed.
