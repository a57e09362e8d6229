(** C55: detection from readers and files is the specification of SpecDetect.v. *)
From Coq Require Import NArith ZArith Bool String List Lia ZifyBool ZifyNat ZifyN.
From Verif Require Import Base BaseProofs Formats FormatsProofs Signatures IO Find FindProofs Readers Lib Mem
  Documented Static ReaderStatic Lawful Spec SpecSig SpecText SpecScan SpecBin SpecExe SpecWalk SpecZip SpecMp4
  SpecApi SpecDetect LibProofs Ideal SigProofs CoreProofs ExeProofs ScanProofs Glue Conf
  PropertiesApi PropertiesApi2 PropertiesBuilds PropertiesText PropertiesBin PropertiesMedia PropertiesWalk PropertiesDetect.
Ltac Zify.zify_post_hook ::= idtac.
Local Open Scope N_scope.

Lemma reader_stream (c : cfg) content p limit d head : supported c -> well_behaved content p limit d -> p <= limit ->
  fits c content limit head -> fst (dev_read 36870 d) = Ok head -> unsplit c d head ->
  fst (from_reader c d) = okexec (ideal_detect c content limit head).
Proof.
  intros Hc W Hp (Hl & Hz & Hm & Hm2) E Hu. change 36870 with window in E.
  destruct (dev_read window d) as [r d'] eqn:Er. cbn [fst] in E. subst r.
  assert (Hm1 : lenN content <= limit) by lia.
  apply (reader_ideal c content p limit d head d' Hc Hm2 Hm1 Hp W Er). intros x (f & Hs & Hf & Hfx) Hx. destruct Hu as [Hu|Hu].
  - revert Er. unfold dev_read. rewrite Hu. intros [= _ <-]. reflexivity.
  - exfalso. apply feature_of_some in Hf. destruct Hf as [-> Hn]. apply from_signature_some in Hs.
    apply (Hu x); [destruct x; cbn in *; tauto|]. now split.
Qed.
Lemma okexec_done {A} (e : exec A) f : okexec e = Done (Ok f) <-> e = Done f.
Proof. destruct e; cbn; split; intros H; try discriminate H; injection H as ->; reflexivity. Qed.
Lemma fits_checks b (c : cfg) content limit head : fits c content limit head -> fits (with_checks b c) content limit head.
Proof. exact (fun H => H). Qed.

(** Whatever the build, a result is the format of the stream. *)
Theorem C55_reader_result_is_the_format : forall (c : cfg) content p limit d head f, supported c ->
  well_behaved content p limit d -> p <= limit -> fits c content limit head ->
  fst (dev_read 36870 d) = Ok head -> unsplit c d head ->
  fst (from_reader c d) = Done (Ok f) -> stream_format c content limit head f.
Proof.
  intros c content p limit d head f Hc W Hp Hf E Hu H. apply (stream_checks false).
  assert (K : fst (from_reader (with_checks false c) d) = Done (Ok f)).
  { destruct (ovf c) eqn:Ho; [now apply C03_debug_agrees_with_release|].
    replace (with_checks false c) with c; [exact H|]. unfold with_checks, mkcfg.
    destruct c as [? [? ?]]; cbn in *. now rewrite Ho. }
  rewrite (reader_stream (with_checks false c) content p limit d head) in K by auto.
  apply (proj1 (okexec_done _ _)) in K. apply ideal_sound; [exact Hc|now left|exact Hf|exact K].
Qed.
Print Assumptions C55_reader_result_is_the_format.
(** Without overflow checks it is exactly the format of the stream. *)
Theorem C55_reader_is_the_specification : forall (c : cfg) content p limit d head f, supported c -> ovf c = false ->
  well_behaved content p limit d -> p <= limit -> fits c content limit head -> no_narrow_zip c head ->
  fst (dev_read 36870 d) = Ok head -> unsplit c d head ->
  (fst (from_reader c d) = Done (Ok f) <-> stream_format c content limit head f).
Proof.
  intros c content p limit d head f Hc Ho W Hp Hf Hz E Hu. rewrite (reader_stream c content p limit d head) by auto.
  rewrite okexec_done. split; intros H; [apply ideal_sound|apply ideal_complete]; auto.
Qed.
Print Assumptions C55_reader_is_the_specification.
(** The same for the three usual readers: a cursor anywhere in its data ... *)
Corollary C55_cursor : forall (c : cfg) content p limit f, supported c -> ovf c = false -> p <= limit ->
  fits c content limit (slice p 36870 content) -> no_narrow_zip c (slice p 36870 content) ->
  (fst (from_reader c (mkdev content p [] [] limit)) = Done (Ok f) <->
   stream_format c content limit (slice p 36870 content) f).
Proof.
  intros c content p limit f Hc Ho Hp Hf Hz. apply (C55_reader_is_the_specification c content p limit); auto.
  - repeat split; constructor.
  - now left.
Qed.
Print Assumptions C55_cursor.
(** ... and a file: [limit] is the largest offset of the file system. *)
Corollary C55_file : forall (c : cfg) l limit f, supported c -> ovf c = false ->
  fits c l limit l -> no_narrow_zip c l ->
  (from_file c (FsRegular l limit) = Done (Ok f) <-> stream_format c l limit l f).
Proof.
  intros c l limit f Hc Ho Hf Hz. cbn [from_file].
  assert (E : slice 0 36870 l = takeN window l) by (unfold slice; now rewrite dropN_0).
  assert (Hf' : fits c l limit (slice 0 36870 l)).
  { destruct Hf as (H1 & H2 & H3). split; [exact H1|]. split; [|exact H3]. rewrite E. intros K. apply H2. now apply window_signed. }
  assert (Hz' : no_narrow_zip c (slice 0 36870 l)).
  { destruct Hz as [Hz|Hz]; [now left|right]. rewrite E. now rewrite window_signed. }
  change (file_dev l limit) with (mkdev l 0 [] [] limit).
  rewrite (C55_cursor c l 0 limit f Hc Ho (N.le_0_l _) Hf' Hz'). rewrite E.
  split; intros [H|g Hg Hn|x r g Hs Hv D|g Hne Hn Hg].
  - apply sf_empty. now apply takeN_window_nil.
  - apply sf_signature; [now apply window_first|]. intros x K. exact (Hn x (proj2 (window_signed c x l) K)).
  - apply (sf_container _ _ _ _ x r); [now apply window_signed|exact Hv|exact D].
  - apply sf_generic; [|now apply window_none|exact Hg]. intros K. apply Hne. exact (proj2 (takeN_window_nil l) K).
  - apply sf_empty. now apply takeN_window_nil.
  - apply sf_signature; [now apply window_first|]. intros x K. exact (Hn x (proj1 (window_signed c x l) K)).
  - apply (sf_container _ _ _ _ x r); [now apply window_signed|exact Hv|exact D].
  - apply sf_generic; [|now apply window_none|exact Hg]. intros K. apply Hne. exact (proj1 (takeN_window_nil l) K).
Qed.
Print Assumptions C55_file.
(** Every stream has exactly one format, whatever its first read returned. *)
Theorem C55_one_format : forall (c : cfg) content limit head, supported c -> fits c content limit head ->
  exists f, stream_format c content limit head f /\ forall g, stream_format c content limit head g -> g = f.
Proof.
  intros c content limit head Hc Hf. destruct (stream_total c content limit head Hc Hf) as (f & H).
  exists f. split; [exact H|]. intros g Hg. exact (stream_fun c content limit head g f Hg H).
Qed.
Print Assumptions C55_one_format.
(** Witnesses: a cursor standing on the signature of an MP4 file behind four other bytes (the reader starts over at
    the beginning, where there is no box structure), a reader that delivers byte by byte, and a file. *)
Example C55_witness :
  stream_format cfg_all (bs "text" ++ mp4_cut) (2 ^ 63 - 1) (slice 4 36870 (bs "text" ++ mp4_cut)) Mpeg4Part14 /\
  fits cfg_all (bs "text" ++ mp4_cut) (2 ^ 63 - 1) (slice 4 36870 (bs "text" ++ mp4_cut)) /\
  stream_format cfg_all [xff; xd8; xff] (2 ^ 63 - 1) [xff] ArbitraryBinaryData /\
  stream_format cfg_all mp4_cut (2 ^ 63 - 1) mp4_cut Mpeg4Part14Audio.
Proof.
  assert (F : forall l head, lenN l <? 9000000000000000000 = true -> fits cfg_all l (2 ^ 63 - 1) head).
  { intros l head H. apply N.ltb_lt in H. unfold fits, rust_slice, addressable. change (usize_bits cfg_all) with 64.
    change (2 ^ (64 - 1)) with 9223372036854775808. change (2 ^ 63) with 9223372036854775808.
    change (2 ^ 64) with 18446744073709551616. repeat split; lia. }
  split; [|split; [|split]].
  - apply C55_cursor; [now right|reflexivity|discriminate|apply F; reflexivity|now left|vm_compute; reflexivity].
  - apply F. reflexivity.
  - apply (C55_reader_is_the_specification cfg_all [xff; xd8; xff] 0 (2 ^ 63 - 1) (mkdev [xff; xd8; xff] 0 [RShort 1] [] (2 ^ 63 - 1)));
      [now right|reflexivity| |discriminate|apply F; reflexivity|now left|reflexivity| |vm_compute; reflexivity].
    + repeat split; repeat constructor.
    + right. intros x _ (_ & _ & H). apply from_signature_some in H. vm_compute in H. discriminate H.
  - apply C55_file; [now right|reflexivity|apply F; reflexivity|now left|vm_compute; reflexivity].
Qed.
