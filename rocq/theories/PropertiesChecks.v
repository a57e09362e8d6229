(** C56: overflow checks (debug builds) only make a difference for sizes no real file has. *)
From Coq Require Import NArith ZArith Bool String List Lia ZifyBool ZifyNat ZifyN.
From Verif Require Import Base BaseProofs Formats FormatsProofs Signatures IO Find FindProofs Readers Lib Mem
  Documented Static ReaderStatic Lawful Spec SpecSig SpecText SpecScan SpecBin SpecExe SpecMedia SpecWalk SpecZip SpecMp4
  SpecApi SpecDetect LibProofs Ideal SigProofs CoreProofs ExeProofs ScanProofs Glue Conf Utf8Proofs WalkProofs
  PropertiesApi PropertiesApi2 PropertiesBuilds PropertiesText PropertiesBin PropertiesMedia PropertiesWalk
  PropertiesDetect PropertiesDetect2.
Ltac Zify.zify_post_hook ::= idtac.
Local Open Scope N_scope.

Lemma tame_window (c : cfg) l : tame_stream c l l -> tame_stream c l (takeN window l).
Proof. intros H x Hs. apply H. now apply window_signed. Qed.

(** Whether overflow is checked or not: tame data is given its format, it never panics. *)
Theorem C56_checked_detection_is_the_specification : forall (c : cfg) l f, supported c -> addressable c l ->
  usize_bits c = 64 \/ ~ signed c FZip l -> (forall x, signed c x l -> tame x l) ->
  (from_bytes c l = Done f <-> format_of c l f).
Proof.
  intros c l f Hc Hl Hz Ht. split; [now apply C54_result_is_the_format|]. intros H. apply memory_format in H.
  rewrite from_bytes_ideal by (auto; apply rust_u64; now apply (addressable_slice c)).
  apply ideal_complete; [exact Hc|right; now apply tame_window|now apply memory_fits| |exact H].
  destruct Hz as [Hz|Hz]; [now left|right]. now rewrite window_signed.
Qed.
Print Assumptions C56_checked_detection_is_the_specification.

(** So on tame data a checked build and an unchecked build do the same. *)
Theorem C56_checks_do_not_matter : forall (c : cfg) l, supported c -> addressable c l ->
  usize_bits c = 64 \/ ~ signed c FZip l -> (forall x, signed c x l -> tame x l) ->
  from_bytes (with_checks true c) l = from_bytes (with_checks false c) l /\
  exists f, from_bytes (with_checks true c) l = Done f.
Proof.
  intros c l Hc Hl Hz Ht. destruct (C54_one_format (with_checks true c) l Hc Hl) as (f & Hf & _).
  assert (E : forall b, from_bytes (with_checks b c) l = Done f).
  { intros b. apply C56_checked_detection_is_the_specification; [exact Hc|exact Hl|exact Hz|exact Ht|].
    apply memory_format. apply (stream_checks true (with_checks b c)). now apply memory_format. }
  rewrite !E. split; [reflexivity|now exists f].
Qed.
Print Assumptions C56_checks_do_not_matter.

(** The same for readers and files. *)
Theorem C56_checked_reader_is_the_specification : forall (c : cfg) content p limit d head f, supported c ->
  well_behaved content p limit d -> p <= limit -> fits c content limit head -> no_narrow_zip c head ->
  fst (dev_read 36870 d) = Ok head -> unsplit c d head -> tame_stream c content head ->
  (fst (from_reader c d) = Done (Ok f) <-> stream_format c content limit head f).
Proof.
  intros c content p limit d head f Hc W Hp Hf Hz E Hu Ht. rewrite (reader_stream c content p limit d head) by auto.
  rewrite okexec_done. split; intros H; [apply ideal_sound|apply ideal_complete]; auto.
Qed.
Print Assumptions C56_checked_reader_is_the_specification.
Theorem C56_reader_checks_do_not_matter : forall (c : cfg) content p limit d head, supported c ->
  well_behaved content p limit d -> p <= limit -> fits c content limit head -> no_narrow_zip c head ->
  fst (dev_read 36870 d) = Ok head -> unsplit c d head -> tame_stream c content head ->
  fst (from_reader (with_checks true c) d) = fst (from_reader (with_checks false c) d) /\
  exists f, fst (from_reader (with_checks true c) d) = Done (Ok f).
Proof.
  intros c content p limit d head Hc W Hp Hf Hz E Hu Ht.
  destruct (C55_one_format (with_checks true c) content limit head Hc Hf) as (f & H & _).
  assert (K : forall b, fst (from_reader (with_checks b c) d) = Done (Ok f)).
  { intros b. apply (C56_checked_reader_is_the_specification (with_checks b c) content p limit d head); auto.
    now apply (stream_checks true (with_checks b c)). }
  rewrite !K. split; [reflexivity|now exists f].
Qed.
Print Assumptions C56_reader_checks_do_not_matter.

(** ** What tame means, in terms of byte patterns *)
Lemma list8 (l : bytes) : lenN l <= 8 -> 
  lenN l <= 7 \/ exists a b c d e f g h, l = [a; b; c; d; e; f; g; h].
Proof.
  intros H. unfold lenN in *. do 8 (destruct l as [|? l]; [left; cbn; lia|]). destruct l; [|cbn in H; lia].
  right. repeat eexists.
Qed.
Lemma slice_occurs i n (l : bytes) : occurs (slice i n l) l.
Proof.
  exists (takeN i l), (dropN n (dropN i l)). unfold slice. now rewrite !take_dropN.
Qed.
Lemma small_value l (v : bytes -> N) : v l < 256 ^ lenN l -> lenN l <= 7 -> v l < 72057594037927936.
Proof.
  intros H H7. eapply N.lt_le_trans; [exact H|]. change 72057594037927936 with (256 ^ 7). apply N.pow_le_mono_r; lia.
Qed.
Lemma digits8 a b c d e f g h (k : N) : k <= 100 ->
  a < 256 -> b < 256 -> c < 256 -> d < 256 -> e < 256 -> f < 256 -> g < 256 -> h < 256 ->
  9223372036854775808 <= a * 72057594037927936 + (b * 281474976710656 + (c * 1099511627776 + (d * 4294967296 +
    (e * 16777216 + (f * 65536 + (g * 256 + h)))))) < 9223372036854775808 + k ->
  a = 128 /\ b = 0 /\ c = 0 /\ d = 0 /\ e = 0 /\ f = 0 /\ g = 0.
Proof. intros. assert (a = 128) by lia. subst a. lia. Qed.
(** MP4 data that does not contain the bytes 80 00 00 00 00 00 00 is tame. *)
Theorem C56_mp4_pattern : forall l, ~ occurs [x80; x00; x00; x00; x00; x00; x00] l -> mp4_tame l.
Proof.
  intros l Hn i H. rewrite p63_eq in H. destruct (list8 (slice i 8 l)) as [H7|(a & b & c & d & e & f & g & h & E)].
  - unfold slice. rewrite lenN_takeN. lia.
  - pose proof (small_value _ be_val (be_val_lt _) H7). lia.
  - apply Hn. rewrite E in H. rewrite !be_val_cons in H.
    change (be_val []) with 0 in H. rewrite N.add_0_r in H.
    repeat match type of H with context [256 ^ lenN ?x] => 
      let v := eval vm_compute in (256 ^ N.of_nat (List.length x)) in change (256 ^ lenN x) with v in H end.
    rewrite N.mul_1_r in H.
    apply digits8 in H; try apply bval_lt; [|lia].
    destruct H as (Ha & Hb & Hc & Hd & He & Hf & Hg).
    change 128 with (bval x80) in Ha. change 0 with (bval x00) in Hb, Hc, Hd, He, Hf, Hg.
    apply bval_inj in Ha, Hb, Hc, Hd, He, Hf, Hg. subst.
    destruct (slice_occurs i 8 l) as (pre & post & El). rewrite E in El.
    exists pre, (h :: post). exact El.
Qed.
Print Assumptions C56_mp4_pattern.
(** ASF data is tame if it contains neither the bytes 00 00 00 00 00 00 80 nor an extended content description
    object whose size is 2^63 or more. *)
Theorem C56_asf_pattern : forall l, rust_slice l -> ~ occurs [x00; x00; x00; x00; x00; x00; x80] l ->
  (forall i, slice i 16 l = guid_bytes guid_extended_content -> le_val (slice (i + 16) 8 l) < 9000000000000000000) ->
  asf_tame l.
Proof.
  intros l Hl Hn Hx. split.
  - intros i H. rewrite p63_eq in H. destruct (list8 (slice i 8 l)) as [H7|(a & b & c & d & e & f & g & h & E)].
    + unfold slice. rewrite lenN_takeN. lia.
    + pose proof (small_value _ le_val (le_val_lt _) H7). lia.
    + apply Hn. rewrite E in H. cbn [le_val] in H.
      assert (K := digits8 (bval h) (bval g) (bval f) (bval e) (bval d) (bval c) (bval b) (bval a) 40 ltac:(discriminate)
        (bval_lt _) (bval_lt _) (bval_lt _) (bval_lt _) (bval_lt _) (bval_lt _) (bval_lt _) (bval_lt _)).
      destruct K as (Ha & Hb & Hc & Hd & He & Hf & Hg).
      { clear -H. lia. }
      change 128 with (bval x80) in Ha. change 0 with (bval x00) in Hb, Hc, Hd, He, Hf, Hg.
      apply bval_inj in Ha, Hb, Hc, Hd, He, Hf, Hg. subst.
      destruct (slice_occurs i 8 l) as (pre & post & El). rewrite E in El.
      exists (pre ++ [a]), post. rewrite <- app_assoc. exact El.
  - intros i Hi. specialize (Hx i Hi). unfold rust_slice in Hl. rewrite p63_eq in Hl.
    destruct (N.le_gt_cases (lenN l) i) as [H|H].
    + unfold slice in Hi. rewrite dropN_all in Hi by exact H. discriminate Hi.
    + change (2 ^ 64) with 18446744073709551616. lia.
Qed.
Print Assumptions C56_asf_pattern.
(** ZIP data is tame if every ZIP64 locator points below 2^63. *)
Theorem C56_zip_pattern : forall l,
  (forall i, slice i 4 l = locator_signature -> le_val (slice (i + 8) 8 l) < 2 ^ 63) -> zip_tame l.
Proof.
  intros l H i Hi. specialize (H i Hi). rewrite p63_eq in H. change (2 ^ 64) with 18446744073709551616. lia.
Qed.
Print Assumptions C56_zip_pattern.

(** Witnesses: an MP4 file is tame and detected by a checked build; the sizes of C03 are not tame. *)
Example C56_witness :
  (forall x, signed cfg_all x mp4_cut -> tame x mp4_cut) /\ signed cfg_all FMp4 mp4_cut /\
  from_bytes (with_checks true cfg_all) mp4_cut = Done Mpeg4Part14Audio /\
  ~ mp4_tame (mp4_huge (x80 :: zeros 7)) /\ ~ asf_tame (asf_huge (zeros 7 ++ [x80])) /\
  ~ zip_tame (zip64_at (repeat xff 8)).
Proof.
  assert (Hs : signed cfg_all FMp4 mp4_cut) by signed_by_computation.
  split; [|split; [exact Hs|split; [vm_compute; reflexivity|]]].
  - intros x Hx. rewrite <- (signed_fun _ _ _ _ Hs Hx). apply C56_mp4_pattern. apply holds_false. vm_compute. reflexivity.
  - split; [|split].
    + intros H. apply (H 24). vm_compute. split; [discriminate|reflexivity].
    + intros [H _]. apply (H 46). vm_compute. split; [discriminate|reflexivity].
    + intros H. specialize (H 30 eq_refl). vm_compute in H. discriminate H.
Qed.
