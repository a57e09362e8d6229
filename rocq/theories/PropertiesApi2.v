(** C02/C03 (refutations), C14-C17, C44: builds, readers, files. *)
From Coq Require Import NArith ZArith Bool String List Lia ZifyBool ZifyNat ZifyN.
From Verif Require Import Base BaseProofs Formats FormatsProofs Signatures IO Find Utf8 Readers Lib Mem IOProofs
  Documented Static ReaderStatic Lawful Spec SpecSig SpecText SpecScan SpecApi LibProofs Ideal SigProofs CoreProofs
  TextProofs ScanProofs MaxProofs Glue Conf SigSparse.
Local Open Scope N_scope.

(** Byte strings of the witnesses. *)
Definition zeros (n : nat) : bytes := repeat x00 n.
Definition asf_magic : bytes :=
  [x30; x26; xb2; x75; x8e; x66; xcf; x11; xa6; xd9; x00; xaa; x00; x62; xce; x6c].
(** One header object of unknown type whose size field is 2^63. *)
Definition asf_huge (size : bytes) : bytes :=
  asf_magic ++ zeros 8 ++ [x01; x00; x00; x00] ++ [x01; x02] ++ repeat x11 16 ++ size.
(** A ftyp box and a box of unknown type with a 64-bit size. *)
Definition mp4_huge (size : bytes) : bytes :=
  [x00; x00; x00; x10] ++ bs "ftypMSNV" ++ zeros 4 ++ [x00; x00; x00; x01] ++ bs "free" ++ size.
(** A ZIP64 locator that points to offset [off]. *)
Definition zip64_at (off : bytes) : bytes :=
  [x50; x4b; x03; x04] ++ zeros 26 ++ [x50; x4b; x06; x07] ++ zeros 4 ++ off ++ zeros 4
  ++ [x50; x4b; x05; x06] ++ zeros 18.
(** An archive with a "mimetype" entry of 2^32-1 bytes in its directory. *)
Definition zip_mime_huge : bytes :=
  [x50; x4b; x03; x04] ++ zeros 26
  ++ [x50; x4b; x01; x02] ++ zeros 16 ++ repeat xff 8 ++ [x08; x00] ++ zeros 4 ++ zeros 8 ++ zeros 4 ++ bs "mimetype"
  ++ [x50; x4b; x05; x06] ++ zeros 6 ++ [x01; x00] ++ zeros 4 ++ [x1e; x00; x00; x00] ++ zeros 2.

(** ** C02, C03: panics *)
(** On a 32-bit release build a ZIP archive makes the crate ask for 2^32-1 bytes, which panics
    with "capacity overflow". *)
Theorem C02_32bit_total_refuted : exists (c : cfg) l, supported c /\ rust_slice l /\ ovf c = false /\
  from_bytes c l = Panicked.
Proof.
  exists (mkcfg (fun _ => true) false 32), zip_mime_huge.
  split; [now left|]. split; [reflexivity|]. split; [reflexivity|]. vm_compute. reflexivity.
Qed.
Definition checked (x : feature) : cfg :=
  mkcfg (fun y => match x, y with FAsf, FAsf | FMp4, FMp4 | FZip, FZip => true | _, _ => false end) true 64.
Theorem C03_asf_refuted : exists l, rust_slice l /\ from_bytes (checked FAsf) l = Panicked.
Proof. exists (asf_huge (zeros 7 ++ [x80])). split; [reflexivity|]. vm_compute. reflexivity. Qed.
Theorem C03_mp4_refuted : exists l, rust_slice l /\ from_bytes (checked FMp4) l = Panicked.
Proof. exists (mp4_huge (x80 :: zeros 7)). split; [reflexivity|]. vm_compute. reflexivity. Qed.
Theorem C03_zip_refuted : exists l, rust_slice l /\ from_bytes (checked FZip) l = Panicked.
Proof. exists (zip64_at (repeat xff 8)). split; [reflexivity|]. vm_compute. reflexivity. Qed.
(** The same inputs in a release build. *)
Example C03_witness_release :
  from_bytes cfg_all (asf_huge (zeros 7 ++ [x80])) = Done AdvancedSystemsFormat /\
  from_bytes cfg_all (mp4_huge (x80 :: zeros 7)) = Done Mpeg4Part14 /\
  from_bytes cfg_all (zip64_at (repeat xff 8)) = Done ArbitraryBinaryData.
Proof. repeat split; vm_compute; reflexivity. Qed.

(** ** C14 *)
(** A well-behaved reader: the stream [content] at position [p], seeks work up to [max], later
    reads may be short or interrupted in any pattern. *)
Definition well_behaved (content : bytes) (p max : N) (d : dev) : Prop :=
  d_content d = content /\ d_pos d = p /\ d_max d = max /\
  Forall (fun e => match e with RFault _ => False | _ => True end) (d_reads d) /\
  Forall (eq true) (d_seeks d).

Lemma good_after content p max d buf d1 : well_behaved content p max d -> lenN content <= max -> p <= max ->
  dev_read window d = (Ok buf, d1) -> good content max d1.
Proof.
  intros (Hc & Hp & Hm & Hr & Hs) Hl Hpm E. unfold dev_read in E. rewrite Hc, Hp, Hm in E.
  assert (Hpos : forall m, p + lenN (takeN m (avail content p)) <= max).
  { intros m. unfold avail. rewrite lenN_takeN, lenN_dropN. lia. }
  destruct (d_reads d) as [|[k| |e] rs]; try discriminate E; injection E as <- <-.
  - split; [constructor; cbn; auto|cbn; apply Hpos].
  - inversion_clear Hr. split; [constructor; cbn; auto|cbn; apply Hpos].
Qed.
(** Every well-behaved reader gives what the ideal detection gives on the bytes of its first read. *)
Lemma reader_ideal (c : cfg) content p max d buf d1 : supported c -> max < 2 ^ 64 -> lenN content <= max -> p <= max ->
  well_behaved content p max d -> dev_read window d = (Ok buf, d1) ->
  (forall x, runs_reader c buf x -> uses_read x -> d_reads d1 = []) ->
  fst (from_reader c d) = okexec (ideal_detect c content max buf).
Proof.
  intros Hc Hmax Hl Hp Hw E Hq.
  destruct (from_reader_ideal c content max d buf d1 Hc Hmax) as (d2 & E2); auto.
  - eapply good_after; eauto.
  - apply Hw.
  - now rewrite E2.
Qed.
Lemma calm_ideal (c : cfg) content p max : supported c -> max < 2 ^ 64 -> lenN content <= max -> p <= max ->
  fst (from_reader c (mkdev content p [] [] max)) = okexec (ideal_detect c content max (takeN window (dropN p content))).
Proof.
  intros Hc Hmax Hl Hp. eapply reader_ideal; eauto.
  - repeat split; constructor.
  - reflexivity.
  - reflexivity.
Qed.

Lemma c14_lemma (c : cfg) content p max d : supported c -> max < 2 ^ 64 -> lenN content <= max -> p <= max ->
  well_behaved content p max d ->
  fst (dev_read 36870 d) = Ok (takeN 36870 (dropN p content)) ->
  (forall x, In x [FPdf; FSqlite3; FXml] -> feat c x = true ->
     ~ first_match signatures (dropN p content) (container x)) ->
  fst (from_reader c d) = fst (from_reader c (mkdev content p [] [] max)).
Proof.
  intros Hc Hmax Hl Hp Hw E Hx. rewrite calm_ideal by assumption.
  destruct (dev_read window d) as [r d1] eqn:E1. change (dev_read 36870 d) with (dev_read window d) in E.
  rewrite E1 in E. cbn [fst] in E. subst r.
  eapply reader_ideal; eauto. intros x (f & Hs & Hf & Hfx) Hu. exfalso.
  change 36870 with window in Hs. rewrite from_signature_window in Hs.
  apply feature_of_some in Hf. destruct Hf as [-> _]. apply from_signature_some in Hs.
  refine (Hx x _ Hfx Hs). destruct x; cbn in *; tauto.
Qed.
(** Short and interrupted reads after a full first read do not change the result ... *)
Theorem C14_chunking_is_irrelevant : forall (c : cfg) content p max d,
  supported c -> max < 2 ^ 64 -> lenN content <= max -> p <= max -> well_behaved content p max d ->
  fst (dev_read 36870 d) = Ok (takeN 36870 (dropN p content)) ->
  (forall x, In x [FPdf; FSqlite3; FXml] -> feat c x = true ->
     ~ first_match signatures (dropN p content) (container x)) ->
  fst (from_reader c d) = fst (from_reader c (mkdev content p [] [] max)).
Proof. exact c14_lemma. Qed.
Print Assumptions C14_chunking_is_irrelevant.
Example C14_witness :
  let l := bs "some text" ++ [x0a] ++ bs "more" in
  let d := mkdev l 0 [RShort 36870; RShort 1; RIntr; RShort 2; RIntr; RIntr; RShort 3] [true; true] (2 ^ 63 - 1) in
  well_behaved l 0 (2 ^ 63 - 1) d /\ fst (dev_read 36870 d) = Ok (takeN 36870 (dropN 0 l)) /\
  fst (from_reader cfg_all d) = Done (Ok PlainText).
Proof. split; [repeat constructor|]. split; vm_compute; reflexivity. Qed.

(** ... and for PDF files this holds for short reads as well, up to the 32 MiB limit ... *)
Lemma c14_pdf (c : cfg) content d : supported c -> rust_slice content -> lenN content <= 33554437 ->
  d_content d = content -> d_pos d = 0 -> d_seeks d = [] -> 5 <= d_max d -> d_max d < 2 ^ 64 ->
  Forall (fun e => match e with RShort _ => True | _ => False end) (d_reads d) ->
  fst (dev_read 36870 d) = Ok (takeN 36870 content) ->
  first_match signatures content PortableDocumentFormat -> lenN content <= d_max d ->
  fst (from_reader c d) = fst (from_reader c (mkdev content 0 [] [] (d_max d))).
Proof.
  intros Hc Hl Hlim Hcont Hp Hs H5 Hmax Hr E Hsig Hlm. rewrite calm_ideal by (auto; lia).
  assert (Hns : Forall no_fault_no_intr (d_reads d)) by exact Hr.
  destruct (read_short content window d) as (chunk & d1 & E1 & [Hi1 Hi1'] & Hr1 & _); auto; [now split|reflexivity|].
  assert (E1m : d_max d1 = d_max d /\ d_seeks d1 = []).
  { unfold dev_read in E1. destruct (d_reads d) as [|[k| |e] rs]; injection E1 as _ <-; cbn; auto. }
  change (dev_read 36870 d) with (dev_read window d) in E. rewrite E1 in E. cbn [fst] in E. injection E as ->.
  unfold from_reader, ideal_detect. rewrite E1. rewrite dropN_0.
  change 36870 with window. pose proof (first_match_nonempty _ _ Hsig) as Hne.
  destruct (takeN window content) as [|b t] eqn:Et; [exfalso; exact (Hne (proj1 (takeN_window_nil content) Et))|].
  rewrite <- Et. apply from_signature_some in Hsig. rewrite from_signature_window, Hsig.
  rewrite from_fmt_reader_eq. cbn [feature_of]. destruct (feat c FPdf) eqn:Ef; [|reflexivity].
  cbn [buffered]. rewrite Hcont.
  destruct (pdf_short c content (S (List.length content)) d1) as (f & d2 & E2 & Hf & H1 & H2 & _);
    try (cbn; auto; fail); [now split|apply E1m|destruct E1m as [-> _]; exact H5|].
  unfold run_reader in E2. cbn [buffered] in E2. rewrite E2.
  destruct (pdf_reader_spec c content (d_max d) Hc Hmax H5 Hlm) as [[E3 H3]|[E3 H3]]; rewrite E3; cbn [okexec fst].
  - now rewrite (H1 H3).
  - destruct Hf as [-> | ->]; [|reflexivity]. exfalso. apply H3.
    specialize (H2 eq_refl). unfold slice in *.
    replace (takeN PDF_READ_LIMIT (dropN 5 content)) with (takeN (PDF_READ_LIMIT + 32767) (dropN 5 content)); [exact H2|].
    rewrite !takeN_all; [reflexivity|rewrite lenN_dropN; unfold PDF_READ_LIMIT; lia..].
Qed.
Theorem C14_pdf_chunking_is_irrelevant : forall (c : cfg) content d,
  supported c -> rust_slice content -> lenN content <= 33554437 ->
  d_content d = content -> d_pos d = 0 -> d_seeks d = [] -> 5 <= d_max d -> d_max d < 2 ^ 64 ->
  Forall (fun e => match e with RShort _ => True | _ => False end) (d_reads d) ->
  fst (dev_read 36870 d) = Ok (takeN 36870 content) ->
  first_match signatures content PortableDocumentFormat -> lenN content <= d_max d ->
  fst (from_reader c d) = fst (from_reader c (mkdev content 0 [] [] (d_max d))).
Proof. exact c14_pdf. Qed.
Print Assumptions C14_pdf_chunking_is_irrelevant.

(** ... but the first read must be full, XML and SQLite are read with a single call, and the PDF
    reader gives up when a read is interrupted. *)
Theorem C14_short_first_read_refuted : exists l d, well_behaved l 0 (2 ^ 63 - 1) d /\
  fst (from_reader cfg_all d) <> fst (from_reader cfg_all (mkdev l 0 [] [] (2 ^ 63 - 1))).
Proof.
  exists (bs "GIF89a"), (mkdev (bs "GIF89a") 0 [RShort 3] [] (2 ^ 63 - 1)).
  split; [repeat constructor|]. vm_compute. discriminate.
Qed.
Theorem C14_xml_refuted : exists l d, well_behaved l 0 (2 ^ 63 - 1) d /\
  fst (dev_read 36870 d) = Ok (takeN 36870 (dropN 0 l)) /\
  fst (from_reader cfg_all d) <> fst (from_reader cfg_all (mkdev l 0 [] [] (2 ^ 63 - 1))).
Proof.
  set (l := bs "<?xml version='1.0'?><svg/>").
  exists l, (mkdev l 0 [RShort 36870; RShort 5] [] (2 ^ 63 - 1)).
  split; [repeat constructor|]. split; [vm_compute; reflexivity|]. vm_compute. discriminate.
Qed.
Theorem C14_sqlite_refuted : exists l d, well_behaved l 0 (2 ^ 63 - 1) d /\
  fst (dev_read 36870 d) = Ok (takeN 36870 (dropN 0 l)) /\
  fst (from_reader cfg_all d) <> fst (from_reader cfg_all (mkdev l 0 [] [] (2 ^ 63 - 1))).
Proof.
  set (l := bs "SQLite format 3" ++ zeros 90 ++ bs "com.bohemiancoding.sketch3").
  exists l, (mkdev l 0 [RShort 36870; RShort 5] [] (2 ^ 63 - 1)).
  split; [repeat constructor|]. split; [vm_compute; reflexivity|]. vm_compute. discriminate.
Qed.
Theorem C14_interrupted_refuted : exists l d, well_behaved l 0 (2 ^ 63 - 1) d /\
  fst (dev_read 36870 d) = Ok (takeN 36870 (dropN 0 l)) /\
  fst (from_reader cfg_all d) = Done (Ok PlainText) /\
  fst (from_reader cfg_all (mkdev l 0 [] [] (2 ^ 63 - 1))) = Done (Ok PortableDocumentFormat).
Proof.
  set (l := bs "%PDF-1.7 ..."). exists l, (mkdev l 0 [RShort 36870; RIntr] [] (2 ^ 63 - 1)).
  split; [repeat constructor|]. split; [vm_compute; reflexivity|]. split; vm_compute; reflexivity.
Qed.

(** ** C15 *)
Theorem C15_buffering_is_transparent : forall (c : plat) fuel x content p max d,
  supported c -> ~ In x [FPdf; FSqlite3; FXml; FTxt] ->
  max < 2 ^ 64 -> lenN content <= max -> p <= max -> well_behaved content p max d ->
  fst (run_buf (reader_of c fuel x) d) = fst (run_raw (reader_of c fuel x) d).
Proof.
  intros c fuel x content p max d Hc Hx Hmax Hl Hp (H1 & H2 & H3 & H4 & H5).
  apply (buffering content max); auto.
  - apply reader_no_read; [exact Hc|]. destruct x; cbn in *; tauto.
  - apply reader_no_line; [exact Hc|]. destruct x; cbn in *; tauto.
  - constructor; auto.
  - now rewrite H2.
Qed.
Print Assumptions C15_buffering_is_transparent.
(** An executable delivered one byte at a time with interruptions, with and without a buffer. *)
Example C15_witness :
  let l := bs "MZ" ++ repeat x00 58 ++ [x40; x00; x00; x00] ++ bs "NE" ++ repeat x00 10 in
  let d := mkdev l 0 [RShort 1; RIntr; RShort 1; RIntr; RShort 2] [] (2 ^ 63 - 1) in
  well_behaved l 0 (2 ^ 63 - 1) d /\ ~ In FExe [FPdf; FSqlite3; FXml; FTxt] /\
  fst (run_buf (reader_of cfg_all 100 FExe) d) = Done (Ok NewExecutable) /\
  fst (run_raw (reader_of cfg_all 100 FExe) d) = Done (Ok NewExecutable).
Proof.
  cbv zeta. split; [repeat constructor|]. split; [intros [H|[H|[H|[H|[]]]]]; discriminate H|].
  split; vm_compute; reflexivity.
Qed.

(** ** C16 *)
Lemma c16_lemma (c : cfg) content p max d f : supported c -> max < 2 ^ 64 -> rust_slice content ->
  lenN content <= max -> p <= max -> d = mkdev content p [] [] max ->
  (fst (from_reader c d) = Done (Ok Empty) <-> lenN content <= p) /\
  (p < lenN content -> no_match signatures (dropN p content) ->
     (fst (from_reader c d) = Done (Ok f) <-> generic_result c content f)) /\
  (first_match signatures (dropN p content) f ->
     (forall x, feat c x = true -> x <> FTxt -> container x <> f) ->
     fst (from_reader c d) = Done (Ok f)).
Proof.
  intros Hc Hmax Hr Hl Hp ->. split; [|split].
  - rewrite (from_reader_empty c Hc); [|exact Hr|exact Hmax]. cbn.
    unfold dev_read, avail. cbn [d_reads d_content d_pos fst]. split.
    + intros [= H]. pose proof (f_equal (@lenN byte) H) as H'. rewrite lenN_takeN, lenN_dropN in H'.
      change (lenN []) with 0 in H'. unfold window in H'. lia.
    + intros H. now rewrite dropN_all by exact H.
  - intros Hpl Hn. rewrite calm_ideal by assumption. unfold ideal_detect.
    destruct (takeN window (dropN p content)) as [|b t] eqn:E.
    { exfalso. pose proof (f_equal (@lenN byte) E) as H'. rewrite lenN_takeN, lenN_dropN in H'.
      change (lenN []) with 0 in H'. unfold window in H'. lia. }
    rewrite <- E, from_signature_window. apply from_signature_none in Hn. rewrite Hn.
    rewrite <- (generic_result_of c content max f). destruct (ideal_generic c content max); cbn; split; congruence.
  - intros Hs Hx. rewrite calm_ideal by assumption. unfold ideal_detect.
    pose proof (first_match_nonempty _ _ Hs) as Hne.
    destruct (takeN window (dropN p content)) as [|b t] eqn:E; [exfalso; exact (Hne (proj1 (takeN_window_nil _) E))|].
    rewrite <- E, from_signature_window. apply from_signature_some in Hs. rewrite Hs.
    destruct (feature_of f) as [x|] eqn:Ef; [|reflexivity]. apply feature_of_some in Ef. destruct Ef as [-> Ht].
    destruct (feat c x) eqn:Efx; [|reflexivity]. now contradiction (Hx x).
Qed.
(** The signature is taken from the bytes at the position of the reader ... *)
Theorem C16_signature_at_position : forall (c : cfg) content p max d f,
  supported c -> max < 2 ^ 64 -> rust_slice content -> lenN content <= max -> p <= max ->
  d = mkdev content p [] [] max ->
  (fst (from_reader c d) = Done (Ok Empty) <-> lenN content <= p) /\
  (p < lenN content -> no_match signatures (dropN p content) ->
     (fst (from_reader c d) = Done (Ok f) <-> generic_result c content f)) /\
  (first_match signatures (dropN p content) f ->
     (forall x, feat c x = true -> x <> FTxt -> container x <> f) ->
     fst (from_reader c d) = Done (Ok f)).
Proof. exact c16_lemma. Qed.
Print Assumptions C16_signature_at_position.
(** ... the container is read from the beginning of the stream. *)
Lemma c16_container (c : cfg) content p x : supported c -> rust_slice content -> p <= lenN content ->
  signed c x content -> first_match signatures (dropN p content) (container x) ->
  fst (from_reader c (mkdev content p [] [] (2 ^ 64 - 1))) = okexec (from_bytes c content).
Proof.
  intros Hc Hr Hp (Hf & Hx & Hs) Hs2.
  assert (Hr' : lenN content <= 2 ^ 64 - 1).
  { unfold rust_slice in Hr. change (2 ^ 63) with 9223372036854775808 in Hr. change (2 ^ 64 - 1) with 18446744073709551615. lia. }
  rewrite calm_ideal; [|exact Hc|reflexivity|exact Hr'|etransitivity; eassumption].
  rewrite from_bytes_ideal by auto using rust_u64. f_equal. unfold ideal_detect.
  pose proof (first_match_nonempty _ _ Hs) as Hne. pose proof (first_match_nonempty _ _ Hs2) as Hne2.
  destruct (takeN window (dropN p content)) as [|b t] eqn:E; [exfalso; exact (Hne2 (proj1 (takeN_window_nil _) E))|].
  destruct (takeN window content) as [|b' t'] eqn:E'; [exfalso; exact (Hne (proj1 (takeN_window_nil _) E'))|].
  rewrite <- E, <- E', !from_signature_window. apply from_signature_some in Hs, Hs2. rewrite Hs, Hs2.
  reflexivity.
Qed.
Theorem C16_container_from_the_beginning : forall (c : cfg) content p x,
  supported c -> rust_slice content -> p <= lenN content ->
  signed c x content -> first_match signatures (dropN p content) (container x) ->
  fst (from_reader c (mkdev content p [] [] (2 ^ 64 - 1))) =
  match from_bytes c content with Done f => Done (Ok f) | Panicked => Panicked | OutOfFuel => OutOfFuel end.
Proof. exact c16_container. Qed.
Print Assumptions C16_container_from_the_beginning.
(** Two positions that show the same window give the same result. *)
Lemma c16_same (c : cfg) content p q max : supported c -> max < 2 ^ 64 -> lenN content <= max ->
  p <= max -> q <= max -> takeN 36870 (dropN p content) = takeN 36870 (dropN q content) ->
  fst (from_reader c (mkdev content p [] [] max)) = fst (from_reader c (mkdev content q [] [] max)).
Proof.
  intros Hc Hmax Hl Hp Hq E. rewrite !calm_ideal by assumption. change window with 36870. now rewrite E.
Qed.
Theorem C16_window_decides : forall (c : cfg) content p q max,
  supported c -> max < 2 ^ 64 -> lenN content <= max ->
  p <= max -> q <= max -> takeN 36870 (dropN p content) = takeN 36870 (dropN q content) ->
  fst (from_reader c (mkdev content p [] [] max)) = fst (from_reader c (mkdev content q [] [] max)).
Proof. exact c16_same. Qed.
Print Assumptions C16_window_decides.
(** Without reader features the position simply cuts the stream. *)
Lemma c16_plain (c : cfg) content p : supported c -> featureless c -> rust_slice content -> p <= lenN content ->
  fst (from_reader c (mkdev content p [] [] (2 ^ 64 - 1))) = okexec (from_bytes c (dropN p content)).
Proof.
  intros Hc Hf Hr Hp.
  assert (Hr' : lenN content <= 2 ^ 64 - 1).
  { unfold rust_slice in Hr. change (2 ^ 63) with 9223372036854775808 in Hr. change (2 ^ 64 - 1) with 18446744073709551615. lia. }
  rewrite calm_ideal; [|exact Hc|reflexivity|exact Hr'|etransitivity; eassumption].
  rewrite from_bytes_ideal; [|exact Hc|].
  - f_equal. unfold ideal_detect, ideal_generic. rewrite Hf.
    destruct (takeN window (dropN p content)); [reflexivity|].
    destruct (from_signature _) as [f|]; [|reflexivity]. destruct (feature_of f); [|reflexivity]. now rewrite Hf.
  - rewrite lenN_dropN. pose proof (rust_u64 _ Hr). lia.
Qed.
Theorem C16_featureless_position_cuts : forall (c : cfg) content p,
  supported c -> featureless c -> rust_slice content -> p <= lenN content ->
  fst (from_reader c (mkdev content p [] [] (2 ^ 64 - 1))) =
  match from_bytes c (dropN p content) with Done f => Done (Ok f) | Panicked => Panicked | OutOfFuel => OutOfFuel end.
Proof. exact c16_plain. Qed.
Print Assumptions C16_featureless_position_cuts.
(** A GIF behind a text; an executable whose signature is repeated further behind. *)
Example C16_witness :
  let l := bs "text" ++ bs "GIF89a" in
  let e := bs "MZ" ++ repeat x00 58 ++ [x40; x00; x00; x00] ++ bs "NE" ++ repeat x00 10 ++ bs "MZ" in
  first_match signatures (dropN 4 l) GraphicsInterchangeFormat /\
  fst (from_reader cfg_all (mkdev l 4 [] [] (2 ^ 64 - 1))) = Done (Ok GraphicsInterchangeFormat) /\
  fst (from_reader cfg_all (mkdev l 2 [] [] (2 ^ 64 - 1))) = Done (Ok PlainText) /\
  signed cfg_all FExe e /\ first_match signatures (dropN 76 e) (container FExe) /\
  fst (from_reader cfg_all (mkdev e 76 [] [] (2 ^ 64 - 1))) = Done (Ok NewExecutable) /\
  from_bytes cfg_all (dropN 76 e) = Done PlainText.
Proof.
  cbv zeta. split; [apply from_signature_some; vm_compute; reflexivity|]. split; [vm_compute; reflexivity|].
  split; [vm_compute; reflexivity|]. split.
  { split; [reflexivity|]. split; [discriminate|]. apply from_signature_some. vm_compute. reflexivity. }
  split; [apply from_signature_some; vm_compute; reflexivity|]. split; vm_compute; reflexivity.
Qed.
Theorem C16_position_cuts_refuted : exists content p, p <= lenN content /\
  fst (from_reader cfg_all (mkdev content p [] [] (2 ^ 64 - 1))) = Done (Ok ArbitraryBinaryData) /\
  from_bytes cfg_all (dropN p content) = Done PlainText.
Proof. exists [x00; x61], 1. repeat split; vm_compute; (reflexivity || discriminate). Qed.

(** ** C17 *)
(** What a file system lets [lseek] do on a file of [n] bytes. *)
Lemma c17_lemma (c : cfg) l max f : supported c -> rust_slice l -> lenN l <= max -> max < 2 ^ 64 ->
  (forall x, signed c x l -> near x /\ lenN l + (match x with FEbml => 2 ^ 57 | _ => 2 ^ 45 end) <= max) ->
  (from_file c (FsRegular l max) = Done (Ok f) <-> from_bytes c l = Done f).
Proof.
  intros Hc Hr Hl Hmax Hn. cbn [from_file]. rewrite cursor_ideal by assumption.
  rewrite from_bytes_ideal by auto using rust_u64.
  assert (Hgen : ideal_generic c l max = ideal_generic c l (u64_max1 - 1)).
  { destruct (ideal_generic_spec c l max) as [(A1 & A2 & ->)|(A1 & ->)];
    destruct (ideal_generic_spec c l (u64_max1 - 1)) as [(B1 & B2 & ->)|(B1 & ->)]; try reflexivity; exfalso.
    - destruct B1 as [B1|B1]; [congruence|contradiction].
    - destruct A1 as [A1|A1]; [congruence|contradiction]. }
  assert (H : ideal_detect c l max (takeN window l) = ideal_detect c l (u64_max1 - 1) (takeN window l)).
  { unfold ideal_detect. rewrite Hgen. destruct (takeN window l) as [|b t] eqn:E; [reflexivity|].
    rewrite <- E, from_signature_window. destruct (from_signature l) as [g|] eqn:Eg; [|reflexivity].
    destruct (feature_of g) as [x|] eqn:Ex; [|reflexivity].
    destruct (feat c x) eqn:Ef; [|reflexivity].
    apply feature_of_some in Ex. destruct Ex as [-> Hx]. apply from_signature_some in Eg.
    rewrite (mreader_same c l max (u64_max1 - 1) x); [reflexivity| |exact Hr| |].
    - apply Hn. now repeat split.
    - apply Hn. now repeat split.
    - unfold u64_max1. change (2 ^ 64) with 18446744073709551616 in *. lia. }
  rewrite H. destruct (ideal_detect c l (u64_max1 - 1) (takeN window l)); cbn; split; congruence.
Qed.
(** from_file and from_bytes agree, for a container file as far as the file system accepts offsets
    2^45 beyond the end of the file (EBML: 2^57), and unless the file carries the ASF, MP4 or ZIP
    signature and that reader is enabled ... *)
Theorem C17_file_agrees : forall (c : cfg) l max f, supported c -> rust_slice l -> lenN l <= max -> max < 2 ^ 64 ->
  (forall x, signed c x l -> ~ In x [FAsf; FMp4; FZip] /\
     lenN l + (match x with FEbml => 2 ^ 57 | _ => 2 ^ 45 end) <= max) ->
  (from_file c (FsRegular l max) = Done (Ok f) <-> from_bytes c l = Done f).
Proof.
  intros c l max f Hc Hr Hl Hm Hx. apply c17_lemma; auto. intros x Hs. destruct (Hx x Hs) as [H1 H2].
  split; [|exact H2]. destruct x; cbn in *; tauto.
Qed.
Print Assumptions C17_file_agrees.
(** ... and with those signatures as well, whenever the container can be read from the file. *)
Lemma c17_all (c : cfg) l max f : supported c -> rust_slice l -> lenN l <= max -> max < 2 ^ 64 ->
  from_file c (FsRegular l max) = Done (Ok f) ->
  from_bytes c l = Done f \/ generic_result c l f.
Proof.
  intros Hc Hr Hl Hmax. cbn [from_file]. rewrite cursor_ideal by assumption.
  rewrite from_bytes_ideal by auto using rust_u64. intros E.
  assert (E' : ideal_detect c l max (takeN window l) = Done f) by (destruct (ideal_detect c l max _); cbn in E; congruence).
  clear E. unfold ideal_detect in *. destruct (takeN window l) as [|b t] eqn:Et; [now left|].
  rewrite <- Et, from_signature_window in *. destruct (from_signature l) as [g|] eqn:Eg.
  2:{ right. now apply generic_result_of in E'. }
  destruct (feature_of g) as [x|]; [|now left]. destruct (feat c x); [|now left].
  destruct (mreader_max c l max (u64_max1 - 1) x) as [[e He]|He].
  { unfold u64_max1. change (2 ^ 64) with 18446744073709551616 in *. lia. }
  - right. rewrite He in E'. now apply generic_result_of in E'.
  - left. rewrite He. destruct (mreader c l max x) as [[h|e]| |]; auto.
    apply generic_result_of. now apply generic_result_of in E'.
Qed.
Theorem C17_file_agrees_or_is_generic : forall (c : cfg) l max f, supported c -> rust_slice l -> lenN l <= max -> max < 2 ^ 64 ->
  from_file c (FsRegular l max) = Done (Ok f) -> from_bytes c l = Done f \/ generic_result c l f.
Proof. exact c17_all. Qed.
Print Assumptions C17_file_agrees_or_is_generic.
Theorem C17_unreadable_is_err : forall (c : cfg) e,
  from_file c (FsNoOpen e) = Done (Err (EOther e)) /\ from_file c (FsNoRead e) = Done (Err (EOther e)).
Proof. split; reflexivity. Qed.
Print Assumptions C17_unreadable_is_err.
Theorem C17_regular_is_ok : forall (c : cfg) l max e, supported c -> rust_slice l -> lenN l <= max -> max < 2 ^ 64 ->
  from_file c (FsRegular l max) <> Done (Err e).
Proof.
  intros c l max e Hc Hr Hl Hmax H. cbn [from_file] in H.
  apply (from_reader_err c Hc (file_dev l max) e Hr Hmax) in H. discriminate H.
Qed.
Print Assumptions C17_regular_is_ok.
(** An ASF file whose last object claims 2^63-1 bytes. *)
Theorem C17_asf_refuted : exists l, rust_slice l /\
  from_file cfg_all (FsRegular l (2 ^ 63 - 1)) = Done (Ok ArbitraryBinaryData) /\
  from_bytes cfg_all l = Done AdvancedSystemsFormat.
Proof.
  exists (asf_huge (repeat xff 7 ++ [x7f])). split; [reflexivity|]. split; vm_compute; reflexivity.
Qed.
Theorem C17_mp4_refuted : exists l, rust_slice l /\
  from_file cfg_all (FsRegular l (2 ^ 63 - 1)) = Done (Ok ArbitraryBinaryData) /\
  from_bytes cfg_all l = Done Mpeg4Part14.
Proof.
  exists (mp4_huge (x7f :: repeat xff 7)). split; [reflexivity|]. split; vm_compute; reflexivity.
Qed.

(** ** C44 *)
Lemma mreader_xml (c : plat) l l' max : takeN 8192 (dropN 5 l) = takeN 8192 (dropN 5 l') ->
  mreader c l max FXml = mreader c l' max FXml.
Proof.
  intros E. unfold mreader, mrun. cbn [reader_of]. unfold from_xml_reader, seek, read.
  rewrite !run_bindio. cbn [run mem_machine m_seek]. unfold mem_seek. cbn [seek_target].
  destruct (_ || _); cbn [run]; [reflexivity|].
  rewrite !run_bindio. cbn [run mem_machine m_read]. unfold mem_read. cbn [run fst].
  change (Z.to_N (Z.of_N 5)) with 5. rewrite E. rewrite !run_bindp.
  destruct (xml_chain _ _); reflexivity.
Qed.
Lemma mreader_sqlite (c : plat) l l' max : takeN 32768 (dropN 100 l) = takeN 32768 (dropN 100 l') ->
  mreader c l max FSqlite3 = mreader c l' max FSqlite3.
Proof.
  intros E. unfold mreader, mrun. cbn [reader_of]. unfold from_sqlite3_reader, seek, read.
  rewrite !run_bindio. cbn [run mem_machine m_seek]. unfold mem_seek. cbn [seek_target].
  destruct (_ || _); cbn [run]; [reflexivity|].
  rewrite !run_bindio. cbn [run mem_machine m_read]. unfold mem_read. cbn [run fst].
  change (Z.to_N (Z.of_N 100)) with 100. rewrite E. rewrite !run_bindp.
  destruct (holds _ _) as [[|]| |]; reflexivity.
Qed.
Lemma takeN_less {A} n m (l l' : list A) : n <= m -> takeN m l = takeN m l' -> takeN n l = takeN n l'.
Proof.
  intros H E. pose proof (f_equal (takeN n) E) as E2.
  rewrite !takeN_takeN in E2. now replace (N.min n m) with n in E2 by lia.
Qed.
Lemma slice_less {A} a n m (l l' : list A) : a + n <= m -> takeN m l = takeN m l' ->
  takeN n (dropN a l) = takeN n (dropN a l').
Proof.
  intros H E. assert (E2 : takeN (a + n) l = takeN (a + n) l') by (eapply takeN_less; eauto).
  pose proof (f_equal (dropN a) E2) as E3.
  rewrite !dropN_takeN in E3. now replace (a + n - a) with n in E3 by lia.
Qed.
(** How many bytes from the beginning matter for a container. *)
Definition horizon (x : feature) : N :=
  match x with FXml | FSqlite3 => 36870 | _ => 5 + 33554432 end.
Lemma mreader_horizon (c : plat) l l' x : supported c -> rust_slice l -> rust_slice l' ->
  In x [FXml; FSqlite3; FPdf] -> takeN (horizon x) l = takeN (horizon x) l' ->
  mreader c l (u64_max1 - 1) x = mreader c l' (u64_max1 - 1) x.
Proof.
  intros Hc Hl Hl' Hx E.
  destruct Hx as [<-|[<-|[<-|[]]]]; cbn [horizon] in E.
  - apply mreader_xml. eapply slice_less; [|exact E]. discriminate.
  - apply mreader_sqlite. eapply slice_less; [|exact E]. discriminate.
  - assert (Es : slice 5 PDF_READ_LIMIT l = slice 5 PDF_READ_LIMIT l').
    { unfold slice. eapply slice_less; [|exact E]. discriminate. }
    pose proof (rust_u64 l Hl) as Hu. pose proof (rust_u64 l' Hl') as Hu'.
    destruct (pdf_reader_spec c l (u64_max1 - 1)) as [[-> H1]|[-> H1]]; auto; try reflexivity;
      try (unfold u64_max1 in *; lia);
    destruct (pdf_reader_spec c l' (u64_max1 - 1)) as [[-> H2]|[-> H2]]; auto; try reflexivity;
      try (unfold u64_max1 in *; lia); rewrite Es in H1; contradiction.
Qed.
Lemma same_window_sig l l' : takeN 36870 l = takeN 36870 l' -> from_signature l = from_signature l'.
Proof. intros E. rewrite <- (from_signature_window l), <- (from_signature_window l'). change window with 36870. now rewrite E. Qed.
Lemma c44_featureless (c : cfg) l l' : supported c -> featureless c -> rust_slice l -> rust_slice l' ->
  takeN 36870 l = takeN 36870 l' -> from_bytes c l = from_bytes c l'.
Proof.
  intros Hc Hf Hl Hl' E. rewrite !from_bytes_ideal by auto using rust_u64. change window with 36870.
  rewrite E. unfold ideal_detect, ideal_generic. rewrite Hf. destruct (takeN 36870 l'); [reflexivity|].
  destruct (from_signature _) as [f|]; [|reflexivity]. destruct (feature_of f); [|reflexivity]. now rewrite Hf.
Qed.
Theorem C44_featureless : forall (c : cfg) l l', supported c -> featureless c -> rust_slice l -> rust_slice l' ->
  takeN 36870 l = takeN 36870 l' -> from_bytes c l = from_bytes c l'.
Proof. exact c44_featureless. Qed.
Print Assumptions C44_featureless.
Lemma c44_text (c : cfg) l l' : supported c -> rust_slice l -> rust_slice l' -> no_match signatures l ->
  takeN 65536 l = takeN 65536 l' -> from_bytes c l = from_bytes c l'.
Proof.
  intros Hc Hl Hl' Hn E. rewrite !from_bytes_ideal by auto using rust_u64.
  assert (Ew : takeN window l = takeN window l') by (eapply takeN_less; [|exact E]; discriminate).
  unfold ideal_detect. rewrite <- Ew. destruct (takeN window l) as [|b t] eqn:Et; [reflexivity|].
  rewrite <- Et, from_signature_window. apply from_signature_none in Hn. rewrite Hn.
  destruct (ideal_generic_spec c l (u64_max1 - 1)) as [(A1 & A2 & ->)|(A1 & ->)];
  destruct (ideal_generic_spec c l' (u64_max1 - 1)) as [(B1 & B2 & ->)|(B1 & ->)]; try reflexivity; exfalso;
    unfold text_head in *; rewrite E in *.
  - destruct B1 as [B1|B1]; [congruence|contradiction].
  - destruct A1 as [A1|A1]; [congruence|contradiction].
Qed.
Theorem C44_text : forall (c : cfg) l l', supported c -> rust_slice l -> rust_slice l' -> no_match signatures l ->
  takeN 65536 l = takeN 65536 l' -> from_bytes c l = from_bytes c l'.
Proof. exact c44_text. Qed.
Print Assumptions C44_text.
Lemma c44_container (c : cfg) x l l' : supported c -> rust_slice l -> rust_slice l' ->
  signed c x l -> In x [FXml; FSqlite3; FPdf] -> takeN (horizon x) l = takeN (horizon x) l' ->
  exists f, from_bytes c l = Done f /\ from_bytes c l' = Done f.
Proof.
  intros Hc Hl Hl' Hs Hx E. pose proof (mreader_horizon c l l' x Hc Hl Hl' Hx E) as Em.
  assert (Hs' : signed c x l').
  { destruct Hs as (H1 & H2 & H3). repeat split; auto. apply from_signature_some.
    rewrite <- (same_window_sig l l'); [now apply from_signature_some|].
    eapply takeN_less; [|exact E]. destruct x; discriminate. }
  assert (Hok : exists g, mreader c l (u64_max1 - 1) x = Done (Ok g)).
  { pose proof (rust_u64 l Hl) as Hu. destruct Hx as [<-|[<-|[<-|[]]]].
    - destruct (xml_reader_spec c l (u64_max1 - 1)) as (g & Hg & _); [discriminate|]. now exists g.
    - destruct (sqlite_reader_spec c l (u64_max1 - 1)) as [[Hg _]|[Hg _]]; [discriminate| |]; eexists; exact Hg.
    - destruct (pdf_reader_spec c l (u64_max1 - 1)) as [[Hg _]|[Hg _]]; auto; try discriminate; try reflexivity;
        try (unfold u64_max1 in *; lia); eexists; exact Hg. }
  destruct Hok as [g Hg]. exists g. split.
  - now apply (detect_ok c x).
  - apply (detect_ok c x); auto. now rewrite <- Em.
Qed.
Theorem C44_containers : forall (c : cfg) x l l', supported c -> rust_slice l -> rust_slice l' ->
  signed c x l -> In x [FXml; FSqlite3; FPdf] ->
  takeN (match x with FXml | FSqlite3 => 36870 | _ => 5 + 33554432 end) l =
  takeN (match x with FXml | FSqlite3 => 36870 | _ => 5 + 33554432 end) l' ->
  exists f, from_bytes c l = Done f /\ from_bytes c l' = Done f.
Proof. exact c44_container. Qed.
Print Assumptions C44_containers.
Lemma c44_witness_line n b : 36870 <= N.of_nat n -> no_match signatures ((repeat x61 n ++ [x0a]) ++ [b]).
Proof.
  intros H. apply from_signature_none. rewrite <- app_assoc. change (repeat x61 n ++ [x0a] ++ [b]) with ([] ++ repeat x61 n ++ [x0a] ++ [b]).
  rewrite sparse_ok by (cbn; lia). vm_compute. reflexivity.
Qed.
Lemma c44_witness_xml n b : 36870 <= 26 + N.of_nat n -> signed cfg_all FXml ((bs "<?xml version='1.0'?><svg>" ++ repeat x20 n) ++ [b]).
Proof.
  intros H. split; [reflexivity|]. split; [discriminate|]. apply from_signature_some. rewrite <- app_assoc.
  rewrite sparse_ok by exact H. vm_compute. reflexivity.
Qed.
(** A line of 65536 bytes followed by anything; XML with garbage behind the window. *)
Example C44_witness :
  let t b := (repeat x61 (N.to_nat 65535) ++ [x0a]) ++ [b] in
  let x b := (bs "<?xml version='1.0'?><svg>" ++ repeat x20 (N.to_nat 36844)) ++ [b] in
  no_match signatures (t x00) /\ takeN 65536 (t x00) = takeN 65536 (t x61) /\ t x00 <> t x61 /\
  signed cfg_all FXml (x x00) /\ takeN 36870 (x x00) = takeN 36870 (x x61) /\ x x00 <> x x61.
Proof.
  cbv zeta. split; [apply c44_witness_line; lia|].
  split; [now rewrite !takeN_app_len by (rewrite lenN_app, lenN_repeat; change (lenN [x0a]) with 1; lia)|].
  split; [intros H; apply app_inv_head in H; discriminate H|]. split; [apply c44_witness_xml; lia|].
  split; [now rewrite !takeN_app_len by (rewrite lenN_app, lenN_repeat; change (lenN (bs "<?xml version='1.0'?><svg>")) with 26; lia)|].
  intros H; apply app_inv_head in H; discriminate H.
Qed.
