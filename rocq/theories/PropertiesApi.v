(** C01-C03, C09-C17, C43, C44: the public functions.  Statements use SpecSig.v, SpecText.v,
    SpecApi.v and the lists of the crate documentation (Documented.v). *)
From Coq Require Import NArith ZArith Bool String List Lia ZifyBool ZifyNat ZifyN.
From Verif Require Import Base BaseProofs Formats FormatsProofs Signatures IO Find Utf8 Readers Lib Mem IOProofs
  Documented Static ReaderStatic Lawful Spec SpecSig SpecText SpecScan SpecApi LibProofs Ideal SigProofs CoreProofs
  TextProofs ScanProofs MaxProofs Glue Conf.
Local Open Scope N_scope.

(** ** C01 *)
Theorem C01_empty_iff : forall (c : cfg) l, supported c -> rust_slice l ->
  (from_bytes c l = Done Empty <-> l = []).
Proof. intros c l Hc Hl. exact (from_bytes_empty c Hc l Hl). Qed.
Print Assumptions C01_empty_iff.
(** The same for readers: Empty is reported exactly when the first read returns no data. *)
Theorem C01_reader_empty_iff : forall (c : cfg) d, supported c -> rust_slice (d_content d) -> d_max d < 2 ^ 64 ->
  (fst (from_reader c d) = Done (Ok Empty) <-> fst (dev_read 36870 d) = Ok []).
Proof. intros c d Hc Hl Hm. exact (from_reader_empty c Hc d Hl Hm). Qed.
Print Assumptions C01_reader_empty_iff.
Example C01_witness :
  let d p := mkdev (bs "text") p [] [] (2 ^ 63 - 1) in
  supported cfg_all /\ from_bytes cfg_all [] = Done Empty /\ from_bytes cfg_all [x00] = Done ArbitraryBinaryData /\
  rust_slice (d_content (d 4)) /\ d_max (d 4) < 2 ^ 64 /\
  fst (from_reader cfg_all (d 4)) = Done (Ok Empty) /\ fst (from_reader cfg_all (d 3)) = Done (Ok PlainText).
Proof. split; [now right|]. repeat split; vm_compute; reflexivity. Qed.

(** ** C02 *)
Lemma release_no_panic (c : cfg) : ovf c = false -> (usize_bits c = 64 \/ feat c FZip = false) ->
  usize_bits c <> 32 \/ feat c FZip = false -> no_panic_cfg c.
Proof.
  intros Ho Hb Hb' x Hx. destruct x; cbn [may_panic']; try (rewrite Ho; discriminate); auto.
  intros [H|H]; [congruence|]. destruct Hb as [Hb|Hb]; congruence.
Qed.
Theorem C02_from_bytes_total : forall (c : cfg) l, supported c -> rust_slice l ->
  ovf c = false -> usize_bits c = 64 \/ feat c FZip = false ->
  exists f, from_bytes c l = Done f.
Proof.
  intros c l Hc Hl Ho Hb. apply (from_bytes_done c Hc); [|exact Hl].
  apply release_no_panic; auto. destruct Hb as [->|H]; [left; discriminate|now right].
Qed.
Print Assumptions C02_from_bytes_total.
(** From any reader at all: any content, position, schedule of short and failing calls. *)
Theorem C02_from_reader_total : forall (c : cfg) d, supported c -> rust_slice (d_content d) -> d_max d < 2 ^ 64 ->
  ovf c = false -> usize_bits c = 64 \/ feat c FZip = false ->
  exists r, fst (from_reader c d) = Done r.
Proof.
  intros c d Hc Hl Hm Ho Hb. apply (from_reader_done c Hc); [|exact Hl|exact Hm].
  apply release_no_panic; auto. destruct Hb as [->|H]; [left; discriminate|now right].
Qed.
Print Assumptions C02_from_reader_total.
(** A stream whose third read fails and whose second seek is refused, in a 32-bit build without ZIP. *)
Example C02_witness :
  let c := mkcfg (fun x => match x with FZip => false | _ => true end) false 32 in
  let d := mkdev (bs "RIFF....MZ" ++ repeat xff 100) 8 [RShort 1000; RShort 1; RFault 5] [true; false] (2 ^ 63 - 1) in
  supported c /\ rust_slice (d_content d) /\ d_max d < 2 ^ 64 /\ ovf c = false /\ feat c FZip = false /\
  fst (from_reader c d) = Done (Ok ArbitraryBinaryData).
Proof. split; [now left|]. repeat split; vm_compute; reflexivity. Qed.

(** ** C03 *)
Lemma c03_no_panic (c : cfg) : feat c FAsf = false -> feat c FMp4 = false -> feat c FZip = false -> no_panic_cfg c.
Proof. intros H1 H2 H3 x Hx. destruct x; cbn [may_panic']; auto; congruence. Qed.
Theorem C03_checked_build_total : forall (c : cfg) l, supported c -> rust_slice l ->
  feat c FAsf = false -> feat c FMp4 = false -> feat c FZip = false ->
  exists f, from_bytes c l = Done f.
Proof. intros c l Hc Hl H1 H2 H3. apply (from_bytes_done c Hc); [|exact Hl]. now apply c03_no_panic. Qed.
Print Assumptions C03_checked_build_total.
Theorem C03_checked_reader_total : forall (c : cfg) d, supported c -> rust_slice (d_content d) -> d_max d < 2 ^ 64 ->
  feat c FAsf = false -> feat c FMp4 = false -> feat c FZip = false ->
  exists r, fst (from_reader c d) = Done r.
Proof. intros c d Hc Hl Hm H1 H2 H3. apply (from_reader_done c Hc); [|exact Hl|exact Hm]. now apply c03_no_panic. Qed.
Print Assumptions C03_checked_reader_total.

(** ** C09 *)
Theorem C09_container_feature_is_local : forall (c c' : cfg) l x, supported c -> rust_slice l ->
  platform c = platform c' -> x <> FTxt -> (forall y, y <> x -> feat c y = feat c' y) ->
  ~ first_match signatures l (container x) -> from_bytes c l = from_bytes c' l.
Proof.
  intros c c' l x Hc Hl Hp Hx Hy Hs. apply (from_bytes_feature c c' l x); auto using rust_u64.
  now rewrite from_signature_some.
Qed.
Print Assumptions C09_container_feature_is_local.
Theorem C09_text_feature_is_local : forall (c c' : cfg) l, supported c -> rust_slice l ->
  platform c = platform c' -> (forall y, y <> FTxt -> feat c y = feat c' y) ->
  feat c FTxt = true -> feat c' FTxt = false ->
  from_bytes c l = from_bytes c' l \/
  (from_bytes c l = Done PlainText /\ from_bytes c' l = Done ArbitraryBinaryData).
Proof. intros c c' l Hc Hl. apply (from_bytes_txt c c' l Hc Hl). Qed.
Print Assumptions C09_text_feature_is_local.
(** Switching reader-pdf off does not concern XML data; it does change the result for PDF data. *)
Example C09_witness :
  let c' := mkcfg (fun x => match x with FPdf => false | _ => true end) false 64 in
  let xml := bs "<?xml version='1.0'?><svg/>" in let pdf := bs "%PDF-1.7 AIPrivateData" in
  platform cfg_all = platform c' /\ (forall y, y <> FPdf -> feat cfg_all y = feat c' y) /\
  ~ first_match signatures xml (container FPdf) /\ from_bytes c' xml = Done ScalableVectorGraphics /\
  from_bytes cfg_all pdf = Done AdobeIllustratorArtwork /\ from_bytes c' pdf = Done PortableDocumentFormat.
Proof.
  cbv zeta. split; [reflexivity|]. split; [intros [] H; (reflexivity || now contradiction H)|].
  split; [rewrite <- from_signature_some; vm_compute; discriminate|]. repeat split; vm_compute; reflexivity.
Qed.

(** ** C10 *)
Lemma c10_lemma (c : cfg) d buf g : supported c -> rust_slice (d_content d) -> d_max d < 2 ^ 64 ->
  fst (dev_read 36870 d) = Ok buf -> buf <> [] -> fst (from_reader c d) = Done (Ok g) ->
  (no_match signatures buf /\ (g = PlainText \/ g = ArbitraryBinaryData)) \/
  (exists f, first_match signatures buf f /\
     (g = f \/
      exists x, feat c x = true /\ x <> FTxt /\ f = container x /\
        (In g (documented x) \/ g = PlainText \/ g = ArbitraryBinaryData))).
Proof.
  intros Hc Hl Hm Hr Hne Hg. pose proof (from_reader_result c Hc d buf g Hl Hm Hr Hne Hg) as H.
  destruct (from_signature buf) as [f|] eqn:E.
  - right. exists f. apply from_signature_some in E. split; [exact E|].
    destruct (feature_of f) as [x|] eqn:Ef; [|now left].
    apply feature_of_some in Ef. destruct Ef as [-> Hx].
    destruct (feat c x) eqn:Efx; [|now left].
    destruct H as [[->|H]|[->|[_ ->]]]; [now left|right; exists x; repeat split; auto..].
  - left. apply from_signature_none in E. split; [exact E|]. destruct H as [->|[_ ->]]; auto.
Qed.
Theorem C10_result_is_documented : forall (c : cfg) d buf g,
  supported c -> rust_slice (d_content d) -> d_max d < 2 ^ 64 ->
  fst (dev_read 36870 d) = Ok buf -> buf <> [] -> fst (from_reader c d) = Done (Ok g) ->
  (no_match signatures buf /\ (g = PlainText \/ g = ArbitraryBinaryData)) \/
  (exists f, first_match signatures buf f /\
     (g = f \/
      exists x, feat c x = true /\ x <> FTxt /\ f = container x /\
        (In g (documented x) \/ g = PlainText \/ g = ArbitraryBinaryData))).
Proof. exact c10_lemma. Qed.
Print Assumptions C10_result_is_documented.
(** No cooperation of the reader is needed beyond the contracts of Read and Seek (a successful
    read returns at most as many bytes as asked for, read_exact exactly as many, positions are
    64-bit): whatever data it makes up, a container reader answers with documented formats. *)
Theorem C10_untrusted_reader : forall {S} (M : machine S) (I : S -> Prop), lawful M I ->
  forall (c : plat) fuel x s, supported c -> I s ->
  match fst (run M (reader_of c fuel x) s) with
  | Done (Ok g) => g = container x \/ In g (documented x)
  | _ => True
  end.
Proof.
  intros S M I HM c fuel x s Hc HI.
  destruct (wp_sound M I (sp c x) HM (reader_of c fuel x) _ (reader_static c fuel x Hc) s HI) as [_ H].
  destruct (fst (run M (reader_of c fuel x) s)) as [[g|e]| |]; auto.
Qed.
Print Assumptions C10_untrusted_reader.

(** ** C11 *)
Lemma c11_lemma (c : cfg) x l f : supported c -> rust_slice l -> signed c x l -> from_bytes c l = Done f ->
  f = container x \/ In f (documented x) \/ generic_result c l f.
Proof.
  intros Hc Hl Hs E.
  destruct (mreader c l (u64_max1 - 1) x) as [[g|e]| |] eqn:Em.
  - pose proof (detect_ok c x l g Hc Hl Hs Em) as E2. rewrite E in E2. injection E2 as ->.
    destruct Hs as (Hf & Hx & Hs).
    pose proof (from_bytes_result c Hc l g Hl (first_match_nonempty _ _ Hs) E) as H.
    apply from_signature_some in Hs. rewrite Hs, feature_of_container, Hf in H by exact Hx.
    destruct H as [[H|H]|H]; [now left|right; now left|].
    right. right.
    destruct (run_reader_any c l x (cursor l) Hc Hl) as [_ Hr]; [split; reflexivity|].
    destruct (run_reader_ideal c l (u64_max1 - 1) x (cursor l) Hc) as (d' & E2 & _); [reflexivity| |right; reflexivity|].
    { pose proof (rust_u64 l Hl) as Hu. unfold u64_max1 in *.
      split; [constructor; cbn [cursor d_content d_max d_reads d_seeks]; auto|cbn [cursor d_pos]]; unfold u64_max1; lia. }
    rewrite E2, Em in Hr. cbn in Hr.
    exfalso. apply (family_never x g Hx Hr). destruct H as [->|[_ ->]]; cbn; auto.
  - destruct (detect_gives c x l None Hc Hl Hs) as (g & E2 & D); [exists e; exact Em|].
    rewrite E in E2. injection E2 as ->. right. right. exact D.
  - exfalso. destruct Hs as (Hf & Hx & Hs). pose proof (first_match_nonempty _ _ Hs) as Hne.
    apply from_signature_some in Hs. rewrite from_bytes_ideal in E by auto using rust_u64.
    unfold ideal_detect in E. destruct (takeN window l) as [|b t] eqn:Et; [exact (Hne (proj1 (takeN_window_nil l) Et))|].
    rewrite <- Et, from_signature_window, Hs, feature_of_container, Hf, Em in E by exact Hx. discriminate E.
  - exfalso. destruct Hs as (Hf & Hx & Hs). pose proof (first_match_nonempty _ _ Hs) as Hne.
    apply from_signature_some in Hs. rewrite from_bytes_ideal in E by auto using rust_u64.
    unfold ideal_detect in E. destruct (takeN window l) as [|b t] eqn:Et; [exact (Hne (proj1 (takeN_window_nil l) Et))|].
    rewrite <- Et, from_signature_window, Hs, feature_of_container, Hf, Em in E by exact Hx. discriminate E.
Qed.
Theorem C11_fallback_is_generic : forall (c : cfg) x l f, supported c -> rust_slice l -> signed c x l ->
  from_bytes c l = Done f -> f = container x \/ In f (documented x) \/ generic_result c l f.
Proof. exact c11_lemma. Qed.
Print Assumptions C11_fallback_is_generic.
(** Enabling a reader can lose the detection of the container. *)
Theorem C11_enabling_keeps_container_refuted :
  exists (c c' : cfg) l, platform c = platform c' /\ (forall x, feat c x = true -> feat c' x = true) /\
    from_bytes c l = Done MsDosExecutable /\ from_bytes c' l = Done PlainText.
Proof.
  exists cfg_none, cfg_all, (bs "MZ"). repeat split; try (vm_compute; reflexivity).
Qed.
Theorem C11_enabling_keeps_container_refuted_zip :
  exists (c c' : cfg) l, platform c = platform c' /\ (forall x, feat c x = true -> feat c' x = true) /\
    from_bytes c l = Done Zip /\ from_bytes c' l = Done ArbitraryBinaryData.
Proof.
  exists cfg_none, cfg_all, [x50; x4b; x03; x04]. repeat split; try (vm_compute; reflexivity).
Qed.

(** ** C12 *)
Theorem C12_errors_only_from_first_read : forall (c : cfg) d e,
  supported c -> rust_slice (d_content d) -> d_max d < 2 ^ 64 ->
  (fst (from_reader c d) = Done (Err e) <-> fst (dev_read 36870 d) = Err e).
Proof. intros c d e Hc Hl Hm. exact (from_reader_err c Hc d e Hl Hm). Qed.
Print Assumptions C12_errors_only_from_first_read.
(** A device whose second read fails: the error is absorbed. *)
Example C12_witness :
  let d := mkdev (bs "%PDF-1.7 ...") 0 [RShort 36870; RFault 5] [] (2 ^ 63 - 1) in
  supported cfg_all /\ rust_slice (d_content d) /\ fst (from_reader cfg_all d) = Done (Ok PlainText) /\
  fst (from_reader cfg_all (mkdev (bs "%PDF-1.7 ...") 0 [RFault 5] [] (2 ^ 63 - 1))) = Done (Err (EOther 5)).
Proof. split; [now right|]. split; [reflexivity|]. split; vm_compute; reflexivity. Qed.

(** ** C13 *)
Theorem C13_error_branch_unused : forall (c : cfg) l, supported c -> rust_slice l ->
  (forall f, from_bytes c l = Done f <-> fst (from_reader c (cursor l)) = Done (Ok f)) /\
  (forall e, fst (from_reader c (cursor l)) <> Done (Err e)).
Proof.
  intros c l Hc Hl. split; [intros f; exact (from_bytes_reader c Hc l f Hl)|].
  intros e H. apply (from_reader_err c Hc (cursor l) e Hl eq_refl) in H.
  rewrite cursor_read in H. discriminate H.
Qed.
Print Assumptions C13_error_branch_unused.
Example C13_witness : rust_slice (bs "%PDF-1.7") /\ from_bytes cfg_all (bs "%PDF-1.7") = Done PortableDocumentFormat /\
  fst (from_reader cfg_all (cursor (bs "%PDF-1.7"))) = Done (Ok PortableDocumentFormat).
Proof. repeat split; vm_compute; reflexivity. Qed.

(** ** C43 *)
Theorem C43_default : default_format = ArbitraryBinaryData /\
  forall (c : cfg) l, supported c -> rust_slice l -> l <> [] -> no_match signatures l -> feat c FTxt = false ->
    from_bytes c l = Done default_format.
Proof.
  split; [reflexivity|]. intros c l Hc Hl Hne Hn Ht. apply detect_unsigned; auto.
  constructor. intros [H _]. congruence.
Qed.
Print Assumptions C43_default.
Example C43_witness : no_match signatures (bs "hello") /\ from_bytes cfg_none (bs "hello") = Done default_format /\
  from_bytes cfg_all (bs "hello") = Done PlainText.
Proof. split; [apply from_signature_none; vm_compute; reflexivity|]. split; vm_compute; reflexivity. Qed.
