(** C18-C23, C42: searches and text.  Statements use Spec.v, SpecScan.v, SpecText.v, SpecApi.v. *)
From Coq Require Import NArith ZArith Bool String List Lia ZifyBool ZifyNat ZifyN.
From Verif Require Import Base BaseProofs Formats FormatsProofs Signatures IO Find FindProofs Utf8 Utf8Proofs Readers Lib Mem IOProofs
  Documented Static ReaderStatic Spec SpecSig SpecText SpecScan SpecApi LibProofs Ideal SigProofs CoreProofs
  TextProofs ScanProofs Glue Conf.
Ltac Zify.zify_post_hook ::= idtac.
Local Open Scope N_scope.

(** ** C18 *)
Theorem C18_forward_search_is_exact : forall data pat,
  (forall i, find data pat = Done (Some i) <->
     occurs_at pat data i /\ forall j, (j < i)%nat -> ~ occurs_at pat data j) /\
  (find data pat = Done None <-> ~ occurs pat data) /\
  (holds data pat = Done true <-> occurs pat data) /\
  (holds data pat = Done false <-> ~ occurs pat data) /\
  (exists r, find data pat = Done r).
Proof.
  intros data pat. split; [intros i; apply find_some|]. split; [apply find_none|].
  split; [apply holds_true|]. split; [apply holds_false|]. apply find_total.
Qed.
Print Assumptions C18_forward_search_is_exact.
Theorem C18_reverse_search_is_exact : forall data pat,
  (forall i, rfind data pat = Done (Some i) <->
     occurs_at pat data i /\ forall j, (i < j)%nat -> ~ occurs_at pat data j) /\
  (rfind data pat = Done None <-> ~ occurs pat data) /\
  (exists r, rfind data pat = Done r).
Proof.
  intros data pat. split; [intros i; apply rfind_some|]. split; [apply rfind_none|]. apply rfind_total.
Qed.
Print Assumptions C18_reverse_search_is_exact.
Example C18_witness :
  find (bs "abcababcabcab") (bs "abcab") = Done (Some 0%nat) /\
  rfind (bs "abcababcabcab") (bs "abcab") = Done (Some 8%nat) /\
  find (bs "abcababcabcab") (bs "cc") = Done None.
Proof. repeat split; vm_compute; reflexivity. Qed.

(** ** C19 *)
Lemma dialect_fun w f g : xml_dialect w f -> xml_dialect w g -> f = g.
Proof.
  assert (K : forall (table : list (list (list string) * FileFormat)) f g,
    (exists before alts after, table = before ++ (alts, f) :: after /\
       dialect_present w alts /\ forall alts' h, In (alts', h) before -> ~ dialect_present w alts') ->
    (exists before alts after, table = before ++ (alts, g) :: after /\
       dialect_present w alts /\ forall alts' h, In (alts', h) before -> ~ dialect_present w alts') -> f = g).
  { induction table as [|[a h] table IH]; intros f' g' (b1 & a1 & r1 & E1 & P1 & N1) (b2 & a2 & r2 & E2 & P2 & N2).
    - destruct b1; discriminate E1.
    - destruct b1 as [|e1 b1]; destruct b2 as [|e2 b2].
      + cbn in E1, E2. congruence.
      + cbn in E1, E2. injection E1 as <- <- _. injection E2 as <- _.
        exfalso. exact (N2 a h (or_introl eq_refl) P1).
      + cbn in E1, E2. injection E2 as <- <- _. injection E1 as <- _.
        exfalso. exact (N1 a h (or_introl eq_refl) P2).
      + cbn in E1, E2. injection E1 as <- E1. injection E2 as _ E2. apply IH.
        * exists b1, a1, r1. repeat split; auto. intros alts' k Hk. apply (N1 alts' k). now right.
        * exists b2, a2, r2. repeat split; auto. intros alts' k Hk. apply (N2 alts' k). now right. }
  intros [H1|[-> H1]] [H2|[-> H2]].
  - eapply K; eassumption.
  - destruct H1 as (b & a & r & E & P & _). exfalso. apply (H2 a f); [|exact P]. rewrite E. apply in_elt.
  - destruct H2 as (b & a & r & E & P & _). exfalso. apply (H1 a g); [|exact P]. rewrite E. apply in_elt.
  - reflexivity.
Qed.
Lemma c19_lemma (c : cfg) l : supported c -> rust_slice l -> signed c FXml l ->
  forall f, from_bytes c l = Done f <-> xml_dialect (slice 5 8192 l) f.
Proof.
  intros Hc Hl Hs f.
  destruct (xml_reader_spec c l (u64_max1 - 1)) as (g & Hg & Hd); [discriminate|].
  pose proof (detect_ok c FXml l g Hc Hl Hs Hg) as E. rewrite E. split.
  - intros [= <-]. exact Hd.
  - intros Hf. f_equal. exact (dialect_fun _ _ _ Hd Hf).
Qed.
Theorem C19_xml_dialects : forall (c : cfg) l, supported c -> rust_slice l -> signed c FXml l ->
  forall f, from_bytes c l = Done f <-> xml_dialect (slice 5 8192 l) f.
Proof. exact c19_lemma. Qed.
Print Assumptions C19_xml_dialects.
Lemma sig_first l f : from_signature l = Some f -> first_match signatures l f.
Proof. apply from_signature_some. Qed.
Ltac signed_by_computation :=
  split; [reflexivity|]; split; [discriminate|]; apply sig_first; vm_compute; reflexivity.
Example C19_witness : let l := bs "<?xml version='1.0'?><svg/>" in
  signed cfg_all FXml l /\ from_bytes cfg_all l = Done ScalableVectorGraphics.
Proof. split; [signed_by_computation|vm_compute; reflexivity]. Qed.

(** ** C20 *)
Lemma pdf_c (c : cfg) l : supported c -> rust_slice l -> signed c FPdf l ->
  (from_bytes c l = Done AdobeIllustratorArtwork <-> occurs (bs "AIPrivateData") (slice 5 33554432 l)) /\
  (from_bytes c l = Done PortableDocumentFormat <-> ~ occurs (bs "AIPrivateData") (slice 5 33554432 l)).
Proof.
  intros Hc Hl Hs. pose proof (rust_u64 l Hl) as Hu.
  destruct (pdf_reader_spec c l (u64_max1 - 1) Hc) as [[Hg H]|[Hg H]]; try reflexivity; try discriminate;
    try (unfold u64_max1 in *; lia);
    rewrite (detect_ok c FPdf l _ Hc Hl Hs Hg); split; split; intros; (reflexivity || assumption || discriminate || contradiction).
Qed.
Theorem C20_illustrator_iff : forall (c : cfg) l, supported c -> rust_slice l -> signed c FPdf l ->
  (from_bytes c l = Done AdobeIllustratorArtwork <-> occurs (bs "AIPrivateData") (slice 5 33554432 l)) /\
  (from_bytes c l = Done PortableDocumentFormat <-> ~ occurs (bs "AIPrivateData") (slice 5 33554432 l)).
Proof. exact pdf_c. Qed.
Print Assumptions C20_illustrator_iff.
(** The same on a reader that splits its data in any way: a marker within the limit is found, and
    nothing is found without a marker in the bytes that can be reached (the last chunk may reach
    beyond the limit by less than a chunk). *)
Lemma c20_reader (c : cfg) content d : supported c -> rust_slice content ->
  d_content d = content -> d_pos d = 0 -> d_seeks d = [] -> 5 <= d_max d -> d_max d < 2 ^ 64 ->
  Forall (fun e => match e with RShort _ => True | _ => False end) (d_reads d) ->
  (exists k, fst (dev_read 36870 d) = Ok (takeN k content) /\
     first_match signatures (takeN k content) PortableDocumentFormat) -> feat c FPdf = true ->
  exists f, fst (from_reader c d) = Done (Ok f) /\
   (f = AdobeIllustratorArtwork \/ f = PortableDocumentFormat) /\
   (occurs (bs "AIPrivateData") (slice 5 33554432 content) -> f = AdobeIllustratorArtwork) /\
   (f = AdobeIllustratorArtwork -> occurs (bs "AIPrivateData") (slice 5 (33554432 + 32767) content)).
Proof.
  intros Hc Hl Hcont Hp Hs H5 Hmax Hr (k & E & Hsig) Hf.
  assert (Hns : Forall no_fault_no_intr (d_reads d)) by exact Hr.
  destruct (read_short content window d) as (chunk & d1 & E1 & [Hi1 Hi1'] & Hr1 & _); auto; [now split|reflexivity|].
  assert (E1m : d_max d1 = d_max d /\ d_seeks d1 = []).
  { unfold dev_read in E1. destruct (d_reads d) as [|[m| |e] rs]; injection E1 as _ <-; cbn; auto. }
  change (dev_read 36870 d) with (dev_read window d) in E. rewrite E1 in E. cbn [fst] in E. injection E as ->.
  unfold from_reader. rewrite E1. pose proof (first_match_nonempty _ _ Hsig) as Hne.
  destruct (takeN k content) as [|b t] eqn:Et; [contradiction|]. rewrite <- Et in *.
  apply from_signature_some in Hsig. rewrite Hsig.
  rewrite from_fmt_reader_eq. cbn [feature_of]. rewrite Hf. cbn [buffered]. rewrite Hcont.
  destruct (pdf_short c content (S (List.length content)) d1) as (f & d2 & E2 & Hff & H1 & H2 & _);
    try (cbn; auto; fail); [now split|apply E1m|destruct E1m as [-> _]; exact H5|].
  unfold run_reader in E2. cbn [buffered] in E2. rewrite E2. exists f. auto.
Qed.
Theorem C20_any_chunking : forall (c : cfg) content d, supported c -> rust_slice content ->
  d_content d = content -> d_pos d = 0 -> d_seeks d = [] -> 5 <= d_max d -> d_max d < 2 ^ 64 ->
  Forall (fun e => match e with RShort _ => True | _ => False end) (d_reads d) ->
  (exists k, fst (dev_read 36870 d) = Ok (takeN k content) /\
     first_match signatures (takeN k content) PortableDocumentFormat) -> feat c FPdf = true ->
  exists f, fst (from_reader c d) = Done (Ok f) /\
   (f = AdobeIllustratorArtwork \/ f = PortableDocumentFormat) /\
   (occurs (bs "AIPrivateData") (slice 5 33554432 content) -> f = AdobeIllustratorArtwork) /\
   (f = AdobeIllustratorArtwork -> occurs (bs "AIPrivateData") (slice 5 (33554432 + 32767) content)).
Proof. exact c20_reader. Qed.
Print Assumptions C20_any_chunking.
Example C20_witness : let l := bs "%PDF-1.4 /AIPrivateData1 9 0 R" in
  signed cfg_all FPdf l /\ from_bytes cfg_all l = Done AdobeIllustratorArtwork /\
  fst (from_reader cfg_all (mkdev l 0 (repeat (RShort 7) 5) [] (2 ^ 63 - 1))) = Done (Ok AdobeIllustratorArtwork).
Proof. split; [signed_by_computation|]. split; vm_compute; reflexivity. Qed.

(** ** C21 *)
Lemma c21_lemma (c : cfg) l : supported c -> rust_slice l -> signed c FSqlite3 l ->
  (from_bytes c l = Done Sketch <-> occurs (bs "com.bohemiancoding.sketch3") (slice 100 32768 l)) /\
  (from_bytes c l = Done Sqlite3 <-> ~ occurs (bs "com.bohemiancoding.sketch3") (slice 100 32768 l)).
Proof.
  intros Hc Hl Hs.
  destruct (sqlite_reader_spec c l (u64_max1 - 1)) as [[Hg H]|[Hg H]]; [discriminate| |];
    rewrite (detect_ok c FSqlite3 l _ Hc Hl Hs Hg); split; split; intros; (reflexivity || assumption || discriminate || contradiction).
Qed.
Theorem C21_sketch_iff : forall (c : cfg) l, supported c -> rust_slice l -> signed c FSqlite3 l ->
  (from_bytes c l = Done Sketch <-> occurs (bs "com.bohemiancoding.sketch3") (slice 100 32768 l)) /\
  (from_bytes c l = Done Sqlite3 <-> ~ occurs (bs "com.bohemiancoding.sketch3") (slice 100 32768 l)).
Proof. exact c21_lemma. Qed.
Print Assumptions C21_sketch_iff.
Example C21_witness : let l := bs "SQLite format 3" ++ repeat x00 90 ++ bs "com.bohemiancoding.sketch3" in
  signed cfg_all FSqlite3 l /\ from_bytes cfg_all l = Done Sketch.
Proof. split; [signed_by_computation|vm_compute; reflexivity]. Qed.

(** ** C22 *)
Lemma c22_lemma (c : cfg) l : supported c -> rust_slice l -> l <> [] -> no_match signatures l -> feat c FTxt = true ->
  (from_bytes c l = Done PlainText <-> clean_text (text_head l)) /\
  (from_bytes c l = Done ArbitraryBinaryData <-> ~ clean_text (text_head l)).
Proof.
  intros Hc Hl Hne Hn Ht. rewrite !detect_unsigned by auto. split; split.
  - intros H. inversion H. assumption.
  - intros H. now constructor.
  - intros H Hcl. inversion H as [|H']. apply H'. now split.
  - intros H. constructor. intros [_ Hcl]. contradiction.
Qed.
Theorem C22_plain_text_iff : forall (c : cfg) l, supported c -> rust_slice l -> l <> [] -> no_match signatures l ->
  feat c FTxt = true ->
  (from_bytes c l = Done PlainText <-> clean_text (text_head l)) /\
  (from_bytes c l = Done ArbitraryBinaryData <-> ~ clean_text (text_head l)).
Proof. exact c22_lemma. Qed.
Print Assumptions C22_plain_text_iff.
Lemma sig_none l : from_signature l = None -> no_match signatures l.
Proof. apply from_signature_none. Qed.
Example C22_witness :
  no_match signatures (bs "plain text") /\ from_bytes cfg_all (bs "plain text") = Done PlainText /\
  no_match signatures [x61; x00] /\ from_bytes cfg_all [x61; x00] = Done ArbitraryBinaryData.
Proof.
  split; [apply sig_none; vm_compute; reflexivity|]. split; [vm_compute; reflexivity|].
  split; [apply sig_none; vm_compute; reflexivity|]. vm_compute; reflexivity.
Qed.

(** ** C23 *)
Lemma c23_lemma (c : cfg) cs l : supported c -> feat c FTxt = true ->
  Forall scalar cs -> Forall (fun x => ~ forbidden x) cs -> l = flat_map utf8_encode cs ->
  l <> [] -> lenN l <= 65536 -> no_match signatures l -> from_bytes c l = Done PlainText.
Proof.
  intros Hc Ht H1 H2 E Hne Hlen Hn. apply c22_lemma; auto.
  - unfold rust_slice. change (2 ^ 63) with 9223372036854775808. lia.
  - apply text_head_clean; [|exact Hlen]. exists cs. auto.
Qed.
Theorem C23_short_text : forall (c : cfg) cs l, supported c -> feat c FTxt = true ->
  Forall scalar cs -> Forall (fun x => ~ forbidden x) cs -> l = flat_map utf8_encode cs ->
  l <> [] -> lenN l <= 65536 -> no_match signatures l -> from_bytes c l = Done PlainText.
Proof. exact c23_lemma. Qed.
Print Assumptions C23_short_text.
Example C23_witness : let cs := [71; 114; 252; 223; 101; 32; 8364; 32; 128512; 10] in
  Forall scalar cs /\ Forall (fun x => ~ forbidden x) cs /\ no_match signatures (flat_map utf8_encode cs) /\
  from_bytes cfg_all (flat_map utf8_encode cs) = Done PlainText.
Proof.
  split; [repeat constructor; unfold scalar; lia|]. split; [repeat constructor; unfold forbidden; lia|].
  split; [apply sig_none; vm_compute; reflexivity|]. vm_compute; reflexivity.
Qed.

(** Without the bound on the length the claim fails: a character that straddles byte 65536. *)
Definition straddling : list N := repeat 97 (N.to_nat 65535) ++ [233].
Lemma straddling_text : Forall scalar straddling /\ Forall (fun x => ~ forbidden x) straddling.
Proof.
  split; apply Forall_app; split.
  - apply Forall_forall. intros x Hx. apply repeat_spec in Hx. subst. unfold scalar. lia.
  - constructor; [unfold scalar; lia|constructor].
  - apply Forall_forall. intros x Hx. apply repeat_spec in Hx. subst. unfold forbidden. lia.
  - constructor; [unfold forbidden; lia|constructor].
Qed.
Theorem C23_unbounded_refuted : exists cs, Forall scalar cs /\ Forall (fun x => ~ forbidden x) cs /\
  from_bytes cfg_all (flat_map utf8_encode cs) = Done ArbitraryBinaryData.
Proof.
  exists straddling. destruct straddling_text as [H1 H2]. split; [exact H1|]. split; [exact H2|].
  vm_compute. reflexivity.
Qed.
Print Assumptions C23_unbounded_refuted.

(** ** C42 *)
Theorem C42_lossy_decoding_keeps_ascii_matches : forall l p, ascii_bytes p ->
  (utf8_lossy l = map bval p <-> l = p) /\
  (ustarts_with (utf8_lossy l) (map bval p) = true <-> exists r, l = p ++ r) /\
  (uends_with (utf8_lossy l) (map bval p) = true <-> exists r, l = r ++ p) /\
  (ucontains (utf8_lossy l) (map bval p) = true <-> occurs p l).
Proof.
  intros l p Hp. split; [now apply lossy_eq|]. split; [now apply lossy_starts|].
  split; [now apply lossy_ends|now apply lossy_contains].
Qed.
Print Assumptions C42_lossy_decoding_keeps_ascii_matches.
(** A name with invalid bytes in it. *)
Example C42_witness :
  let l := [xc3; x28; xff] ++ bs "word/" ++ [xe2; x82] ++ bs ".xml" in
  ascii_bytes (bs "word/") /\ ucontains (utf8_lossy l) (map bval (bs "word/")) = true /\
  uends_with (utf8_lossy l) (map bval (bs ".xml")) = true /\
  ustarts_with (utf8_lossy l) (map bval (bs "word/")) = false /\ utf8_lossy l <> map bval l.
Proof.
  cbv zeta. split; [repeat constructor|]. repeat split; vm_compute; (reflexivity || discriminate).
Qed.
