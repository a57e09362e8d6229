(** C54: detection from memory is the specification of SpecDetect.v, for every input. *)
From Coq Require Import NArith ZArith Bool String List Lia ZifyBool ZifyNat ZifyN.
From Verif Require Import Base BaseProofs Formats FormatsProofs Signatures IO Find FindProofs Readers Lib Mem
  Documented Static ReaderStatic Spec SpecSig SpecText SpecScan SpecBin SpecExe SpecId3 SpecMp4 SpecEbml SpecMedia SpecZip SpecWalk
  SpecApi SpecDetect LibProofs Ideal SigProofs CoreProofs ExeProofs ScanProofs Glue Conf WalkProofs WalkEbml WalkId3 WalkZip
  PropertiesApi PropertiesBuilds PropertiesText PropertiesBin PropertiesMedia PropertiesWalk.
Ltac Zify.zify_post_hook ::= idtac.
Local Open Scope N_scope.

Lemma signed_fun (c : cfg) l x y : signed c x l -> signed c y l -> x = y.
Proof.
  intros (_ & Hx & H1) (_ & Hy & H2). apply from_signature_some in H1. apply from_signature_some in H2.
  rewrite H1 in H2. injection H2 as H2. assert (E : feature_of (container x) = feature_of (container y)) by now rewrite H2.
  rewrite !feature_of_container in E by auto. now injection E.
Qed.
Lemma occurs_dec p w : occurs p w \/ ~ occurs p w.
Proof. destruct (holds_total w p) as ([|] & H); [left; now apply holds_true|right; now apply holds_false]. Qed.

(** Reader by reader: what it decides on any stream. *)
Definition checked_zip (c : cfg) (x : feature) (p : exec (result FileFormat)) : Prop :=
  x = FZip /\ usize_bits c = 32 /\ p = Panicked.
Lemma reader_verdict (c : cfg) l limit x : supported c -> ovf c = false \/ tame x l -> rust_slice l -> x <> FTxt ->
  (x = FZip -> addressable c l) -> lenN l + 400 <= limit -> limit < 2 ^ 64 ->
  exists r, verdict c l limit x r /\ (gives (mreader c l limit x) r \/ checked_zip c x (mreader c l limit x)).
Proof.
  intros Hc Ho Hl Hx Hz Hm Hm2. assert (Hm1 : lenN l <= limit) by lia. destruct x.
  - exists (asf_result l limit). split; [apply v_asf|left; now apply asf_reader_walk].
  - destruct (cfb_reader_spec c l limit Hc Hm) as (r & Hr & Hg). exists r. split; [now apply v_cfb|now left].
  - exists (ebml_result l limit (usize_bits c)). split; [apply v_ebml|left; now apply ebml_reader_walk].
  - exists (exe_class l). split; [apply v_exe|left; now apply exe_reader_spec].
  - destruct (id3_reader_walk c l limit Hc Hm1 Hl) as (r & Hr & Hg). exists r. split; [now apply v_id3|now left].
  - exists (mp4_result l limit). split; [apply v_mp4|left; now apply mp4_reader_walk].
  - destruct (pdf_reader_spec c l limit Hc Hm2 ltac:(lia) Hm1) as [[E H]|[E H]].
    + exists (Some AdobeIllustratorArtwork). split; [now apply v_ai|now left].
    + exists (Some PortableDocumentFormat). split; [now apply v_pdf|now left].
  - exists (rm_result l limit). split; [apply v_rm|left; now apply rm_reader_walk].
  - destruct (sqlite_reader_spec c l limit ltac:(lia)) as [[E H]|[E H]].
    + exists (Some Sketch). split; [now apply v_sketch|now left].
    + exists (Some Sqlite3). split; [now apply v_sqlite|now left].
  - now contradiction Hx.
  - destruct (xml_reader_spec c l limit ltac:(lia)) as (f & E & H). exists (Some f). split; [now apply v_xml|now left].
  - destruct (zip_reader_walk c l limit Hc Ho Hm1 Hm2 (Hz eq_refl)) as (r & Hr & [Hg|[H1 H2]]); exists r; (split; [now apply v_zip|]).
    + now left.
    + right. now split.
Qed.
Lemma verdict_fun (c : cfg) l limit x r r' : verdict c l limit x r -> verdict c l limit x r' -> r = r'.
Proof.
  intros H H'. destruct H; inversion H'; subst; try reflexivity; try contradiction.
  - eapply cfb_class_fun; eassumption.
  - eapply id3_walk_fun; eassumption.
  - f_equal. eapply dialect_fun; eassumption.
  - eapply zip_walk_fun; eassumption.
Qed.

Lemma case_input (c : cfg) l : l = [] \/ (exists x, signed c x l) \/
  (exists f, first_match signatures l f /\ forall x, ~ signed c x l) \/ (l <> [] /\ no_match signatures l).
Proof.
  destruct l as [|b l]; [now left|]. right. destruct (from_signature (b :: l)) as [f|] eqn:E.
  - pose proof E as E'. apply from_signature_some in E. destruct (feature_of f) as [x|] eqn:Ex.
    + pose proof Ex as Ex'. apply feature_of_some in Ex. destruct Ex as [-> Hx]. destruct (feat c x) eqn:Efx.
      * left. exists x. now split.
      * right. left. exists (container x). split; [exact E|]. intros y (Hy & Hy' & H). apply from_signature_some in H.
        rewrite E' in H. injection H as H. rewrite H, feature_of_container in Ex' by exact Hy'. congruence.
    + right. left. exists f. split; [exact E|]. intros y (Hy & Hy' & H). apply from_signature_some in H.
      rewrite E' in H. injection H as ->. rewrite feature_of_container in Ex by exact Hy'. discriminate.
  - right. right. split; [discriminate|]. now apply from_signature_none.
Qed.

Lemma verdict_same (c c' : cfg) l limit x r : usize_bits c = usize_bits c' -> verdict c l limit x r -> verdict c' l limit x r.
Proof.
  intros E H. destruct H; try rewrite E.
  - apply v_asf.
  - now apply v_cfb.
  - apply v_ebml.
  - apply v_exe.
  - now apply v_id3.
  - apply v_mp4.
  - now apply v_ai.
  - now apply v_pdf.
  - apply v_rm.
  - now apply v_sketch.
  - now apply v_sqlite.
  - now apply v_xml.
  - apply v_zip. now rewrite <- E.
Qed.
Lemma decided_checks b (c : cfg) l r f : decided (with_checks b c) l r f -> decided c l r f.
Proof. destruct r; cbn; [auto|]. intros H. destruct H; constructor; auto. Qed.
Lemma stream_checks b (c : cfg) content limit head f :
  stream_format (with_checks b c) content limit head f -> stream_format c content limit head f.
Proof.
  intros [->|g Hg Hn|x r g Hs Hv D|g Hne Hn Hg].
  - now apply sf_empty.
  - now apply sf_signature.
  - apply (sf_container _ _ _ _ x r); [exact Hs| |exact (decided_checks b c content r g D)].
    eapply verdict_same; [|exact Hv]; reflexivity.
  - apply sf_generic; auto. exact (decided_checks b c content None g Hg).
Qed.

(** ** Streams *)
Lemma signed_ideal (c : cfg) x content limit head : signed c x head ->
  ideal_detect c content limit head =
  match mreader c content limit x with
  | Done (Ok g) => Done g | Done (Err _) => ideal_generic c content limit | Panicked => Panicked | OutOfFuel => OutOfFuel end.
Proof.
  intros (Hf & Hx & Hs). pose proof (first_match_nonempty _ _ Hs) as Hne. apply from_signature_some in Hs.
  unfold ideal_detect. destruct head as [|b t] eqn:E; [now contradiction Hne|]. rewrite <- E in *.
  now rewrite Hs, feature_of_container, Hf by exact Hx.
Qed.
Lemma decided_ideal (c : cfg) x content limit head r f : signed c x head -> gives (mreader c content limit x) r ->
  ideal_detect c content limit head = Done f <-> decided c content r f.
Proof.
  intros Hs Hg. rewrite (signed_ideal c x content limit head Hs). destruct r as [g|]; cbn [gives decided] in *.
  - rewrite Hg. split; [intros [= <-]; reflexivity|now intros ->].
  - destruct Hg as [e ->]. apply generic_result_of.
Qed.
Lemma signature_ideal (c : cfg) content limit head f : first_match signatures head f -> (forall x, ~ signed c x head) ->
  ideal_detect c content limit head = Done f.
Proof.
  intros Hf Hn. pose proof (first_match_nonempty _ _ Hf) as Hne. apply from_signature_some in Hf.
  unfold ideal_detect. destruct head as [|b t] eqn:E; [now contradiction Hne|]. rewrite <- E in *. rewrite Hf.
  destruct (feature_of f) as [x|] eqn:Ex; [|reflexivity].
  destruct (feat c x) eqn:Efx; [|reflexivity]. apply feature_of_some in Ex. destruct Ex as [-> Hx].
  exfalso. apply (Hn x). split; [exact Efx|]. split; [exact Hx|]. now apply from_signature_some.
Qed.
Lemma generic_ideal_iff (c : cfg) content limit head f : head <> [] -> no_match signatures head ->
  ideal_detect c content limit head = Done f <-> generic_result c content f.
Proof.
  intros Hne Hn. apply from_signature_none in Hn. unfold ideal_detect.
  destruct head as [|b t] eqn:E; [now contradiction Hne|]. rewrite <- E in *. rewrite Hn. apply generic_result_of.
Qed.
Lemma tame_here (c : cfg) content head x : ovf c = false \/ tame_stream c content head -> signed c x head ->
  ovf c = false \/ tame x content.
Proof. intros [H|H] Hs; [now left|right; now apply H]. Qed.
Lemma ideal_sound (c : cfg) content limit head f : supported c -> ovf c = false \/ tame_stream c content head -> fits c content limit head ->
  ideal_detect c content limit head = Done f -> stream_format c content limit head f.
Proof.
  intros Hc Ho (Hl & Hz & Hm & Hm2) H. destruct (case_input c head) as [->|[(x & Hs)|[(g & Hg & Hn)|(Hne & Hn)]]].
  - injection H as <-. now apply sf_empty.
  - destruct (reader_verdict c content limit x Hc (tame_here c content head x Ho Hs) Hl (proj1 (proj2 Hs))) as (r & Hv & [Hg|(_ & _ & Hp)]); auto.
    + intros ->. now apply Hz.
    + apply (sf_container _ _ _ _ x r); [exact Hs|exact Hv|]. now apply (decided_ideal c x content limit head r f Hs Hg).
    + rewrite (signed_ideal c x content limit head Hs), Hp in H. discriminate H.
  - rewrite (signature_ideal c content limit head g Hg Hn) in H. injection H as <-. now apply sf_signature.
  - apply sf_generic; auto. now apply (generic_ideal_iff c content limit head f Hne Hn).
Qed.
Lemma ideal_complete (c : cfg) content limit head f : supported c -> ovf c = false \/ tame_stream c content head -> fits c content limit head ->
  no_narrow_zip c head -> stream_format c content limit head f -> ideal_detect c content limit head = Done f.
Proof.
  intros Hc Ho (Hl & Hz & Hm & Hm2) Hw [->|g Hg Hn|x r g Hs Hv D|g Hne Hn Hg].
  - reflexivity.
  - now apply signature_ideal.
  - destruct (reader_verdict c content limit x Hc (tame_here c content head x Ho Hs) Hl (proj1 (proj2 Hs))) as (r' & Hv' & [Hg|(-> & Hb & _)]); auto.
    + intros ->. now apply Hz.
    + rewrite (verdict_fun c content limit x r r' Hv Hv') in D. now apply (decided_ideal c x content limit head r' g Hs Hg).
    + exfalso. destruct Hw as [Hw|Hw]; [congruence|contradiction].
  - now apply (generic_ideal_iff c content limit head g Hne Hn).
Qed.
Lemma stream_fun (c : cfg) content limit head f g :
  stream_format c content limit head f -> stream_format c content limit head g -> f = g.
Proof.
  assert (E0 : forall x, ~ signed c x []).
  { intros x (_ & _ & H). exact (first_match_nonempty _ _ H eq_refl). }
  assert (E1 : forall x, no_match signatures head -> ~ signed c x head).
  { intros x H (_ & _ & K). apply from_signature_none in H. apply from_signature_some in K. congruence. }
  assert (E2 : forall h, no_match signatures head -> ~ first_match signatures head h).
  { intros h H K. apply from_signature_none in H. apply from_signature_some in K. congruence. }
  intros [H|g1 Hg Hn|x r g1 Hs Hv D|g1 Hne Hn Hg] [H'|g2 Hg' Hn'|x' r' g2 Hs' Hv' D'|g2 Hne' Hn' Hg'];
    try (exfalso; subst head; try contradiction; (apply (E0 x) || apply (E0 x')|| (eapply first_match_nonempty; [eassumption|reflexivity])); auto; fail);
    try reflexivity.
  - apply from_signature_some in Hg, Hg'. congruence.
  - exfalso. exact (Hn x' Hs').
  - exfalso. exact (E2 g1 Hn' Hg).
  - exfalso. exact (Hn' x Hs).
  - pose proof (signed_fun c head x x' Hs Hs') as <-. rewrite (verdict_fun _ _ _ _ _ _ Hv Hv') in D.
    exact (decided_fun c content r' g1 g2 D D').
  - exfalso. exact (E1 x Hn' Hs).
  - exfalso. exact (E2 g2 Hn Hg').
  - exfalso. exact (E1 x' Hn Hs').
  - exact (generic_result_fun _ _ _ _ Hg Hg').
Qed.
Lemma stream_total (c : cfg) content limit head : supported c -> fits c content limit head ->
  exists f, stream_format c content limit head f.
Proof.
  intros Hc (Hl & Hz & Hm & Hm2). destruct (case_input c head) as [->|[(x & Hs)|[(g & Hg & Hn)|(Hne & Hn)]]].
  - exists Empty. now apply sf_empty.
  - destruct (reader_verdict (with_checks false c) content limit x Hc (or_introl eq_refl) Hl (proj1 (proj2 Hs))) as (r & Hv & _); auto.
    + intros ->. now apply Hz.
    + assert (exists f, decided c content r f) as (f & D).
      { destruct r as [g|]; [now exists g|apply generic_result_total]. }
      exists f. apply (sf_container _ _ _ _ x r); [exact Hs| |exact D].
      eapply verdict_same; [|exact Hv]; reflexivity.
  - exists g. now apply sf_signature.
  - destruct (generic_result_total c content) as (f & Hf). exists f. now apply sf_generic.
Qed.

(** ** C54: from memory *)
Lemma window_first l f : first_match signatures (takeN window l) f <-> first_match signatures l f.
Proof. rewrite <- !from_signature_some, from_signature_window. reflexivity. Qed.
Lemma window_none l : no_match signatures (takeN window l) <-> no_match signatures l.
Proof. rewrite <- !from_signature_none, from_signature_window. reflexivity. Qed.
Lemma window_signed (c : cfg) x l : signed c x (takeN window l) <-> signed c x l.
Proof. unfold signed. now rewrite window_first. Qed.
Lemma memory_format (c : cfg) l f : format_of c l f <-> stream_format c l memory_limit (takeN window l) f.
Proof.
  split; intros [H|g Hg Hn|x r g Hs Hv D|g Hne Hn Hg].
  - apply sf_empty. now apply takeN_window_nil.
  - apply sf_signature; [now apply window_first|]. intros x K. exact (Hn x (proj1 (window_signed c x l) K)).
  - apply (sf_container _ _ _ _ x r); [now apply window_signed|exact Hv|exact D].
  - apply sf_generic; [|now apply window_none|exact Hg]. intros K. apply Hne. exact (proj1 (takeN_window_nil l) K).
  - apply fo_empty. now apply takeN_window_nil.
  - apply fo_signature; [now apply window_first|]. intros x K. exact (Hn x (proj2 (window_signed c x l) K)).
  - apply (fo_container _ _ x r); [now apply window_signed|exact Hv|exact D].
  - apply fo_generic; [|now apply window_none|exact Hg]. intros K. apply Hne. exact (proj2 (takeN_window_nil l) K).
Qed.
Lemma memory_fits (c : cfg) l : supported c -> addressable c l -> fits c l memory_limit (takeN window l).
Proof.
  intros Hc Hl. pose proof (addressable_slice c l Hc Hl) as Hr. split; [exact Hr|]. split; [auto|].
  unfold rust_slice in Hr. change (2 ^ 63) with 9223372036854775808 in Hr.
  unfold memory_limit. change (2 ^ 64) with 18446744073709551616. lia.
Qed.
(** Every build, with or without overflow checks: a result is a format of the data. *)
Theorem C54_result_is_the_format : forall (c : cfg) l f, supported c -> addressable c l ->
  from_bytes c l = Done f -> format_of c l f.
Proof.
  intros c l f Hc Hl H. apply memory_format. apply (stream_checks false).
  assert (E : from_bytes (with_checks false c) l = Done f).
  { destruct (ovf c) eqn:Ho; [now apply C03_debug_bytes_agree|].
    replace (with_checks false c) with c; [exact H|]. unfold with_checks, mkcfg.
    destruct c as [? [? ?]]; cbn in *. now rewrite Ho. }
  rewrite from_bytes_ideal in E by (auto; apply rust_u64; now apply (addressable_slice c)).
  apply ideal_sound; [exact Hc|now left|now apply memory_fits|exact E].
Qed.
Print Assumptions C54_result_is_the_format.
(** Builds without overflow checks: exactly the format of the data is returned (where usize has 32 bits,
    ZIP data may panic instead: C02). *)
Theorem C54_detection_is_the_specification : forall (c : cfg) l f, supported c -> ovf c = false -> addressable c l ->
  usize_bits c = 64 \/ ~ signed c FZip l ->
  (from_bytes c l = Done f <-> format_of c l f).
Proof.
  intros c l f Hc Ho Hl Hz. split; [now apply C54_result_is_the_format|]. intros H. apply memory_format in H.
  rewrite from_bytes_ideal by (auto; apply rust_u64; now apply (addressable_slice c)).
  apply ideal_complete; [exact Hc|now left|now apply memory_fits| |exact H]. destruct Hz as [Hz|Hz]; [now left|right]. now rewrite window_signed.
Qed.
Print Assumptions C54_detection_is_the_specification.
(** So every byte string has exactly one format. *)
Theorem C54_one_format : forall (c : cfg) l, supported c -> addressable c l ->
  exists f, format_of c l f /\ forall g, format_of c l g -> g = f.
Proof.
  intros c l Hc Hl. destruct (stream_total c l memory_limit (takeN window l) Hc (memory_fits c l Hc Hl)) as (f & Hf).
  exists f. split; [now apply memory_format|]. intros g Hg. apply memory_format in Hg. exact (stream_fun c _ _ _ g f Hg Hf).
Qed.
Print Assumptions C54_one_format.
(** Witnesses: a container that is followed, one that is not, a signature, nothing. *)
Example C54_witness :
  format_of cfg_all mp4_cut Mpeg4Part14Audio /\ format_of cfg_all (takeN 21 mp4_cut) ArbitraryBinaryData /\
  format_of cfg_all [xff; xd8; xff] JointPhotographicExpertsGroup /\ format_of cfg_all (bs "text") PlainText /\
  format_of cfg_all [] Empty.
Proof.
  assert (H : forall l f, rust_slice l -> from_bytes cfg_all l = Done f -> format_of cfg_all l f).
  { intros l f Hl. apply C54_result_is_the_format; [now right|exact Hl]. }
  repeat split; apply H; solve [reflexivity|vm_compute; reflexivity].
Qed.
