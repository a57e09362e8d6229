(** C63: XML vocabularies.  Statements use SpecXml.v, SpecScan.v and SpecApi.v. *)
From Coq Require Import NArith ZArith Bool Ascii String List Lia ZifyBool ZifyNat ZifyN.
From Verif Require Import Base BaseProofs Formats FormatsProofs Signatures IO Lib Spec SpecSig SpecText SpecScan SpecApi SpecXml
  FindProofs ZipProofs Conf PropertiesText.
Import ListNotations.
Ltac Zify.zify_post_hook ::= idtac.
Local Open Scope N_scope.

Definition begins (p s : string) : bool := String.prefix p s.
Lemma begins_sound p : forall s, begins p s = true -> exists r, bs s = bs p ++ r.
Proof.
  induction p as [|a p IH]; intros s H; [now exists (bs s)|]. destruct s as [|b s]; [discriminate|].
  unfold begins in H. cbn [String.prefix] in H. destruct (Ascii.ascii_dec a b) as [<-|]; [|discriminate].
  destruct (IH s H) as (r & E). exists r.
  change (bs (String a s)) with (Ascii.byte_of_ascii a :: bs s). change (bs (String a p)) with (Ascii.byte_of_ascii a :: bs p).
  cbn [app]. now rewrite E.
Qed.
Definition root_ok (r : string * FileFormat) : bool :=
  existsb (fun d : list (list string) * FileFormat => feqb (snd d) (snd r) &&
    existsb (fun ms => match ms with [m] => begins m (String "<"%char (fst r)) | _ => false end) (fst d)) xml_dialects.
Lemma roots_checked : forallb root_ok roots = true.
Proof. vm_compute. reflexivity. Qed.
Lemma occurs_window l pre m post : l = pre ++ m ++ post -> 5 <= lenN pre -> lenN pre + lenN m <= 8197 ->
  occurs m (slice 5 8192 l).
Proof.
  intros -> H1 H2. unfold slice. exists (dropN 5 pre).
  exists (takeN (8192 - (lenN pre - 5 + lenN m)) post).
  rewrite dropN_app. replace (5 - lenN pre) with 0 by lia. rewrite dropN_0.
  rewrite takeN_app, lenN_dropN. f_equal; [apply takeN_all; rewrite lenN_dropN; lia|].
  rewrite takeN_app. f_equal; [apply takeN_all; lia|]. f_equal. lia.
Qed.
Lemma vocabularies_distinct before alts f after alts' : xml_dialects = before ++ (alts, f) :: after -> ~ In (alts', f) before.
Proof.
  assert (K : NoDup (map snd xml_dialects)).
  { assert (H : (fix nd (l : list FileFormat) := match l with [] => true | x :: r => negb (existsb (feqb x) r) && nd r end) (map snd xml_dialects) = true)
      by (vm_compute; reflexivity).
    revert H. generalize (map snd xml_dialects) as l. induction l as [|x l IH]; [constructor|]. intros H. apply andb_prop in H as [H1 H2].
    constructor; [|now apply IH]. intros Hin. apply negb_true_iff in H1. rewrite <- not_true_iff_false in H1. apply H1.
    apply existsb_exists. exists x. split; [exact Hin|now apply feqb_eq]. }
  intros E Hin. rewrite E, map_app in K. cbn [map snd] in K. apply NoDup_remove_2 in K. apply K. apply in_or_app. left.
  now apply (in_map snd) in Hin.
Qed.
(** ** C63 *)
(** The start tag of the root element within the first 8197 bytes decides, if no other vocabulary is
    mentioned there. *)
Theorem C63_root_element : forall (c : cfg) l at_ name f, supported c -> rust_slice l -> signed c FXml l ->
  In (name, f) roots -> start_tag l at_ name -> 5 <= at_ -> at_ + 1 + lenN (bs name) <= 8197 ->
  only_vocabulary l f -> from_bytes c l = Done f.
Proof.
  intros c l at_ name f Hc Hl Hs Hr (pre & post & E & Ep) H5 Hw Ho.
  apply (C19_xml_dialects c l Hc Hl Hs). left.
  pose proof roots_checked as K. rewrite forallb_forall in K. specialize (K _ Hr). unfold root_ok in K.
  apply existsb_exists in K as ([alts g] & Hd & K). cbn [fst snd] in K. apply andb_prop in K as [K1 K2].
  apply feqb_eq in K1. subst g. apply existsb_exists in K2 as (ms & Hms & K2). destruct ms as [|m [|m' ms]]; try discriminate.
  destruct (in_split _ _ Hd) as (before & after & Es). exists before, alts, after. split; [exact Es|]. split.
  - exists [m]. split; [exact Hms|]. intros m0 [<-|[]]. apply begins_sound in K2 as (r & Er).
    change (bs (String "<"%char name)) with (bs "<" ++ bs name) in Er.
    apply (occurs_window l pre (bs m) (r ++ post)).
    + rewrite E. f_equal. rewrite app_assoc, Er, <- app_assoc. reflexivity.
    + lia.
    + apply (f_equal lenN) in Er. rewrite !lenN_app in Er. change (lenN (bs "<")) with 1 in Er. lia.
  - intros alts' g Hin. apply (Ho alts' g); [rewrite Es; apply in_or_app; now left|].
    intros ->. exact (vocabularies_distinct before alts f after alts' Es Hin).
Qed.
Print Assumptions C63_root_element.
Definition single_absent (w : bytes) (f : FileFormat) : bool :=
  forallb (fun d : list (list string) * FileFormat => feqb (snd d) f ||
    forallb (fun ms => existsb (fun m => negb (bcontains w (bs m))) ms) (fst d)) xml_dialects.
Lemma only_vocabulary_dec l f : single_absent (slice 5 8192 l) f = true -> only_vocabulary l f.
Proof.
  intros H alts g Hin Hg (ms & Hms & K). unfold single_absent in H. rewrite forallb_forall in H. specialize (H _ Hin). cbn [fst snd] in H.
  apply orb_prop in H as [H|H]; [apply feqb_eq in H; contradiction|]. rewrite forallb_forall in H. specialize (H _ Hms).
  apply existsb_exists in H as (m & Hm & H). specialize (K m Hm). apply negb_true_iff in H.
  apply bcontains_iff in K. rewrite K in H. discriminate H.
Qed.
(** A drawing with a comment and a document type declaration in front. *)
Definition drawing_head : bytes :=
  prologue ++ bs "<!-- a drawing --><!DOCTYPE svg PUBLIC '-//W3C//DTD SVG 1.1//EN' 'http://www.w3.org/Graphics/SVG/1.1/DTD/svg11.dtd'>".
Definition drawing : bytes := drawing_head ++ bs "<" ++ bs "svg" ++ bs " width='1'></svg>".
Example C63_witness : rust_slice drawing /\ signed cfg_all FXml drawing /\ start_tag drawing 137 "svg" /\
  only_vocabulary drawing ScalableVectorGraphics /\ from_bytes cfg_all drawing = Done ScalableVectorGraphics.
Proof.
  split; [vm_compute; reflexivity|]. split; [signed_by_computation|]. split.
  { exists drawing_head, (bs " width='1'></svg>"). split; [reflexivity|vm_compute; reflexivity]. }
  split; [apply only_vocabulary_dec; vm_compute; reflexivity|vm_compute; reflexivity].
Qed.
(** The root element alone does not decide: documents of known vocabularies are missed or taken for
    another one ... *)
Theorem C63_root_element_refuted : forall doc f g, In (doc, f, g) missed ->
  signed cfg_all FXml (prologue ++ bs doc) /\ f <> g /\ from_bytes cfg_all (prologue ++ bs doc) = Done g.
Proof.
  intros doc f g H. cbn [missed In] in H.
  repeat (destruct H as [H|H]; [injection H as <- <- <-; split; [signed_by_computation|split; [discriminate|vm_compute; reflexivity]]|]).
  destruct H.
Qed.
Print Assumptions C63_root_element_refuted.
(** ... and documents of unknown vocabularies are taken for known ones. *)
Theorem C63_unknown_vocabulary_refuted : forall doc f, In (doc, f) mistaken ->
  signed cfg_all FXml (prologue ++ bs doc) /\ from_bytes cfg_all (prologue ++ bs doc) = Done f.
Proof.
  intros doc f H. cbn [mistaken In] in H.
  repeat (destruct H as [H|H]; [injection H as <- <-; split; [signed_by_computation|vm_compute; reflexivity]|]).
  destruct H.
Qed.
Print Assumptions C63_unknown_vocabulary_refuted.
