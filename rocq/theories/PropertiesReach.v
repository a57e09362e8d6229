(** C08: every format is reachable.  The witnesses for the formats decided by a container reader
    are in Reach.v; those for the other formats are built from the signature table (SigProofs.v). *)
From Coq Require Import NArith ZArith Bool String List Lia ZifyBool ZifyNat ZifyN.
From Verif Require Import Base BaseProofs Formats FormatsProofs Signatures IO Lib Documented
  Spec SpecSig SpecText SpecApi LibProofs Ideal SigProofs CoreProofs Glue Conf Reach PropertiesSig.
Import ListNotations.
Local Open Scope N_scope.

Definition platforms : list plat := [mkplat false 64; mkplat true 64; mkplat false 32; mkplat true 32].
Lemma platforms_all (c : plat) : supported c -> In c platforms.
Proof. destruct c as [[|] w]. all: intros [H|H]; cbn in H; subst w; cbn; auto. Qed.

Definition decides (p : plat) (x : feature) (l : bytes) (f : FileFormat) : bool :=
  match mreader p l (u64_max1 - 1) x with Done (Ok g) => feqb g f | _ => false end.
Definition sig_is (l : bytes) (f : FileFormat) : bool :=
  match fast_sig_in signatures l with Some g => feqb g f | None => false end.
Definition reader_witness_ok (r : FileFormat * feature * list seg) : bool :=
  let '(f, x, s) := r in
  let l := segs_bytes s in
  (lenN l <? 100000) && sig_is l (container x) && forallb (fun p => decides p x l f) platforms.
Lemma reader_witnesses_ok : forallb reader_witness_ok reader_witnesses = true.
Proof. vm_compute. reflexivity. Qed.

Definition feature_eqb (x y : feature) : bool :=
  match x, y with
  | FAsf, FAsf | FCfb, FCfb | FEbml, FEbml | FExe, FExe | FId3v2, FId3v2 | FMp4, FMp4
  | FPdf, FPdf | FRm, FRm | FSqlite3, FSqlite3 | FTxt, FTxt | FXml, FXml | FZip, FZip => true
  | _, _ => false
  end.
Lemma feature_eqb_eq x y : feature_eqb x y = true -> x = y.
Proof. destruct x, y; cbn; congruence. Qed.

Lemma sig_is_first l f : sig_is l f = true -> first_match signatures l f.
Proof.
  unfold sig_is. rewrite fast_sig_ok. destruct (from_signature l) as [g|] eqn:E; [|discriminate].
  intros H. apply feqb_eq in H. subst g. now apply from_signature_some.
Qed.

Lemma witness_works f x s : In (f, x, s) reader_witnesses ->
  rust_slice (segs_bytes s) /\ first_match signatures (segs_bytes s) (container x) /\
  (x <> FTxt -> forall c : cfg, supported c -> feat c x = true -> from_bytes c (segs_bytes s) = Done f).
Proof.
  intros H. pose proof reader_witnesses_ok as K. rewrite forallb_forall in K. specialize (K _ H).
  cbn [reader_witness_ok] in K. apply andb_prop in K as [K K3]. apply andb_prop in K as [K1 K2].
  apply sig_is_first in K2. apply N.ltb_lt in K1.
  assert (Hs : rust_slice (segs_bytes s)) by (unfold rust_slice; eapply N.lt_trans; [exact K1|reflexivity]).
  split; [exact Hs|]. split; [exact K2|]. intros Hx c Hc Hf.
  apply (detect_ok c x); auto.
  - split; [exact Hf|]. split; assumption.
  - rewrite forallb_forall in K3. specialize (K3 _ (platforms_all c Hc)). unfold decides in K3.
    destruct (mreader c (segs_bytes s) (u64_max1 - 1) x) as [[g|]| |]; try discriminate K3.
    apply feqb_eq in K3. now subst.
Qed.

Definition has_witness (x : feature) (f : FileFormat) : bool :=
  existsb (fun r => let '(g, y, _) := r in feqb g f && feature_eqb x y) reader_witnesses.
Lemma documented_covered :
  forallb (fun x => forallb (has_witness x) (container x :: documented x))
    [FAsf; FCfb; FEbml; FExe; FId3v2; FMp4; FPdf; FRm; FSqlite3; FXml; FZip] = true.
Proof. vm_compute. reflexivity. Qed.

Lemma has_witness_ex x f : has_witness x f = true -> exists s, In (f, x, s) reader_witnesses.
Proof.
  intros H. apply existsb_exists in H as ([[g y] s] & H1 & H2). apply andb_prop in H2 as [H2 H3].
  apply feqb_eq in H2. apply feature_eqb_eq in H3. subst. eauto.
Qed.

(** Every format that the documentation lists for a reader feature is found by that reader, and so is
    the container format itself. *)
Theorem C08_documented_formats_are_found : forall x f, x <> FTxt -> In f (container x :: documented x) ->
  exists l, rust_slice l /\ first_match signatures l (container x) /\
    forall c : cfg, supported c -> feat c x = true -> from_bytes c l = Done f.
Proof.
  intros x f Hx Hf. pose proof documented_covered as K. rewrite forallb_forall in K.
  assert (Hin : In x [FAsf; FCfb; FEbml; FExe; FId3v2; FMp4; FPdf; FRm; FSqlite3; FXml; FZip])
    by (destruct x; cbn; tauto).
  specialize (K _ Hin). rewrite forallb_forall in K. specialize (K _ Hf).
  apply has_witness_ex in K as (s & Hs). destruct (witness_works _ _ _ Hs) as (H1 & H2 & H3).
  exists (segs_bytes s). auto.
Qed.
Print Assumptions C08_documented_formats_are_found.

(** The formats left are found by their signature alone, whatever the features. *)
Definition plainly_signed (f : FileFormat) : bool :=
  match feature_of f with Some _ => false | None => existsb (fun e : sig_entry => feqb (fst e) f) signatures end.
Lemma no_empty_entry : forallb (fun e : sig_entry => match snd e with [] => false | _ => true end) signatures = true.
Proof. vm_compute. reflexivity. Qed.
Lemma plainly_signed_found f : plainly_signed f = true ->
  exists l, rust_slice l /\ forall c : cfg, supported c -> from_bytes c l = Done f.
Proof.
  unfold plainly_signed. destruct (feature_of f) eqn:Ef; [discriminate|]. intros H.
  apply existsb_exists in H as ([g alts] & H1 & H2). cbn [fst] in H2. apply feqb_eq in H2. subst g.
  pose proof no_empty_entry as K. rewrite forallb_forall in K. specialize (K _ H1). cbn [snd] in K.
  destruct alts as [|alt alts]; [discriminate|].
  assert (H2 : In alt (alt :: alts)) by now left.
  destruct (c07_witness _ _ _ H1 H2) as [_ Hb]. exists (witness alt).
  pose proof (witness_slice _ _ _ H1 H2) as Hs. split; [exact Hs|]. intros c Hc.
  apply c04_stands; auto.
  intros x _ Hx Hc'. apply (f_equal feature_of) in Hc'. rewrite Ef, feature_of_container in Hc' by exact Hx.
  discriminate.
Qed.

Lemma everything_covered :
  forallb (fun f => plainly_signed f || existsb (fun x => has_witness x f)
     [FAsf; FCfb; FEbml; FExe; FId3v2; FMp4; FPdf; FRm; FSqlite3; FXml; FZip]
     || fmem f [Empty; PlainText; ArbitraryBinaryData]) all_formats = true.
Proof. vm_compute. reflexivity. Qed.

Lemma unsigned_found l f : (lenN l <? 100000) = true -> l <> [] -> from_signature l = None ->
  forallb (fun p => match mreader p l 0 FTxt with Done (Ok g) => feqb g f | Done (Err _) => feqb ArbitraryBinaryData f | _ => false end) platforms = true ->
  forall c : cfg, supported c -> feat c FTxt = true -> from_bytes c l = Done f.
Proof.
  intros H1 H2 H3 H4 c Hc Hf. apply N.ltb_lt in H1.
  apply detect_unsigned; auto.
  - unfold rust_slice. eapply N.lt_trans; [exact H1|reflexivity].
  - now apply from_signature_none.
  - apply (generic_result_of c l 0). unfold ideal_generic. rewrite Hf.
    rewrite forallb_forall in H4. specialize (H4 _ (platforms_all c Hc)).
    destruct (mreader c l 0 FTxt) as [[g|]| |]; try discriminate H4; apply feqb_eq in H4; now subst.
Qed.

(** No format is unreachable: for each there is an input that every build with all the reader
    features reports as it. *)
Theorem C08_every_format_reachable : forall f, exists l, rust_slice l /\ forall c : cfg, supported c -> (forall x, feat c x = true) -> from_bytes c l = Done f.
Proof.
  intros f. pose proof (forall_formats _ everything_covered f) as K. cbv beta in K.
  apply orb_prop in K as [K|K]; [apply orb_prop in K as [K|K]|].
  - destruct (plainly_signed_found f K) as (l & H1 & H2). exists l. split; auto.
  - apply existsb_exists in K as (x & Hx & K). apply has_witness_ex in K as (s & Hs).
    destruct (witness_works _ _ _ Hs) as (H1 & H2 & H3). exists (segs_bytes s). split; [exact H1|].
    intros c Hc Hf. apply H3; auto. intros ->. cbn in Hx. repeat destruct Hx as [Hx|Hx]; try discriminate Hx. exact Hx.
  - apply fmem_in in K. cbn in K. destruct K as [<-|[<-|[<-|[]]]].
    + exists []. split; [reflexivity|]. reflexivity.
    + exists (bs "hello"). split; [reflexivity|]. intros c Hc Hf.
      apply (unsigned_found (bs "hello")); auto; try (vm_compute; reflexivity). discriminate.
    + exists [x00]. split; [reflexivity|]. intros c Hc Hf.
      apply (unsigned_found [x00]); auto; try (vm_compute; reflexivity). discriminate.
Qed.
Print Assumptions C08_every_format_reachable.

(** A format whose signature is not a container's needs no reader feature at all. *)
Theorem C08_signed_formats_need_no_reader : forall f alts, In (f, alts) signatures ->
  (forall x, x <> FTxt -> container x <> f) ->
  exists l, rust_slice l /\ forall c : cfg, supported c -> from_bytes c l = Done f.
Proof.
  intros f alts Hin Hx. apply plainly_signed_found. unfold plainly_signed.
  destruct (feature_of f) as [x|] eqn:E.
  - apply feature_of_some in E as [E Ht]. exfalso. now apply (Hx x Ht).
  - apply existsb_exists. exists (f, alts). split; [exact Hin|]. now apply feqb_eq.
Qed.
Print Assumptions C08_signed_formats_need_no_reader.
Example C08_gif : exists alts, In (GraphicsInterchangeFormat, alts) signatures.
Proof.
  assert (K : existsb (fun e : sig_entry => feqb (fst e) GraphicsInterchangeFormat) signatures = true) by (vm_compute; reflexivity).
  apply existsb_exists in K as ([g alts] & H1 & H2). apply feqb_eq in H2. cbn in H2. subst. eauto.
Qed.
