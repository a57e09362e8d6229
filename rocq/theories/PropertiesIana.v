(** C61: media types, extensions and kinds.  Statements use SpecIana.v. *)
From Coq Require Import NArith Bool Ascii String List Lia.
From Verif Require Import Base Formats FormatsProofs Signatures SpecSig SpecMagic SpecIana.
Import ListNotations.
Local Open Scope string_scope.

Theorem C61_registered_metadata : forall f m extensions, In (f, m, extensions) iana ->
  media_type f = m /\ In (extension f) extensions.
Proof.
  assert (K : forallb (fun r : FileFormat * string * list string => let '(f, m, es) := r in
      String.eqb (media_type f) m && existsb (String.eqb (extension f)) es) iana = true) by (vm_compute; reflexivity).
  intros f m es H. rewrite forallb_forall in K. specialize (K _ H). cbv beta iota in K. apply andb_prop in K as [K1 K2].
  split; [now apply String.eqb_eq|]. apply existsb_exists in K2 as (e & He & K2). apply String.eqb_eq in K2. now rewrite K2.
Qed.
Print Assumptions C61_registered_metadata.

Theorem C61_customary_extension : forall f e, In (f, e) customary -> extension f = e.
Proof.
  assert (K : forallb (fun r => String.eqb (extension (fst r)) (snd r)) customary = true) by (vm_compute; reflexivity).
  intros f e H. rewrite forallb_forall in K. apply String.eqb_eq. exact (K _ H).
Qed.
Print Assumptions C61_customary_extension.

Theorem C61_other_extension_refuted : forall f e, In (f, e) other_extension -> extension f <> e.
Proof.
  intros f e H. cbn [other_extension In] in H.
  repeat (destruct H as [H|H]; [injection H as <- <-; vm_compute; discriminate|]). destruct H.
Qed.
Print Assumptions C61_other_extension_refuted.

(** The two answers [kind] and [media_type] do not contradict each other, for any format. *)
Fixpoint before_slash (s : string) : string :=
  match s with
  | EmptyString => EmptyString
  | String c r => if Ascii.eqb c "/"%char then EmptyString else String c (before_slash r)
  end.
Lemma before_slash_app t u : before_slash t = t -> before_slash (t ++ "/" ++ u) = t.
Proof.
  induction t as [|a t IH]; [reflexivity|]. intros H. cbn [before_slash append] in H |- *.
  destruct (Ascii.eqb a "/"%char) eqn:E; [discriminate|]. injection H as H. f_equal. exact (IH H).
Qed.
Lemma top_level_iff t m : before_slash t = t -> top_level m t -> before_slash m = t.
Proof. intros H (u & ->). now apply before_slash_app. Qed.
Definition Kind_eq_dec (a b : Kind) : {a = b} + {a <> b}. Proof. decide equality. Defined.
Definition kind_eqb (a b : Kind) : bool := if Kind_eq_dec a b then true else false.
Theorem C61_media_type_tells_the_kind : forall f t kinds, In (t, kinds) kinds_of -> top_level (media_type f) t ->
  In (kind f) kinds.
Proof.
  assert (K : forallb (fun f => forallb (fun r => negb (String.eqb (before_slash (media_type f)) (fst r)) ||
      existsb (kind_eqb (kind f)) (snd r)) kinds_of) all_formats = true) by (vm_compute; reflexivity).
  assert (S : forallb (fun r => String.eqb (before_slash (fst r)) (fst r)) kinds_of = true) by (vm_compute; reflexivity).
  intros f t ks H T. rewrite forallb_forall in K, S. specialize (K f (all_formats_complete f)).
  rewrite forallb_forall in K. specialize (K _ H). specialize (S _ H). cbn [fst snd] in *. apply String.eqb_eq in S.
  rewrite (top_level_iff t _ S T), String.eqb_refl in K. cbn [negb orb] in K.
  apply existsb_exists in K as (k & Hk & K). unfold kind_eqb in K. destruct (Kind_eq_dec (kind f) k) as [->|]; [exact Hk|discriminate].
Qed.
Print Assumptions C61_media_type_tells_the_kind.

Fixpoint after_slash (s : string) : option string :=
  match s with
  | EmptyString => None
  | String c r => if Ascii.eqb c "/"%char then Some r else after_slash r
  end.
Lemma split_slash s r : after_slash s = Some r -> s = before_slash s ++ "/" ++ r.
Proof.
  induction s as [|a s IH]; [discriminate|]. cbn [before_slash after_slash]. destruct (Ascii.eqb a "/"%char) eqn:E.
  - intros H. injection H as <-. apply Ascii.eqb_eq in E. now subst.
  - intros H. cbn [append]. f_equal. exact (IH H).
Qed.
Theorem C61_kind_tells_the_media_type : forall f : FileFormat,
  exists t, In t (types_of (kind f)) /\ top_level (media_type f) t.
Proof.
  assert (K : forallb (fun f => existsb (String.eqb (before_slash (media_type f))) (types_of (kind f)) &&
      match after_slash (media_type f) with Some _ => true | None => false end) all_formats = true) by (vm_compute; reflexivity).
  intros f. rewrite forallb_forall in K. specialize (K f (all_formats_complete f)). apply andb_prop in K as [K1 K2].
  apply existsb_exists in K1 as (t & Ht & K1). apply String.eqb_eq in K1. exists t. split; [exact Ht|].
  destruct (after_slash (media_type f)) as [r|] eqn:E; [|discriminate]. exists r. rewrite <- K1. now apply split_slash.
Qed.
Print Assumptions C61_kind_tells_the_media_type.

Example C61_witness :
  In (KeyholeMarkupLanguageZip, "application/vnd.google-earth.kmz", ["kmz"]) iana /\
  In ("image", [KImage; KDocument]) kinds_of /\ top_level (media_type Djvu) "image" /\ kind Djvu = KDocument /\
  top_level (media_type PortableNetworkGraphics) "image" /\ kind PortableNetworkGraphics = KImage.
Proof.
  split; [vm_compute; tauto|]. split; [cbn; tauto|]. split; [exists "vnd.djvu"; reflexivity|].
  split; [reflexivity|]. split; [exists "png"; reflexivity|reflexivity].
Qed.
(** 428 of the 447 formats have their extension checked against one of the tables. *)
Example C61_coverage :
  List.length (filter (fun f => existsb (fun r => feqb (fst (fst r)) f) iana || existsb (fun r => feqb (fst r) f) customary ||
    existsb (fun s => feqb (format_of s) f && match ext s with Some _ => true | None => false end) (standards ++ remote_standards)) all_formats)
  = 428%nat.
Proof. vm_compute. reflexivity. Qed.
