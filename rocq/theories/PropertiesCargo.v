(** C57: which readers a list of Cargo features enables. *)
From Coq Require Import NArith Bool String List.
From Verif Require Import Base Formats Signatures IO Readers Lib LibProofs Conf Cargo SpecCargo.
Import ListNotations.
Local Open Scope string_scope.

Lemma mem_in s l : mem s l = true <-> In s l.
Proof.
  unfold mem. rewrite existsb_exists. split.
  - intros (t & H & E). apply String.eqb_eq in E. now subst.
  - intros H. exists s. split; [exact H|apply String.eqb_refl].
Qed.
Lemma mem_app s a b : mem s (a ++ b) = mem s a || mem s b.
Proof. apply existsb_app. Qed.
Lemma mem_step s t on : mem s (step t on) = mem s on || existsb (fun e => mem (fst e) on && mem s (snd e)) t.
Proof.
  unfold step. rewrite mem_app. f_equal. induction t as [|e t IH]; [reflexivity|]. cbn [flat_map existsb].
  rewrite mem_app, IH. now destruct (mem (fst e) on).
Qed.
Lemma step_reader on : mem "reader" (step manifest on) = mem "reader" on.
Proof.
  rewrite mem_step. unfold manifest. cbn [existsb fst snd]. rewrite !andb_false_r, !orb_false_r. reflexivity.
Qed.
Lemma step_attribute x on : mem (attribute x) (step manifest on) = mem (attribute x) on || mem "reader" on.
Proof.
  rewrite mem_step. unfold manifest. cbn [existsb fst snd].
  change (mem (attribute x) []) with false. rewrite !andb_false_r, !orb_false_r.
  replace (mem (attribute x) ["reader-asf"; "reader-cfb"; "reader-ebml"; "reader-exe"; "reader-id3v2"; "reader-mp4"; "reader-pdf";
              "reader-rm"; "reader-sqlite3"; "reader-txt"; "reader-xml"; "reader-zip"]) with true by (destruct x; reflexivity).
  now rewrite andb_true_r.
Qed.
Lemma saturate_attribute x n : forall on,
  mem (attribute x) (saturate (S n) manifest on) = mem (attribute x) on || mem "reader" on.
Proof.
  induction n as [|n IH]; intros on.
  - apply step_attribute.
  - change (saturate (S (S n)) manifest on) with (saturate (S n) manifest (step manifest on)).
    rewrite IH, step_attribute, step_reader. now destruct (mem (attribute x) on), (mem "reader" on).
Qed.
Lemma mem_filter s p l : mem s (filter p l) = mem s l && p s.
Proof.
  induction l as [|t l IH]; [reflexivity|]. cbn [filter]. unfold mem in *. destruct (p t) eqn:E; cbn [existsb]; rewrite IH.
  - destruct (String.eqb_spec s t) as [->|]; [now rewrite E|reflexivity].
  - destruct (String.eqb_spec s t) as [->|]; [now rewrite E, andb_false_r|reflexivity].
Qed.
Lemma build_feat dflt request p x : feat (build dflt request p) x = mem (attribute x) request || mem "reader" request.
Proof.
  cbn [feat build]. unfold resolve. rewrite mem_filter.
  replace (mem (attribute x) (map fst manifest)) with true by (destruct x; reflexivity). rewrite andb_true_r.
  change (List.length manifest) with 13%nat. rewrite saturate_attribute. destruct dflt; [|reflexivity].
  unfold mem. cbn [existsb]. replace (attribute x =? "default") with false by (destruct x; reflexivity). reflexivity.
Qed.
Lemma attribute_name x : attribute x = feature_name x.
Proof. destruct x; reflexivity. Qed.

(** The features do what the documentation says, with or without default features, for every request. *)
Theorem C57_features_as_documented : forall dflt request p x,
  feat (build dflt request p) x = true <-> documented_on request x.
Proof.
  intros dflt request p x. rewrite build_feat, orb_true_iff, !mem_in, attribute_name. unfold documented_on. tauto.
Qed.
Print Assumptions C57_features_as_documented.
Corollary C57_disabled_by_default : forall dflt p x, feat (build dflt [] p) x = false.
Proof. intros dflt p x. now rewrite build_feat. Qed.
Print Assumptions C57_disabled_by_default.
(** Feature unification is additive: what one package asked for is never switched off by another. *)
Theorem C57_unification_is_additive : forall dflt requests p x,
  feat (build dflt (unify requests) p) x = true <->
  exists r, In r requests /\ feat (build dflt r p) x = true.
Proof.
  intros dflt requests p x. rewrite C57_features_as_documented. unfold documented_on, unify. rewrite !in_concat. split.
  - intros [(r & Hr & H)|(r & Hr & H)]; exists r; (split; [exact Hr|]); apply C57_features_as_documented; [now left|now right].
  - intros (r & Hr & H). apply C57_features_as_documented in H. destruct H as [H|H]; [left|right]; now exists r.
Qed.
Print Assumptions C57_unification_is_additive.

(** Two builds with the same readers behave the same, call by call. *)
Lemma from_reader_ext (c c' : cfg) d : platform c = platform c' -> (forall x, feat c x = feat c' x) ->
  from_reader c d = from_reader c' d.
Proof.
  intros Hp Hf. assert (G : forall d2, from_generic_reader c d2 = from_generic_reader c' d2).
  { intros d2. unfold from_generic_reader. now rewrite Hf. }
  assert (F : forall n f d2, from_fmt_reader c n f d2 = from_fmt_reader c' n f d2).
  { intros n f d2. rewrite !from_fmt_reader_eq. destruct (feature_of f) as [x|]; [|reflexivity]. now rewrite Hf, Hp. }
  unfold from_reader. destruct (dev_read window d) as [[[|b t]|e] d1]; try reflexivity.
  destruct (from_signature (b :: t)) as [f|].
  - rewrite F. destruct (from_fmt_reader c' _ f d1) as [[[g|e]| |] d2]; try reflexivity. now rewrite G.
  - now rewrite G.
Qed.
Lemma from_bytes_ext (c c' : cfg) l : platform c = platform c' -> (forall x, feat c x = feat c' x) ->
  from_bytes c l = from_bytes c' l.
Proof. intros Hp Hf. unfold from_bytes. now rewrite (from_reader_ext c c'). Qed.
(** The feature [reader] and the list of all twelve features are the same build, for every input and reader. *)
Theorem C57_reader_is_all : forall dflt dflt' request p, In "reader" request ->
  let all := build dflt' (map feature_name [FAsf; FCfb; FEbml; FExe; FId3v2; FMp4; FPdf; FRm; FSqlite3; FTxt; FXml; FZip]) p in
  (forall l, from_bytes (build dflt request p) l = from_bytes all l) /\
  (forall d, from_reader (build dflt request p) d = from_reader all d) /\
  (forall node, from_file (build dflt request p) node = from_file all node).
Proof.
  intros dflt dflt' request p H all.
  assert (E : forall x, feat (build dflt request p) x = feat all x).
  { intros x. rewrite (proj2 (C57_features_as_documented dflt request p x)) by now left.
    symmetry. apply C57_features_as_documented. right. apply (in_map feature_name). destruct x; cbn; tauto. }
  assert (R : forall d, from_reader (build dflt request p) d = from_reader all d) by (intros d; now apply from_reader_ext).
  split; [|split; [exact R|]].
  - intros l. now apply from_bytes_ext.
  - intros [e|e|l m]; cbn [from_file]; now rewrite ?R.
Qed.
Print Assumptions C57_reader_is_all.
(** Only what was requested counts: order, repetition and unknown names in the request do not. *)
Theorem C57_request_is_a_set : forall dflt dflt' request request' p,
  (forall x, documented_on request x <-> documented_on request' x) ->
  (forall l, from_bytes (build dflt request p) l = from_bytes (build dflt' request' p) l) /\
  (forall d, from_reader (build dflt request p) d = from_reader (build dflt' request' p) d).
Proof.
  intros dflt dflt' request request' p H.
  assert (E : forall x, feat (build dflt request p) x = feat (build dflt' request' p) x).
  { intros x. apply eq_true_iff_eq. rewrite !C57_features_as_documented. apply H. }
  split; intros; [apply from_bytes_ext|apply from_reader_ext]; auto.
Qed.
Print Assumptions C57_request_is_a_set.
Example C57_witness :
  let p := mkplat false 64 in
  from_bytes (build true [] p) (bs "text") = Done ArbitraryBinaryData /\
  from_bytes (build true ["reader-txt"] p) (bs "text") = Done PlainText /\
  from_bytes (build false ["reader-pdf"; "reader"] p) (bs "text") = Done PlainText /\
  from_bytes (build true (unify [["reader-xml"]; ["reader-txt"]; ["serde"]]) p) (bs "<?xml version='1.0'?><svg/>") = Done ScalableVectorGraphics.
Proof. cbn zeta. repeat split; vm_compute; reflexivity. Qed.
