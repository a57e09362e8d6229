(** C51: the README lists exactly the formats of the crate, under their kinds, with their names and
    short names.  The list is in SpecReadme.v. *)
From Coq Require Import List String Bool NArith Lia.
From Verif Require Import Base Formats FormatsProofs MetaProofs SpecReadme.
Import ListNotations.
Local Open Scope string_scope.

(** How the README writes a format: its name, followed by the short name in parentheses. *)
Definition readme_line (f : FileFormat) : string :=
  match short_name f with
  | Some s => name f ++ " (" ++ s ++ ")"
  | None => name f
  end.

Definition smem (s : string) (l : list string) : bool := existsb (String.eqb s) l.
Lemma smem_in s l : smem s l = true <-> In s l.
Proof.
  unfold smem. rewrite existsb_exists. split.
  - intros (x & H & E). apply String.eqb_eq in E. now subst.
  - intros H. exists s. split; [exact H|]. apply String.eqb_refl.
Qed.
Lemma kind_in k : In k all_kinds.
Proof. destruct k; cbn; auto 30. Qed.
Lemma Kind_eq_dec (a b : Kind) : {a = b} + {a <> b}.
Proof. decide equality. Defined.
Definition kind_eqb (a b : Kind) : bool := if Kind_eq_dec a b then true else false.

Theorem C51_every_format_is_listed : forall f : FileFormat, In (readme_line f) (readme (kind f)).
Proof.
  intros f. apply smem_in.
  apply (forall_formats (fun f => smem (readme_line f) (readme (kind f)))). vm_compute. reflexivity.
Qed.
Print Assumptions C51_every_format_is_listed.

Theorem C51_nothing_else_is_listed : forall k line, In line (readme k) ->
  exists f : FileFormat, kind f = k /\ readme_line f = line.
Proof.
  intros k line H.
  assert (K : forallb (fun k => forallb (fun s => existsb (fun f => (kind_eqb (kind f) k && String.eqb (readme_line f) s)%bool)
      all_formats) (readme k)) all_kinds = true) by (vm_compute; reflexivity).
  rewrite forallb_forall in K. specialize (K k (kind_in k)). rewrite forallb_forall in K. specialize (K line H).
  apply existsb_exists in K. destruct K as (f & _ & E). apply andb_prop in E. destruct E as (E1 & E2).
  exists f. split; [|now apply String.eqb_eq]. unfold kind_eqb in E1. now destruct (Kind_eq_dec (kind f) k).
Qed.
Print Assumptions C51_nothing_else_is_listed.

(** No line occurs twice, within a kind or under two kinds: a line tells the format. *)
Theorem C51_lines_identify_formats :
  (forall k, NoDup (readme k)) /\
  (forall f g : FileFormat, readme_line f = readme_line g -> f = g).
Proof.
  split.
  - intros k. apply distinctb_ok.
    assert (K : forallb (fun k => distinctb (readme k)) all_kinds = true) by (vm_compute; reflexivity).
    rewrite forallb_forall in K. apply K, kind_in.
  - intros f g H. eapply (NoDup_map_inj readme_line all_formats); eauto using all_formats_complete.
    apply distinctb_ok. vm_compute. reflexivity.
Qed.
Print Assumptions C51_lines_identify_formats.

Example C51_witness :
  In "Portable Document Format (PDF)" (readme KDocument) /\ readme_line PortableDocumentFormat = "Portable Document Format (PDF)" /\
  In "ZIP" (readme KArchive) /\ readme_line Zip = "ZIP" /\ ~ In "ZIP" (readme KAudio).
Proof.
  assert (K : forall s k, smem s (readme k) = true -> In s (readme k)) by (intros; now apply smem_in).
  split; [now apply K|]. split; [reflexivity|]. split; [now apply K|]. split; [reflexivity|].
  rewrite <- smem_in. discriminate.
Qed.
