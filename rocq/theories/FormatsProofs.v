(** Decidable equality and enumeration of the formats. *)
From Coq Require Import List NArith Bool Lia ZifyBool ZifyN.
From Verif Require Import Base Formats.
Local Open Scope N_scope.

Lemma fmt_index_inv f : nth_error all_formats (N.to_nat (fmt_index f)) = Some f.
Proof. destruct f; vm_compute; reflexivity. Qed.

Lemma fmt_index_inj f g : fmt_index f = fmt_index g -> f = g.
Proof.
  intros H. pose proof (fmt_index_inv f) as Hf. rewrite H, fmt_index_inv in Hf. congruence.
Qed.
Lemma all_formats_complete f : In f all_formats.
Proof. eapply nth_error_In. apply fmt_index_inv. Qed.

Definition feqb (f g : FileFormat) : bool := fmt_index f =? fmt_index g.
Lemma feqb_eq f g : feqb f g = true <-> f = g.
Proof.
  unfold feqb. rewrite N.eqb_eq. split; [apply fmt_index_inj|congruence].
Qed.
Lemma feqb_refl f : feqb f f = true.
Proof. now apply feqb_eq. Qed.
Lemma feqb_neq f g : feqb f g = false <-> f <> g.
Proof. rewrite <- feqb_eq. destruct (feqb f g); split; congruence. Qed.

Definition fmem (f : FileFormat) (l : list FileFormat) : bool := existsb (feqb f) l.
Lemma fmem_in f l : fmem f l = true <-> In f l.
Proof.
  unfold fmem. rewrite existsb_exists. split.
  - intros (x & Hx & E). apply feqb_eq in E. now subst.
  - intros H. exists f. split; [exact H|apply feqb_refl].
Qed.
Lemma fmt_eq_dec (f g : FileFormat) : {f = g} + {f <> g}.
Proof.
  destruct (feqb f g) eqn:E; [left; now apply feqb_eq|right; now apply feqb_neq].
Qed.

(** Checking a statement for all formats by evaluation. *)
Lemma forall_formats (P : FileFormat -> bool) :
  forallb P all_formats = true -> forall f, P f = true.
Proof. intros H f. eapply forallb_forall in H; [exact H|apply all_formats_complete]. Qed.
