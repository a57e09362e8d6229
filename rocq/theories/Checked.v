(** Comparing builds: the same reader program for two platforms.  [refp p q]: [q] does what [p]
    does, until [p] panics. *)
From Coq Require Import NArith ZArith Bool String List Lia.
From Verif Require Import Base Formats IO Find Utf8 Readers Lib LibProofs.
Import ListNotations.
Local Open Scope N_scope.

Inductive refp {A} : prog A -> prog A -> Prop :=
| ref_panic q : refp PPanic q
| ref_ret a : refp (Ret a) (Ret a)
| ref_fuel : refp PFuel PFuel
| ref_read n k k' : (forall r, refp (k r) (k' r)) -> refp (PRead n k) (PRead n k')
| ref_exact n k k' : (forall r, refp (k r) (k' r)) -> refp (PReadExact n k) (PReadExact n k')
| ref_line n k k' : (forall r, refp (k r) (k' r)) -> refp (PReadLine n k) (PReadLine n k')
| ref_seek w k k' : (forall r, refp (k r) (k' r)) -> refp (PSeek w k) (PSeek w k')
| ref_tell k k' : (forall r, refp (k r) (k' r)) -> refp (PTell k) (PTell k')
| ref_alloc n k k' : refp k k' -> refp (PAlloc n k) (PAlloc n k').

Lemma refp_refl {A} (p : prog A) : refp p p.
Proof. induction p; constructor; auto. Qed.
Lemma refp_bindp {A B} (p q : prog A) (f g : A -> prog B) : refp p q -> (forall a, refp (f a) (g a)) ->
  refp (bindp p f) (bindp q g).
Proof. intros H K. induction H; cbn [bindp]; try constructor; auto. Qed.
Lemma refp_bindio {A B} (p q : io A) (f g : A -> io B) : refp p q -> (forall a, refp (f a) (g a)) ->
  refp (bindio p f) (bindio q g).
Proof. intros H K. apply refp_bindp; [exact H|]. intros [a|e]; [apply K|apply refp_refl]. Qed.

(** Running related programs. *)
Lemma refp_run {S A} (M : machine S) (p q : prog A) : refp p q -> forall s,
  fst (run M p s) = Panicked \/ run M q s = run M p s.
Proof.
  induction 1 as [q|a| |n k k' H IH|n k k' H IH|n k k' H IH|w k k' H IH|k k' H IH|n k k' H IH]; intros s; cbn [run]; auto.
  - destruct (m_read M n s) as [r s']. apply IH.
  - destruct (m_read_exact M n s) as [[r| |] s']; auto.
  - destruct (m_read_line M n s) as [[r| |] s']; auto.
  - destruct (m_seek M w s) as [r s']. apply IH.
  - destruct (m_tell M s) as [r s']. apply IH.
Qed.

Section Builds.
Variables c c' : plat.
Hypothesis Hu : usize_bits c = usize_bits c'.
Hypothesis Ho : ovf c = true.

Lemma ref_as_usize n : as_usize c' n = as_usize c n.
Proof. unfold as_usize. now rewrite Hu. Qed.
Lemma ref_alloc' n : refp (alloc c n) (alloc c' n).
Proof. unfold alloc, isize_max. rewrite Hu. apply refp_refl. Qed.
Lemma ref_read_bytes n : refp (read_bytes c n) (read_bytes c' n).
Proof. apply refp_bindp; [apply ref_alloc'|]. intros. apply refp_refl. Qed.
Lemma ref_read_string n : refp (read_string c n) (read_string c' n).
Proof. apply refp_bindio; [apply ref_read_bytes|]. intros. apply refp_refl. Qed.
Lemma ref_read_guid : refp (read_guid c) (read_guid c').
Proof. apply refp_bindio; [apply ref_read_bytes|]. intros. apply refp_refl. Qed.
Lemma ref_u64_add a b : refp (u64_add c a b) (u64_add c' a b).
Proof. unfold u64_add. destruct (_ <? _); [apply refp_refl|]. rewrite Ho. constructor. Qed.
Lemma ref_u64_sub a b : refp (u64_sub c a b) (u64_sub c' a b).
Proof. unfold u64_sub. destruct (_ <=? _); [apply refp_refl|]. rewrite Ho. constructor. Qed.
Lemma ref_i64_sub a b : refp (i64_sub c a b) (i64_sub c' a b).
Proof. unfold i64_sub. cbv zeta. destruct (_ && _); [apply refp_refl|]. rewrite Ho. constructor. Qed.

Ltac rstep :=
  lazymatch goal with |- refp ?p ?q => constr_eq p q; apply refp_refl | _ => fail end ||
  lazymatch goal with
  | |- refp (read_bytes _ _) _ => apply ref_read_bytes
  | |- refp (read_string _ _) _ => apply ref_read_string
  | |- refp (read_guid _) _ => apply ref_read_guid
  | |- refp (u64_add _ _ _) _ => apply ref_u64_add
  | |- refp (u64_sub _ _ _) _ => apply ref_u64_sub
  | |- refp (i64_sub _ _ _) _ => apply ref_i64_sub
  | |- refp (bindio _ _) (bindio _ _) => apply refp_bindio; [|intros ?]
  | |- refp (bindp _ _) (bindp _ _) => apply refp_bindp; [|intros ?]
  | |- refp (if ?b then _ else _) (if ?b then _ else _) => destruct b
  | |- refp (match ?x with _ => _ end) (match ?x with _ => _ end) => destruct x
  | |- refp (let _ := _ in _) _ => cbv zeta
  end.
Ltac rsteps := rewrite ?ref_as_usize; repeat (rstep; rewrite ?ref_as_usize).

Lemma ref_asf_descriptors n : refp (asf_descriptors c n) (asf_descriptors c' n).
Proof. induction n as [|n IH]; cbn [asf_descriptors]; rsteps; apply IH. Qed.
Lemma ref_asf_objects n : forall a v, refp (asf_objects c n a v) (asf_objects c' n a v).
Proof.
  induction n as [|n IH]; intros a v; cbn [asf_objects]; rsteps; try apply IH; try apply ref_asf_descriptors.
Qed.
Lemma ref_ebml n len : forall a v s, refp (ebml_elements c len n a v s) (ebml_elements c' len n a v s).
Proof. induction n as [|n IH]; intros a v s; cbn [ebml_elements]; rsteps; apply IH. Qed.
Lemma ref_id3 fuel : forall o, refp (id3v2_loop c fuel o) (id3v2_loop c' fuel o).
Proof. induction fuel as [|n IH]; intros o; cbn [id3v2_loop]; rsteps; apply IH. Qed.
Lemma ref_mp4 n len : forall a v s, refp (mp4_boxes c len n a v s) (mp4_boxes c' len n a v s).
Proof. induction n as [|n IH]; intros a v s; cbn [mp4_boxes]; rsteps; apply IH. Qed.
Lemma ref_rm n : forall a v, refp (rm_chunks c n a v) (rm_chunks c' n a v).
Proof. induction n as [|n IH]; intros a v; cbn [rm_chunks]; rsteps; apply IH. Qed.
Lemma ref_zip_mimetype o s : refp (zip_mimetype c o s) (zip_mimetype c' o s).
Proof. unfold zip_mimetype. rsteps. Qed.
Lemma ref_zip_entries n : forall f, refp (zip_entries c n f) (zip_entries c' n f).
Proof. induction n as [|n IH]; intros f; cbn [zip_entries]; rsteps; try apply IH; apply ref_zip_mimetype. Qed.
Lemma ref_zip : refp (from_zip_reader c) (from_zip_reader c').
Proof. unfold from_zip_reader, zip_find_eocd, zip_is_zip64, zip_directory. rsteps; apply ref_zip_entries. Qed.

Lemma ref_reader fuel x : refp (reader_of c fuel x) (reader_of c' fuel x).
Proof.
  destruct x; cbn [reader_of].
  - unfold from_asf_reader. rsteps. apply ref_asf_objects.
  - unfold from_cfb_reader. rsteps.
  - unfold from_ebml_reader. rsteps. apply ref_ebml.
  - unfold from_exe_reader. rsteps.
  - unfold from_id3v2_reader. rsteps. apply ref_id3.
  - unfold from_mp4_reader. rsteps. apply ref_mp4.
  - apply refp_refl.
  - unfold from_rm_reader. rsteps. apply ref_rm.
  - apply refp_refl.
  - apply refp_refl.
  - apply refp_refl.
  - apply ref_zip.
Qed.
End Builds.
