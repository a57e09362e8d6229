(** C67: identifiers and derived traits.  Statements use SpecNames.v and the model's accessors. *)
From Coq Require Import NArith ZArith Bool String Ascii List Lia Sorting.Sorted.
From Verif Require Import Base Formats FormatsProofs Derive Lib SpecNames SpecMeta PropertiesMeta.
Import ListNotations.
Local Open Scope string_scope.

Lemma every_format (P : FileFormat -> bool) : forallb P all_formats = true -> forall f, P f = true.
Proof. intros H f. rewrite forallb_forall in H. apply H, all_formats_complete. Qed.

(** Debug prints the name in camel case. *)
Theorem C67_debug_is_the_name_in_camel_case : forall f : FileFormat, debug f = identifier (name f).
Proof. intros f. apply String.eqb_eq. revert f. apply every_format. vm_compute. reflexivity. Qed.
Print Assumptions C67_debug_is_the_name_in_camel_case.

Definition is_identifierb (s : string) : bool :=
  match s with
  | EmptyString => false
  | String c r => is_upper c && forallb (fun d => is_upper d || is_lower d || is_digit d) (list_ascii_of_string r)
  end.
Lemma is_identifierb_ok s : is_identifierb s = true -> is_identifier s.
Proof.
  destruct s as [|c r]; [discriminate|]. cbn. intros H. apply andb_prop in H as [H1 H2]. exists c, r.
  split; [reflexivity|]. split; [exact H1|]. now apply forallb_forall.
Qed.
Theorem C67_debug_is_an_identifier : forall f : FileFormat, is_identifier (debug f).
Proof.
  intros f. apply is_identifierb_ok. revert f. apply every_format. vm_compute. reflexivity.
Qed.
Print Assumptions C67_debug_is_an_identifier.
Theorem C67_debug_kind_is_an_identifier : forall k : Kind, is_identifier (debug_kind k).
Proof. intros k. apply is_identifierb_ok. destruct k; reflexivity. Qed.
Print Assumptions C67_debug_kind_is_an_identifier.

(** The variants are declared (and numbered) in alphabetical order. *)
Fixpoint precedesb (s t : string) : bool :=
  match s, t with
  | EmptyString, String _ _ => true
  | String c r, String d q => (code c <? code d)%N || Ascii.eqb c d && precedesb r q
  | _, _ => false
  end.
Lemma precedesb_ok s : forall t, precedesb s t = true -> precedes s t.
Proof.
  induction s as [|c r IH]; intros [|d q]; cbn; try discriminate; [trivial|]. intros H.
  apply orb_prop in H as [H|H]; [left; now apply N.ltb_lt|]. right. apply andb_prop in H as [H1 H2].
  split; [now apply Ascii.eqb_eq|auto].
Qed.
Lemma precedes_trans s : forall t u, precedes s t -> precedes t u -> precedes s u.
Proof.
  induction s as [|c r IH]; intros [|d q] [|e p]; cbn; try tauto.
  intros [H1|[-> H1]] [H2|[-> H2]]; try (left; lia). right. split; [reflexivity|].
  now apply (IH q).
Qed.
Lemma precedes_irrefl s : ~ precedes s s.
Proof. induction s as [|c r IH]; cbn; [tauto|]. intros [H|[_ H]]; [lia|auto]. Qed.
Lemma numbered : map discriminant all_formats = map N.of_nat (seq 0 (List.length all_formats)).
Proof. vm_compute. reflexivity. Qed.
Lemma sorted_formats : StronglySorted (fun f g => precedes (debug f) (debug g)) all_formats.
Proof.
  apply Sorted_StronglySorted; [intros a b d; apply precedes_trans|].
  assert (K : forall t, (fix chk (t : list FileFormat) : bool :=
       match t with a :: ((b :: _) as r) => precedesb (debug a) (debug b) && chk r | _ => true end) t = true ->
       Sorted (fun f g => precedes (debug f) (debug g)) t).
  { induction t as [|a t IH]; [constructor|]. intros H. destruct t as [|b r]; [constructor; constructor|].
    apply andb_prop in H as [H1 H2]. constructor; [now apply IH|]. constructor. now apply precedesb_ok. }
  apply K. vm_compute. reflexivity.
Qed.
Lemma nth_sorted {A} (R : A -> A -> Prop) l : StronglySorted R l ->
  forall i j x y, (i < j)%nat -> nth_error l i = Some x -> nth_error l j = Some y -> R x y.
Proof.
  induction 1 as [|a l H IH Ha]; intros i j x y Hij Hi Hj; [now destruct i|].
  destruct j as [|j]; [lia|]. destruct i as [|i]; cbn in *.
  - injection Hi as <-. rewrite Forall_forall in Ha. apply Ha. now apply nth_error_In in Hj.
  - apply (IH i j); auto; lia.
Qed.
Lemma discriminant_nth f : nth_error all_formats (N.to_nat (discriminant f)) = Some f.
Proof.
  destruct (In_nth_error _ _ (all_formats_complete f)) as (k & Hk).
  assert (E : nth_error (map discriminant all_formats) k = Some (discriminant f)) by now apply map_nth_error.
  rewrite numbered in E. assert (Hl : (k < List.length all_formats)%nat) by (apply nth_error_Some; congruence).
  rewrite (map_nth_error N.of_nat k (seq 0 (List.length all_formats)) (d := k)) in E.
  - injection E as <-. now rewrite Nnat.Nat2N.id.
  - rewrite (nth_error_nth' _ 0%nat) by now rewrite seq_length. now rewrite seq_nth.
Qed.
Theorem C67_discriminants_are_alphabetical : forall f g : FileFormat,
  (discriminant f < discriminant g)%N <-> precedes (debug f) (debug g).
Proof.
  assert (K : forall f g, (discriminant f < discriminant g)%N -> precedes (debug f) (debug g)).
  { intros f g H. refine (nth_sorted _ _ sorted_formats _ _ f g _ (discriminant_nth f) (discriminant_nth g)). lia. }
  intros f g. split; [apply K|]. intros H. destruct (N.lt_trichotomy (discriminant f) (discriminant g)) as [L|[E|L]]; [exact L| |].
  - exfalso. assert (f = g) as ->.
    { pose proof (discriminant_nth f) as H1. rewrite E, discriminant_nth in H1. congruence. }
    now apply precedes_irrefl in H.
  - exfalso. apply (precedes_irrefl (debug f)). exact (precedes_trans _ _ _ H (K _ _ L)).
Qed.
Print Assumptions C67_discriminants_are_alphabetical.
Theorem C67_discriminants_are_dense : forall n : N,
  (n < 447)%N <-> exists f : FileFormat, discriminant f = n.
Proof.
  intros n. split.
  - intros H. assert (Hn : (N.to_nat n < List.length all_formats)%nat).
    { assert (E : List.length all_formats = 447%nat) by (vm_compute; reflexivity). rewrite E. lia. }
    destruct (nth_error all_formats (N.to_nat n)) as [f|] eqn:E; [|apply nth_error_None in E; lia].
    exists f. assert (K : nth_error (map discriminant all_formats) (N.to_nat n) = Some (discriminant f)) by now apply map_nth_error.
    rewrite numbered in K. rewrite (map_nth_error N.of_nat _ _ (d := N.to_nat n)) in K.
    + injection K as <-. now rewrite Nnat.N2Nat.id.
    + rewrite (nth_error_nth' _ 0%nat) by now rewrite seq_length. now rewrite seq_nth.
  - intros (f & <-). pose proof (discriminant_nth f) as H.
    assert (Hn : (N.to_nat (discriminant f) < List.length all_formats)%nat) by (apply nth_error_Some; congruence).
    assert (E : List.length all_formats = 447%nat) by (vm_compute; reflexivity). lia.
Qed.
Print Assumptions C67_discriminants_are_dense.

(** Equality is identity, and any of the unique texts decides it. *)
Theorem C67_equality : forall f g : FileFormat,
  (eq_format f g = true <-> f = g) /\ (f = g <-> debug f = debug g) /\ (f = g <-> name f = name g) /\
  (f = g <-> display f = display g) /\ clone f = f.
Proof.
  intros f g. split; [|split; [|split; [|split; [|reflexivity]]]].
  - unfold eq_format. rewrite N.eqb_eq. split; [|now intros ->]. intros E.
    pose proof (discriminant_nth f) as H1. rewrite E, discriminant_nth in H1. congruence.
  - split; [now intros ->|]. intros E. destruct (N.lt_trichotomy (discriminant f) (discriminant g)) as [L|[L|L]].
    + apply C67_discriminants_are_alphabetical in L. rewrite E in L. now apply precedes_irrefl in L.
    + pose proof (discriminant_nth f) as H1. rewrite L, discriminant_nth in H1. congruence.
    + apply C67_discriminants_are_alphabetical in L. rewrite E in L. now apply precedes_irrefl in L.
  - split; [now intros ->|apply C40_names_identify_the_format].
  - split; [now intros ->|apply C40_display_is_injective].
Qed.
Print Assumptions C67_equality.
Theorem C67_kind_equality : forall k j : Kind,
  (eq_kind k j = true <-> k = j) /\ (k = j <-> debug_kind k = debug_kind j) /\ clone_kind k = k.
Proof. intros k j. split; [|split; [|reflexivity]]; destruct k, j; cbn; split; intros H; (reflexivity || discriminate). Qed.
Print Assumptions C67_kind_equality.
Theorem C67_kinds_are_alphabetical : forall k j : Kind,
  (kind_discriminant k < kind_discriminant j)%N <-> precedes (debug_kind k) (debug_kind j).
Proof.
  assert (K : forall s t, precedesb s t = false -> ~ precedes s t).
  { induction s as [|c r IH]; intros [|d q]; cbn; try discriminate; try tauto. intros H.
    apply orb_false_elim in H as [H1 H2]. apply N.ltb_ge in H1. intros [H|[-> H]]; [lia|].
    rewrite Ascii.eqb_refl in H2. cbn in H2. now apply (IH q). }
  intros k j. split.
  - intros H. apply precedesb_ok. destruct k, j; (discriminate H || reflexivity).
  - intros H. destruct k, j; try reflexivity; exfalso; revert H; apply K; reflexivity.
Qed.
Print Assumptions C67_kinds_are_alphabetical.

Example C67_witness :
  debug ThreeDimensionalStudioMax = "ThreeDimensionalStudioMax" /\ name ThreeDimensionalStudioMax = "3D Studio Max" /\
  identifier "MPEG-1/2 Audio Layer 3" = "Mpeg12AudioLayer3" /\ identifier "Monkey's Audio" = "MonkeysAudio" /\
  discriminant Abiword = 0%N /\ discriminant Zstandard = 446%N /\ debug_kind KRom = "Rom".
Proof. vm_compute. repeat split. Qed.
