(** C03, C46: what depends on the build (overflow checks, width of [usize]). *)
From Coq Require Import NArith ZArith Bool String List Lia ZifyBool ZifyNat ZifyN.
From Verif Require Import Base BaseProofs Formats FormatsProofs Signatures IO Readers Lib Documented
  Spec SpecSig SpecText SpecApi LibProofs Static Mem Ideal SigProofs CoreProofs Glue Conf Checked Width PropertiesApi PropertiesApi2.
Import ListNotations.
Local Open Scope N_scope.
Ltac Zify.zify_post_hook ::= idtac.

Definition with_checks (b : bool) (c : cfg) : cfg := mkcfg (feat c) b (usize_bits c).

Lemma ref_run_reader (c c' : plat) fuel x d : usize_bits c = usize_bits c' -> ovf c = true ->
  fst (run_reader c fuel x d) = Panicked \/ run_reader c' fuel x d = run_reader c fuel x d.
Proof.
  intros Hu Ho. pose proof (ref_reader c c' Hu Ho fuel x) as H. unfold run_reader.
  destruct (buffered x).
  - unfold run_buf. destruct (refp_run buf_machine _ _ H (mkbdev d [])) as [E|E].
    + left. destruct (run buf_machine (reader_of c fuel x) (mkbdev d [])) as [r s]. exact E.
    + right. now rewrite E.
  - unfold run_raw. exact (refp_run raw_machine _ _ H d).
Qed.

Lemma checks_generic (c : cfg) d : ovf c = true ->
  from_generic_reader (with_checks false c) d = from_generic_reader c d.
Proof. reflexivity. Qed.

Lemma checks_reader (c : cfg) d : ovf c = true ->
  fst (from_reader c d) = Panicked \/ from_reader (with_checks false c) d = from_reader c d.
Proof.
  intros Ho. unfold from_reader.
  destruct (dev_read window d) as [[[|b buf]|e] d1]; auto.
  destruct (from_signature (b :: buf)) as [f|]; auto.
  rewrite !from_fmt_reader_eq. destruct (feature_of f) as [x|]; [|auto].
  change (feat (with_checks false c) x) with (feat c x). destruct (feat c x); [|auto].
  pose proof (ref_run_reader c (with_checks false c) (S (List.length (d_content d))) x d1 eq_refl Ho) as H.
  unfold run_reader in H. cbv zeta. destruct H as [H|H].
  - left. destruct (if buffered x then _ else _) as [r d2]. cbn in H. now subst r.
  - right. rewrite H. reflexivity.
Qed.

(** Overflow checks only ever turn a result into a panic: where the debug build answers, the release
    build gives the same answer, for every reader. *)
Theorem C03_debug_agrees_with_release : forall (c : cfg) d r, ovf c = true ->
  fst (from_reader c d) = Done r -> fst (from_reader (with_checks false c) d) = Done r.
Proof.
  intros c d r Ho H. destruct (checks_reader c d Ho) as [E|E]; [rewrite H in E; discriminate|now rewrite E].
Qed.
Print Assumptions C03_debug_agrees_with_release.
Corollary C03_debug_bytes_agree : forall (c : cfg) l f, ovf c = true ->
  from_bytes c l = Done f -> from_bytes (with_checks false c) l = Done f.
Proof.
  intros c l f Ho H. unfold from_bytes in *. destruct (checks_reader c (cursor l) Ho) as [E|E].
  - rewrite E in H. discriminate.
  - rewrite E. exact H.
Qed.
Print Assumptions C03_debug_bytes_agree.
Example C03_debug_witness : from_bytes (mkcfg (fun _ => true) true 64) (bs "MZ") = Done PlainText.
Proof. vm_compute. reflexivity. Qed.

(** ** C46 *)
Definition with_width (w : N) (c : cfg) : cfg := mkcfg (feat c) (ovf c) w.
(** The width of [usize] matters at most for EBML and ZIP files ... *)
Theorem C46_width_is_irrelevant : forall (c : cfg) l, rust_slice l ->
  (forall x, signed c x l -> x <> FEbml /\ x <> FZip) ->
  from_bytes (with_width 32 c) l = from_bytes (with_width 64 c) l.
Proof.
  intros c l Hl Hx.
  assert (H32 : supported (with_width 32 c)) by now left.
  assert (H64 : supported (with_width 64 c)) by now right.
  rewrite !from_bytes_ideal by auto using rust_u64. unfold ideal_detect.
  destruct (takeN window l) as [|b t] eqn:E; [reflexivity|]. rewrite <- E. clear b t E.
  rewrite from_signature_window. destruct (from_signature l) as [f|] eqn:Ef; [|reflexivity].
  destruct (feature_of f) as [x|] eqn:Ex; [|reflexivity].
  change (feat (with_width 32 c) x) with (feat c x). change (feat (with_width 64 c) x) with (feat c x).
  destruct (feat c x) eqn:Hf; [|reflexivity].
  apply feature_of_some in Ex as [-> Ht]. apply from_signature_some in Ef.
  destruct (Hx x) as [N1 N2]; [split; [exact Hf|]; now split|].
  rewrite (rw_mreader (with_width 64 c) (with_width 32 c) (or_intror eq_refl) (or_introl eq_refl) eq_refl l _ x N1 N2).
  reflexivity.
Qed.
Print Assumptions C46_width_is_irrelevant.

(** ... where it does: an EBML document type with a size of 2^32+2 bytes, and a ZIP64 archive that
    announces 2^32 entries. *)
Definition ebml_wide : bytes :=
  [x1a; x45; xdf; xa3; x80; x42; x82; x01; x00; x00; x01; x00; x00; x00; x02] ++ bs "webmwebm".
Definition zip64_wide : bytes :=
  [x50; x4b; x03; x04]
  ++ [x50; x4b; x01; x02] ++ zeros 24 ++ [x06; x00] ++ zeros 16 ++ bs "word/x"
  ++ [x50; x4b; x06; x06] ++ zeros 28 ++ [x00; x00; x00; x00; x01; x00; x00; x00] ++ zeros 8 ++ [x04] ++ zeros 7
  ++ [x50; x4b; x06; x07] ++ zeros 4 ++ [x38] ++ zeros 7 ++ zeros 4
  ++ [x50; x4b; x05; x06] ++ zeros 18.
Theorem C46_ebml_refuted : exists l, rust_slice l /\
  from_bytes (with_width 64 cfg_all) l = Done Webm /\
  from_bytes (with_width 32 cfg_all) l = Done ExtensibleBinaryMetaLanguage.
Proof. exists ebml_wide. split; [reflexivity|]. split; vm_compute; reflexivity. Qed.
Print Assumptions C46_ebml_refuted.
Theorem C46_zip_refuted : exists l, rust_slice l /\
  from_bytes (with_width 64 cfg_all) l = Done OfficeOpenXmlDocument /\
  from_bytes (with_width 32 cfg_all) l = Done Zip.
Proof. exists zip64_wide. split; [reflexivity|]. split; vm_compute; reflexivity. Qed.
Print Assumptions C46_zip_refuted.
Example C46_witness : forall x, signed cfg_all x (bs "MZ") -> x <> FEbml /\ x <> FZip.
Proof.
  intros x (_ & _ & H). apply from_signature_some in H. vm_compute in H.
  injection H as H. destruct x; try discriminate H. split; discriminate.
Qed.
