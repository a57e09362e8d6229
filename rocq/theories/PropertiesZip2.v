(** C37: which end record is believed, and what a comment can do.  Statements use SpecZip.v and
    SpecApi.v. *)
From Coq Require Import NArith ZArith Bool String List Lia ZifyBool ZifyNat ZifyN.
From Verif Require Import Base BaseProofs Formats FormatsProofs Signatures IO Readers Lib Mem
  Documented Static ReaderStatic Spec SpecSig SpecText SpecBin SpecZip SpecApi FindProofs
  LibProofs Ideal SigProofs CoreProofs BinProofs Exec ExeProofs MediaProofs ZipProofs Glue Conf PropertiesBin PropertiesZip.
Ltac Zify.zify_post_hook ::= idtac.
Local Open Scope N_scope.

(** An end record somewhere in the last 65557 bytes, the directory anywhere. *)
Lemma zip_last_spec c before disks count size offset len2 rest local entries tail content f max : wf_cfg c ->
  content = before ++ eocd_signature ++ eocd_fields disks count size offset len2 ++ rest ->
  lenN disks = 6 -> count < 2 ^ 16 -> lenN size = 4 -> offset < 2 ^ 32 -> lenN rest < 2 ^ 16 ->
  ~ occurs eocd_signature (eocd_fields disks count size offset len2 ++ rest) -> no_locator before ->
  content = local ++ directory entries ++ tail -> lenN local = offset ->
  Forall wf_entry entries -> lenN entries = N.min 1024 count ->
  addressable c content -> lenN content <= max ->
  zip_class content Zip entries f -> mreader c content max FZip = Done (Ok f).
Proof.
  intros Hc E Hdk Hct Hsz Hof Hcm Hun Hnl E2 Hlo Hwe Hne Had Hmax Hcl.
  destruct (addressable_fits c content Hc Had) as [Hfit Hlen2].
  set (fields := eocd_fields disks count size offset len2) in *.
  change (before ++ eocd_signature ++ fields ++ rest) with (before ++ eocd fields rest) in E.
  assert (Hfl : lenN fields = 18).
  { unfold fields, eocd_fields. rewrite !lenN_app, !lenN_le_bytes, Hdk, Hsz. reflexivity. }
  unfold mreader. cbn [reader_of].
  change (fst (mrun content max (from_zip_reader c) 0)) with (ex content max (from_zip_reader c) 0).
  unfold from_zip_reader. apply ex_end; [exact Hmax|].
  rewrite (find_eocd_spec c content max Hc Hmax Hfit Hlen2 before fields rest _ _ E Hfl Hcm Hun).
  match goal with |- ex _ _ (bindio _ ?k) _ = _ =>
    destruct (locator_spec c content max Hc Hmax Hfit Hlen2 before _ k (lenN content) E Hnl) as (pos' & ->) end.
  assert (Hat : at_ content (lenN before + 10) (le_bytes 2 count ++ size ++ le_bytes 4 offset ++ le_bytes 2 len2 ++ rest)).
  { replace (lenN before + 10) with (lenN (before ++ eocd_signature ++ disks)).
    - apply at_abs. rewrite E. unfold eocd, fields, eocd_fields. now rewrite <- !app_assoc.
    - rewrite !lenN_app, Hdk. change (lenN eocd_signature) with 4. lia. }
  pose proof (proj2 Hat) as Hp. rewrite !lenN_app, !lenN_le_bytes in Hp.
  change (2 ^ 63) with 9223372036854775808 in Hlen2.
  unfold zip_directory. apply ex_bindp_assoc. apply ex_u64_add; [change u64_max1 with 18446744073709551616; lia|].
  apply ex_bind_assoc. apply ex_goto; [lia|].
  apply ex_bind_assoc. eapply (ex_int _ _ le_val 2); [exact Hat|apply lenN_le_bytes|apply le_val_le_bytes; exact Hct|]. intros Hat1.
  apply ex_bind_assoc. eapply ex_skip; [exact Hat1|rewrite Hsz; reflexivity|exact Hmax|]. intros Hat2.
  apply ex_bind_assoc. eapply (ex_int _ _ le_val 4); [exact Hat2|apply lenN_le_bytes|apply le_val_le_bytes; exact Hof|]. intros _.
  apply ex_bind_ok. assert (Hll : lenN local <= lenN content) by (rewrite E2, lenN_app; lia).
  apply ex_goto; [lia|].
  apply (zip_loop_spec c content max Hc Hmax Hfit Hlen2 _ entries tail).
  - exact Hwe.
  - unfold lenN in *. unfold ENTRY_LIMIT. lia.
  - rewrite <- Hlo. apply at_abs. exact E2.
  - rewrite firstn_all2; [exact Hcl|]. unfold lenN in *. unfold ENTRY_LIMIT. lia.
Qed.

(** The last signature in the file is the end record, whatever is in front of it and behind it:
    the directory it points to decides. *)
Theorem C37_last_record_decides : forall (c : cfg) before disks count size offset len2 rest local entries tail content f,
  supported c -> addressable c content -> signed c FZip content ->
  content = before ++ eocd_signature ++ eocd_fields disks count size offset len2 ++ rest ->
  lenN disks = 6 -> count < 2 ^ 16 -> lenN size = 4 -> offset < 2 ^ 32 -> lenN rest < 2 ^ 16 ->
  ~ occurs eocd_signature (eocd_fields disks count size offset len2 ++ rest) -> no_locator before ->
  content = local ++ directory entries ++ tail -> lenN local = offset ->
  Forall wf_entry entries -> lenN entries = N.min 1024 count ->
  zip_class content Zip entries f -> from_bytes c content = Done f.
Proof.
  intros c before disks count size offset len2 rest local entries tail content f Hc Had Hs E H1 H2 H3 H4 H5 H6 H7 E2 H8 H9 H10 Hcl.
  pose proof (addressable_slice c _ Hc Had) as Hl. pose proof (slice_room _ Hl).
  apply (detect_ok c FZip); auto. eapply zip_last_spec; eauto. lia.
Qed.
Print Assumptions C37_last_record_decides.

(** Hence a comment can choose the format: a comment with a directory and an end record of its own.
    [at_] is the offset of the comment in the archive; the byte of padding keeps the offset of the
    directory different from the signature. *)
Definition forged_entry (name : bytes) : zip_entry :=
  mkentry (repeat x00 20) 0 0 (repeat x00 8) 0 name [] (repeat x00 20).
Definition forged_pad (at_ : N) : bytes := if at_ =? 0x06054b50 then [x00] else [].
Definition forged_comment (at_ : N) (name : bytes) : bytes :=
  forged_pad at_ ++ directory [forged_entry name] ++
  eocd (eocd_fields (repeat x00 6) 1 (repeat x00 4) (at_ + lenN (forged_pad at_)) 0) [].

Lemma lenN_repeat {A} (a : A) n : lenN (repeat a n) = N.of_nat n.
Proof. unfold lenN. now rewrite repeat_length. Qed.
Lemma lenN_forged_entry name : lenN (entry_bytes (forged_entry name)) = 66 + lenN name.
Proof.
  unfold forged_entry, entry_bytes. cbn [e_head e_csize e_usize e_attrs e_offset e_name e_extra e_comment].
  rewrite !lenN_app, !lenN_le_bytes, !lenN_repeat. change (@lenN byte []) with 0. lia.
Qed.
Lemma lenN_forged at_ name : lenN (forged_comment at_ name) <= 90 + lenN name.
Proof.
  unfold forged_comment, directory. cbn [flat_map]. rewrite app_nil_r, !lenN_app, lenN_forged_entry.
  assert (H : lenN (forged_pad at_) <= 1) by (unfold forged_pad; destruct (_ =? _); discriminate).
  unfold eocd, eocd_fields. rewrite !lenN_app, !lenN_le_bytes, !lenN_repeat. change (@lenN byte []) with 0.
  change (lenN eocd_signature) with 4. lia.
Qed.
Lemma app_le {A} (a b a' b' : list A) : a ++ b = a' ++ b' -> lenN b' <= lenN b -> exists z, b = z ++ b'.
Proof.
  intros E H. destruct (app_split_prefix a' a b' b) as [[z Hz]|[z Hz]]; [now symmetry| |].
  - subst a'. rewrite <- app_assoc in E. apply app_inv_head in E. exists z. exact E.
  - subst a. rewrite <- app_assoc in E. apply app_inv_head in E. rewrite <- E in H |- *. rewrite lenN_app in H.
    destruct z; [now exists []|]. unfold lenN in H. cbn [List.length] in H. lia.
Qed.
Lemma zeros_end_no_locator a : no_locator (a ++ repeat x00 20).
Proof.
  intros x y E Hy. destruct (app_le _ _ _ _ E) as (z & Ez).
  - rewrite lenN_repeat, lenN_app, Hy. change (lenN locator_signature) with 4. lia.
  - pose proof (f_equal (@lenN byte) Ez) as L. rewrite lenN_repeat, !lenN_app, Hy in L. change (lenN locator_signature) with 4 in L.
    destruct z; [|unfold lenN in L; cbn [List.length] in L; lia]. discriminate Ez.
Qed.
Lemma sig_prefix_eq : forall v pre post, v < 2 ^ 32 -> v <> 101010256 ->
  repeat x00 6 ++ le_bytes 2 1 ++ repeat x00 4 ++ le_bytes 4 v ++ le_bytes 2 0 ++ [] = pre ++ eocd_signature ++ post -> False.
Proof.
  intros v pre post Hv Hne E.
  assert (Hl : List.length (le_bytes 4 v) = 4%nat) by (pose proof (lenN_le_bytes 4 v) as H; unfold lenN in H; lia).
  pose proof (le_val_le_bytes 4 v Hv) as Hval.
  destruct (le_bytes 4 v) as [|b0 [|b1 [|b2 [|b3 [|? ?]]]]]; cbn in Hl; try discriminate Hl.
  cbn in E. unfold eocd_signature in E.
  repeat (destruct pre as [|? pre]; cbn [app] in E;
    [first [discriminate E | (injection E; intros; subst; try discriminate; exfalso; apply Hne; try rewrite <- Hval; reflexivity)]|injection E as <- E]).
  all: destruct pre; discriminate E.
Qed.

(** For every archive and every decisive name: with the forged comment the archive is reported as
    the format of that name, whatever its own entries are. *)
Theorem C37_any_archive_can_be_forged : forall (c : cfg) local entries gap disks size name f at_ comment content,
  supported c -> lenN disks = 6 -> lenN size = 4 -> decisive_name name f -> lenN name < 65000 ->
  at_ = lenN (zip_archive local entries gap disks size []) -> at_ + 1 < 2 ^ 32 ->
  comment = forged_comment at_ name -> content = zip_archive local entries gap disks size comment ->
  addressable c content -> signed c FZip content ->
  lenN comment < 2 ^ 16 /\ from_bytes c content = Done f.
Proof.
  intros c local entries gap disks size name f at_ comment content Hc Hdk Hsz Hf Hn Hat H32 Ecm E Had Hs.
  split.
  { subst comment. pose proof (lenN_forged at_ name). change (2 ^ 16) with 65536. lia. }
  set (archive0 := local ++ directory entries ++ gap ++ eocd_signature ++ eocd_fields disks (lenN entries) size (lenN local) (lenN comment)).
  assert (E0 : content = archive0 ++ comment).
  { rewrite E. unfold zip_archive, archive0, eocd. now rewrite <- !app_assoc. }
  assert (L0 : lenN archive0 = at_).
  { rewrite Hat. unfold zip_archive, archive0, eocd, eocd_fields. rewrite !lenN_app, !lenN_le_bytes.
    change (@lenN byte []) with 0. lia. }
  set (pad := forged_pad at_) in *. set (offset := at_ + lenN pad).
  assert (Hp : lenN pad <= 1) by (unfold pad, forged_pad; destruct (_ =? _); discriminate).
  assert (Ho : offset <> 101010256).
  { unfold offset, pad, forged_pad. destruct (at_ =? 101010256) eqn:Eq; [change (lenN [x00]) with 1|change (@lenN byte []) with 0]; lia. }
  assert (Ed : directory [forged_entry name] = takeN (46 + lenN name) (directory [forged_entry name]) ++ repeat x00 20).
  { unfold directory, entry_bytes, forged_entry. cbn [flat_map e_head e_csize e_usize e_attrs e_offset e_name e_extra e_comment].
    rewrite app_nil_r. rewrite !app_assoc. rewrite app_nil_r. rewrite takeN_app_len; [reflexivity|].
    rewrite !lenN_app, !lenN_le_bytes, !lenN_repeat. cbn. lia. }
  apply (C37_last_record_decides c (archive0 ++ pad ++ directory [forged_entry name]) (repeat x00 6) 1 (repeat x00 4) offset 0 []
           (archive0 ++ pad) [forged_entry name]
           (eocd (eocd_fields (repeat x00 6) 1 (repeat x00 4) offset 0) [])); auto.
  - rewrite E0, Ecm. unfold forged_comment, eocd. fold pad offset. now rewrite <- !app_assoc.
  - reflexivity.
  - unfold offset. lia.
  - reflexivity.
  - rewrite app_nil_r. unfold eocd_fields. intros (pre & post & K). refine (sig_prefix_eq offset pre post _ Ho _); [unfold offset; lia|].
    rewrite <- K. now rewrite app_nil_r.
  - rewrite Ed, !app_assoc. apply zeros_end_no_locator.
  - rewrite E0, Ecm. unfold forged_comment. fold pad offset. now rewrite <- !app_assoc.
  - rewrite lenN_app. unfold offset. lia.
  - constructor; [|constructor]. unfold wf_entry, forged_entry. cbn [e_head e_csize e_usize e_attrs e_offset e_name e_extra e_comment].
    repeat split. change (2 ^ 16) with 65536. lia.
  - apply zip_decisive. exact Hf.
Qed.
Print Assumptions C37_any_archive_can_be_forged.
Example C37_forged : let comment := forged_comment (lenN (archive (local_head ++ bs "some data") docx_entries [])) (bs "canvas.fig") in
  decisive_name (bs "canvas.fig") FigmaDesign /\
  signed cfg_all FZip (archive (local_head ++ bs "some data") docx_entries comment) /\
  from_bytes cfg_all (archive (local_head ++ bs "some data") docx_entries []) = Done OfficeOpenXmlDocument /\
  from_bytes cfg_all (archive (local_head ++ bs "some data") docx_entries comment) = Done FigmaDesign.
Proof.
  cbv zeta. split; [apply first_pass_iff; vm_compute; reflexivity|]. split; [signed_by_computation|].
  split; vm_compute; reflexivity.
Qed.
