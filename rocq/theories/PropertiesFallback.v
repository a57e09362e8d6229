(** C11: what happens when the container reader gives up. *)
From Coq Require Import NArith ZArith Bool String List Lia ZifyBool ZifyNat ZifyN.
From Verif Require Import Base BaseProofs Formats FormatsProofs Signatures IO Readers Lib Documented
  Spec SpecSig SpecText SpecApi LibProofs Static Mem Ideal SigProofs CoreProofs BinProofs Exec Glue Conf ReaderStatic.
Import ListNotations.
Local Open Scope N_scope.
Ltac Zify.zify_post_hook ::= idtac.

(** Running the reader of a feature alone, on a cursor over the data (readers.rs 5-37). *)
Definition reader_alone (c : plat) (x : feature) (l : bytes) : exec (result FileFormat) :=
  fst (run_reader c (S (List.length l)) x (cursor l)).

Lemma reader_alone_ideal (c : plat) x l : supported c -> rust_slice l ->
  reader_alone c x l = mreader c l (u64_max1 - 1) x.
Proof.
  intros Hc Hl. unfold reader_alone.
  destruct (run_reader_ideal c l (u64_max1 - 1) x (cursor l) Hc) as (d' & E2 & _); [reflexivity| |right; reflexivity|now rewrite E2].
  pose proof (rust_u64 l Hl) as Hu. unfold u64_max1 in *.
  split; [constructor; cbn [cursor d_content d_max d_reads d_seeks]; auto|cbn [cursor d_pos]]; unfold u64_max1; lia.
Qed.

(** The answer of the container reader is final when it has one, and when it fails the result is the
    one for data without a known signature. *)
Theorem C11_reader_decides : forall (c : cfg) x l, supported c -> rust_slice l -> signed c x l ->
  (forall g, reader_alone c x l = Done (Ok g) -> from_bytes c l = Done g) /\
  (forall e f, reader_alone c x l = Done (Err e) -> (from_bytes c l = Done f <-> generic_result c l f)).
Proof.
  intros c x l Hc Hl Hs. rewrite reader_alone_ideal by auto. split.
  - intros g Hg. now apply (detect_ok c x).
  - intros e f He. destruct (detect_gives c x l None Hc Hl Hs) as (g & E & D); [exists e; exact He|].
    rewrite E. split; [intros [= <-]; exact D|]. intros Hf. f_equal. exact (generic_result_fun c l _ _ D Hf).
Qed.
Print Assumptions C11_reader_decides.

(** The number of bytes below which a container of each kind is unparsable. *)
Definition smallest (x : feature) : N :=
  match x with
  | FAsf => 28 | FCfb => 608 | FEbml => 5 | FExe => 64 | FId3v2 => 10 | FRm => 18 | FZip => 22
  | FMp4 | FPdf | FSqlite3 | FTxt | FXml => 0
  end.

Lemma ebml_entry :
  forallb (fun e : sig_entry => if feqb (fst e) ExtensibleBinaryMetaLanguage
     then match snd e with [[(0, v)]] => beqb v [x1a; x45; xdf; xa3] | _ => false end else true) signatures = true.
Proof. vm_compute. reflexivity. Qed.
Lemma ebml_prefix l : first_match signatures l ExtensibleBinaryMetaLanguage ->
  exists post, l = [x1a; x45; xdf; xa3] ++ post.
Proof.
  intros (before & alts & after & E & (alt & Hin & Ha) & _).
  pose proof ebml_entry as K. rewrite forallb_forall in K.
  specialize (K (ExtensibleBinaryMetaLanguage, alts)). rewrite E in K. specialize (K ltac:(apply in_elt)).
  cbn [fst snd] in K. rewrite feqb_refl in K.
  destruct alts as [|[|[[|p] v] [|]] [|]]; try discriminate K. apply beqb_eq in K. subst v.
  destruct Hin as [<-|[]]. destruct (Ha 0 _ ltac:(now left)) as (pre & post & -> & Hp).
  destruct pre; [|unfold lenN in Hp; cbn in Hp; lia]. now exists post.
Qed.

Lemma truncated_fails (c : plat) x l : supported c -> rust_slice l -> l <> [] ->
  first_match signatures l (container x) -> lenN l < smallest x ->
  exists e, mreader c l (u64_max1 - 1) x = Done (Err e).
Proof.
  intros Hc Hl Hne Hs Hlen. exists EUnexpectedEof. pose proof (isize_max_ge c Hc) as Hi.
  assert (Hu : lenN l < 608) by (destruct x; cbn in Hlen; lia).
  assert (Hm : forall n, n < 36870 -> n <= u64_max1 - 1) by (intros n Hn; change (u64_max1 - 1) with 18446744073709551615; lia).
  unfold mreader. set (fuel := S (List.length l)).
  change (ex l (u64_max1 - 1) (reader_of c fuel x) 0 = Done (Err EUnexpectedEof)).
  destruct x; cbn [reader_of smallest] in *; try lia.
  - unfold from_asf_reader. apply ex_goto; [apply Hm; lia|]. apply ex_int_eof. apply eof_at; lia.
  - unfold from_cfb_reader. apply ex_goto; [apply Hm; lia|].
    destruct (N.le_gt_cases 28 (lenN l)) as [H|H]; [|apply ex_int_eof, eof_at; lia].
    apply exs_int; [lia|]. cbv zeta. set (v := le_val _).
    apply (ex_seek _ _ (FromCurrent 20) 48); [reflexivity|apply Hm; lia|].
    destruct (N.le_gt_cases 52 (lenN l)) as [H2|H2]; [|apply ex_int_eof, eof_at; lia].
    apply exs_int; [lia|]. set (w := le_val _).
    assert (Hw : w < 2 ^ 32) by (unfold w; eapply N.lt_le_trans; [apply le_val_lt|]; rewrite (proj2 (at_slice l 48 4 H2)); vm_compute; discriminate).
    change (2 ^ 32) with 4294967296 in Hw.
    assert (Hd : 512 <= (if v =? 3 then 512 else 4096) <= 4096) by (destruct (v =? 3); lia).
    set (dd := if v =? 3 then 512 else 4096) in *.
    apply ex_goto; [change (u64_max1 - 1) with 18446744073709551615; nia|].
    apply ex_guid_eof; [exact Hc|]. apply eof_at; nia.
  - destruct (ebml_prefix l Hs) as (post & ->). destruct post as [|b post]; [|exfalso; unfold lenN in Hlen; rewrite app_length in Hlen; cbn [List.length] in Hlen; lia].
    vm_compute. reflexivity.
  - unfold from_exe_reader. apply ex_end; [apply Hm; lia|]. apply ex_goto; [apply Hm; lia|].
    apply ex_int_eof, eof_at; lia.
  - unfold from_id3v2_reader. unfold fuel. cbn [id3v2_loop]. apply ex_bind_assoc. apply ex_goto; [apply Hm; lia|].
    apply ex_bind_assoc. apply ex_bytes_eof; [lia|]. apply eof_at; lia.
  - unfold from_rm_reader. apply ex_goto; [apply Hm; lia|]. apply ex_int_eof, eof_at; lia.
  - unfold from_zip_reader. apply ex_end; [apply Hm; lia|].
    unfold zip_find_eocd. apply ex_bind_assoc. cbv zeta. apply ex_goto; [apply Hm; unfold sat_sub; cbn; lia|].
    apply ex_bind_assoc.
    assert (Eu : as_usize c (lenN l) = lenN l).
    { unfold as_usize. apply N.mod_small. destruct Hc as [->| ->]; [change (2 ^ 32) with 4294967296|change (2 ^ 64) with 18446744073709551616]; lia. }
    rewrite Eu. change EOCD_MIN_SIZE with 22. change EOCD_MAX_SIZE with 65557.
    apply ex_bytes_eof; [lia|]. apply eof_at; lia.
Qed.
(** A container cut before the first field its reader needs is reported as the generic result: plain
    text when it reads as text, arbitrary binary data otherwise, and never as the container. *)
Theorem C11_truncated_is_generic : forall (c : cfg) x l f, supported c -> rust_slice l -> signed c x l ->
  lenN l < smallest x -> (from_bytes c l = Done f <-> generic_result c l f).
Proof.
  intros c x l f Hc Hl Hs Hlen. assert (Hs' := Hs). destruct Hs' as (Hf & Hx & Hm).
  destruct (truncated_fails c x l Hc Hl (first_match_nonempty _ _ Hm) Hm Hlen) as (e & He).
  apply (C11_reader_decides c x l Hc Hl Hs) with (e := e). now rewrite reader_alone_ideal.
Qed.
Print Assumptions C11_truncated_is_generic.

Example C11_truncated_exe : signed cfg_all FExe (bs "MZ .. not sixty-four bytes") /\
  from_bytes cfg_all (bs "MZ .. not sixty-four bytes") = Done PlainText.
Proof.
  split; [|vm_compute; reflexivity]. split; [reflexivity|]. split; [discriminate|].
  apply from_signature_some. vm_compute. reflexivity.
Qed.
Example C11_truncated_zip : signed cfg_all FZip [x50; x4b; x03; x04] /\
  from_bytes cfg_all [x50; x4b; x03; x04] = Done ArbitraryBinaryData.
Proof.
  split; [|vm_compute; reflexivity]. split; [reflexivity|]. split; [discriminate|].
  apply from_signature_some. vm_compute. reflexivity.
Qed.
