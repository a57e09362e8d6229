(** C47, ZIP: the reader computes the walk of SpecWalk.v on every content. *)
From Coq Require Import NArith ZArith Bool String List Lia ZifyBool ZifyNat ZifyN.
From Verif Require Import Base BaseProofs Formats FormatsProofs IO Find FindProofs Utf8 Readers Mem LibProofs Ideal
  Spec SpecText SpecBin SpecZip BinProofs Exec ExeProofs Static ReaderStatic ZipProofs SpecWalk WalkProofs WalkEbml.
Ltac Zify.zify_post_hook ::= idtac.
Local Open Scope N_scope.

Lemma media_class_fun data f g : media_class data f -> media_class data g -> f = g.
Proof. intros H1 H2. apply media_class_result in H1, H2. congruence. Qed.
Lemma mimetype_not_decisive f : ~ decisive_name (bs "mimetype") f.
Proof. intros H. apply first_pass_iff in H. vm_compute in H. discriminate H. Qed.

Section Fun.
Variables (l : bytes) (limit : N).
Lemma entries_walk_fun : forall n pos d r r', entries_walk l limit n pos d r -> entries_walk l limit n pos d r' -> r = r'.
Proof.
  intros n pos d r r' H. revert r'.
  induction H; intros r' H'; inversion H'; subst; try reflexivity; try lia;
    try (exfalso; match goal with
      | K : forall f, ~ decisive_name _ f, K' : decisive_name _ _ |- _ => exact (K _ K')
      | K : ~ (_ /\ _), K1 : name_at _ _ = _, K2 : stored_at _ _ |- _ => exact (K (conj K1 K2))
      | K : name_at _ _ = bs "mimetype", K' : decisive_name _ _ |- _ => rewrite K in K'; exact (mimetype_not_decisive _ K')
      end; fail).
  all: try (f_equal; eapply names_disjoint; eassumption).
  all: try (f_equal; eapply media_class_fun; eassumption).
  all: try (exfalso; lia).
  all: auto.
Qed.
Lemma last_eocd_fun a b : last_eocd l a -> last_eocd l b -> a = b.
Proof.
  intros (A1 & A2 & A3) (B1 & B2 & B3). destruct (N.lt_trichotomy a b) as [H|[H|H]]; [|exact H|].
  - exfalso. exact (A3 b H B2).
  - exfalso. exact (B3 a H A2).
Qed.
Lemma zip_walk_fun bits r r' : zip_walk l limit bits r -> zip_walk l limit bits r' -> r = r'.
Proof.
  intros H H'; destruct H; inversion H'; subst; try reflexivity; try lia;
  repeat match goal with
    | K : last_eocd l ?a, K' : last_eocd l ?b |- _ =>
        first [is_evar a|assert (a = b) by (eapply last_eocd_fun; eassumption); subst b; clear K']
    end; try reflexivity; try lia; try contradiction;
  try (exfalso; match goal with K : no_eocd l, K' : last_eocd l _ |- _ =>
      destruct K' as (K1 & K2 & _); exact (K _ K1 K2) end);
  eapply entries_walk_fun; eassumption.
Qed.
End Fun.

Section Zip.
Variables (c : plat) (content : bytes) (max : N).
Hypothesis Hc : wf_cfg c.
Hypothesis Hov : ovf c = false \/ zip_tame content.
Hypothesis Hlen : lenN content <= max.
Hypothesis Hmax : max < u64_max1.
Hypothesis Hlen2 : lenN content < 2 ^ (usize_bits c - 1).

(** What the reader does: the result of the walk, or, where usize has 32 bits, a panic. *)
Definition zout (p : exec (result FileFormat)) (r : option FileFormat) : Prop :=
  gives p r \/ (usize_bits c = 32 /\ p = Panicked).

Lemma isize_len : lenN content <= isize_max c.
Proof. unfold isize_max. lia. Qed.
Lemma isize_low : 2147483647 <= isize_max c <= 9223372036854775807.
Proof. unfold isize_max. destruct Hc as [-> | ->]; [change (2 ^ (32 - 1)) with 2147483648|change (2 ^ (64 - 1)) with 9223372036854775808]; lia. Qed.
Lemma usize_small n : n < 2 ^ 32 -> as_usize c n = n.
Proof. intros H. unfold as_usize. apply N.mod_small. destruct Hc as [-> | ->]; [exact H|]. change (2 ^ 32) with 4294967296 in H. change (2 ^ 64) with 18446744073709551616. lia. Qed.
Lemma usize_len n : n <= lenN content -> as_usize c n = n.
Proof.
  intros H. unfold as_usize. apply N.mod_small. destruct Hc as [E|E]; rewrite E in *.
  - change (2 ^ (32 - 1)) with 2147483648 in Hlen2. change (2 ^ 32) with 4294967296. lia.
  - change (2 ^ (64 - 1)) with 9223372036854775808 in Hlen2. change (2 ^ 64) with 18446744073709551616. lia.
Qed.
Lemma len63 : lenN content < 9223372036854775808.
Proof. pose proof isize_len. pose proof isize_low. lia. Qed.
Lemma isize_32 n : isize_max c < n -> n < 4294967296 -> usize_bits c = 32.
Proof. unfold isize_max. destruct Hc as [E|E]; rewrite E; [reflexivity|]. change (2 ^ (64 - 1)) with 9223372036854775808. lia. Qed.
Lemma ex_string_panic {B} n pos (k : ustr -> io B) : isize_max c < n -> ex content max (bindio (read_string c n) k) pos = Panicked.
Proof.
  intros H. unfold read_string. apply ex_bind_assoc. unfold ex, mrun. rewrite run_bindio. unfold read_bytes, alloc.
  replace (isize_max c <? n) with true by lia. reflexivity.
Qed.

Lemma exs_string {B} n pos (k : ustr -> io B) X : n <= isize_max c -> (n = 0 \/ pos + n <= lenN content) ->
  ex content max (k (utf8_lossy (slice pos n content))) (pos + n) = X ->
  ex content max (bindio (read_string c n) k) pos = X.
Proof.
  intros Hi H HX. unfold read_string. apply ex_bind_assoc. 
  destruct (N.eq_dec n 0) as [->|Hn].
  - apply ex_bytes_zero; [lia|]. apply ex_bind_ok. unfold slice in HX. rewrite takeN_0, N.add_0_r in HX. exact HX.
  - destruct H as [H|H]; [contradiction|]. apply exs_bytes; [exact Hi|exact H|]. apply ex_bind_ok. exact HX.
Qed.
Lemma ex_string_eof {B} n pos (k : ustr -> io B) : n <= isize_max c -> n <> 0 -> lenN content < pos + n ->
  ex content max (bindio (read_string c n) k) pos = Done (Err EUnexpectedEof).
Proof.
  intros Hi Hn H. unfold read_string. apply ex_bind_assoc. apply ex_bytes_eof; [exact Hi|]. apply eof_at; lia.
Qed.

Lemma mimetype_walk (pos p0 : N) (n : nat) (d : FileFormat) :
  pos + 46 + name_len_at content pos <= lenN content ->
  name_at content pos = bs "mimetype" -> stored_at content pos ->
  exists r, entries_walk content max (S n) pos d r /\
    zout (ex content max (Readers.zip_mimetype c (local_at content pos) (data_len content pos)) p0) r.
Proof.
  intros Hfit Hname Hst. pose proof isize_low as Hi. pose proof isize_len as Hil. pose proof len63 as Hl63.
  pose proof (slice_bound (pos + 42) 4 content) as Hl. fold (local_at content pos) in Hl.
  pose proof (slice_bound (pos + 20) 4 content) as Hd. fold (data_len content pos) in Hd.
  change (256 ^ 4) with 4294967296 in Hl, Hd.
  set (lo := local_at content pos) in *. set (dl := data_len content pos) in *.
  assert (Hstart : forall X, ex content max
      (let! filename_len := read_u16_le in
       let! extra_field_len := read_u16_le in
       let! _ := seek (FromCurrent (Z.of_N filename_len + Z.of_N extra_field_len)) in
       let! data := read_string c (as_usize c dl) in
       ok (zip_mime_result data)) (lo + 26) = X -> lo + 26 <= max -> ex content max (Readers.zip_mimetype c lo dl) p0 = X).
  { intros X HX Hm. unfold Readers.zip_mimetype.
    apply ex_u64_add; [change u64_max1 with 18446744073709551616; lia|]. apply ex_goto; [exact Hm|]. exact HX. }
  destruct (N.le_gt_cases (lo + 30) (lenN content)) as [H30|H30].
  2:{ exists None. split; [apply ew_mimetype_cut; auto|].
      destruct (N.le_gt_cases (lo + 26) max) as [Hm|Hm].
      - left. exists EUnexpectedEof. apply Hstart; [|exact Hm].
        destruct (N.le_gt_cases (lo + 28) (lenN content)).
        + apply (exs_int _ _ le_val 2); [lia|]. apply ex_int_eof. apply eof_at; lia.
        + apply ex_int_eof. apply eof_at; lia.
      - left. exists EInvalidInput. unfold Readers.zip_mimetype.
        apply ex_u64_add; [change u64_max1 with 18446744073709551616; lia|]. apply ex_seek_bad. cbn. lia. }
  specialize (fun X HX => Hstart X HX ltac:(lia)).
  assert (Hda : data_at content pos = lo + 30 + le_val (slice (lo + 26) 2 content) + le_val (slice (lo + 28) 2 content)) by reflexivity.
  set (da := data_at content pos) in *.
  assert (Hstart2 : forall X, ex content max
      (let! _ := seek (FromCurrent (Z.of_N (le_val (slice (lo + 26) 2 content)) + Z.of_N (le_val (slice (lo + 28) 2 content)))) in
       let! data := read_string c dl in
       ok (zip_mime_result data)) (lo + 30) = X -> ex content max (Readers.zip_mimetype c lo dl) p0 = X).
  { intros X HX. apply Hstart. apply (exs_int _ _ le_val 2); [lia|]. apply (exs_int _ _ le_val 2); [lia|].
    replace (lo + 26 + 2) with (lo + 28) by lia. replace (lo + 28 + 2) with (lo + 30) by lia.
    rewrite usize_small by (change (2 ^ 32) with 4294967296; lia). exact HX. }
  clear Hstart.
  destruct (N.le_gt_cases da max) as [Hm|Hm].
  2:{ exists None. split.
      - apply ew_mimetype_cut; auto. right. destruct (N.eq_dec dl 0); [left; auto|right]. split; [assumption|]. fold da dl. lia.
      - left. exists EInvalidInput. apply Hstart2. apply ex_seek_bad. cbn. lia. }
  destruct (N.le_gt_cases dl (isize_max c)) as [Hdi|Hdi].
  2:{ exists None. split.
      - apply ew_mimetype_cut; auto. right. right. fold dl da. split; lia.
      - right. split; [apply (isize_32 dl); [exact Hdi|lia]|]. apply Hstart2.
        apply (ex_seek _ _ _ da); [cbn; lia|exact Hm|]. apply ex_string_panic. exact Hdi. }
  assert (Hok : dl = 0 \/ da + dl <= lenN content -> exists r, entries_walk content max (S n) pos d r /\
    zout (ex content max (Readers.zip_mimetype c lo dl) p0) r).
  { intros Hdat. exists (Some (zip_mime_result (utf8_lossy (slice da dl content)))). split.
    - apply ew_mimetype; auto.
      + intros K. fold dl da in K |- *. destruct Hdat; [contradiction|assumption].
      + apply media_class_result. reflexivity.
    - left. apply Hstart2. apply (ex_seek _ _ _ da); [cbn; lia|exact Hm|].
      apply exs_string; [lia|exact Hdat|]. reflexivity. }
  destruct (N.eq_dec dl 0) as [H0|H0]; [auto|].
  destruct (N.le_gt_cases (da + dl) (lenN content)) as [Hin|Hin]; [auto|].
  exists None. split.
  - apply ew_mimetype_cut; auto.
  - left. exists EUnexpectedEof. apply Hstart2. apply (ex_seek _ _ _ da); [cbn; lia|exact Hm|].
    apply ex_string_eof; [lia|exact H0|exact Hin].
Qed.

Lemma entries_walk_spec : forall n pos d, pos <= max ->
  exists r, entries_walk content max n pos d r /\ zout (ex content max (zip_entries c n d) pos) r.
Proof.
  pose proof isize_low as Hi. pose proof isize_len as Hil. pose proof len63 as Hl63.
  induction n as [|n IH]; intros pos d Hpm.
  { exists (Some d). split; [constructor|left; reflexivity]. }
  pose proof (slice_bound (pos + 28) 2 content) as Hnl. fold (name_len_at content pos) in Hnl.
  change (256 ^ 2) with 65536 in Hnl. set (nl := name_len_at content pos) in *.
  destruct (N.le_gt_cases (pos + 46 + nl) (lenN content)) as [Hfit|Hcut].
  2:{ exists None. split; [now apply ew_cut|]. cbn [zip_entries].
      assert (Hread : gives (ex content max (zip_entries c (S n) d) pos) None \/ pos + 46 <= lenN content).
      { destruct (N.le_gt_cases (pos + 46) (lenN content)) as [|H46]; [now right|left]. cbn [zip_entries].
        apply (g_skip _ _ 20); [reflexivity|reflexivity|]. intros _.
        change (@None FileFormat) with (@None FileFormat).
        assert (Hh : forall m off (r : option FileFormat), lenN content < off + m -> 0 < m -> have content off m r = None).
        { intros m off r Hlt Hm. unfold have. replace (m =? 0) with false by lia. replace (off + m <=? lenN content) with false by lia. reflexivity. }
        assert (Hn : forall m off, @have content FileFormat off m None = None).
        { intros m off. unfold have. now destruct (_ || _). }
        rewrite <- (Hn 4 (pos + 20)). apply (g_int _ _ le_val 4); [lia|]. intros _.
        rewrite <- (Hn 4 (pos + 20 + 4)). apply (g_int _ _ le_val 4); [lia|]. intros _.
        rewrite <- (Hn 2 (pos + 20 + 4 + 4)). apply (g_int _ _ le_val 2); [lia|]. intros _.
        rewrite <- (Hn 2 (pos + 20 + 4 + 4 + 2)). apply (g_int _ _ le_val 2); [lia|]. intros _.
        rewrite <- (Hn 2 (pos + 20 + 4 + 4 + 2 + 2)). apply (g_int _ _ le_val 2); [lia|]. intros _.
        apply (g_skip _ _ 8); [reflexivity|reflexivity|]. intros _.
        rewrite <- (Hh 4 (pos + 20 + 4 + 4 + 2 + 2 + 2 + 8) None) by lia.
        apply (g_int _ _ le_val 4); [lia|]. intros. lia. }
      destruct Hread as [Hread|H46]; [left; exact Hread|].
      assert (Hnz : nl <> 0) by lia.
      left. exists EUnexpectedEof.
      apply (ex_seek _ _ _ (pos + 20)); [cbn; lia|lia|].
      apply (exs_int _ _ le_val 4); [lia|]. apply (exs_int _ _ le_val 4); [lia|]. apply (exs_int _ _ le_val 2); [lia|].
      apply (exs_int _ _ le_val 2); [lia|]. apply (exs_int _ _ le_val 2); [lia|].
      apply (ex_seek _ _ _ (pos + 42)); [cbn; lia|lia|]. apply (exs_int _ _ le_val 4); [lia|].
      replace (pos + 20 + 4 + 4) with (pos + 28) by lia. fold (name_len_at content pos). fold nl.
      apply ex_string_eof; [lia|exact Hnz|lia]. }
  set (name := name_at content pos).
  assert (Hstart : forall X, ex content max
    (let next fmt' :=
        let! _ := seek (FromCurrent (Z.of_N (le_val (slice (pos + 30) 2 content)) + Z.of_N (le_val (slice (pos + 32) 2 content)))) in
        zip_entries c n fmt' in
      match first_pass name decisive_names with
      | Some f => ok f
      | None => if beqb name manifest_name then next JavaArchive
                else if beqb name mimetype_name && (le_val (slice (pos + 20) 4 content) =? le_val (slice (pos + 24) 4 content))
                then Readers.zip_mimetype c (local_at content pos) (data_len content pos)
                else next d
      end) (pos + 46 + nl) = X -> ex content max (zip_entries c (S n) d) pos = X).
  { intros X HX. cbn [zip_entries].
    apply (ex_seek _ _ _ (pos + 20)); [cbn; lia|lia|].
    apply (exs_int _ _ le_val 4); [lia|]. apply (exs_int _ _ le_val 4); [lia|]. apply (exs_int _ _ le_val 2); [lia|].
    apply (exs_int _ _ le_val 2); [lia|]. apply (exs_int _ _ le_val 2); [lia|].
    apply (ex_seek _ _ _ (pos + 42)); [cbn; lia|lia|]. apply (exs_int _ _ le_val 4); [lia|].
    replace (pos + 20 + 4 + 4) with (pos + 28) by lia. replace (pos + 28 + 2 + 2) with (pos + 32) by lia.
    replace (pos + 28 + 2) with (pos + 30) by lia. replace (pos + 20 + 4) with (pos + 24) by lia.
    replace (pos + 42 + 4) with (pos + 46) by lia.
    fold (name_len_at content pos). fold nl.
    apply exs_string; [lia|right; lia|]. fold nl.
    change (slice (pos + 46) nl content) with name.
    cbn zeta. rewrite step_eq. fold (local_at content pos). fold (data_len content pos). exact HX. }
  pose proof (slice_bound (pos + 30) 2 content) as H1. pose proof (slice_bound (pos + 32) 2 content) as H2.
  change (256 ^ 2) with 65536 in H1, H2.
  assert (Hnx : next_entry content pos = pos + 46 + nl + le_val (slice (pos + 30) 2 content) + le_val (slice (pos + 32) 2 content)) by reflexivity.
  assert (Hgo : (forall f, ~ decisive_name name f) -> ~ (name = bs "mimetype" /\ stored_at content pos) ->
    exists r, entries_walk content max (S n) pos d r /\ zout (ex content max
     (let! _ := seek (FromCurrent (Z.of_N (le_val (slice (pos + 30) 2 content)) + Z.of_N (le_val (slice (pos + 32) 2 content)))) in
        zip_entries c n (if beqb name (bs "META-INF/MANIFEST.MF") then JavaArchive else d)) (pos + 46 + nl)) r).
  { intros Hnd Hns. destruct (N.le_gt_cases (next_entry content pos) max) as [Hle|Hgt].
    - destruct (IH (next_entry content pos) (if beqb name (bs "META-INF/MANIFEST.MF") then JavaArchive else d) Hle) as (r & Hr & Hg).
      exists r. split; [now apply ew_skip|].
      erewrite (ex_seek _ _ _ (next_entry content pos)); [exact Hg|cbn; lia|exact Hle|reflexivity].
    - exists None. split; [now apply ew_far|]. left. exists EInvalidInput. apply ex_seek_bad. cbn. lia. }
  destruct (first_pass name decisive_names) as [f|] eqn:Ef.
  { exists (Some f). split; [apply ew_decisive; [exact Hfit|now apply first_pass_iff]|].
    left. apply Hstart. reflexivity. }
  assert (Hnd : forall f, ~ decisive_name name f).
  { intros f K. apply first_pass_iff in K. congruence. }
  assert (Hg : forall p r, ex content max (zip_entries c (S n) d) pos = p -> zout p r -> zout (ex content max (zip_entries c (S n) d) pos) r).
  { intros p r -> H. exact H. }
  destruct (beqb name manifest_name) eqn:Em.
  { destruct Hgo as (r & Hr & Hgr); [exact Hnd| |].
    - apply beqb_eq in Em. intros [K _]. rewrite Em in K. discriminate K.
    - exists r. split; [exact Hr|]. eapply Hg; [apply Hstart; reflexivity|]. cbn zeta.
      change (bs "META-INF/MANIFEST.MF") with manifest_name in Hgr. rewrite Em in Hgr. exact Hgr. }
  destruct (beqb name mimetype_name && (le_val (slice (pos + 20) 4 content) =? le_val (slice (pos + 24) 4 content))) eqn:Es.
  - apply andb_prop in Es as [E1 E2]. apply beqb_eq in E1.
    destruct (mimetype_walk pos (pos + 46 + nl) n d Hfit E1 ltac:(apply N.eqb_eq; exact E2)) as (r & Hr & Hgr).
    exists r. split; [exact Hr|]. eapply Hg; [apply Hstart; reflexivity|]. exact Hgr.
  - destruct Hgo as (r & Hr & Hgr); [exact Hnd| |].
    + intros [K1 K2]. apply not_true_iff_false in Es. apply Es. apply andb_true_intro. split; [now apply beqb_eq|now apply N.eqb_eq].
    + exists r. split; [exact Hr|]. eapply Hg; [apply Hstart; reflexivity|]. cbn zeta.
      change (bs "META-INF/MANIFEST.MF") with manifest_name in Hgr. rewrite Em in Hgr. exact Hgr.
Qed.

Lemma sig_at s j : s <= lenN content ->
  occurs_at eocd_signature (dropN s content) j <-> slice (s + N.of_nat j) 4 content = eocd_signature.
Proof.
  intros Hs. unfold slice. rewrite <- dropN_dropN. set (t := dropN s content). split.
  - intros (pre & post & E & Hp). rewrite E. rewrite dropN_app_len by (unfold lenN; now rewrite Hp).
    apply takeN_app_len. reflexivity.
  - intros E. exists (takeN (N.of_nat j) t), (dropN 4 (dropN (N.of_nat j) t)).
    rewrite <- E at 1. rewrite (take_dropN 4), take_dropN. split; [reflexivity|].
    assert (N.of_nat j <= lenN t).
    { destruct (N.le_gt_cases (N.of_nat j) (lenN t)) as [|K]; [assumption|].
      rewrite dropN_all in E by lia. discriminate E. }
    rewrite takeN_firstn, firstn_length. unfold lenN in *. lia.
Qed.

Lemma zip_reader_walk : exists r, zip_walk content max (usize_bits c) r /\ zout (mreader c content max FZip) r.
Proof.
  pose proof isize_low as Hi. pose proof isize_len as Hil. pose proof len63 as Hl63.
  assert (Hu : u64_max1 = 18446744073709551616) by reflexivity.
  unfold mreader. cbn [reader_of].
  change (fst (mrun content max (from_zip_reader c) 0)) with (ex content max (from_zip_reader c) 0).
  set (s := search_start content).
  assert (Hs : s = lenN content - 65557) by reflexivity.
  destruct (N.lt_ge_cases (lenN content) 22) as [H22|H22].
  { exists None. split; [now apply zw_short|]. left. exists EUnexpectedEof. unfold from_zip_reader.
    apply ex_end; [exact Hlen|]. unfold zip_find_eocd. apply ex_bind_assoc. apply ex_goto; [unfold sat_sub; lia|].
    apply ex_bind_assoc. rewrite usize_len by lia.
    replace (N.min (N.max (lenN content) EOCD_MIN_SIZE) EOCD_MAX_SIZE) with 22 by (unfold EOCD_MAX_SIZE, EOCD_MIN_SIZE; lia).
    apply ex_bytes_eof; [lia|]. rewrite lenN_dropN. lia. }
  set (rest := fun eocd_offset =>
    let! zip64 := zip_is_zip64 c eocd_offset in
    let! '(number_of_entries, socd_offset) := zip_directory c zip64 eocd_offset in
    let! _ := seek (FromStart socd_offset) in
    zip_entries c (N.to_nat (N.min ENTRY_LIMIT number_of_entries)) Zip).
  assert (Hstart : forall X, ex content max (bindio (let* r := lift_exec (rfind (dropN s content) EOCD_SIGNATURE) in
     match r with
     | None => err EInvalidData
     | Some buf_index => let* e := u64_add c s (N.of_nat buf_index) in ok e end) rest) (lenN content) = X ->
     ex content max (from_zip_reader c) 0 = X).
  { intros X HX. unfold from_zip_reader. apply ex_end; [exact Hlen|]. fold rest.
    unfold zip_find_eocd. apply ex_bind_assoc. change (sat_sub (lenN content) EOCD_MAX_SIZE) with s.
    apply ex_goto; [lia|].
    apply ex_bind_assoc. rewrite usize_len by lia.
    replace (N.min (N.max (lenN content) EOCD_MIN_SIZE) EOCD_MAX_SIZE) with (lenN content - s) by (unfold EOCD_MAX_SIZE, EOCD_MIN_SIZE; lia).
    apply exs_bytes; [lia|lia|]. replace (s + (lenN content - s)) with (lenN content) by lia.
    replace (slice s (lenN content - s) content) with (dropN s content); [exact HX|].
    unfold slice. symmetry. apply takeN_all. rewrite lenN_dropN. lia. }
  change EOCD_SIGNATURE with eocd_signature in Hstart.
  destruct (rfind_total (dropN s content) eocd_signature) as [[i|] Er].
  2:{ exists None. split.
      - apply zw_no_eocd; [exact H22|]. intros i Hi' K. apply rfind_none in Er. apply Er.
        assert (Hoc : occurs_at eocd_signature (dropN s content) (N.to_nat (i - s))).
        { apply sig_at; [lia|]. replace (s + N.of_nat (N.to_nat (i - s))) with i by (unfold s in *; lia). exact K. }
        destruct Hoc as (pre & post & E & _). exists pre, post. exact E.
      - left. exists EInvalidData. apply Hstart. rewrite Er. reflexivity. }
  set (at_ := s + N.of_nat i).
  apply rfind_some in Er as Er2. destruct Er2 as [Hoc Hlast].
  assert (Hat : slice at_ 4 content = eocd_signature) by (apply sig_at; [lia|exact Hoc]).
  assert (Hle : last_eocd content at_).
  { split; [unfold at_, s; lia|]. split; [exact Hat|]. intros j Hj K. apply (Hlast (N.to_nat (j - s))).
    - unfold at_ in Hj. lia.
    - apply sig_at; [lia|]. replace (s + N.of_nat (N.to_nat (j - s))) with j by (unfold at_ in Hj; lia). exact K. }
  assert (Hat4 : at_ + 4 <= lenN content).
  { destruct (N.le_gt_cases (at_ + 4) (lenN content)) as [|K]; [assumption|].
    assert (Hl : lenN (slice at_ 4 content) = 4) by (rewrite Hat; reflexivity).
    unfold slice in Hl. rewrite lenN_takeN, lenN_dropN in Hl. lia. }
  assert (Hstart2 : forall X, ex content max (rest at_) (lenN content) = X -> ex content max (from_zip_reader c) 0 = X).
  { intros X HX. apply Hstart. rewrite Er. apply ex_bindp_assoc.
    change (lift_exec (Done (Some i))) with (Ret (A := option nat) (Some i)). apply ex_bind_ret.
    apply ex_bindp_assoc. apply ex_u64_add; [unfold at_ in Hat4; lia|]. apply ex_bind_ok. exact HX. }
  clear Hstart. unfold rest in Hstart2. clear rest.
  assert (Hloc : forall X, 
    (forall p, (locator_before content at_ -> p = at_ - 16) ->
    ex content max (bindio (zip_directory c (20 <=? at_) at_) (fun '(number_of_entries, socd_offset) =>
      let! _ := seek (FromStart socd_offset) in
      zip_entries c (N.to_nat (N.min ENTRY_LIMIT number_of_entries)) Zip)) p = X) -> True) by (intros; exact I).
  clear Hloc.
  set (z64 := (20 <=? at_) && beqb (slice (at_ - 20) 4 content) locator_signature).
  assert (Hz : z64 = true <-> locator_before content at_).
  { unfold z64, locator_before. rewrite andb_true_iff, beqb_eq. split; intros [K1 K2]; (split; [lia|exact K2]). }
  set (rest2 := fun x : N * N => let '(number_of_entries, socd_offset) := x in
      let! _ := seek (FromStart socd_offset) in
      zip_entries c (N.to_nat (N.min ENTRY_LIMIT number_of_entries)) Zip).
  set (p1 := if 20 <=? at_ then at_ - 16 else lenN content).
  assert (Hstart3 : forall X, ex content max (bindio (zip_directory c z64 at_) rest2) p1 = X ->
     ex content max (from_zip_reader c) 0 = X).
  { intros X HX. apply Hstart2. fold rest2. unfold zip_is_zip64.
    rewrite usize_len by lia. change EOCD64_LOCATOR_SIZE with 20.
    unfold z64, p1 in HX. destruct (N.leb_spec 20 at_) as [H20|H20].
    - apply ex_bindp_assoc. apply ex_u64_sub; [lia|]. apply ex_bind_assoc. apply ex_goto; [lia|].
      apply ex_bind_assoc. apply exs_bytes; [lia|lia|]. apply ex_bind_ok.
      change EOCD64_LOCATOR_SIGNATURE with locator_signature. cbn [andb] in HX.
      replace (at_ - 20 + 4) with (at_ - 16) by lia. exact HX.
    - apply ex_bind_ok. exact HX. }
  clear Hstart2.
  (* the directory *)
  assert (Hdir : forall count offset p,
     (forall r, entries_walk content max (N.to_nat (N.min 1024 count)) offset Zip r -> offset <= max -> zip_walk content max (usize_bits c) r) ->
     (max < offset -> zip_walk content max (usize_bits c) None) ->
     (forall X, ex content max (rest2 (count, offset)) p = X -> ex content max (from_zip_reader c) 0 = X) ->
     exists r, zip_walk content max (usize_bits c) r /\ zout (ex content max (from_zip_reader c) 0) r).
  { intros count offset p Hw Hfar Hrun. unfold rest2 in Hrun.
    destruct (N.le_gt_cases offset max) as [Hm|Hm].
    - destruct (entries_walk_spec (N.to_nat (N.min 1024 count)) offset Zip Hm) as (r & Hr & Hg).
      exists r. split; [now apply Hw|]. erewrite Hrun; [exact Hg|]. apply ex_goto; [exact Hm|]. reflexivity.
    - exists None. split; [now apply Hfar|]. left. exists EInvalidInput. apply Hrun. apply ex_seek_bad. cbn. lia. }
  destruct z64 eqn:Ez.
  - pose proof (proj1 Hz eq_refl) as Hlb. pose proof (proj1 Hlb) as H20.
    assert (Hp1 : p1 = at_ - 16) by (unfold p1; replace (20 <=? at_) with true by lia; reflexivity). rewrite Hp1 in Hstart3.
    set (e := le_val (slice (at_ - 12) 8 content)).
    pose proof (slice_bound (at_ - 12) 8 content) as He. fold e in He. change (256 ^ 8) with 18446744073709551616 in He.
    set (rec := record64 content at_).
    assert (Hrec : rec = (e + 32) mod u64_max1) by reflexivity.
    assert (Hstart4 : forall X, ex content max (bindio (
         let! _ := seek (FromStart rec) in
         let! number_of_entries := read_u64_le in
         let! _ := seek (FromCurrent 8) in
         let! socd_offset := read_u64_le in
         ok (as_usize c number_of_entries, socd_offset)) rest2) (at_ - 4) = X -> ex content max (from_zip_reader c) 0 = X).
    { intros X HX. apply Hstart3. unfold zip_directory. apply ex_bind_assoc.
      apply (ex_seek _ _ _ (at_ - 12)); [cbn; lia|lia|]. apply ex_bind_assoc.
      apply (exs_int _ _ le_val 8); [lia|]. fold e. replace (at_ - 12 + 8) with (at_ - 4) by lia.
      apply ex_bindp_assoc. unfold u64_add.
      destruct (N.ltb_spec (e + 32) u64_max1) as [Hlt|Hge].
      2:destruct Hov as [Hov'|Hov']; [rewrite Hov'|exfalso; specialize (Hov' (at_ - 20) (proj2 Hlb)); replace (at_ - 20 + 8) with (at_ - 12) in Hov' by lia; fold e in Hov'; rewrite Hu in Hge; change (2 ^ 64) with 18446744073709551616 in Hov'; lia].
      - rewrite N.mod_small in Hrec by exact Hlt. rewrite Hrec in HX. exact HX.
      - rewrite Hrec in HX. exact HX. }
    destruct (N.le_gt_cases (rec + 24) (lenN content)) as [H24|H24].
    + pose proof (slice_bound rec 8 content) as Hc1. change (256 ^ 8) with 18446744073709551616 in Hc1.
      eapply (Hdir (le_val (slice rec 8 content) mod 2 ^ usize_bits c) (le_val (slice (rec + 16) 8 content)) (rec + 24)).
      * intros r Hr Hm. eapply zw_64; eauto.
      * intros Hm. eapply zw_64_far; eauto.
      * intros X HX. apply Hstart4. apply ex_bind_assoc. apply ex_goto; [lia|].
        apply ex_bind_assoc. apply (exs_int _ _ le_val 8); [lia|].
        apply ex_bind_assoc. apply (ex_seek _ _ _ (rec + 16)); [cbn; lia|lia|].
        apply ex_bind_assoc. apply (exs_int _ _ le_val 8); [lia|]. apply ex_bind_ok.
        fold rec. unfold as_usize.
        replace (rec + 16 + 8) with (rec + 24) by lia. exact HX.
    + exists None. split; [eapply zw_64_cut; eauto|].
      destruct (N.le_gt_cases rec max) as [Hm|Hm].
      2:{ left. exists EInvalidInput. apply Hstart4. apply ex_bind_assoc. apply ex_seek_bad. cbn. lia. }
      destruct (N.le_gt_cases (rec + 8) (lenN content)) as [H8|H8].
      2:{ left. exists EUnexpectedEof. apply Hstart4. apply ex_bind_assoc. apply ex_goto; [exact Hm|].
          apply ex_bind_assoc. apply ex_int_eof. apply eof_at; lia. }
      destruct (N.le_gt_cases (rec + 16) max) as [H16|H16].
      * left. exists EUnexpectedEof. apply Hstart4. apply ex_bind_assoc. apply ex_goto; [exact Hm|].
        apply ex_bind_assoc. apply (exs_int _ _ le_val 8); [lia|].
        apply ex_bind_assoc. apply (ex_seek _ _ _ (rec + 16)); [cbn; lia|lia|].
        apply ex_bind_assoc. apply ex_int_eof. apply eof_at; lia.
      * left. exists EInvalidInput. apply Hstart4. apply ex_bind_assoc. apply ex_goto; [exact Hm|].
        apply ex_bind_assoc. apply (exs_int _ _ le_val 8); [lia|].
        apply ex_bind_assoc. apply ex_seek_bad. cbn. lia.
  - assert (Hnl : ~ locator_before content at_).
    { intros K. apply Hz in K. discriminate K. }
    unfold zip_directory in Hstart3.
    destruct (N.le_gt_cases (at_ + 20) (lenN content)) as [H20|H20].
    + pose proof (slice_bound (at_ + 10) 2 content) as Hc1. change (256 ^ 2) with 65536 in Hc1.
      eapply (Hdir (le_val (slice (at_ + 10) 2 content)) (le_val (slice (at_ + 16) 4 content)) (at_ + 20)).
      * intros r Hr Hm. eapply zw_zip; eauto.
      * intros Hm. eapply zw_zip_far; eauto.
      * intros X HX. apply Hstart3. apply ex_bindp_assoc. apply ex_u64_add; [lia|].
        apply ex_bind_assoc. apply ex_goto; [lia|].
        apply ex_bind_assoc. apply (exs_int _ _ le_val 2); [lia|].
        apply ex_bind_assoc. apply (ex_seek _ _ _ (at_ + 16)); [cbn; lia|lia|].
        apply ex_bind_assoc. apply (exs_int _ _ le_val 4); [lia|]. apply ex_bind_ok.
        replace (at_ + 16 + 4) with (at_ + 20) by lia. exact HX.
    + exists None. split; [eapply zw_cut; eauto|].
      destruct (N.le_gt_cases (at_ + 10) max) as [Hm|Hm].
      2:{ left. exists EInvalidInput. apply Hstart3. apply ex_bindp_assoc. apply ex_u64_add; [lia|].
          apply ex_bind_assoc. apply ex_seek_bad. cbn. lia. }
      destruct (N.le_gt_cases (at_ + 12) (lenN content)) as [H8|H8].
      2:{ left. exists EUnexpectedEof. apply Hstart3. apply ex_bindp_assoc. apply ex_u64_add; [lia|].
          apply ex_bind_assoc. apply ex_goto; [exact Hm|].
          apply ex_bind_assoc. apply ex_int_eof. apply eof_at; lia. }
      destruct (N.le_gt_cases (at_ + 16) max) as [H16|H16].
      * left. exists EUnexpectedEof. apply Hstart3. apply ex_bindp_assoc. apply ex_u64_add; [lia|].
        apply ex_bind_assoc. apply ex_goto; [exact Hm|].
        apply ex_bind_assoc. apply (exs_int _ _ le_val 2); [lia|].
        apply ex_bind_assoc. apply (ex_seek _ _ _ (at_ + 16)); [cbn; lia|lia|].
        apply ex_bind_assoc. apply ex_int_eof. apply eof_at; lia.
      * left. exists EInvalidInput. apply Hstart3. apply ex_bindp_assoc. apply ex_u64_add; [lia|].
        apply ex_bind_assoc. apply ex_goto; [exact Hm|].
        apply ex_bind_assoc. apply (exs_int _ _ le_val 2); [lia|].
        apply ex_bind_assoc. apply ex_seek_bad. cbn. lia.
Qed.
End Zip.
