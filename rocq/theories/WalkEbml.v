(** C47, EBML: the reader computes the walk of SpecWalk.v on every content. *)
From Coq Require Import NArith ZArith Bool String List Lia ZifyBool ZifyNat ZifyN.
From Verif Require Import Base BaseProofs Formats IO Readers Mem LibProofs Ideal Spec SpecText SpecBin
  SpecEbml BinProofs Exec ExeProofs Id3Proofs Static ReaderStatic SpecWalk WalkProofs.
From Verif Require EbmlProofs.
Ltac Zify.zify_post_hook ::= idtac.
Local Open Scope N_scope.

Lemma slice_split off m n (l : bytes) : slice off (m + n) l = slice off m l ++ slice (off + m) n l.
Proof.
  unfold slice. rewrite <- (take_dropN m (dropN off l)) at 1.
  rewrite takeN_app, dropN_dropN.
  destruct (N.le_gt_cases m (lenN (dropN off l))) as [H|H].
  - rewrite lenN_takeN, N.min_l by exact H. rewrite takeN_takeN. f_equal; f_equal; lia.
  - rewrite takeN_takeN, lenN_takeN. rewrite (takeN_all m (dropN off l)) by lia.
    rewrite (takeN_all (N.min (m + n) m)) by lia. f_equal.
    rewrite <- dropN_dropN, (dropN_all m (dropN off l)) by lia. rewrite !takeN_all by (rewrite lenN_nil; lia). reflexivity.
Qed.
Lemma be_val_app a b : be_val (a ++ b) = be_val a * 256 ^ lenN b + be_val b.
Proof. unfold be_val at 1. rewrite be_acc_app, be_acc_val. reflexivity. Qed.
Lemma be_slice_cons off n (l : bytes) : off + (1 + n) <= lenN l ->
  be_val (slice off (1 + n) l) = u8_at l off * 256 ^ n + be_val (slice (off + 1) n l).
Proof. intros H. rewrite slice_split, be_val_app, (lenN_slice (off + 1)) by lia. reflexivity. Qed.

Section Ebml.
Variables (content : bytes) (max : N).

Lemma have_zero {A} off (r : option A) : have content off 0 r = r.
Proof. reflexivity. Qed.
Lemma have_cons {A} off n (r : option A) : have content off 1 (have content (off + 1) n r) = have content off (1 + n) r.
Proof.
  destruct (N.eq_dec n 0) as [->|Hn]; [reflexivity|]. apply have_split; lia.
Qed.
Lemma have_dup {A} off n (r : option A) : 1 <= n -> have content off 1 (have content off n r) = have content off n r.
Proof.
  intros Hn. unfold have. change (1 =? 0) with false. replace (n =? 0) with false by lia. cbn [orb].
  destruct (N.leb_spec (off + n) (lenN content)).
  - replace (off + 1 <=? lenN content) with true by lia. reflexivity.
  - now destruct (_ <=? _).
Qed.

Lemma g_shift m : forall n v pos (k : N -> io FileFormat) r,
  (v + 1) * 256 ^ N.of_nat n <= m ->
  (n = 0%nat \/ pos + N.of_nat n <= lenN content ->
     gives (ex content max (k (v * 256 ^ N.of_nat n + be_val (slice pos (N.of_nat n) content))) (pos + N.of_nat n)) r) ->
  gives (ex content max (bindio (read_shift_bytes m n v) k) pos) (have content pos (N.of_nat n) r).
Proof.
  induction n as [|n IH]; intros v pos k r Hm H.
  - cbn [read_shift_bytes]. rewrite have_zero. apply g_bind_ok.
    specialize (H (or_introl eq_refl)). change (N.of_nat 0) with 0 in H. unfold slice in H.
    rewrite takeN_0, N.add_0_r, N.pow_0_r, N.mul_1_r, N.add_0_r in H. exact H.
  - cbn [read_shift_bytes]. rewrite Nat2N.inj_succ in *. replace (N.succ (N.of_nat n)) with (1 + N.of_nat n) in * by lia.
    rewrite <- have_cons. apply g_assoc. apply (g_int _ _ le_val 1); [lia|]. intros H1. rewrite u8_le.
    pose proof (u8_lt content pos) as Hb. set (b := u8_at content pos) in *.
    rewrite N.pow_add_r in Hm. change (256 ^ 1) with 256 in Hm.
    pose proof (N.pow_nonzero 256 (N.of_nat n) ltac:(lia)) as Hz.
    set (P := 256 ^ N.of_nat n) in *.
    assert (Hv : v * 256 < m).
    { assert ((v + 1) * 256 * 1 <= (v + 1) * 256 * P) by (apply N.mul_le_mono_l; lia). lia. }
    rewrite (N.mod_small (N.shiftl v 8)) by (rewrite N.shiftl_mul_pow2; exact Hv).
    rewrite (lor_shift v b 8) by exact Hb. change (2 ^ 8) with 256.
    apply IH; fold P.
    + eapply N.le_trans; [|exact Hm]. rewrite N.mul_assoc. apply N.mul_le_mono_r. lia.
    + intros Hn. specialize (H ltac:(right; lia)). rewrite be_slice_cons in H by lia. fold b P in H.
      rewrite N.pow_add_r in H. change (256 ^ 1) with 256 in H. fold P in H.
      replace (pos + 1 + N.of_nat n) with (pos + (1 + N.of_nat n)) by lia.
      replace ((v * 256 + b) * P + be_val (slice (pos + 1) (N.of_nat n) content))
        with (v * (256 * P) + (b * P + be_val (slice (pos + 1) (N.of_nat n) content))) by lia.
      exact H.
Qed.

Lemma width_cases f : f < 256 -> (f = 0 /\ vint_width f = None /\ leading_zeros8 f = 8) \/
  (exists n, (n < 8)%nat /\ f <> 0 /\ vint_width f = Some (1 + N.of_nat n) /\ leading_zeros8 f = N.of_nat n).
Proof.
  intros Hf. destruct (N.eq_dec f 0) as [->|Hn]; [left; auto|]. right.
  assert (Hl : N.log2 f <= 7).
  { assert (N.log2 f < 8); [|lia]. apply N.log2_lt_pow2; [lia|]. exact Hf. }
  exists (N.to_nat (7 - N.log2 f)). split; [lia|]. split; [exact Hn|].
  unfold vint_width, leading_zeros8. replace (f =? 0) with false by lia.
  rewrite N.size_log2 by exact Hn. split; [f_equal; lia|lia].
Qed.

Lemma g_id pos (k : N -> io FileFormat) (K : N -> N -> option FileFormat) :
  (forall v p, gives (ex content max (k v) p) (K v p)) ->
  gives (ex content max (bindio read_ebml_id k) pos) (id_at content pos K).
Proof.
  intros HK. unfold read_ebml_id, id_at. apply g_assoc. apply (g_int _ _ le_val 1); [lia|]. intros H1.
  rewrite u8_le. pose proof (u8_lt content pos) as Hb. set (f := u8_at content pos) in *. cbn zeta.
  destruct (width_cases f Hb) as [(E & -> & ->)|(n & Hn & Hf & -> & ->)].
  { change (4 <? 8 + 1) with true. now exists EInvalidData. }
  destruct (N.leb_spec (1 + N.of_nat n) 4) as [H4|H4].
  2:{ replace (4 <? N.of_nat n + 1) with true by lia. now exists EInvalidData. }
  replace (4 <? N.of_nat n + 1) with false by lia.
  replace (N.to_nat (N.of_nat n + 1 - 1)) with n by lia.
  rewrite <- have_cons. unfold have at 1. change (1 =? 0) with false.
  replace (pos + 1 <=? lenN content) with true by lia. cbn [orb].
  apply g_shift.
  - assert (Hp : 256 ^ N.of_nat n <= 256 ^ 3) by (apply N.pow_le_mono_r; lia).
    change (256 ^ 3) with 16777216 in Hp. change u32_max1 with 4294967296.
    assert ((f + 1) * 256 ^ N.of_nat n <= 256 * 256 ^ N.of_nat n) by (apply N.mul_le_mono_r; lia). lia.
  - intros Hin. replace (pos + (1 + N.of_nat n)) with (pos + 1 + N.of_nat n) by lia.
    rewrite be_slice_cons by lia. apply HK.
Qed.
Lemma g_size pos (k : N -> io FileFormat) (K : N -> N -> option FileFormat) :
  (forall v p, v < 2 ^ 56 -> gives (ex content max (k v) p) (K v p)) ->
  gives (ex content max (bindio read_ebml_size k) pos) (size_at content pos K).
Proof.
  intros HK. unfold read_ebml_size, size_at. apply g_assoc. apply (g_int _ _ le_val 1); [lia|]. intros H1.
  rewrite u8_le. pose proof (u8_lt content pos) as Hb. set (f := u8_at content pos) in *. cbn zeta.
  destruct (width_cases f Hb) as [(E & -> & ->)|(n & Hn & Hf & -> & ->)].
  { change (8 <? 8 + 1) with true. now exists EInvalidData. }
  replace (8 <? N.of_nat n + 1) with false by lia.
  replace (N.to_nat (N.of_nat n + 1 - 1)) with n by lia.
  assert (Hmask : N.shiftr 128 (N.of_nat n) - 1 = N.ones (7 - N.of_nat n)).
  { rewrite N.shiftr_div_pow2, N.ones_equiv, <- N.sub_1_r. f_equal. change 128 with (2 ^ 7).
    rewrite <- N.pow_sub_r by lia. reflexivity. }
  rewrite Hmask, N.land_ones.
  rewrite <- have_cons. unfold have at 1. change (1 =? 0) with false.
  replace (pos + 1 <=? lenN content) with true by lia. cbn [orb].
  assert (Hmod : f mod 2 ^ (7 - N.of_nat n) <= f) by (apply N.mod_le; apply N.pow_nonzero; lia).
  apply g_shift.
  - assert (Hp : 256 ^ N.of_nat n <= 256 ^ 7) by (apply N.pow_le_mono_r; lia).
    change (256 ^ 7) with 72057594037927936 in Hp. change u64_max1 with 18446744073709551616.
    assert ((f mod 2 ^ (7 - N.of_nat n) + 1) * 256 ^ N.of_nat n <= 256 * 256 ^ N.of_nat n) by (apply N.mul_le_mono_r; lia). lia.
  - intros Hin. replace (pos + (1 + N.of_nat n)) with (pos + 1 + N.of_nat n) by lia.
    rewrite be_slice_cons by lia. fold f.
    pose proof (be_slice_bound (pos + 1) (N.of_nat n) content) as Hr. set (rest := be_val (slice (pos + 1) (N.of_nat n) content)) in *.
    assert (Ep : 2 ^ (7 * (1 + N.of_nat n)) = 256 ^ N.of_nat n * 2 ^ (7 - N.of_nat n)).
    { change 256 with (2 ^ 8). rewrite <- N.pow_mul_r, <- N.pow_add_r. f_equal. lia. }
    pose proof (N.pow_nonzero 256 (N.of_nat n) ltac:(lia)) as Hz1.
    pose proof (N.pow_nonzero 2 (7 - N.of_nat n) ltac:(lia)) as Hz2.
    assert (Ev : (f * 256 ^ N.of_nat n + rest) mod 2 ^ (7 * (1 + N.of_nat n)) =
                 f mod 2 ^ (7 - N.of_nat n) * 256 ^ N.of_nat n + rest).
    { rewrite Ep, N.mod_mul_r by assumption. rewrite N.div_add_l by assumption.
      rewrite (N.div_small rest) by exact Hr. rewrite N.add_0_r.
      rewrite (N.add_comm (f * _)), N.mod_add by assumption. rewrite N.mod_small by exact Hr. lia. }
    rewrite Ev. apply HK. rewrite <- Ev.
    eapply N.lt_le_trans; [apply N.mod_lt; apply N.pow_nonzero; lia|]. apply N.pow_le_mono_r; lia.
Qed.
End Ebml.

Section Loop.
Variables (c : plat) (content : bytes) (max : N).
Hypothesis Hc : wf_cfg c.
Hypothesis Hlen : lenN content <= max.

Definition ebml_outcome (a v s : bool) (evs : list event) : FileFormat :=
  match first_decisive (before_cluster evs) with
  | Some f => f
  | None =>
      Readers.ebml_result (a || has_codec "A_" (before_cluster evs)) (v || has_codec "V_" (before_cluster evs))
        (s || has_codec "S_" (before_cluster evs))
  end.
Lemma map_id_at (f : list event -> FileFormat) off K :
  option_map f (id_at content off K) = id_at content off (fun v p => option_map f (K v p)).
Proof.
  unfold id_at. rewrite map_have. f_equal. destruct (vint_width _); [|reflexivity].
  destruct (_ <=? 4); [apply map_have|reflexivity].
Qed.
Lemma map_size_at (f : list event -> FileFormat) off K :
  option_map f (size_at content off K) = size_at content off (fun v p => option_map f (K v p)).
Proof.
  unfold size_at. rewrite map_have. f_equal. destruct (vint_width _); [|reflexivity]. apply map_have.
Qed.
Lemma outcome_skip a v s e evs : decisive e = None -> e <> EvCluster -> (forall n, e <> EvCodec n) ->
  ebml_outcome a v s (e :: evs) = ebml_outcome a v s evs.
Proof.
  intros Hd Hn1 Hn2. unfold ebml_outcome, has_codec.
  assert (E : before_cluster (e :: evs) = e :: before_cluster evs) by (destruct e; try reflexivity; now destruct Hn1).
  rewrite E. cbn [first_decisive existsb]. rewrite Hd.
  assert (Ec : forall p, (match e with EvCodec name => bstarts_with name p | _ => false end) = false).
  { intros p. destruct e; try reflexivity. exfalso. now apply (Hn2 name). }
  now rewrite !Ec.
Qed.

Lemma ebml_walk_spec : forall n pos a v s,
  gives (ex content max (ebml_elements c (lenN content) n a v s) pos)
        (option_map (ebml_outcome a v s) (ebml_walk content max (usize_bits c) n pos)).
Proof.
  pose proof (isize_max_ge c Hc) as Hi.
  assert (Hnil : forall a v s, ebml_outcome a v s [] = Readers.ebml_result a v s).
  { intros a v s. unfold ebml_outcome. cbn [before_cluster first_decisive has_codec existsb]. now rewrite !orb_false_r. }
  induction n as [|n IH]; intros pos a v s.
  { cbn [ebml_walk option_map]. rewrite Hnil. reflexivity. }
  cbn [ebml_elements ebml_walk]. apply g_tell.
  destruct (N.leb_spec (lenN content) pos) as [Hp|Hp].
  { replace (pos <? lenN content) with false by lia. cbn [option_map]. rewrite Hnil. reflexivity. }
  replace (pos <? lenN content) with true by lia.
  rewrite map_id_at. apply g_id. intros id p0. rewrite map_size_at. apply g_size. intros size p Hsize.
  change (2 ^ 56) with 72057594037927936 in Hsize.
  assert (Hskip : forall a' v' s' ev len lim, (forall evs, ebml_outcome a v s (ev :: evs) = ebml_outcome a' v' s' evs) ->
    gives (ex content max (let! _ := seek (FromCurrent (as_i64 (sat_sub size lim))) in ebml_elements c (lenN content) n a' v' s') (p + len))
      (option_map (ebml_outcome a v s) (jump max (Z.of_N (p + len + (size - lim)))
        (fun q => after ev (ebml_walk content max (usize_bits c) n q))))).
  { intros a' v' s' ev len lim He. rewrite map_jump. rewrite MediaProofs.as_i64_small
      by (change (2 ^ 63) with 9223372036854775808; unfold sat_sub; lia).
    apply g_seek; [cbn; unfold sat_sub; lia|]. intros t Ht Hz. erewrite map_after; [apply IH|exact He]. }
  cbn zeta. cbn [existsb].
  replace ((id =? EBML_ELEMENT_ID) || (id =? SEGMENT_ELEMENT_ID) || (id =? TRACKS_ELEMENT_ID)
           || (id =? TRACK_ENTRY_ELEMENT_ID) || (id =? VIDEO_ELEMENT_ID))
    with ((id =? ID_EBML) || ((id =? ID_Segment) || ((id =? ID_Tracks) || ((id =? ID_TrackEntry) || ((id =? ID_Video) || false)))))
    by (rewrite orb_false_r, !orb_assoc; reflexivity).
  destruct ((id =? ID_EBML) || _).
  { erewrite map_after; [apply IH|]. intros evs. reflexivity. }
  change DOC_TYPE_ELEMENT_ID with ID_DocType. change CODEC_ID_ELEMENT_ID with ID_CodecID.
  change STEREO_MODE_ELEMENT_ID with ID_StereoMode. change CLUSTER_ELEMENT_ID with ID_Cluster.
  destruct (id =? ID_DocType).
  { unfold as_usize. set (len := N.min 8 (size mod 2 ^ usize_bits c)). rewrite map_have.
    apply g_bytes; [lia|]. intros _. set (name := slice p len content).
    destruct (bstarts_with name (bs "matroska")) eqn:Em.
    - pose proof Em as Em'. apply bstarts_with_iff in Em' as (t & Et).
      assert (Ew : bstarts_with name (bs "webm") = false) by (rewrite Et; reflexivity).
      rewrite Ew. cbn [negb]. apply Hskip. intros evs. apply outcome_skip; [|discriminate|discriminate].
      cbn [decisive]. now rewrite Ew, Em.
    - cbn [negb]. cbn [option_map ebml_outcome before_cluster first_decisive decisive].
      unfold ebml_outcome. cbn [before_cluster first_decisive decisive].
      destruct (bstarts_with name (bs "webm")); [reflexivity|]. rewrite Em. reflexivity. }
  destruct (id =? ID_CodecID).
  { unfold as_usize. set (len := N.min 64 (size mod 2 ^ usize_bits c)). rewrite map_have.
    apply g_bytes; [lia|]. intros _. set (name := slice p len content).
    assert (Hu : (if bstarts_with name (bs "A_") then (true, v, s)
            else if bstarts_with name (bs "V_") then (a, true, s)
            else if bstarts_with name (bs "S_") then (a, v, true) else (a, v, s)) =
      (a || bstarts_with name (bs "A_"), v || bstarts_with name (bs "V_"), s || bstarts_with name (bs "S_"))).
    { destruct (bstarts_with name (bs "A_")) eqn:E1.
      { apply bstarts_with_iff in E1 as (t & ->). cbn. now rewrite orb_true_r, !orb_false_r. }
      destruct (bstarts_with name (bs "V_")) eqn:E2.
      { apply bstarts_with_iff in E2 as (t & ->). cbn. now rewrite orb_true_r, !orb_false_r. }
      destruct (bstarts_with name (bs "S_")); now rewrite ?orb_true_r, !orb_false_r. }
    rewrite Hu. apply Hskip. intros evs. unfold ebml_outcome, has_codec. cbn [before_cluster first_decisive decisive existsb].
    now rewrite !orb_assoc. }
  destruct (id =? ID_StereoMode).
  { rewrite map_have. apply (g_int _ _ le_val 1); [lia|]. intros _. rewrite u8_le.
    destruct (N.ltb_spec 0 (u8_at content p)) as [H0|H0].
    - cbn [option_map]. unfold ebml_outcome. cbn [before_cluster first_decisive decisive].
      replace (0 <? u8_at content p) with true by lia. reflexivity.
    - erewrite map_after; [apply IH|]. intros evs. reflexivity. }
  destruct (id =? ID_Cluster).
  { cbn [option_map]. unfold ebml_outcome. cbn [before_cluster first_decisive has_codec existsb].
    rewrite !orb_false_r. reflexivity. }
  specialize (Hskip a v s EvOther 0 0). unfold sat_sub in Hskip. rewrite N.sub_0_r, N.add_0_r in Hskip.
  rewrite N.sub_0_r, N.add_0_r. apply Hskip. reflexivity.
Qed.
Lemma ebml_reader_walk : gives (mreader c content max FEbml) (SpecWalk.ebml_result content max (usize_bits c)).
Proof.
  unfold mreader. cbn [reader_of].
  change (fst (mrun content max (from_ebml_reader c) 0)) with (ex content max (from_ebml_reader c) 0).
  unfold from_ebml_reader. erewrite ex_end; [|exact Hlen|reflexivity].
  unfold rewind. erewrite ex_goto; [|lia|reflexivity].
  unfold SpecWalk.ebml_result. pose proof (ebml_walk_spec 256 0 false false false) as H.
  destruct (ebml_walk content max (usize_bits c) 256 0); exact H.
Qed.
End Loop.
