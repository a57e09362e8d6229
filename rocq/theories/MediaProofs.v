(** ASF (C31) and RealMedia (C33). *)
From Coq Require Import NArith ZArith Bool String List Lia ZifyBool ZifyNat ZifyN.
From Verif Require Import Base BaseProofs Formats IO Readers Mem LibProofs Ideal Spec SpecText SpecBin SpecMedia
  BinProofs Exec ExeProofs Static ReaderStatic.
Ltac Zify.zify_post_hook ::= idtac.
Local Open Scope N_scope.

Lemma lenN_guid g : wf_guid g -> lenN (guid_bytes g) = 16.
Proof.
  intros (_ & _ & _ & H4). unfold guid_bytes. rewrite !lenN_app, !lenN_le_bytes. unfold lenN.
  rewrite H4. reflexivity.
Qed.
Lemma as_i64_small n : n < 2 ^ 63 -> as_i64 n = Z.of_N n.
Proof. intros H. unfold as_i64. replace (n <? 2 ^ 63) with true by lia. reflexivity. Qed.

Lemma guid_stream_properties_ok :
  wf_guid guid_stream_properties /\ guid_text guid_stream_properties = STREAM_PROPERTIES_OBJECT_GUID.
Proof. split; [repeat split|vm_compute; reflexivity]. Qed.
Lemma guid_extended_content_ok :
  wf_guid guid_extended_content /\ guid_text guid_extended_content = EXTENDED_CONTENT_DESCRIPTION_OBJECT_GUID.
Proof. split; [repeat split|vm_compute; reflexivity]. Qed.
Lemma guid_audio_ok : wf_guid guid_audio_media /\ guid_text guid_audio_media = AUDIO_MEDIA_GUID.
Proof. split; [repeat split|vm_compute; reflexivity]. Qed.
Lemma guid_video_ok : wf_guid guid_video_media /\ guid_text guid_video_media = VIDEO_MEDIA_GUID.
Proof. split; [repeat split|vm_compute; reflexivity]. Qed.

Lemma guid_text_test g h s : wf_guid g -> wf_guid h -> guid_text h = s -> String.eqb (guid_text g) s = true <-> g = h.
Proof.
  intros Hg Hh <-. rewrite String.eqb_eq. split; [|now intros ->]. now apply guid_text_eq.
Qed.
Lemma guid_text_neq g h s : wf_guid g -> wf_guid h -> guid_text h = s -> g <> h -> String.eqb (guid_text g) s = false.
Proof.
  intros Hg Hh E Hn. destruct (String.eqb (guid_text g) s) eqn:K; [|reflexivity].
  exfalso. apply Hn. now apply (guid_text_test g h s).
Qed.

(** Boolean readings of the specification. *)
Definition dvr_d (d : descriptor) : bool := bstarts_with (d_name d) (bs0 "DVR File Version").
Definition dvr_o (o : asf_object) : bool :=
  match o with ExtendedContent ds _ => existsb dvr_d (firstn 32 ds) | _ => false end.
Definition stream_o (s : string) (o : asf_object) : bool :=
  match o with StreamProperties t _ => String.eqb (guid_text t) s | _ => false end.

Lemma Exists_existsb {A} (f : A -> bool) (P : A -> Prop) l : (forall x, f x = true <-> P x) ->
  (existsb f l = true <-> Exists P l).
Proof.
  intros H. rewrite existsb_exists, Exists_exists. split; intros (x & Hx & Hp); exists x; split; auto; now apply H.
Qed.
Lemma dvr_d_iff d : dvr_d d = true <-> dvr_descriptor d.
Proof. apply bstarts_with_iff. Qed.
Lemma dvr_o_iff o : dvr_o o = true <-> dvr_object o.
Proof.
  unfold dvr_object. destruct o as [t r|ds pad|g p]; cbn [dvr_o].
  - split; [discriminate|]. intros (ds & pad & E & _). discriminate E.
  - rewrite (Exists_existsb _ _ _ dvr_d_iff). split.
    + intros H. now exists ds, pad.
    + intros (ds' & pad' & [= -> ->] & H). exact H.
  - split; [discriminate|]. intros (ds & pad & E & _). discriminate E.
Qed.
Lemma stream_iff t s objs : wf_guid t -> guid_text t = s -> Forall wf_asf_object objs ->
  existsb (stream_o s) objs = true <-> has_stream t objs.
Proof.
  intros Ht Es Hw. rewrite existsb_exists. rewrite Forall_forall in Hw. split.
  - intros (o & Hin & Ho). specialize (Hw o Hin). destruct o as [t' r|ds pad|g p]; try discriminate Ho.
    cbn in Ho, Hw. apply (guid_text_test t' t s Hw Ht Es) in Ho. subst t'. now exists r.
  - intros (r & Hin). eexists. split; [exact Hin|]. cbn. apply String.eqb_eq. exact Es.
Qed.

Section Asf.
Variables (c : plat) (content : bytes) (max : N).
Hypothesis Hc : wf_cfg c.
Hypothesis Hlen : lenN content <= max.
Hypothesis Hlen2 : lenN content < 2 ^ 63.

Lemma descriptors_spec {B} (k : bool -> io B) : forall n ds r pos, Forall wf_descriptor ds ->
  (n <= List.length ds)%nat -> at_ content pos (flat_map descriptor_bytes ds ++ r) ->
  exists pos', ex content max (bindio (asf_descriptors c n) k) pos =
               ex content max (k (existsb dvr_d (firstn n ds))) pos'.
Proof.
  pose proof (isize_max_ge c Hc) as Hi.
  induction n as [|n IH]; intros ds r pos Hw Hn Hat; [exists pos; reflexivity|].
  destruct ds as [|[nm ty vl] ds]; [cbn in Hn; lia|]. cbn [List.length] in Hn.
  inversion Hw as [|? ? [H1 H2] Hw']; subst. cbn [d_name d_value] in H1, H2.
  cbn [flat_map] in Hat. rewrite <- app_assoc in Hat. unfold descriptor_bytes at 1 in Hat.
  cbn [d_name d_value d_type] in Hat. rewrite <- !app_assoc in Hat.
  cbn [firstn existsb asf_descriptors]. unfold dvr_d at 1. cbn [d_name].
  change (2 ^ 16) with 65536 in *.
  assert (Hval : le_val (le_bytes 2 (lenN nm)) = lenN nm) by (apply le_val_le_bytes; exact H1).
  assert (Hval2 : le_val (le_bytes 2 (lenN vl)) = lenN vl) by (apply le_val_le_bytes; exact H2).
  set (a := takeN 64 nm). set (b := dropN 64 nm).
  assert (Hab : nm = a ++ b) by (symmetry; apply take_dropN).
  assert (Ha : lenN a = N.min 64 (lenN nm)) by apply lenN_takeN.
  assert (Hb : lenN b = lenN nm - 64) by apply lenN_dropN.
  assert (Hst : bstarts_with nm (bs0 "DVR File Version") = bstarts_with a (bs0 "DVR File Version")).
  { apply eq_true_iff_eq. rewrite !bstarts_with_iff. split; intros (t & E).
    - exists (takeN 32 t). unfold a. rewrite E, takeN_app. f_equal.
    - exists (t ++ b). now rewrite Hab, E, <- app_assoc. }
  destruct (bstarts_with a (bs0 "DVR File Version")) eqn:Ed.
  - exists (pos + 2 + N.min 64 (lenN nm)). cbn [orb]. rewrite Hst. cbn [orb].
    apply ex_bind_assoc. eapply (ex_int _ _ le_val 2); [exact Hat|apply lenN_le_bytes|exact Hval|]. intros Hat1.
    rewrite Hab in Hat1 at 1. rewrite <- app_assoc in Hat1.
    apply ex_bind_assoc. eapply ex_bytes; [|exact Hat1|exact Ha|]; [lia|]. intros Hat2.
    rewrite Ed. reflexivity.
  - rewrite Hst. cbn [orb].
    assert (Hat' : at_ content (pos + (2 + lenN nm + 2 + 2 + lenN vl)) (flat_map descriptor_bytes ds ++ r)).
    { replace (pos + (2 + lenN nm + 2 + 2 + lenN vl)) with
        (pos + lenN (le_bytes 2 (lenN nm) ++ nm ++ le_bytes 2 ty ++ le_bytes 2 (lenN vl) ++ vl))
        by (rewrite !lenN_app, !lenN_le_bytes; lia).
      eapply at_app; [|reflexivity]. rewrite <- !app_assoc. exact Hat. }
    destruct (IH ds r _ Hw' ltac:(lia) Hat') as (pos' & Hp). exists pos'. rewrite <- Hp. clear Hp IH.
    apply ex_bind_assoc. eapply (ex_int _ _ le_val 2); [exact Hat|apply lenN_le_bytes|exact Hval|]. intros Hat1.
    rewrite Hab in Hat1 at 1. rewrite <- app_assoc in Hat1.
    apply ex_bind_assoc. eapply ex_bytes; [|exact Hat1|exact Ha|]; [lia|]. intros Hat2.
    rewrite Ed. apply ex_bind_assoc.
    rewrite app_assoc in Hat2.
    eapply ex_skip; [exact Hat2|rewrite lenN_app, lenN_le_bytes; unfold sat_sub; lia|exact Hlen|]. intros Hat3.
    apply ex_bind_assoc. eapply (ex_int _ _ le_val 2); [exact Hat3|apply lenN_le_bytes|exact Hval2|]. intros Hat4.
    apply ex_bind_assoc. eapply ex_skip; [exact Hat4|reflexivity|exact Hlen|]. intros Hat5.
    f_equal. rewrite lenN_app, lenN_le_bytes. lia.
Qed.

Definition asf_result (objs : list asf_object) (a v : bool) : FileFormat :=
  if existsb dvr_o objs then MicrosoftDigitalVideoRecording
  else if v || existsb (stream_o VIDEO_MEDIA_GUID) objs then WindowsMediaVideo
  else if a || existsb (stream_o AUDIO_MEDIA_GUID) objs then WindowsMediaAudio
  else AdvancedSystemsFormat.

Lemma objects_spec : forall n objs r pos a v, Forall wf_asf_object objs ->
  (n <= List.length objs)%nat -> at_ content pos (flat_map asf_object_bytes objs ++ r) ->
  ex content max (asf_objects c n a v) pos = Done (Ok (asf_result (firstn n objs) a v)).
Proof.
  pose proof (isize_max_ge c Hc) as Hi. change (2 ^ 63) with 9223372036854775808 in Hlen2.
  induction n as [|n IH]; intros objs r pos a v Hw Hn Hat.
  { cbn [firstn]. unfold asf_result. cbn [existsb]. rewrite !orb_false_r. reflexivity. }
  destruct objs as [|o objs]; [cbn in Hn; lia|]. cbn [List.length] in Hn.
  inversion Hw as [|? ? Ho Hw']; subst. cbn [firstn].
  cbn [flat_map] in Hat. rewrite <- app_assoc in Hat.
  assert (Hnext : at_ content (pos + lenN (asf_object_bytes o)) (flat_map asf_object_bytes objs ++ r))
    by (eapply at_app; [exact Hat|reflexivity]).
  assert (Hid : wf_guid (asf_object_id o)).
  { destruct o; cbn; [apply guid_stream_properties_ok|apply guid_extended_content_ok|apply Ho]. }
  assert (Hob : lenN (asf_object_bytes o) = 24 + lenN (asf_payload o)).
  { unfold asf_object_bytes. rewrite !lenN_app, lenN_guid, lenN_le_bytes by exact Hid. lia. }
  assert (Hfit : pos + lenN (asf_object_bytes o) <= lenN content) by (destruct Hnext as [_ K]; lia).
  unfold asf_object_bytes in Hat. rewrite <- !app_assoc in Hat.
  cbn [asf_objects]. eapply ex_guid; [exact Hc|exact Hid|exact Hat|]. intros Hat1.
  eapply (ex_int _ _ le_val 8); [exact Hat1|apply lenN_le_bytes|apply le_val_le_bytes|].
  { change (256 ^ N.of_nat 8) with 18446744073709551616. lia. }
  intros Hat2. replace (pos + 16 + 8) with (pos + 24) in * by lia.
  assert (Hi64 : as_i64 (24 + lenN (asf_payload o)) = Z.of_N (24 + lenN (asf_payload o))).
  { apply as_i64_small. change (2 ^ 63) with 9223372036854775808. lia. }
  rewrite Hi64.
  destruct o as [t rest|ds pad|g p]; cbn [asf_object_id asf_payload wf_asf_object] in *.
  - rewrite (proj2 guid_stream_properties_ok), String.eqb_refl.
    rewrite <- app_assoc in Hat2. eapply ex_guid; [exact Hc|exact Ho|exact Hat2|]. intros Hat3.
    rewrite lenN_app, (lenN_guid t Ho) in *.
    assert (Hstep : forall a' v' : bool,
      ex content max (let* delta := i64_sub c (Z.of_N (24 + (16 + lenN rest))) 40 in
        let! _ := seek (FromCurrent delta) in asf_objects c n a' v') (pos + 24 + 16) =
      Done (Ok (asf_result (firstn n objs) a' v'))).
    { intros a' v'. apply ex_i64_sub; [unfold i64_min, i64_max; lia|].
      eapply ex_skip; [exact Hat3|lia|exact Hlen|]. intros Hat4.
      eapply IH; [exact Hw'|lia|]. exact Hat4. }
    assert (Hav : asf_result (StreamProperties t rest :: firstn n objs) a v =
                  asf_result (firstn n objs) (a || String.eqb (guid_text t) AUDIO_MEDIA_GUID)
                    (v || String.eqb (guid_text t) VIDEO_MEDIA_GUID)).
    { unfold asf_result. cbn [existsb dvr_o stream_o orb]. now rewrite !orb_assoc. }
    rewrite Hav.
    destruct (String.eqb (guid_text t) AUDIO_MEDIA_GUID) eqn:EA.
    + apply String.eqb_eq in EA. rewrite EA. change (String.eqb AUDIO_MEDIA_GUID VIDEO_MEDIA_GUID) with false.
      rewrite orb_true_r, orb_false_r. apply Hstep.
    + rewrite orb_false_r. destruct (String.eqb (guid_text t) VIDEO_MEDIA_GUID) eqn:EV.
      * rewrite orb_true_r. apply Hstep.
      * rewrite orb_false_r. apply Hstep.
  - rewrite (proj2 guid_extended_content_ok).
    change (String.eqb EXTENDED_CONTENT_DESCRIPTION_OBJECT_GUID STREAM_PROPERTIES_OBJECT_GUID) with false.
    rewrite String.eqb_refl. destruct Ho as [Hds Hwd].
    rewrite <- !app_assoc in Hat2.
    eapply (ex_int _ _ le_val 2); [exact Hat2|apply lenN_le_bytes|apply le_val_le_bytes; exact Hds|].
    intros Hat3. apply ex_tell.
    assert (Hm : (N.to_nat (N.min 32 (lenN ds)) <= List.length ds)%nat) by (unfold lenN; lia).
    edestruct (descriptors_spec (fun dvr => if dvr then ok MicrosoftDigitalVideoRecording else
        let* t := u64_add c (pos + 24 + 2) (24 + lenN (le_bytes 2 (lenN ds) ++ flat_map descriptor_bytes ds ++ pad)) in
          let* t2 := u64_sub c t 26 in
          let! _ := seek (FromStart t2) in
          asf_objects c n a v) _ ds (pad ++ flat_map asf_object_bytes objs ++ r) _ Hwd Hm Hat3) as (pos' & Hp).
    rewrite Hp.
    assert (Hfn : firstn (N.to_nat (N.min 32 (lenN ds))) ds = firstn 32 ds).
    { destruct (N.le_gt_cases 32 (lenN ds)).
      - replace (N.min 32 (lenN ds)) with 32 by lia. reflexivity.
      - rewrite !firstn_all2; [reflexivity| |]; unfold lenN in *; lia. }
    rewrite Hfn. unfold asf_result. cbn [existsb dvr_o stream_o orb].
    destruct (existsb dvr_d (firstn 32 ds)) eqn:Ed; [reflexivity|]. cbn [orb].
    fold (asf_result (firstn n objs) a v).
    apply ex_u64_add; [change u64_max1 with 18446744073709551616; lia|].
    apply ex_u64_sub; [lia|]. apply ex_goto; [lia|].
    eapply IH; [exact Hw'|lia|]. eapply at_pos; [exact Hnext|]. rewrite Hob. lia.
  - destruct Ho as (_ & H1 & H2).
    rewrite (guid_text_neq g _ _ Hid (proj1 guid_stream_properties_ok) (proj2 guid_stream_properties_ok) H1).
    rewrite (guid_text_neq g _ _ Hid (proj1 guid_extended_content_ok) (proj2 guid_extended_content_ok) H2).
    apply ex_i64_sub; [unfold i64_min, i64_max; lia|].
    eapply ex_skip; [exact Hat2|lia|exact Hlen|]. intros Hat3.
    replace (asf_result (OtherObject g p :: firstn n objs) a v) with (asf_result (firstn n objs) a v) by reflexivity.
    eapply IH; [exact Hw'|lia|]. exact Hat3.
Qed.
End Asf.

Lemma asf_result_class objs : Forall wf_asf_object objs -> asf_class objs (asf_result objs false false).
Proof.
  intros Hw. unfold asf_result.
  pose proof (Exists_existsb dvr_o dvr_object objs dvr_o_iff) as Hd.
  pose proof (stream_iff _ _ objs (proj1 guid_video_ok) (proj2 guid_video_ok) Hw) as Hv.
  pose proof (stream_iff _ _ objs (proj1 guid_audio_ok) (proj2 guid_audio_ok) Hw) as Ha.
  destruct (existsb dvr_o objs); [apply asf_dvr; now apply Hd|].
  assert (Hnd : ~ Exists dvr_object objs) by (intros K; apply Hd in K; discriminate K).
  cbn [orb]. destruct (existsb (stream_o VIDEO_MEDIA_GUID) objs); [apply asf_video; [exact Hnd|now apply Hv]|].
  assert (Hnv : ~ has_stream guid_video_media objs) by (intros K; apply Hv in K; discriminate K).
  destruct (existsb (stream_o AUDIO_MEDIA_GUID) objs); [apply asf_audio; auto; now apply Ha|].
  apply asf_none; auto. intros K; apply Ha in K; discriminate K.
Qed.
Lemma asf_class_fun objs f g : asf_class objs f -> asf_class objs g -> f = g.
Proof. intros [] []; try reflexivity; contradiction. Qed.

Lemma as_usize_u32 c n : wf_cfg c -> n < 2 ^ 32 -> as_usize c n = n.
Proof.
  intros Hc H. change (2 ^ 32) with 4294967296 in H. unfold as_usize. apply N.mod_small.
  destruct Hc as [-> | ->].
  - change (2 ^ 32) with 4294967296. exact H.
  - change (2 ^ 64) with 18446744073709551616. lia.
Qed.
Lemma firstn_min {A} k (l : list A) : firstn (N.to_nat (N.min k (lenN l))) l = firstn (N.to_nat k) l.
Proof.
  destruct (N.le_gt_cases k (lenN l)).
  - replace (N.min k (lenN l)) with k by lia. reflexivity.
  - rewrite !firstn_all2; [reflexivity| |]; unfold lenN in *; lia.
Qed.

Lemma asf_reader_spec c head reserved objs data max : wf_cfg c ->
  lenN head = 24 -> lenN reserved = 2 -> lenN objs < 2 ^ 32 -> Forall wf_asf_object objs ->
  let content := asf_file head reserved objs data in
  lenN content < 2 ^ 63 -> lenN content <= max ->
  exists f, asf_class (firstn 256 objs) f /\ mreader c content max FAsf = Done (Ok f).
Proof.
  intros Hc Hh Hr Hn Hw content Hlen Hmax. exists (asf_result (firstn 256 objs) false false). split.
  { apply asf_result_class. apply Forall_forall. intros o Ho. rewrite Forall_forall in Hw. apply Hw.
    rewrite <- (firstn_skipn 256 objs). apply in_or_app. now left. }
  assert (H24 : 24 <= lenN content) by (unfold content, asf_file; rewrite lenN_app; lia).
  unfold mreader. cbn [reader_of].
  change (fst (mrun content max (from_asf_reader c) 0)) with (ex content max (from_asf_reader c) 0).
  unfold from_asf_reader. apply ex_goto; [lia|].
  assert (Hat : at_ content 24 (le_bytes 4 (lenN objs) ++ reserved ++ flat_map asf_object_bytes objs ++ data)).
  { rewrite <- Hh. now apply at_abs. }
  eapply (ex_int _ _ le_val 4); [exact Hat|apply lenN_le_bytes|apply le_val_le_bytes; exact Hn|]. intros Hat1.
  eapply ex_skip; [exact Hat1|rewrite Hr; reflexivity|exact Hmax|]. intros Hat2.
  rewrite as_usize_u32 by assumption.
  rewrite (objects_spec c content max Hc Hmax Hlen _ objs data _ false false Hw); [|unfold lenN; lia|exact Hat2].
  rewrite firstn_min. reflexivity.
Qed.

(** ** RealMedia *)
Definition mime_is (s : string) (ch : rm_chunk) : bool :=
  match ch with MediaProperties _ _ mime _ => bstarts_with mime (bs s) | _ => false end.
Lemma rm_stream_iff s l : existsb (mime_is s) l = true <-> rm_stream s l.
Proof.
  rewrite existsb_exists. split.
  - intros (ch & Hin & H). destruct ch as [f n m r|]; [|discriminate H]. cbn in H.
    apply bstarts_with_iff in H as (sub & ->). now exists f, n, sub, r.
  - intros (f & n & sub & r & Hin). eexists. split; [exact Hin|]. cbn. apply bstarts_with_app.
Qed.
Definition rm_result (l : list rm_chunk) (a v : bool) : FileFormat :=
  if v || existsb (mime_is "video/") l then Realvideo
  else if a || existsb (mime_is "audio/") l then Realaudio else Realmedia.

Lemma rm_loop_spec c content max : wf_cfg c -> lenN content <= max ->
  forall n chunks r pos a v, Forall wf_rm_chunk chunks ->
  (n <= List.length chunks)%nat -> at_ content pos (flat_map rm_chunk_bytes chunks ++ r) ->
  ex content max (rm_chunks c n a v) pos = Done (Ok (rm_result (firstn n chunks) a v)).
Proof.
  intros Hc Hlen. pose proof (isize_max_ge c Hc) as Hi.
  induction n as [|n IH]; intros chunks r pos a v Hw Hn Hat.
  { cbn [firstn]. unfold rm_result. cbn [existsb]. rewrite !orb_false_r. reflexivity. }
  destruct chunks as [|ch chunks]; [cbn in Hn; lia|]. cbn [List.length] in Hn.
  inversion Hw as [|? ? Hch Hw']; subst. cbn [firstn].
  cbn [flat_map] in Hat. rewrite <- app_assoc in Hat.
  assert (Hnext : at_ content (pos + lenN (rm_chunk_bytes ch)) (flat_map rm_chunk_bytes chunks ++ r))
    by (eapply at_app; [exact Hat|reflexivity]).
  destruct Hch as [Hsz Hch]. change (2 ^ 32) with 4294967296 in Hsz.
  assert (Hk4 : lenN (rm_kind ch) = 4) by (destruct ch; [reflexivity|apply Hch]).
  assert (Hcb : lenN (rm_chunk_bytes ch) = 8 + lenN (rm_payload ch)).
  { unfold rm_chunk_bytes. rewrite !lenN_app, Hk4, lenN_be_bytes. lia. }
  unfold rm_chunk_bytes in Hat. rewrite <- !app_assoc in Hat.
  cbn [rm_chunks]. eapply ex_bytes; [|exact Hat|exact Hk4|]; [lia|]. intros Hat1.
  eapply (ex_int _ _ be_val 4); [exact Hat1|apply lenN_be_bytes|apply be_val_be_bytes; exact Hsz|]. intros Hat2.
  replace (pos + 4 + 4) with (pos + 8) in * by lia.
  assert (Hstep : forall a' v' : bool,
    ex content max (let! _ := seek (FromCurrent (Z.of_N (8 + lenN (rm_payload ch)) - 8)) in rm_chunks c n a' v') (pos + 8) =
    Done (Ok (rm_result (firstn n chunks) a' v'))).
  { intros a' v'. eapply ex_skip; [exact Hat2|lia|exact Hlen|]. intros Hat3.
    eapply IH; [exact Hw'|lia|]. exact Hat3. }
  destruct ch as [fixed name mime rest|kind p]; cbn [rm_kind rm_payload] in *.
  - change (beqb (bs "MDPR") (bs "MDPR")) with true. cbn match. destruct Hch as (Hf & Hnm & Hmm).
    assert (Hav : rm_result (MediaProperties fixed name mime rest :: firstn n chunks) a v =
              rm_result (firstn n chunks) (a || bstarts_with mime (bs "audio/")) (v || bstarts_with mime (bs "video/"))).
    { unfold rm_result. cbn [existsb mime_is]. now rewrite !orb_assoc. }
    rewrite Hav. rewrite <- !app_assoc in Hat2.
    apply ex_bind_assoc. apply ex_tell. apply ex_bind_assoc.
    eapply ex_skip; [exact Hat2|rewrite Hf; reflexivity|exact Hlen|]. intros Hat3.
    apply ex_bind_assoc. eapply (ex_int _ _ le_val 1); [exact Hat3|apply lenN_le_bytes|apply le_val_le_bytes; exact Hnm|].
    intros Hat4. apply ex_bind_assoc. eapply ex_skip; [exact Hat4|reflexivity|exact Hlen|]. intros Hat5.
    apply ex_bind_assoc. eapply (ex_int _ _ le_val 1); [exact Hat5|apply lenN_le_bytes|apply le_val_le_bytes; exact Hmm|].
    intros Hat6. apply ex_bind_assoc. eapply ex_bytes; [|exact Hat6|reflexivity|]; [lia|]. intros _.
    cbn zeta. apply ex_bind_assoc. apply ex_goto.
    { destruct Hnext as [_ K]. rewrite Hcb in K. lia. }
    apply ex_bind_ok.
    destruct (bstarts_with mime (bs "audio/")) eqn:EA.
    + apply bstarts_with_iff in EA as (sub & ->). change (bstarts_with (bs "audio/" ++ sub) (bs "video/")) with false.
      rewrite orb_true_r, orb_false_r. apply Hstep.
    + rewrite orb_false_r. destruct (bstarts_with mime (bs "video/")).
      * rewrite orb_true_r. apply Hstep.
      * rewrite orb_false_r. apply Hstep.
  - replace (beqb kind (bs "MDPR")) with false by (symmetry; apply beqb_neq; apply Hch).
    apply ex_bind_ok. apply Hstep.
Qed.

Lemma rm_result_class l : rm_class l (rm_result l false false).
Proof.
  unfold rm_result. cbn [orb].
  pose proof (rm_stream_iff "video/" l) as Hv. pose proof (rm_stream_iff "audio/" l) as Ha.
  destruct (existsb (mime_is "video/") l); [apply rm_video; now apply Hv|].
  assert (Hnv : ~ rm_stream "video/" l) by (intros K; apply Hv in K; discriminate K).
  destruct (existsb (mime_is "audio/") l); [apply rm_audio; auto; now apply Ha|].
  apply rm_none; auto. intros K; apply Ha in K; discriminate K.
Qed.
Lemma rm_class_fun l f g : rm_class l f -> rm_class l g -> f = g.
Proof. intros [] []; try reflexivity; contradiction. Qed.

Lemma rm_reader_spec c head chunks data max : wf_cfg c ->
  lenN head = 14 -> 1 + lenN chunks < 2 ^ 32 -> Forall wf_rm_chunk chunks ->
  let content := rm_file head chunks data in lenN content <= max ->
  exists f, rm_class (firstn 64 chunks) f /\ mreader c content max FRm = Done (Ok f).
Proof.
  intros Hc Hh Hn Hw content Hmax. exists (rm_result (firstn 64 chunks) false false).
  split; [apply rm_result_class|].
  assert (H14 : 14 <= lenN content) by (unfold content, rm_file; rewrite lenN_app; lia).
  unfold mreader. cbn [reader_of].
  change (fst (mrun content max (from_rm_reader c) 0)) with (ex content max (from_rm_reader c) 0).
  unfold from_rm_reader. apply ex_goto; [lia|].
  assert (Hat : at_ content 14 (be_bytes 4 (1 + lenN chunks) ++ flat_map rm_chunk_bytes chunks ++ data)).
  { rewrite <- Hh. now apply at_abs. }
  eapply (ex_int _ _ be_val 4); [exact Hat|apply lenN_be_bytes|apply be_val_be_bytes; exact Hn|]. intros Hat1.
  replace (sat_sub (1 + lenN chunks) 1) with (lenN chunks) by (unfold sat_sub; lia).
  rewrite as_usize_u32; [|exact Hc|change (2 ^ 32) with 4294967296 in *; lia].
  rewrite (rm_loop_spec c content max Hc Hmax _ chunks data _ false false Hw); [|unfold lenN; lia|exact Hat1].
  rewrite firstn_min. reflexivity.
Qed.
