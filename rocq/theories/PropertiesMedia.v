(** C31 and C33: ASF and RealMedia streams.  Statements use SpecMedia.v and SpecApi.v. *)
From Coq Require Import NArith ZArith Bool String List Lia ZifyBool ZifyNat ZifyN.
From Verif Require Import Base BaseProofs Formats FormatsProofs Signatures IO Readers Lib Mem
  Documented Static ReaderStatic Spec SpecSig SpecText SpecBin SpecMedia SpecApi
  LibProofs Ideal SigProofs CoreProofs BinProofs Exec ExeProofs MediaProofs Glue Conf PropertiesBin.
Ltac Zify.zify_post_hook ::= idtac.
Local Open Scope N_scope.

(** ** C31 *)
Theorem C31_asf_streams : forall (c : cfg) head reserved objects data content f, supported c ->
  content = asf_file head reserved objects data ->
  lenN head = 24 -> lenN reserved = 2 -> lenN objects < 2 ^ 32 -> Forall wf_asf_object objects ->
  rust_slice content -> signed c FAsf content -> asf_class (firstn 256 objects) f ->
  from_bytes c content = Done f.
Proof.
  intros c head reserved objects data content f Hc -> Hh Hr Hn Hw Hl Hs Hf. apply (detect_ok c FAsf); auto.
  pose proof (slice_room _ Hl).
  destruct (asf_reader_spec c head reserved objects data (u64_max1 - 1) Hc Hh Hr Hn Hw Hl ltac:(lia)) as (g & Hg & E).
  now rewrite (asf_class_fun _ _ _ Hf Hg).
Qed.
Print Assumptions C31_asf_streams.
Theorem C31_complete : forall objects, Forall wf_asf_object objects -> exists f, asf_class objects f.
Proof. intros objects Hw. eexists. now apply asf_result_class. Qed.
Print Assumptions C31_complete.
Definition asf_head : bytes :=
  unhex "3026b2758e66cf11a6d900aa0062ce6c" ++ le_bytes 8 1000.
Definition asf_sample (objects : list asf_object) : bytes := asf_file asf_head [x01; x02] objects (bs "data").
Definition asf_audio_only : list asf_object :=
  [OtherObject (mkguid 1 2 3 (repeat x00 8)) (bs "file properties");
   ExtendedContent [mkdescr (bs0 "WM/Year") 0 (bs "2020")] [x00];
   StreamProperties guid_audio_media (repeat x00 38)].
Ltac asf_example :=
  repeat match goal with
  | |- Forall _ [] => constructor
  | |- Forall _ (_ :: _) => constructor
  | |- wf_asf_object _ => hnf
  | |- wf_descriptor _ => hnf
  | |- wf_guid _ => hnf
  | |- _ /\ _ => split
  | |- _ <> _ => discriminate
  | |- _ => vm_compute; reflexivity
  end.
Example C31_witness :
  Forall wf_asf_object asf_audio_only /\ asf_class asf_audio_only WindowsMediaAudio /\
  signed cfg_all FAsf (asf_sample asf_audio_only) /\
  from_bytes cfg_all (asf_sample asf_audio_only) = Done WindowsMediaAudio /\
  from_bytes cfg_all (asf_sample (StreamProperties guid_video_media [] :: asf_audio_only)) = Done WindowsMediaVideo /\
  from_bytes cfg_all (asf_sample (asf_audio_only ++ [ExtendedContent [mkdescr (bs0 "DVR File Version") 0 []] []]))
    = Done MicrosoftDigitalVideoRecording.
Proof.
  assert (Hw : Forall wf_asf_object asf_audio_only) by (unfold asf_audio_only; asf_example).
  split; [exact Hw|]. split.
  { change WindowsMediaAudio with (asf_result asf_audio_only false false). now apply asf_result_class. }
  split; [signed_by_computation|]. repeat split; vm_compute; reflexivity.
Qed.

(** ** C33 *)
Theorem C33_realmedia_streams : forall (c : cfg) head chunks data content f, supported c ->
  content = rm_file head chunks data ->
  lenN head = 14 -> 1 + lenN chunks < 2 ^ 32 -> Forall wf_rm_chunk chunks ->
  rust_slice content -> signed c FRm content -> rm_class (firstn 64 chunks) f ->
  from_bytes c content = Done f.
Proof.
  intros c head chunks data content f Hc -> Hh Hn Hw Hl Hs Hf. apply (detect_ok c FRm); auto.
  pose proof (slice_room _ Hl).
  destruct (rm_reader_spec c head chunks data (u64_max1 - 1) Hc Hh Hn Hw ltac:(lia)) as (g & Hg & E).
  now rewrite (rm_class_fun _ _ _ Hf Hg).
Qed.
Print Assumptions C33_realmedia_streams.
Theorem C33_complete : forall chunks, exists f, rm_class chunks f.
Proof. intros chunks. eexists. apply rm_result_class. Qed.
Print Assumptions C33_complete.
Definition rm_sample (chunks : list rm_chunk) : bytes := rm_file (bs ".RMF" ++ be_bytes 4 18 ++ repeat x00 6) chunks (bs "DATA").
Definition mdpr (mime : string) : rm_chunk := MediaProperties (repeat x00 32) (bs "stream") (bs mime) (repeat x00 7).
Example C33_witness :
  let audio := [Chunk (bs "PROP") (repeat x00 42); mdpr "audio/x-pn-realaudio"] in
  let video := audio ++ [Chunk (bs "CONT") []; mdpr "video/x-pn-realvideo"] in
  Forall wf_rm_chunk video /\ rm_class video Realvideo /\ signed cfg_all FRm (rm_sample video) /\
  from_bytes cfg_all (rm_sample video) = Done Realvideo /\
  from_bytes cfg_all (rm_sample audio) = Done Realaudio /\
  from_bytes cfg_all (rm_sample []) = Done Realmedia.
Proof.
  cbv zeta. split.
  { repeat (constructor; [hnf; split; [vm_compute; reflexivity|repeat split; try (vm_compute; reflexivity); discriminate]|]).
    constructor. }
  split; [apply rm_video; eexists _, _, _, _; right; right; right; left; reflexivity|].
  split; [signed_by_computation|]. repeat split; vm_compute; reflexivity.
Qed.
