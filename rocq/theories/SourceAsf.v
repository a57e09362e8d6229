(** from_asf_reader: the text of /repo/src/readers.rs against the model. *)
From Coq Require Import NArith ZArith Bool String List Lia ZifyBool ZifyNat ZifyN.
From Verif Require Import Base BaseProofs Formats IO Find Utf8 Readers RustAst RustSem Source SourceProofs.
Import ListNotations.
Local Open Scope N_scope.
Section Reader.
Variables (c : plat) (on : string -> bool) (rounds : nat).
Variable X : N -> task (B := result FileFormat) -> prog (option (result FileFormat)).
Hypothesis HX : forall n i t, n = N.succ i -> X n t = go c on rounds true readers_fns (X i) t 60.
Hypothesis Hbits : 16 <= usize_bits c.
Lemma asf_ok : sc (X 200 (TCall "from_asf_reader" [VReader false] finish)) (from_asf_reader c).
Proof using HX Hbits.
  enter. unfold from_asf_reader. strings. repeat drive.
  rewrite N.sub_0_r.
  lazymatch goal with |- sc (for_n ?n0 ?body ((?x, VBool false) :: (?y, VBool false) :: ?s) ?k) _ =>
    cut (forall n v a, sc (for_n n body ((x, VBool v) :: (y, VBool a) :: s) k) (asf_objects c n a v)); [intros L; apply L|] end.
  induction n as [|n IH]; intros v a; cbn [asf_objects].
  - cbn [for_n]. destruct v, a; repeat drive.
  - rewrite for_n_S; cbv beta; strings;
    unfold STREAM_PROPERTIES_OBJECT_GUID, AUDIO_MEDIA_GUID, VIDEO_MEDIA_GUID, EXTENDED_CONTENT_DESCRIPTION_OBJECT_GUID.
    repeat drive.
    rewrite N.sub_0_r.
    lazymatch goal with |- sc (for_n ?n0 ?body ?s ?k) (bindio (asf_descriptors c ?m0) ?K) =>
      cut (forall m, sc (for_n m body s k) (bindio (asf_descriptors c m) K)); [intros L; apply L|] end.
    induction m as [|m IHm]; cbn [asf_descriptors].
    + cbn [for_n]. repeat drive.
    + rewrite for_n_S; cbv beta. strings. repeat drive.
Qed.
End Reader.
