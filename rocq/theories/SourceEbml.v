(** from_ebml_reader: the text of /repo/src/readers.rs against the model. *)
From Coq Require Import NArith ZArith Bool String List Lia ZifyBool ZifyNat ZifyN.
From Verif Require Import Base BaseProofs Formats IO Find Utf8 Readers RustAst RustSem Source SourceProofs.
Import ListNotations.
Local Open Scope N_scope.
Section Reader.
Variables (c : plat) (on : string -> bool) (rounds : nat).
Variable X : N -> task (B := result FileFormat) -> prog (option (result FileFormat)).
Hypothesis HX : forall n i t, n = N.succ i -> X n t = go c on rounds true readers_fns (X i) t 60.
Hypothesis Hbits : 16 <= usize_bits c.
Hypothesis Hrounds : (256 <= rounds)%nat.
Lemma ebml_ok : sc (X 200 (TCall "from_ebml_reader" [VReader false] finish)) (from_ebml_reader c).
Proof using HX Hbits Hrounds.
  enter. unfold from_ebml_reader. strings. repeat drive.
  assert (Hr : exists r, rounds = (256 + r)%nat) by (exists (rounds - 256)%nat; lia). destruct Hr as [r ->].
  lazymatch goal with |- sc (while_n _ ?cond ?body _ ?k) _ =>
    abstract_env_fun cond Hcond; abstract_env_fun body Hbody end.
  lazymatch goal with |- sc (while_n _ ?cond ?body ((?w, VNum 0) :: (?x, VBool false) :: (?y, VBool false) :: (?z, VBool false) :: ?s) ?k) (ebml_elements c ?len _ _ _ _) =>
    cut (forall n i u v a, i + N.of_nat n = 256 ->
      sc (while_n (n + r) cond body ((w, VNum i) :: (x, VBool u) :: (y, VBool v) :: (z, VBool a) :: s) k) (ebml_elements c len n a v u));
      [intros L; apply L; reflexivity|] end.
  induction n as [|n IH]; intros i u v a Hi; rewrite while_n_eq; cbv beta; cbn [ebml_elements Nat.add].
  - replace i with 256 by lia. repeat drive.
  - strings. unfold read_ebml_id, read_ebml_size. repeat drive.
    all: lazymatch goal with |- sc (for_n _ ?body _ _) _ => abstract_env_fun body Hbody2 end.
    lazymatch goal with |- sc (for_n ?n0 ?body ((?x, VU U32 _) :: ?s) ?k) (bindp (read_shift_bytes u32_max1 ?n1 _) ?K) =>
      assert (L : (forall v, sc (k ((x, VU U32 v) :: s)) (K (Ok v))) -> forall m v, sc (for_n m body ((x, VU U32 v) :: s) k) (bindp (read_shift_bytes u32_max1 m v) K)) end.
    { intros HK. induction m as [|m IHm]; intros v0; cbn [read_shift_bytes].
      - cbn [for_n]. apply HK.
      - rewrite for_n_S. repeat drive. }
    apply L; clear L. intros id. cbv beta. clear Hbody2. repeat drive.
    lazymatch goal with |- sc (for_n _ ?body _ _) _ => abstract_env_fun body Hbody2 end.
    lazymatch goal with |- sc (for_n ?n0 ?body ((?x, VU U64 _) :: ?s) ?k) (bindp (read_shift_bytes u64_max1 ?n1 _) ?K) =>
      assert (L : (forall v, sc (k ((x, VU U64 v) :: s)) (K (Ok v))) -> forall m v, sc (for_n m body ((x, VU U64 v) :: s) k) (bindp (read_shift_bytes u64_max1 m v) K)) end.
    { intros HK. induction m as [|m IHm]; intros v0; cbn [read_shift_bytes].
      - cbn [for_n]. apply HK.
      - rewrite for_n_S. repeat drive. }
    apply L; clear L. intros size. cbv beta. 
    unfold EBML_ELEMENT_ID, SEGMENT_ELEMENT_ID, TRACKS_ELEMENT_ID, TRACK_ENTRY_ELEMENT_ID, VIDEO_ELEMENT_ID, DOC_TYPE_ELEMENT_ID,
      CODEC_ID_ELEMENT_ID, STEREO_MODE_ELEMENT_ID, CLUSTER_ELEMENT_ID. repeat drive.
Qed.
End Reader.
