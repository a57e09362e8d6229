(** from_mp4_reader: the text of /repo/src/readers.rs against the model. *)
From Coq Require Import NArith ZArith Bool String List Lia ZifyBool ZifyNat ZifyN.
From Verif Require Import Base BaseProofs Formats IO Find Utf8 Readers RustAst RustSem Source SourceProofs.
Import ListNotations.
Local Open Scope N_scope.
Section Reader.
Variables (c : plat) (on : string -> bool) (rounds : nat).
Variable X : N -> task (B := result FileFormat) -> prog (option (result FileFormat)).
Hypothesis HX : forall n i t, n = N.succ i -> X n t = go c on rounds true readers_fns (X i) t 60.
Hypothesis Hbits : 16 <= usize_bits c.
Hypothesis Hrounds : (256 <= rounds)%nat.
Lemma mp4_ok : sc (X 200 (TCall "from_mp4_reader" [VReader false] finish)) (from_mp4_reader c).
Proof using HX Hbits Hrounds.
  enter. unfold from_mp4_reader. strings. repeat drive.
  assert (Hr : exists r, rounds = (256 + r)%nat) by (exists (rounds - 256)%nat; lia). destruct Hr as [r ->].
  lazymatch goal with |- sc (while_n _ ?cond ?body _ ?k) _ =>
    abstract_env_fun cond Hcond; abstract_env_fun body Hbody end.
  lazymatch goal with |- sc (while_n _ ?cond ?body ((?w, VNum 0) :: (?x, VBool false) :: (?y, VBool false) :: (?z, VBool false) :: ?s) ?k) (mp4_boxes c ?len _ _ _ _) =>
    cut (forall n i u v a, i + N.of_nat n = 256 ->
      sc (while_n (n + r) cond body ((w, VNum i) :: (x, VBool u) :: (y, VBool v) :: (z, VBool a) :: s) k) (mp4_boxes c len n a v u));
      [intros L; apply L; reflexivity|] end.
  induction n as [|n IH]; intros i u v a Hi; rewrite while_n_eq; cbv beta; cbn [mp4_boxes Nat.add].
  - replace i with 256 by lia. repeat drive.
  - strings. repeat drive.
Qed.
End Reader.
