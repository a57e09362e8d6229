(** from_rm_reader: the text of /repo/src/readers.rs against the model. *)
From Coq Require Import NArith ZArith Bool String List Lia ZifyBool ZifyNat ZifyN.
From Verif Require Import Base BaseProofs Formats IO Find Utf8 Readers RustAst RustSem Source SourceProofs.
Import ListNotations.
Local Open Scope N_scope.
Section Reader.
Variables (c : plat) (on : string -> bool) (rounds : nat).
Variable X : N -> task (B := result FileFormat) -> prog (option (result FileFormat)).
Hypothesis HX : forall n i t, n = N.succ i -> X n t = go c on rounds true readers_fns (X i) t 60.
Hypothesis Hbits : 16 <= usize_bits c.
Lemma rm_ok : sc (X 100 (TCall "from_rm_reader" [VReader false] finish)) (from_rm_reader c).
Proof using HX Hbits.
  enter. unfold from_rm_reader. strings. repeat drive.
  rewrite N.sub_0_r.
  lazymatch goal with |- sc (for_n ?n0 ?body ((?x, VBool false) :: (?y, VBool false) :: ?s) ?k) _ =>
    cut (forall n v a, sc (for_n n body ((x, VBool v) :: (y, VBool a) :: s) k) (rm_chunks c n a v)); [intros L; apply L|] end.
  induction n as [|n IH]; intros v a; cbn [rm_chunks].
  - cbn [for_n]. destruct v, a; repeat drive.
  - rewrite for_n_S; cbv beta; strings; repeat drive.
Qed.
End Reader.
