(** from_cfb_reader: the text of /repo/src/readers.rs against the model. *)
From Coq Require Import NArith ZArith Bool String List Lia ZifyBool ZifyNat ZifyN.
From Verif Require Import Base BaseProofs Formats IO Find Utf8 Readers RustAst RustSem Source SourceProofs.
Import ListNotations.
Local Open Scope N_scope.
Section Reader.
Variables (c : plat) (on : string -> bool) (rounds : nat).
Variable X : N -> task (B := result FileFormat) -> prog (option (result FileFormat)).
Hypothesis HX : forall n i t, n = N.succ i -> X n t = go c on rounds false readers_fns (X i) t 60.
Hypothesis Hbits : 16 <= usize_bits c.
Lemma cfb_ok : sc (X 100 (TCall "from_cfb_reader" [VReader false] finish)) (from_cfb_reader c).
Proof using HX Hbits.
  enter. unfold from_cfb_reader. strings. cbn [lookup_str clsid_table]. repeat drive.
Qed.
End Reader.
