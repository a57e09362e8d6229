(** from_exe_reader, from_sqlite3_reader, from_xml_reader: the text of /repo/src/readers.rs against the model. *)
From Coq Require Import NArith ZArith Bool String List Lia ZifyBool ZifyNat ZifyN.
From Verif Require Import Base BaseProofs Formats IO Find Utf8 Readers RustAst RustSem Source SourceProofs.
Import ListNotations.
Local Open Scope N_scope.
Section Reader.
Variables (c : plat) (on : string -> bool) (rounds : nat).
Variable X : N -> task (B := result FileFormat) -> prog (option (result FileFormat)).
Hypothesis HX : forall n i t, n = N.succ i -> X n t = go c on rounds false readers_fns (X i) t 60.
Hypothesis Hbits : 16 <= usize_bits c.
Lemma exe_ok : sc (X 100 (TCall "from_exe_reader" [VReader false] finish)) (from_exe_reader c).
Proof using HX Hbits.
  enter. unfold from_exe_reader. strings. repeat drive.
Qed.
Lemma sqlite3_ok : sc (X 100 (TCall "from_sqlite3_reader" [VReader false] finish)) from_sqlite3_reader.
Proof using HX Hbits.
  enter. unfold from_sqlite3_reader, SKETCH_MARKER. strings. repeat drive.
Qed.
Lemma xml_ok : sc (X 100 (TCall "from_xml_reader" [VReader false] finish)) from_xml_reader.
Proof using HX Hbits.
  enter. unfold from_xml_reader. cbn [xml_chain xml_rules xeval bind_exec]. repeat drive.
Qed.
End Reader.
