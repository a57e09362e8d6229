(** from_pdf_reader: the text of /repo/src/readers.rs against the model. *)
From Coq Require Import NArith ZArith Bool String List Lia ZifyBool ZifyNat ZifyN.
From Verif Require Import Base BaseProofs Formats IO Find Utf8 Readers RustAst RustSem Source SourceProofs.
Import ListNotations.
Local Open Scope N_scope.
Lemma lenN_rotate (l : bytes) k : lenN (rotate_right k l) = lenN l.
Proof. unfold rotate_right. rewrite lenN_app, lenN_takeN, lenN_dropN. lia. Qed.
Ltac drive_pdf :=
  lazymatch goal with
  | |- sc (arith_sub _ _ (lenN ?l) 1 _) _ => apply sc_arith_sub; [vm_compute; discriminate|]; change (lenN l - 1) with 12; lbeta
  | |- sc (arith _ _ (12 + 32768) _) _ => change (12 + 32768) with 32780; apply sc_arith; [lia|lbeta]
  | Hl : lenN ?buf = 32780 |- sc (in_bounds (_ && (12 + lenN ?got <=? lenN (read_into 12 ?buf ?got))) _) _ =>
      change (takeN 12 buf ++ got ++ dropN (12 + lenN got) buf)%list with (read_into 12 buf got);
      let Hb := fresh "Hb" in assert (Hb : lenN (read_into 12 buf got) = 32780) by (rewrite lenN_read_into; lia);
      revert Hb; generalize (read_into 12 buf got); intros ? Hb
  | |- sc (fits _ USize _ _) _ => apply sc_fits; [cbn [width]; lia|]
  | IH : context [@while_n] |- sc (while_n _ _ _ _ _) _ => apply IH; clear IH; rewrite lenN_app, lenN_rotate, lenN_takeN, lenN_dropN; lia
  | _ => drive
  end.
Section Reader.
Variables (c : plat) (on : string -> bool) (rounds : nat).
Variable X : N -> task (B := result FileFormat) -> prog (option (result FileFormat)).
Hypothesis HX : forall n i t, n = N.succ i -> X n t = go c on rounds false readers_fns (X i) t 60.
Hypothesis Hbits : 32 <= usize_bits c.
Lemma pdf_ok : sc (X 100 (TCall "from_pdf_reader" [VReader false] finish)) (from_pdf_reader rounds).
Proof using HX Hbits.
  assert (Hbits16 : 16 <= usize_bits c) by lia.
  assert (Hpow : 4294967296 <= 2 ^ usize_bits c).
  { change 4294967296 with (2 ^ 32). apply N.pow_le_mono_r; lia. }
  enter. unfold from_pdf_reader. change (OVERLAP_SIZE + CHUNK_SIZE) with 32780. strings. 
  repeat drive_pdf. 
  lazymatch goal with |- sc (while_n _ ?cond ?body _ ?k) _ =>
    abstract_env_fun cond Hcond; abstract_env_fun body Hbody end.
  lazymatch goal with |- sc (while_n _ ?cond ?body ((?w, VNum 0) :: (?x, VBytes ?l) :: ?s) ?k) _ =>
    assert (L : forall n tot buf, lenN buf = 32780 -> 
      sc (while_n n cond body ((w, VU USize tot) :: (x, VBytes buf) :: s) k) (pdf_loop n tot buf)) end.
  { induction n as [|n IH]; intros tot buf Hlen; rewrite while_n_eq; cbv beta; cbn [pdf_loop]; unfold CHUNK_SIZE, PDF_READ_LIMIT; 
     change OVERLAP_SIZE with 12; change AI_MARKER with (bs "AIPrivateData"); strings.
    - repeat drive_pdf.
    - repeat drive_pdf. }
  generalize rounds; intros n. rewrite while_n_eq. destruct n as [|n]; cbn [pdf_loop]; unfold CHUNK_SIZE, PDF_READ_LIMIT;
     change OVERLAP_SIZE with 12; change AI_MARKER with (bs "AIPrivateData"); change (0 =? 0) with true; change (0 <? 33554432) with true; strings; cbv iota.
  - repeat drive_pdf.
  - repeat drive_pdf.
Qed.
End Reader.
