(** from_txt_reader: the text of /repo/src/readers.rs against the model. *)
From Coq Require Import NArith ZArith Bool String List Lia ZifyBool ZifyNat ZifyN.
From Verif Require Import Base BaseProofs Formats IO Find Utf8 Readers RustAst RustSem Source SourceProofs.
Import ListNotations.
Local Open Scope N_scope.
(** For any caller: the result is given to [k]. *)
Section Call.
Context {B : Type}.
Variables (c : plat) (on : string -> bool) (rounds : nat).
Variable X : N -> task (B := B) -> prog (option B).
Hypothesis HX : forall n i t, n = N.succ i -> X n t = go c on rounds true readers_fns (X i) t 60.
Hypothesis Hbits : 16 <= usize_bits c.
Lemma txt_call_ok k (K : result FileFormat -> prog B) :
  (forall f, sc (k (VOk (VFmt f))) (K (Ok f))) -> (forall e, sc (k (VErr e)) (K (Err e))) ->
  sc (X 100 (TCall "from_txt_reader" [VReader false] k)) (bindp from_txt_reader K).
Proof using HX Hbits.
  intros Hok Herr.
  enter. unfold from_txt_reader. strings. repeat drive.
  2: apply Herr.
  lazymatch goal with |- sc (each_line ?n ?lim ?g ?k) (bindp (txt_lines ?n' _) _) =>
    abstract_env_fun g Hg; change n with n' end.
  lazymatch goal with |- sc (each_line _ _ ?g ?k) _ =>
    cut (forall n lim, sc (each_line n lim g k) (bindp (txt_lines n lim) K)); [intros L; apply L|] end.
  induction n as [|n IH]; intros lim; cbn [txt_lines each_line].
  - repeat drive. apply Hok.
  - rhs. apply sc_read_line; [reflexivity| |].
    + intros line. cbn [on_io]. rhs. destruct line as [|x line]; [repeat drive; apply Hok|].
      destruct (utf8_strict (x :: line)) as [chars|].
      * repeat drive.
        lazymatch goal with |- sc (find_char ?g _ ?k) _ =>
          abstract_env_fun g Hfind; fold bad_char end.
        lazymatch goal with |- sc (find_char ?g _ ?k) (bindp (if existsb bad_char _ then _ else ?q) K) =>
          cut (forall l, sc (find_char g l k) (bindp (if existsb bad_char l then err EInvalidData else q) K)); [intros L; apply L|] end.
        induction l as [|ch l IHl]; cbn [find_char existsb].
        -- repeat drive. apply IH.
        -- unfold bad_char at 1. repeat drive. all: try exact IHl. all: apply Herr.
      * repeat drive. apply Herr.
    + intros e. cbn [on_io]. rhs. repeat drive. apply Herr.
Qed.
End Call.
