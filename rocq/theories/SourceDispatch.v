(** from_fmt_reader and from_generic_reader: the text of /repo/src/readers.rs against the model. *)
From Coq Require Import NArith ZArith Bool String List Lia ZifyBool ZifyNat ZifyN.
From Verif Require Import Base BaseProofs Formats FormatsProofs IO Find Utf8 Readers Lib LibProofs RustAst RustSem Source SpecCargo SourceProofs
  SourceReaders SourceCfb SourceRm SourceAsf SourceMp4 SourceEbml SourceTxt SourceId3 SourcePdf SourceZip Documented.
Import ListNotations.
Local Open Scope N_scope.
Lemma sc_arm {B} (on : string -> bool) x (f g : FileFormat) (a p : prog (option B)) q :
  (on x = true -> f = g -> sc a q) -> (~ (on x = true /\ f = g) -> sc p q) ->
  sc (if feature_on on x then if fmt_index f =? fmt_index g then a else p else p) q.
Proof.
  unfold feature_on. intros H1 H2. destruct (on x); [|apply H2; intros [K _]; discriminate K].
  destruct (N.eqb_spec (fmt_index f) (fmt_index g)) as [E|E]; [apply H1; [reflexivity|now apply fmt_index_inj]|].
  apply H2. intros [_ ->]. now apply E.
Qed.
Lemma sc_ret_eq {B} (b : B) q : q = Ret b -> sc (Ret (Some b)) q.
Proof. intros ->. constructor. Qed.
(** A later start. *)
Lemma shift_hyp {B} c on rounds b (X : N -> task (B := B) -> prog (option B)) d :
  (forall n i t, n = N.succ i -> X n t = go c on rounds b readers_fns (X i) t 60) ->
  forall n i t, n = N.succ i -> (fun m => X (m + d)) n t = go c on rounds b readers_fns ((fun m => X (m + d)) i) t 60.
Proof. intros H n i t ->. apply H. lia. Qed.
Ltac use lem lvl :=
  lazymatch goal with |- sc (?X ?n _) _ =>
    let d := eval vm_compute in (n - lvl) in
    lazymatch goal with HX : (forall n i t, n = N.succ i -> X n t = _) |- _ =>
    let H := fresh in pose proof (lem (fun m => X (m + d)) (shift_hyp _ _ _ _ _ d HX)) as H; cbv beta in H;
    change (lvl + d) with n in H; clear HX
    end
  end;
  match goal with H : context [sc] |- _ => apply H end; first [assumption | lia].
Section Dispatch.
Variables (c : cfg) (on : string -> bool) (rounds : nat).
Hypothesis Hon : forall x, on (feature_name x) = feat c x.
Hypothesis Hbits : 32 <= usize_bits c.
Hypothesis Hrounds : (256 <= rounds)%nat.

Definition dispatched (f : FileFormat) : io FileFormat := match fmt_reader c rounds f with Some p => p | None => ok f end.
Lemma dispatched_eq f : dispatched f =
  match feature_of f with Some x => if feat c x then reader_of c rounds x else ok f | None => ok f end.
Proof.
  unfold dispatched, fmt_reader. destruct f; cbn [feature_of]; try reflexivity;
    match goal with |- context [feat c ?x] => destruct (feat c x); reflexivity end.
Qed.

Variable f : FileFormat.
Variable X : N -> task (B := result FileFormat) -> prog (option (result FileFormat)).
Hypothesis HX : forall n i t, n = N.succ i -> X n t = go c on rounds (uses_bufreader f) readers_fns (X i) t 60.
Lemma fmt_reader_ok : sc (X 400 (TCall "from_fmt_reader" [VFmt f; VReader false] finish)) (dispatched f).
Proof using HX Hbits Hrounds Hon.
  enter. 
  assert (Hbits16 : 16 <= usize_bits c) by lia.
  assert (E : forall x, on (feature_name x) = true -> feature_of f = Some x -> dispatched f = reader_of c rounds x).
  { intros x Hx Hf. rewrite dispatched_eq, Hf, <- Hon, Hx. reflexivity. }
  Ltac arm x lem lvl := 
    lazymatch goal with |- sc (if feature_on ?on ?s then _ else _) _ => apply (sc_arm on s) end; 
      [let Ho := fresh in let Hf := fresh in intros Ho Hf;
       match goal with E : (forall x, _ -> _ -> dispatched _ = _) |- _ => rewrite (E x Ho ltac:(rewrite Hf; reflexivity)) end;
       step; cbn [reader_of];
       match goal with HX : context [go] |- _ => rewrite Hf in HX; cbn [uses_bufreader] in HX end;
       use lem lvl
      |let Hn := fresh "Hn" in intros Hn; step].
  arm FAsf (asf_ok c on rounds) 200.
  arm FCfb (cfb_ok c on rounds) 100.
  arm FEbml (ebml_ok c on rounds) 200.
  arm FExe (exe_ok c on rounds) 100.
  arm FId3v2 (id3v2_ok c on rounds) 100.
  arm FMp4 (mp4_ok c on rounds) 200.
  arm FPdf (pdf_ok c on rounds) 100.
  arm FRm (rm_ok c on rounds) 100.
  arm FSqlite3 (sqlite3_ok c on rounds) 100.
  arm FXml (xml_ok c on rounds) 100.
  arm FZip (zip_ok c on rounds) 200.
  step. clear E. apply sc_ret_eq. rewrite dispatched_eq. destruct (feature_of f) as [x|] eqn:E; [|reflexivity].
  destruct (feat c x) eqn:Ex; [|reflexivity]. exfalso. apply feature_of_some in E. destruct E as [E Ht]. rewrite <- Hon in Ex.
  destruct x; cbn [container] in E; try (now apply Ht); unfold feature_name in Ex; cbn [append] in Ex; tauto.
Qed.
End Dispatch.

(** from_generic_reader gives a format, never an error. *)
Definition finish_format (v : value) : prog (option FileFormat) := match v with VFmt f => Ret (Some f) | _ => stuck end.
Section Generic.
Variables (c : cfg) (on : string -> bool) (rounds : nat).
Hypothesis Hon : forall x, on (feature_name x) = feat c x.
Hypothesis Hbits : 32 <= usize_bits c.
Definition dispatched_generic : prog FileFormat :=
  if feat c FTxt then bindp from_txt_reader (fun r => Ret (match r with Ok f => f | Err _ => default_format end)) else Ret default_format.
Variable X : N -> task (B := FileFormat) -> prog (option FileFormat).
Hypothesis HX : forall n i t, n = N.succ i -> X n t = go c on rounds true readers_fns (X i) t 60.
Lemma generic_reader_ok : sc (X 400 (TCall "from_generic_reader" [VReader false] finish_format)) dispatched_generic.
Proof using HX Hbits Hon.
  assert (Hbits16 : 16 <= usize_bits c) by lia. unfold dispatched_generic. rewrite <- Hon.
  enter. change (feature_on on "reader-txt") with (on (feature_name FTxt)). destruct (on (feature_name FTxt)); [|apply sc_ret].
  pose proof (txt_call_ok c on rounds (fun m => X (m + 299)) (shift_hyp _ _ _ _ _ 299 HX) Hbits16) as H. cbv beta in H.
  change (100 + 299) with 399 in H. clear HX. apply H.
  - intros f. apply sc_ret.
  - intros e. apply sc_ret.
Qed.
End Generic.
