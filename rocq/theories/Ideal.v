(** from_reader on a benign device is determined by the content of the stream, the bytes of the
    first read and the largest seek offset: reduction to the ideal reader of Mem.v. *)
From Coq Require Import NArith ZArith Bool String List Lia ZifyBool ZifyNat ZifyN.
From Verif Require Import Base BaseProofs Formats FormatsProofs Signatures IO Find FindProofs Utf8
  Readers Lib Mem IOProofs Documented Static ReaderStatic Lawful LibProofs.
Local Open Scope N_scope.

(** ** Every reader starts with an absolute seek *)

Definition absolute (w : whence) : Prop :=
  match w with FromStart _ | FromEnd _ => True | FromCurrent _ => False end.
Definition abs_start {A} (p : io A) : Prop :=
  match p with
  | PSeek w k => absolute w /\ forall e, exists e', k (Err e) = Ret (Err e')
  | _ => False
  end.

Lemma reader_abs c fuel x : abs_start (reader_of c fuel x).
Proof.
  destruct x; cbn [reader_of].
  5:{ destruct fuel; cbn; (split; [exact I|]); intros; eexists; reflexivity. }
  all: cbn; (split; [exact I|]); intros; eexists; reflexivity.
Qed.

Lemma abs_start_pos {A} content max (p : io A) pos pos' : abs_start p ->
  fst (mrun content max p pos) = fst (mrun content max p pos').
Proof.
  destruct p as [a| | |n k|n k|n k|w k|k|n k]; cbn [abs_start]; try contradiction.
  intros [Hw Hk]. unfold mrun. cbn [run mem_machine m_seek].
  unfold mem_seek.
  replace (seek_target (lenN content) pos w) with (seek_target (lenN content) pos' w)
    by (destruct w; [reflexivity|contradiction|reflexivity]).
  destruct (_ || _); [|reflexivity].
  destruct (Hk EInvalidInput) as [e' ->]. reflexivity.
Qed.

(** ** The ideal detection *)

Definition mreader (c : plat) (content : bytes) (max : N) (x : feature) : exec (result FileFormat) :=
  fst (mrun content max (reader_of c (S (List.length content)) x) 0).

Definition ideal_generic (c : cfg) (content : bytes) (max : N) : exec FileFormat :=
  if feat c FTxt then
    match mreader c content max FTxt with
    | Done (Ok f) => Done f
    | Done (Err _) => Done ArbitraryBinaryData
    | Panicked => Panicked
    | OutOfFuel => OutOfFuel
    end
  else Done ArbitraryBinaryData.

Definition ideal_detect (c : cfg) (content : bytes) (max : N) (buf : bytes) : exec FileFormat :=
  match buf with
  | [] => Done Empty
  | _ =>
      match from_signature buf with
      | None => ideal_generic c content max
      | Some f =>
          match feature_of f with
          | None => Done f
          | Some x =>
              if feat c x then
                match mreader c content max x with
                | Done (Ok g) => Done g
                | Done (Err _) => ideal_generic c content max
                | Panicked => Panicked
                | OutOfFuel => OutOfFuel
                end
              else Done f
          end
      end
  end.

Definition okexec {A} (e : exec A) : exec (result A) :=
  match e with Done a => Done (Ok a) | Panicked => Panicked | OutOfFuel => OutOfFuel end.

(** ** Readers on benign devices *)

Lemma reader_no_read c fuel x : wf_cfg c -> ~ uses_read x -> no_read (reader_of c fuel x).
Proof.
  intros Hc Hx. eapply wp_no_read; [|apply (reader_static c fuel x Hc)]. exact Hx.
Qed.
Lemma reader_no_line c fuel x : wf_cfg c -> ~ uses_line x -> no_line (reader_of c fuel x).
Proof.
  intros Hc Hx. eapply wp_no_line; [|apply (reader_static c fuel x Hc)]. exact Hx.
Qed.

Definition good (content : bytes) (max : N) (d : dev) : Prop :=
  benign content max d /\ d_pos d <= max.

Lemma good_raw content max d : good content max d -> Rraw content max d (d_pos d).
Proof. intros [H1 H2]. repeat split; auto; apply H1. Qed.

Lemma run_reader_ideal c content max x d : wf_cfg c -> max < u64_max1 -> good content max d ->
  ~ uses_read x \/ d_reads d = [] ->
  exists d', run_reader c (S (List.length content)) x d = (mreader c content max x, d') /\
             good content max d'.
Proof.
  intros Hc Hmax Hg Hx. pose proof (good_raw _ _ _ Hg) as HR.
  unfold run_reader, mreader. set (fuel := S (List.length content)).
  rewrite (abs_start_pos content max _ 0 (d_pos d) (reader_abs c fuel x)).
  destruct (buffered x) eqn:Eb.
  - destruct (buf_refines_prog content max Hmax (reader_of c fuel x)
                (reader_no_read c fuel x Hc ltac:(destruct x; cbn; auto; discriminate Eb))
                d (d_pos d) HR) as (d' & E & Hb & Hp).
    exists d'. split; [exact E|]. split; assumption.
  - assert (Hln : ~ uses_line x) by (destruct x; cbn; auto; discriminate Eb).
    destruct Hx as [Hx|Hq].
    + destruct (raw_refines_prog content max Hmax (reader_of c fuel x)
                  (reader_no_read c fuel x Hc Hx) (reader_no_line c fuel x Hc Hln)
                  d (d_pos d) HR) as (d' & E & Hb & Hp & Hm).
      exists d'. split; [exact E|]. split; [exact Hb|]. rewrite Hp. exact Hm.
    + destruct (raw_quiet_prog content max Hmax (reader_of c fuel x)
                  (reader_no_line c fuel x Hc Hln) d (d_pos d) (conj HR Hq))
        as (d' & E & (Hb & Hp & Hm) & _).
      exists d'. split; [exact E|]. split; [exact Hb|]. rewrite Hp. exact Hm.
Qed.

Lemma generic_ideal (c : cfg) content max d : wf_cfg c -> max < u64_max1 -> good content max d ->
  exists d', from_generic_reader c d = (ideal_generic c content max, d') /\ good content max d'.
Proof.
  intros Hc Hmax Hg. unfold from_generic_reader, ideal_generic.
  destruct (feat c FTxt); [|exists d; split; [reflexivity|exact Hg]].
  destruct (run_reader_ideal c content max FTxt d Hc Hmax Hg ltac:(left; cbn; auto))
    as (d' & E & Hg').
  unfold run_reader in E. cbn [buffered reader_of] in E. rewrite E.
  exists d'. split; [|exact Hg'].
  destruct (mreader c content max FTxt) as [[f|e]| |]; reflexivity.
Qed.

(** The reader a detection runs, if any: its container's feature must be enabled. *)
Definition runs_reader (c : cfg) (buf : bytes) (x : feature) : Prop :=
  exists f, from_signature buf = Some f /\ feature_of f = Some x /\ feat c x = true.

Lemma from_reader_ideal (c : cfg) content max d buf d1 :
  wf_cfg c -> max < u64_max1 -> good content max d1 -> d_content d = content ->
  dev_read window d = (Ok buf, d1) ->
  (forall x, runs_reader c buf x -> uses_read x -> d_reads d1 = []) ->
  exists d2, from_reader c d = (okexec (ideal_detect c content max buf), d2).
Proof.
  intros Hc Hmax Hg Hcont Eread Hq. unfold from_reader, ideal_detect. rewrite Eread, Hcont.
  destruct buf as [|b buf']; [eexists; reflexivity|]. remember (b :: buf') as buf eqn:Ebuf.
  clear Ebuf b buf'.
  assert (Hgen : forall d2, good content max d2 -> exists d4,
     (match from_generic_reader c d2 with
      | (Done f, d3) => (Done (Ok f), d3)
      | (Panicked, d3) => (Panicked, d3)
      | (OutOfFuel, d3) => (OutOfFuel, d3)
      end) = (okexec (ideal_generic c content max), d4)).
  { intros d2 Hd2. destruct (generic_ideal c content max d2 Hc Hmax Hd2) as (d3 & E & _).
    rewrite E. exists d3. destruct (ideal_generic c content max); reflexivity. }
  destruct (from_signature buf) as [f|] eqn:Esig; [|apply Hgen; exact Hg].
  rewrite from_fmt_reader_eq.
  destruct (feature_of f) as [x|] eqn:Ef; [|eexists; reflexivity].
  destruct (feat c x) eqn:Efx; [|eexists; reflexivity].
  destruct (run_reader_ideal c content max x d1 Hc Hmax Hg) as (d2 & E & Hg2).
  { assert (Hr : runs_reader c buf x) by (exists f; auto).
    destruct x; cbn; auto; right; exact (Hq _ Hr I). }
  unfold run_reader in E. rewrite E.
  destruct (mreader c content max x) as [[g|e]| |]; try (eexists; reflexivity).
  apply Hgen. exact Hg2.
Qed.

(** ** from_bytes and from_file *)

Lemma cursor_ideal (c : cfg) l max : wf_cfg c -> lenN l <= max -> max < u64_max1 ->
  fst (from_reader c (file_dev l max)) = okexec (ideal_detect c l max (takeN window l)).
Proof.
  intros Hc Hlen Hmax.
  assert (Hl : lenN (takeN window l) <= lenN l) by (rewrite lenN_takeN; lia).
  destruct (from_reader_ideal c l max (file_dev l max) (takeN window l)
    (mkdev l (lenN (takeN window l)) [] [] max) Hc Hmax) as (d2 & E).
  - split; [|cbn; lia]. constructor; cbn; auto.
  - reflexivity.
  - unfold dev_read, file_dev, avail. cbn [d_reads d_content d_pos d_max d_seeks].
    rewrite dropN_0, N.add_0_l. reflexivity.
  - reflexivity.
  - rewrite E. reflexivity.
Qed.

Lemma from_bytes_ideal (c : cfg) l : wf_cfg c -> lenN l < u64_max1 ->
  from_bytes c l = ideal_detect c l (u64_max1 - 1) (takeN window l).
Proof.
  intros Hc Hlen. unfold from_bytes.
  change (cursor l) with (file_dev l (u64_max1 - 1)).
  rewrite cursor_ideal by (unfold u64_max1 in *; lia || assumption).
  destruct (ideal_detect c l (u64_max1 - 1) (takeN window l)); reflexivity.
Qed.
