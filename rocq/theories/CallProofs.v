(** The calls from_reader makes. *)
From Coq Require Import NArith ZArith Bool String List Lia ZifyBool ZifyNat ZifyN.
From Verif Require Import Base BaseProofs Formats FormatsProofs Signatures IO Find FindProofs Utf8 Readers Lib Mem IOProofs
  Documented Static ReaderStatic Lawful LibProofs SpecIo Cost ReaderCost.
Local Open Scope N_scope.

Lemma pdf_loop_prompt content : forall fuel total buf d, Idev content d -> prompt_in content (d_reads d) ->
  spent content d (snd (run raw_machine (pdf_loop fuel total buf) d)) 0 ((PDF_READ_LIMIT - total + 32767) / 32768 + 1) (PDF_READ_LIMIT - total) /\
  (done_dev content d -> spent content d (snd (run raw_machine (pdf_loop fuel total buf) d)) 0 1 (PDF_READ_LIMIT - total)).
Proof.
  induction fuel as [|fuel IH]; intros total buf d HI Hp; cbn [pdf_loop];
    (destruct (N.ltb_spec total PDF_READ_LIMIT) as [Hlt|Hlt]; [|split; intros; apply spent_refl]);
    unfold read, bindio; cbn [bindp run m_read raw_machine];
    pose proof (dev_read_spent content CHUNK_SIZE d HI) as H;
    pose proof (dev_read_law content CHUNK_SIZE d HI ltac:(reflexivity)) as [Hl _];
    destruct (dev_read CHUNK_SIZE d) as [[chunk|e] d'];
    try (cbn [run snd]; split; intros;
         (destruct e; try (eapply spent_mono; [exact H|lia|lia|lia]); destruct H as [H _]; eapply spent_mono; [exact H|lia|lia|lia]));
    destruct H as (Hsp & Hshort & Hnil); destruct Hl as (HI' & Hlen & _);
    assert (Hstop : spent content d d' 0 ((PDF_READ_LIMIT - total + 32767) / 32768 + 1) (PDF_READ_LIMIT - total) /\
      (done_dev content d -> spent content d d' 0 1 (PDF_READ_LIMIT - total)))
      by (split; intros; (eapply spent_mono; [exact Hsp|lia|lia|lia]));
    cbn zeta; (destruct (N.eqb_spec (lenN chunk) 0) as [|Hne]; [exact Hstop|]);
    match goal with |- context [lift_exec ?e] => destruct e as [[|]| |]; cbn [lift_exec bindp]; try exact Hstop end.
  split.
  - assert (Hp' : prompt_in content (d_reads d')) by (eapply spent_prompt; eauto).
    match goal with |- context [pdf_loop fuel ?t ?b] => destruct (IH t b d' HI' Hp') as [IHa IHd] end.
    unfold CHUNK_SIZE in *.
    destruct (N.eq_dec (lenN chunk) 32768) as [Hfull|Hsh].
    + eapply spent_trans; [exact Hsp|exact IHa|lia| |lia].
      replace (PDF_READ_LIMIT - total + 32767) with (PDF_READ_LIMIT - total - 1 + 1 * 32768) by lia.
      rewrite N.div_add by discriminate.
      assert ((PDF_READ_LIMIT - (total + lenN chunk) + 32767) / 32768 <= (PDF_READ_LIMIT - total - 1) / 32768 + 0).
      { rewrite N.add_0_r. destruct (N.le_gt_cases (PDF_READ_LIMIT - total) 32768).
        - replace (PDF_READ_LIMIT - (total + lenN chunk)) with 0 by lia. change ((0 + 32767) / 32768) with 0. lia.
        - apply N.div_le_mono; [discriminate|]. lia. }
      lia.
    + eapply spent_trans; [exact Hsp|apply IHd; apply Hshort; [exact Hp|lia]|lia| |lia].
      assert (1 <= (PDF_READ_LIMIT - total + 32767) / 32768) by (apply N.div_le_lower_bound; lia). lia.
  - intros Hd. destruct (Hnil Hd) as [-> _]. now contradiction Hne.
Qed.

Definition spent_limits (content : bytes) (d d' : dev) (x : feature) : Prop :=
  let '(s, f, g) := limits x (lenN content) in spent content d d' s f g.

Lemma wpcio_wpc {A} (m : io A) s f g : wpcio m s f g (fun _ _ _ _ => True) -> wpc m s f g (fun _ _ _ _ => True).
Proof. unfold wpcio. apply wpc_mono. auto. Qed.

Lemma run_reader_spent c content x d : wf_cfg c -> Idev content d ->
  spent_limits content d (snd (run_reader c (S (List.length content)) x d)) x.
Proof.
  intros Hc HI.
  assert (Hb : forall s f g s', buffered x = true -> wpcio (reader_of c (S (List.length content)) x) s f g (fun _ _ _ _ => True) ->
     s' = 2 * s -> spent content d (snd (run_reader c (S (List.length content)) x d)) s' f g).
  { intros s f g s' Hx H ->. unfold run_reader. rewrite Hx. unfold run_buf.
    pose proof (run_buf_spent content _ s f g (wpcio_wpc _ _ _ _ H) (mkbdev d []) HI) as [_ Hs].
    destruct (run buf_machine _ (mkbdev d [])) as [r t]. exact Hs. }
  assert (Hr : forall s f g, buffered x = false -> wpcio (reader_of c (S (List.length content)) x) s f g (fun _ _ _ _ => True) ->
     spent content d (snd (run_reader c (S (List.length content)) x d)) s f g).
  { intros s f g Hx H. unfold run_reader. rewrite Hx. unfold run_raw.
    assert (Hnl : no_line (reader_of c (S (List.length content)) x)).
    { eapply (wp_no_line (sp c x)); [|exact (reader_static c _ x Hc)]. destruct x; cbn; try tauto. discriminate. }
    exact (proj2 (run_raw_spent content _ Hnl s f g (wpcio_wpc _ _ _ _ H) d HI)). }
  unfold spent_limits, lenN. destruct x; cbn [limits].
  - apply (Hb 16898); [reflexivity| |reflexivity]. apply asf_cost; lia.
  - apply Hr; [reflexivity|]. apply cfb_cost; lia.
  - apply (Hb 514); [reflexivity| |reflexivity]. apply ebml_cost; lia.
  - apply Hr; [reflexivity|]. apply exe_cost; lia.
  - apply Hr; [reflexivity|]. apply id3v2_cost; lia.
  - apply (Hb 770); [reflexivity| |reflexivity]. apply mp4_cost; lia.
  - eapply spent_combine.
    + apply Hr; [reflexivity|]. apply (pdf_cost _ 1 PDF_READ_LIMIT 33554432); unfold PDF_READ_LIMIT; lia.
    + intros Hp. unfold run_reader. cbn [buffered reader_of]. unfold run_raw, from_pdf_reader, seek, bindio.
      cbn [bindp run m_seek raw_machine].
      pose proof (dev_seek_spent content (FromStart 5) d) as Hs.
      pose proof (dev_seek_law content (FromStart 5) d HI) as [_ HI'].
      destruct (dev_seek (FromStart 5) d) as [[p|e] d']; cbn [snd] in *.
      * eapply spent_trans; [exact Hs| | | |].
        { exact (proj1 (pdf_loop_prompt content (S (List.length content)) 0 _ d' HI' (spent_prompt _ _ _ _ _ _ Hs Hp))). }
        { lia. }
        { vm_compute. discriminate. }
        { vm_compute. discriminate. }
      * cbn [run]. eapply spent_mono; [exact Hs|lia|lia|lia].
  - apply (Hb 321); [reflexivity| |reflexivity]. apply rm_cost; lia.
  - apply Hr; [reflexivity|]. apply sqlite3_cost; lia.
  - apply (Hb 1); [reflexivity| |reflexivity]. apply txt_cost; lia.
  - apply Hr; [reflexivity|]. apply xml_cost; lia.
  - apply (Hb 3081); [reflexivity| |reflexivity]. apply zip_cost; lia.
Qed.

Lemma generic_spent (c : cfg) content d : wf_cfg c -> Idev content d ->
  spent_limits content d (snd (from_generic_reader c d)) FTxt.
Proof.
  intros Hc HI. unfold from_generic_reader. destruct (feat c FTxt).
  - pose proof (run_reader_spent c content FTxt d Hc HI) as H. unfold run_reader in H. cbn [buffered reader_of] in H.
    destruct (run_buf from_txt_reader d) as [[[f|e]| |] d']; exact H.
  - apply spent_refl.
Qed.

Definition budget (x : option feature) (len : N) : N * N * N :=
  let '(s0, f0, g0) := limits FTxt len in
  match x with
  | Some x => let '(s, f, g) := limits x len in (s + s0, 1 + f + f0, 1 + g + g0)
  | None => (s0, 1 + f0, 1 + g0)
  end.

(** The container the first read found, if its reader is enabled. *)
Definition chosen (c : cfg) (d : dev) : option feature :=
  match fst (dev_read window d) with
  | Ok buf => match from_signature buf with
              | Some f => match feature_of f with Some x => if feat c x then Some x else None | None => None end
              | None => None end
  | Err _ => None
  end.

Lemma from_reader_spent (c : cfg) d : wf_cfg c -> d_max d < u64_max1 ->
  let '(s, f, g) := budget (chosen c d) (lenN (d_content d)) in
  spent (d_content d) d (snd (from_reader c d)) s f g.
Proof.
  intros Hc Hmax. set (content := d_content d).
  assert (HI : Idev content d) by (split; auto).
  assert (Hw : spent content d (snd (dev_read window d)) 0 1 1).
  { pose proof (dev_read_spent content window d HI) as H. destruct (dev_read window d) as [[l|[]] d']; cbn [snd] in *;
      first [exact H|destruct H as [H _]; eapply spent_mono; [exact H|lia|lia|lia]]. }
  pose proof (dev_read_content content window d HI) as HI1.
  unfold chosen, from_reader. fold content.
  destruct (dev_read window d) as [[buf|e] d1]; cbn [fst snd] in *.
  2:{ unfold budget. cbn [limits]. eapply spent_mono; [exact Hw|lia|lia|lia]. }
  assert (Hgen : forall d2, Idev content d2 ->
    spent content d2 (snd (match from_generic_reader c d2 with
        | (Done f, d3) => (Done (Ok f), d3)
        | (Panicked, d3) => (Panicked, d3)
        | (OutOfFuel, d3) => (OutOfFuel, d3)
        end)) 2 160 1048576).
  { intros d2 HI2. pose proof (generic_spent c content d2 Hc HI2) as H. unfold spent_limits in H. cbn [limits] in H.
    destruct (from_generic_reader c d2) as [[f| |] d3]; exact H. }
  destruct buf as [|b buf'].
  { cbn [snd]. destruct (match from_signature [] with Some f => _ | None => _ end) as [x|]; unfold budget;
      [destruct (limits x (lenN content)) as [[s f] g] eqn:El|]; cbn [limits]; (eapply spent_mono; [exact Hw|lia|lia|lia]). }
  remember (b :: buf') as buf eqn:Eb. clear Eb.
  destruct (from_signature buf) as [f|].
  2:{ unfold budget. cbn [limits]. eapply spent_trans; [exact Hw|apply Hgen; exact HI1|lia|lia|lia]. }
  rewrite from_fmt_reader_eq.
  destruct (feature_of f) as [x|] eqn:Ef.
  2:{ unfold budget. cbn [limits snd]. eapply spent_mono; [exact Hw|lia|lia|lia]. }
  destruct (feat c x).
  2:{ unfold budget. cbn [limits snd]. eapply spent_mono; [exact Hw|lia|lia|lia]. }
  pose proof (run_reader_spent c content x d1 Hc HI1) as Hx. unfold spent_limits in Hx.
  assert (HI2 : Idev content (snd (run_reader c (S (List.length content)) x d1))).
  { unfold run_reader. destruct (buffered x).
    - unfold run_buf. pose proof (wp_sound buf_machine (Ibuf content) (sp c x) (buf_lawful content) _ _ (reader_static c (S (List.length content)) x Hc) (mkbdev d1 []) HI1) as [H _].
      destruct (run buf_machine _ (mkbdev d1 [])) as [r t]. exact H.
    - exact (proj1 (wp_sound raw_machine (Idev content) (sp c x) (raw_lawful content) _ _ (reader_static c (S (List.length content)) x Hc) d1 HI1)). }
  unfold budget. destruct (limits x (lenN content)) as [[s0 f0] g0]. cbn [limits].
  unfold run_reader in *.
  destruct (if buffered x then run_buf (reader_of c (S (List.length content)) x) d1
            else run_raw (reader_of c (S (List.length content)) x) d1) as [[[g|e]| |] d2]; cbn [snd] in *.
  - eapply spent_trans; [exact Hw|exact Hx|lia|lia|lia].
  - eapply spent_trans; [exact Hw|eapply spent_trans; [exact Hx|apply Hgen; exact HI2|apply N.le_refl|apply N.le_refl|apply N.le_refl]|lia|lia|lia].
  - eapply spent_trans; [exact Hw|exact Hx|lia|lia|lia].
  - eapply spent_trans; [exact Hw|exact Hx|lia|lia|lia].
Qed.
