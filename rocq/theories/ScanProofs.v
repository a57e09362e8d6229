(** XML, SQLite 3 and PDF: marker searches (C19-C21). *)
From Coq Require Import NArith ZArith Bool String List Lia ZifyBool ZifyNat ZifyN.
From Verif Require Import Base BaseProofs Formats IO Find FindProofs Utf8 Readers Lib Mem IOProofs
  Spec SpecScan Static ReaderStatic Lawful LibProofs Ideal.
Local Open Scope N_scope.

(** ** XML *)

Fixpoint xsem (buf : bytes) (x : xcond) : Prop :=
  match x with
  | XHolds s => occurs (bs s) buf
  | XOr a b => xsem buf a \/ xsem buf b
  | XAnd a b => xsem buf a /\ xsem buf b
  end.
Lemma xeval_spec buf x :
  (xeval buf x = Done true /\ xsem buf x) \/ (xeval buf x = Done false /\ ~ xsem buf x).
Proof.
  induction x as [s|a IHa b IHb|a IHa b IHb]; cbn [xeval xsem].
  - destruct (holds_total buf (bs s)) as [[|] H]; rewrite H; [left|right]; (split; [reflexivity|]).
    + now apply holds_true.
    + now apply holds_false.
  - destruct IHa as [[-> Ha]|[-> Ha]]; cbn [bind_exec]; [tauto|].
    destruct IHb as [[-> Hb]|[-> Hb]]; tauto.
  - destruct IHa as [[-> Ha]|[-> Ha]]; cbn [bind_exec]; [|tauto].
    destruct IHb as [[-> Hb]|[-> Hb]]; tauto.
Qed.

(** Disjunctive normal form, to compare with the table of the specification. *)
Fixpoint dnf (x : xcond) : list (list string) :=
  match x with
  | XHolds s => [[s]]
  | XOr a b => dnf a ++ dnf b
  | XAnd a b => flat_map (fun u => map (fun v => u ++ v) (dnf b)) (dnf a)
  end.
Lemma dnf_sem buf x : xsem buf x <-> dialect_present buf (dnf x).
Proof.
  unfold dialect_present. induction x as [s|a IHa b IHb|a IHa b IHb]; cbn [xsem dnf].
  - split.
    + intros H. exists [s]. split; [now left|]. intros m [<-|[]]. exact H.
    + intros (ms & [<-|[]] & H). apply H. now left.
  - rewrite IHa, IHb. split.
    + intros [(ms & H1 & H2)|(ms & H1 & H2)]; exists ms; (split; [apply in_or_app; tauto|exact H2]).
    + intros (ms & H1 & H2). apply in_app_or in H1. destruct H1; [left|right]; eauto.
  - rewrite IHa, IHb. split.
    + intros [(m1 & H1 & H2) (m2 & H3 & H4)]. exists (m1 ++ m2). split.
      * apply in_flat_map. exists m1. split; [exact H1|]. now apply in_map.
      * intros m Hm. apply in_app_or in Hm. destruct Hm; auto.
    + intros (ms & H1 & H2). apply in_flat_map in H1. destruct H1 as (m1 & H1 & H3).
      apply in_map_iff in H3. destruct H3 as (m2 & <- & H4). split.
      * exists m1. split; [exact H1|]. intros m Hm. apply H2, in_or_app. now left.
      * exists m2. split; [exact H4|]. intros m Hm. apply H2, in_or_app. now right.
Qed.
Lemma xml_table : map (fun r => (dnf (fst r), snd r)) xml_rules = xml_dialects.
Proof. reflexivity. Qed.

Lemma xml_chain_spec buf : forall rules f, xml_chain buf rules = Done f ->
  let table := map (fun r => (dnf (fst r), snd r)) rules in
  (exists before alts after, table = before ++ (alts, f) :: after /\
     dialect_present buf alts /\
     forall alts' g, In (alts', g) before -> ~ dialect_present buf alts') \/
  (f = ExtensibleMarkupLanguage /\ forall alts g, In (alts, g) table -> ~ dialect_present buf alts).
Proof.
  induction rules as [|[x f0] rules IH]; intros f; cbn [xml_chain map fst snd].
  - intros [= <-]. right. split; [reflexivity|]. intros ? ? [].
  - destruct (xeval_spec buf x) as [[-> Hx]|[-> Hx]]; cbn [bind_exec]; rewrite dnf_sem in Hx.
    + intros [= ->]. left. eexists [], _, _. split; [reflexivity|]. split; [exact Hx|]. intros ? ? [].
    + intros H. destruct (IH f H) as [(before & alts & after & E & H1 & H2)|[H1 H2]].
      * left. exists ((dnf x, f0) :: before), alts, after. rewrite E. split; [reflexivity|].
        split; [exact H1|]. intros a g [[= <- <-]|Hin]; eauto.
      * right. split; [exact H1|]. intros a g [[= <- <-]|Hin]; eauto.
Qed.

Lemma mem_seek_start content max n pos : n <= max ->
  mem_seek content max (FromStart n) pos = (Ok n, n).
Proof.
  intros H. unfold mem_seek. cbn [seek_target].
  replace ((Z.of_N n <? 0)%Z || (Z.of_N max <? Z.of_N n)%Z) with false by lia.
  now replace (Z.to_N (Z.of_N n)) with n by lia.
Qed.

Lemma xml_reader_spec (c : plat) content max : 5 <= max -> exists f,
  mreader c content max FXml = Done (Ok f) /\ xml_dialect (slice 5 8192 content) f.
Proof.
  intros Hmax. unfold mreader, mrun. cbn [reader_of]. unfold from_xml_reader, seek, read.
  rewrite run_bindio. cbn [run mem_machine m_seek]. rewrite mem_seek_start by exact Hmax. cbn [run].
  rewrite run_bindio. cbn [run mem_machine m_read]. unfold mem_read. cbn [run fst].
  fold (slice 5 8192 content).
  destruct (xml_chain_total (slice 5 8192 content) xml_rules) as (f & E & _).
  rewrite run_bindp, E. cbn [lift_exec run ok fst]. exists f. split; [reflexivity|].
  apply xml_chain_spec in E. cbn zeta in E. rewrite xml_table in E. exact E.
Qed.

(** ** SQLite 3 *)

Lemma sqlite_reader_spec (c : plat) content max : 100 <= max ->
  (mreader c content max FSqlite3 = Done (Ok Sketch) /\ occurs SKETCH_MARKER (slice 100 32768 content)) \/
  (mreader c content max FSqlite3 = Done (Ok Sqlite3) /\ ~ occurs SKETCH_MARKER (slice 100 32768 content)).
Proof.
  intros Hmax. unfold mreader, mrun. cbn [reader_of]. unfold from_sqlite3_reader, seek, read.
  rewrite run_bindio. cbn [run mem_machine m_seek]. rewrite mem_seek_start by exact Hmax. cbn [run].
  rewrite run_bindio. cbn [run mem_machine m_read]. unfold mem_read. cbn [run fst].
  fold (slice 100 32768 content).
  destruct (holds_total (slice 100 32768 content) SKETCH_MARKER) as [[|] E];
    rewrite run_bindp, E; cbn [lift_exec run ok fst]; [left|right]; (split; [reflexivity|]).
  - now apply holds_true.
  - now apply holds_false.
Qed.

(** ** PDF *)

(** The last 12 bytes. *)
Definition last12 (l : bytes) : bytes := dropN (lenN l - 12) l.
Lemma last12_app a b : 12 <= lenN a -> last12 (last12 a ++ b) = last12 (a ++ b).
Proof.
  intros H. unfold last12. rewrite !dropN_app, !lenN_app, !lenN_dropN, dropN_dropN.
  f_equal; f_equal; lia.
Qed.

Lemma occurs_app_l p a b : occurs p a -> occurs p (a ++ b).
Proof. intros (x & y & ->). exists x, (y ++ b). now rewrite !app_assoc. Qed.
Lemma occurs_app_r p a b : occurs p b -> occurs p (a ++ b).
Proof. intros (x & y & ->). exists (a ++ x), y. now rewrite !app_assoc. Qed.

(** An occurrence in [a ++ b] that is not inside [a] starts within the last [|p| - 1] bytes of
    [a]. *)
Lemma occurs_tail p a b k : k + 1 = lenN p -> ~ occurs p a -> occurs p (a ++ b) ->
  occurs p (dropN (lenN a - k) a ++ b).
Proof.
  intros Hk Hna (x & y & E).
  destruct (N.le_gt_cases (lenN x + lenN p) (lenN a)) as [Hle|Hgt].
  - exfalso. apply Hna. exists x, (dropN (lenN x + lenN p) a).
    pose proof (f_equal (takeN (lenN a)) E) as E1. rewrite takeN_app_len in E1 by reflexivity.
    assert (Ha : takeN (lenN x + lenN p) a = x ++ p).
    { rewrite E1, takeN_takeN. replace (N.min (lenN x + lenN p) (lenN a)) with (lenN x + lenN p) by lia.
      rewrite app_assoc, takeN_app_len; [reflexivity|]. now rewrite lenN_app. }
    rewrite <- (take_dropN (lenN x + lenN p) a) at 1. rewrite Ha. now rewrite <- app_assoc.
  - exists (dropN (lenN a - k) x), y.
    pose proof (f_equal (dropN (lenN a - k)) E) as E1.
    rewrite !dropN_app in E1.
    replace (lenN a - k - lenN a) with 0 in E1 by lia.
    replace (lenN a - k - lenN x) with 0 in E1 by lia.
    replace (0 - lenN p) with 0 in E1 by lia. rewrite !dropN_0 in E1. exact E1.
Qed.

(** Leading zeros do not matter for a marker without zero bytes. *)
Lemma occurs_zeros p n l : ~ In x00 p -> p <> [] -> occurs p (repeat x00 n ++ l) -> occurs p l.
Proof.
  intros Hz Hne. induction n as [|n IH]; [auto|]. cbn [repeat app]. intros (x & y & E). apply IH.
  destruct x as [|b x].
  - exfalso. destruct p as [|q p]; [contradiction|]. cbn [app] in E. injection E as <- _. apply Hz. now left.
  - injection E as _ E. exists x, y. exact E.
Qed.

Definition zeros12 : bytes := repeat x00 12.

Section Pdf.
Variable content : bytes.
Let data := dropN 5 content.

Lemma read_short n d : Idev content d -> 0 < n -> Forall no_fault_no_intr (d_reads d) ->
  exists chunk d', dev_read n d = (Ok chunk, d') /\ Idev content d' /\
    Forall no_fault_no_intr (d_reads d') /\
    chunk = takeN (lenN chunk) (dropN (d_pos d) content) /\ lenN chunk <= n /\
    d_pos d' = d_pos d + lenN chunk /\
    (chunk = [] -> lenN content <= d_pos d) /\
    (d_reads d = [] -> d_reads d' = [] /\ chunk = takeN n (dropN (d_pos d) content)).
Proof.
  intros [Hc Hm] Hn Hr.
  assert (Hg : forall m, 0 < m -> m <= n ->
     let chunk := takeN m (dropN (d_pos d) content) in
     chunk = takeN (lenN chunk) (dropN (d_pos d) content) /\ lenN chunk <= n /\
     (chunk = [] -> lenN content <= d_pos d)).
  { intros m H1 H2 chunk. split; [apply takeN_self_len|]. split.
    - unfold chunk. rewrite lenN_takeN. lia.
    - intros H. apply lenN_0 in H. unfold chunk in H. rewrite lenN_takeN, lenN_dropN in H. lia. }
  unfold dev_read, avail. rewrite Hc. destruct (d_reads d) as [|[k| |e] rs] eqn:Er.
  - destruct (Hg n Hn ltac:(lia)) as (H1 & H2 & H3).
    eexists _, _. split; [reflexivity|]. split; [split; auto|]. split; [constructor|].
    split; [exact H1|]. split; [exact H2|]. split; [reflexivity|]. split; [exact H3|]. auto.
  - inversion Hr; subst. destruct (Hg (N.min n (N.max 1 k)) ltac:(lia) ltac:(lia)) as (H1' & H2' & H3').
    eexists _, _. split; [reflexivity|]. split; [split; auto|]. split; [assumption|].
    split; [exact H1'|]. split; [exact H2'|]. split; [reflexivity|]. split; [exact H3'|]. discriminate.
  - inversion Hr; contradiction.
  - inversion Hr; contradiction.
Qed.

Lemma rotate_prefix pre chunk rest : lenN pre = 12 ->
  takeN 12 (rotate_right 12 (pre ++ chunk) ++ rest) = last12 (pre ++ chunk).
Proof.
  intros H. unfold rotate_right, last12. rewrite <- app_assoc. apply takeN_app_len.
  rewrite lenN_dropN, lenN_app. lia.
Qed.

Lemma ai_marker_nozero : ~ In x00 AI_MARKER.
Proof.
  assert (H : existsb (Byte.eqb x00) AI_MARKER = false) by reflexivity. intros Hin.
  assert (existsb (Byte.eqb x00) AI_MARKER = true); [|congruence].
  apply existsb_exists. exists x00. auto.
Qed.
Lemma ai_marker_len : lenN AI_MARKER = 13.
Proof. reflexivity. Qed.

Lemma pdf_loop_spec (quiet : Prop) : forall fuel total buf d,
  Idev content d -> Forall no_fault_no_intr (d_reads d) ->
  d_pos d = 5 + total -> total <= lenN data ->
  total < PDF_READ_LIMIT + 32768 ->
  (quiet -> d_reads d = [] /\
     (total = lenN data \/ exists q, total = q * 32768 /\ total <= PDF_READ_LIMIT)) ->
  takeN 12 buf = last12 (zeros12 ++ takeN total data) ->
  ~ occurs AI_MARKER (takeN total data) ->
  (N.to_nat (lenN content - d_pos d) < fuel)%nat ->
  exists f d' t, run_raw (pdf_loop fuel total buf) d = (Done (Ok f), d') /\
    t < PDF_READ_LIMIT + 32768 /\
    (quiet -> occurs AI_MARKER (takeN t data) -> occurs AI_MARKER (takeN PDF_READ_LIMIT data)) /\
    ((f = AdobeIllustratorArtwork /\ occurs AI_MARKER (takeN t data)) \/
     (f = PortableDocumentFormat /\ ~ occurs AI_MARKER (takeN t data) /\
      (PDF_READ_LIMIT <= t \/ lenN data <= t))).
Proof.
  unfold run_raw.
  induction fuel as [|fuel IH]; intros total buf d HI Hs Hpos Htl Htot Hq Hpre Hno Hf; [lia|].
  cbn [pdf_loop]. destruct (total <? PDF_READ_LIMIT) eqn:El.
  2:{ eexists _, _, total. cbn [run ok]. split; [reflexivity|]. split; [exact Htot|].
      split; [intros _ H; contradiction|]. right. split; [reflexivity|]. split; [exact Hno|]. left. lia. }
  rewrite run_bindio. unfold read. cbn [run raw_machine m_read].
  destruct (read_short CHUNK_SIZE d HI ltac:(reflexivity) Hs)
    as (chunk & d1 & E & HI1 & Hs1 & Hchunk & Hclen & Hpos1 & Hnil & Hquiet).
  rewrite E. cbn [run].
  change CHUNK_SIZE with 32768 in *.
  assert (Hdata : dropN (d_pos d) content = dropN total data).
  { unfold data. rewrite dropN_dropN, Hpos. reflexivity. }
  assert (Hld : lenN data = lenN content - 5) by apply lenN_dropN.
  destruct (lenN chunk =? 0) eqn:En.
  - assert (chunk = []) by (apply lenN_0; lia). specialize (Hnil H).
    eexists _, _, total. cbn [run ok]. split; [reflexivity|]. split; [exact Htot|].
    split; [intros _ H'; contradiction|].
    right. split; [reflexivity|]. split; [exact Hno|]. right. lia.
  - assert (Hlen2 : lenN chunk <= lenN data - total).
    { rewrite Hchunk, lenN_takeN, Hdata, lenN_dropN. lia. }
    assert (Htake : takeN (total + lenN chunk) data = takeN total data ++ chunk).
    { rewrite takeN_dropN_app. f_equal. rewrite <- Hdata. now rewrite <- Hchunk. }
    assert (Hlt : lenN (takeN total data) = total) by (rewrite lenN_takeN; lia).
    assert (Hpl : lenN (takeN 12 buf) = 12).
    { rewrite Hpre. unfold last12. rewrite lenN_dropN, lenN_app. change (lenN zeros12) with 12. lia. }
    change OVERLAP_SIZE with 12.
    set (pre := takeN 12 buf) in *.
    assert (Hbuf1 : takeN (12 + lenN chunk) (pre ++ chunk ++ dropN (12 + lenN chunk) buf) = pre ++ chunk).
    { rewrite app_assoc. apply takeN_app_len. rewrite lenN_app. lia. }
    rewrite Hbuf1.
    assert (Hfound : occurs AI_MARKER (dropN (if total =? 0 then 12 else 0) (pre ++ chunk)) <->
                     occurs AI_MARKER (takeN (total + lenN chunk) data)).
    { rewrite Htake. destruct (total =? 0) eqn:E0.
      - assert (total = 0) by lia. subst total. rewrite takeN_0. rewrite dropN_app_len by exact Hpl.
        reflexivity.
      - rewrite dropN_0, Hpre. split.
        + intros H. apply (occurs_zeros AI_MARKER 12); [apply ai_marker_nozero|discriminate|].
          fold zeros12. rewrite app_assoc.
          unfold last12 in H.
          rewrite <- (take_dropN (lenN (zeros12 ++ takeN total data) - 12) (zeros12 ++ takeN total data)).
          rewrite <- app_assoc. apply occurs_app_r. exact H.
        + intros H. unfold last12. rewrite lenN_app, Hlt. change (lenN zeros12) with 12.
          apply (occurs_tail AI_MARKER _ _ 12) in H; [|reflexivity|exact Hno].
          rewrite Hlt in H.
          replace (12 + total - 12) with total by lia.
          rewrite dropN_app. change (lenN zeros12) with 12.
          rewrite <- app_assoc. now apply occurs_app_r. }
    rewrite run_bindp.
    destruct (holds_total (dropN (if total =? 0 then 12 else 0) (pre ++ chunk)) AI_MARKER)
      as [[|] Hh]; rewrite Hh; cbn [lift_exec run].
    + apply holds_true in Hh. apply Hfound in Hh.
      eexists _, _, (total + lenN chunk). cbn [run ok]. split; [reflexivity|].
      split; [lia|]. split.
      * intros Hr _. destruct (Hq Hr) as [_ [Hend|(q & Hq1 & Hq2)]]; [lia|].
        assert (HL : total + lenN chunk <= PDF_READ_LIMIT).
        { unfold PDF_READ_LIMIT in *. lia. }
        rewrite <- (take_dropN (total + lenN chunk) data) at 1.
        rewrite takeN_app. apply occurs_app_l. rewrite takeN_takeN.
        replace (N.min PDF_READ_LIMIT (total + lenN chunk)) with (total + lenN chunk) by lia. exact Hh.
      * left. auto.
    + apply holds_false in Hh. rewrite Hfound in Hh.
      destruct (IH (total + lenN chunk)
        (rotate_right 12 (pre ++ chunk) ++
           dropN (12 + lenN chunk) (pre ++ chunk ++ dropN (12 + lenN chunk) buf)) d1)
        as (f & d' & t & Er & Ht & Hqt & Hres); try assumption.
      * lia.
      * lia.
      * lia.
      * intros Hr. destruct (Hq Hr) as [Hd0 Hal].
        destruct (Hquiet Hd0) as [Hd1 Hfull]. split; [exact Hd1|]. rewrite Hdata in Hfull.
        assert (Hl : lenN chunk = N.min 32768 (lenN data - total)).
        { rewrite Hfull, lenN_takeN, lenN_dropN. reflexivity. }
        destruct Hal as [Hend|(q & Hq1 & Hq2)]; [lia|].
        destruct (N.le_gt_cases 32768 (lenN data - total)); [right|left; lia].
        exists (q + 1). unfold PDF_READ_LIMIT in *. lia.
      * rewrite rotate_prefix by exact Hpl. rewrite Hpre, Htake.
        rewrite last12_app, <- app_assoc; [reflexivity|]. rewrite lenN_app. change (lenN zeros12) with 12. lia.
      * lia.
      * exists f, d', t. split; [exact Er|]. split; [exact Ht|]. split; [|exact Hres].
        exact Hqt.
Qed.
End Pdf.

Lemma occurs_take_le p a b (l : bytes) : a <= b -> occurs p (takeN a l) -> occurs p (takeN b l).
Proof.
  intros Hle H. replace b with (a + (b - a)) by lia. rewrite takeN_dropN_app. now apply occurs_app_l.
Qed.

(** Any device without faults and interruptions, with any splitting of the data into reads. *)
Lemma pdf_short (c : plat) content fuel d : Idev content d -> d_seeks d = [] -> 5 <= d_max d ->
  Forall no_fault_no_intr (d_reads d) -> (List.length content < fuel)%nat ->
  exists f d', run_reader c fuel FPdf d = (Done (Ok f), d') /\
    (f = AdobeIllustratorArtwork \/ f = PortableDocumentFormat) /\
    (occurs AI_MARKER (slice 5 PDF_READ_LIMIT content) -> f = AdobeIllustratorArtwork) /\
    (f = AdobeIllustratorArtwork -> occurs AI_MARKER (slice 5 (PDF_READ_LIMIT + 32767) content)) /\
    (f = AdobeIllustratorArtwork -> d_reads d = [] -> occurs AI_MARKER (slice 5 PDF_READ_LIMIT content)).
Proof.
  intros [Hc Hm] Hs Hmax Hr Hfuel. unfold run_reader. cbn [buffered reader_of].
  unfold from_pdf_reader, run_raw. rewrite run_bindio. unfold seek. cbn [run raw_machine m_seek].
  unfold dev_seek. rewrite Hs. cbn [tl seek_target].
  replace ((Z.of_N 5 <? 0)%Z || (Z.of_N (d_max d) <? Z.of_N 5)%Z) with false by lia.
  replace (Z.to_N (Z.of_N 5)) with 5 by lia. cbn [run].
  destruct (pdf_loop_spec content (d_reads d = []) fuel 0
    (repeat x00 (N.to_nat (OVERLAP_SIZE + CHUNK_SIZE))) (mkdev (d_content d) 5 (d_reads d) [] (d_max d)))
    as (f & d' & t & E & Ht & Hq & Hres); cbn [d_content d_max d_pos d_reads] in *.
  - split; assumption.
  - assumption.
  - reflexivity.
  - lia.
  - reflexivity.
  - intros Hr0. split; [exact Hr0|]. right. exists 0. split; [reflexivity|]. unfold PDF_READ_LIMIT; lia.
  - rewrite takeN_0, app_nil_r. change (OVERLAP_SIZE + CHUNK_SIZE) with (12 + 32768).
    rewrite N2Nat.inj_add, repeat_app. apply takeN_app_len. reflexivity.
  - rewrite takeN_0. intros (x & y & E). destruct x; discriminate E.
  - unfold lenN. lia.
  - unfold run_raw in E. cbn [tl]. rewrite E. exists f, d'. split; [reflexivity|].
    unfold slice. destruct Hres as [[-> Hoc]|(-> & Hno & Hend)].
    + split; [now left|]. split; [reflexivity|]. split.
      * intros _. apply (occurs_take_le _ t); [lia|exact Hoc].
      * intros _ Hr0. exact (Hq Hr0 Hoc).
    + split; [now right|]. split; [|split; discriminate].
      intros Hoc. exfalso. apply Hno. destruct Hend as [Hend|Hend].
      * now apply (occurs_take_le _ PDF_READ_LIMIT).
      * rewrite takeN_all by exact Hend.
        rewrite <- (take_dropN PDF_READ_LIMIT (dropN 5 content)). now apply occurs_app_l.
Qed.

Lemma pdf_reader_spec (c : plat) content max : wf_cfg c -> max < u64_max1 -> 5 <= max ->
  lenN content <= max ->
  (mreader c content max FPdf = Done (Ok AdobeIllustratorArtwork) /\
   occurs AI_MARKER (slice 5 PDF_READ_LIMIT content)) \/
  (mreader c content max FPdf = Done (Ok PortableDocumentFormat) /\
   ~ occurs AI_MARKER (slice 5 PDF_READ_LIMIT content)).
Proof.
  intros Hc Hmax H5 Hlen. set (d := mkdev content 0 [] [] max).
  destruct (run_reader_ideal c content max FPdf d Hc Hmax) as (d1 & E1 & _).
  { split; [constructor; cbn; auto|cbn; lia]. }
  { right. reflexivity. }
  destruct (pdf_short c content (S (List.length content)) d) as (f & d2 & E2 & Hf & H1 & _ & H2);
    try (cbn; auto; fail); [split; [reflexivity|exact Hmax]|].
  rewrite E1 in E2. injection E2 as E2 _. rewrite E2.
  destruct Hf as [-> | ->].
  - left. split; [reflexivity|]. apply H2; reflexivity.
  - right. split; [reflexivity|]. intros H. discriminate (H1 H).
Qed.
