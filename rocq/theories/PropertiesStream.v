(** C14 (continued): what of the behaviour of a well-behaved reader the result depends on. *)
From Coq Require Import NArith ZArith Bool String List Lia ZifyBool ZifyNat ZifyN.
From Verif Require Import Base BaseProofs Formats FormatsProofs Signatures IO Find Utf8 Readers Lib Mem IOProofs
  Documented Static ReaderStatic Lawful Spec SpecSig SpecText SpecScan SpecApi LibProofs Ideal SigProofs CoreProofs
  FindProofs TextProofs ScanProofs MaxProofs Glue Conf PropertiesApi2.
Local Open Scope N_scope.

(** ** The first read decides *)
Lemma read_buf_len content p max d buf : well_behaved content p max d ->
  fst (dev_read window d) = Ok buf -> buf = takeN (lenN buf) (dropN p content) /\ lenN buf <= window.
Proof.
  intros (Hc & Hp & _ & _ & _) E. unfold dev_read in E. rewrite Hc, Hp in E.
  assert (K : forall m, m <= window ->
    takeN m (dropN p content) = takeN (lenN (takeN m (dropN p content))) (dropN p content) /\
    lenN (takeN m (dropN p content)) <= window).
  { intros m Hm. rewrite lenN_takeN. split; [|lia].
    destruct (N.le_ge_cases m (lenN (dropN p content))) as [H|H].
    - now rewrite N.min_l by exact H.
    - rewrite N.min_r by exact H. now rewrite !takeN_all by lia. }
  destruct (d_reads d) as [|[k| |e] rs]; try discriminate E; cbn [fst] in E; injection E as <-; apply K; lia.
Qed.
Lemma c14_two (c : cfg) content p max d1 d2 buf : supported c -> max < 2 ^ 64 -> lenN content <= max -> p <= max ->
  well_behaved content p max d1 -> well_behaved content p max d2 ->
  fst (dev_read 36870 d1) = Ok buf -> fst (dev_read 36870 d2) = Ok buf ->
  (forall x, In x [FPdf; FSqlite3; FXml] -> feat c x = true -> ~ first_match signatures buf (container x)) ->
  fst (from_reader c d1) = fst (from_reader c d2).
Proof.
  intros Hc Hmax Hl Hp W1 W2 E1 E2 Hx. change 36870 with window in E1, E2.
  assert (K : forall d, well_behaved content p max d -> fst (dev_read window d) = Ok buf ->
                        fst (from_reader c d) = okexec (ideal_detect c content max buf)).
  { intros d W E. destruct (dev_read window d) as [r d'] eqn:Er. cbn [fst] in E. subst r.
    eapply reader_ideal; eauto. intros x (f & Hs & Hf & Hfx) Hu. exfalso.
    apply feature_of_some in Hf. destruct Hf as [-> _]. apply from_signature_some in Hs.
    refine (Hx x _ Hfx Hs). destruct x; cbn in *; tauto. }
  now rewrite (K d1), (K d2).
Qed.
(** Two well-behaved readers over the same stream whose first read returns the same bytes give the
    same result, however the later reads are split or interrupted. *)
Theorem C14_first_read_decides : forall (c : cfg) content p max d1 d2 buf,
  supported c -> max < 2 ^ 64 -> lenN content <= max -> p <= max ->
  well_behaved content p max d1 -> well_behaved content p max d2 ->
  fst (dev_read 36870 d1) = Ok buf -> fst (dev_read 36870 d2) = Ok buf ->
  (forall x, In x [FPdf; FSqlite3; FXml] -> feat c x = true -> ~ first_match signatures buf (container x)) ->
  fst (from_reader c d1) = fst (from_reader c d2).
Proof. exact c14_two. Qed.
Print Assumptions C14_first_read_decides.

(** ** XML and SQLite 3: one read call *)
(** The bytes returned by the only read call of these readers: it is made at [offset] for [n]
    bytes and returns at most [k] of them. *)
Lemma single_read d1 off n : Forall (eq true) (d_seeks d1) -> off <= d_max d1 ->
  exists d2, dev_seek (FromStart off) d1 = (Ok off, d2) /\ d_content d2 = d_content d1 /\ d_pos d2 = off /\
    d_reads d2 = d_reads d1 /\
    forall k rest, d_reads d1 = RShort k :: rest ->
      fst (dev_read n d2) = Ok (takeN (N.min n (N.max 1 k)) (dropN off (d_content d1))).
Proof.
  intros Hs Hm.
  exists (mkdev (d_content d1) off (d_reads d1) (tl (d_seeks d1)) (d_max d1)).
  split; [|split; [reflexivity|split; [reflexivity|split; [reflexivity|]]]].
  - unfold dev_seek. cbn [seek_target].
    destruct Hs as [|b s <- _]; cbn [tl];
      replace ((Z.of_N off <? 0)%Z || (Z.of_N (d_max d1) <? Z.of_N off)%Z) with false by lia;
      now rewrite N2Z.id.
  - intros k rest Er. unfold dev_read. cbn [d_reads d_content d_pos]. rewrite Er. reflexivity.
Qed.

Lemma c14_xml (c : cfg) content p max d k1 k2 rest : supported c -> max < 2 ^ 64 -> 5 <= max ->
  well_behaved content p max d -> d_reads d = RShort k1 :: RShort k2 :: rest -> feat c FXml = true ->
  first_match signatures (takeN (N.min 36870 (N.max 1 k1)) (dropN p content)) ExtensibleMarkupLanguage ->
  exists f, fst (from_reader c d) = Done (Ok f) /\
            xml_dialect (takeN (N.min 8192 (N.max 1 k2)) (dropN 5 content)) f.
Proof.
  intros Hc Hmax H5 (Hcont & Hp & Hm & Hr & Hs) Er Hf Hsig.
  pose proof (first_match_nonempty _ _ Hsig) as Hne. apply from_signature_some in Hsig.
  unfold from_reader, dev_read at 1. rewrite Er, Hcont, Hp. change window with 36870.
  unfold avail. set (buf := takeN (N.min 36870 (N.max 1 k1)) (dropN p content)) in *.
  set (d1 := mkdev content (p + lenN buf) (RShort k2 :: rest) (d_seeks d) (d_max d)).
  destruct buf as [|b t] eqn:Eb; [now contradiction Hne|]. rewrite <- Eb in *.
  rewrite Hsig. unfold from_fmt_reader, fmt_reader. cbn [feature_of]. 
  destruct (single_read d1 5 8192) as (d2 & E1 & _ & _ & _ & E2); [exact Hs|cbn; now rewrite Hm|].
  specialize (E2 k2 rest eq_refl). cbn [d1 d_content] in E2.
  destruct (dev_read 8192 d2) as [r d3] eqn:E3. cbn [fst] in E2. subst r.
  cbn [uses_bufreader]. rewrite ?Hf. unfold run_raw, from_xml_reader, seek, read.
  rewrite run_bindio. cbn [run raw_machine m_seek]. fold d1. rewrite E1. cbn [run].
  rewrite run_bindio. cbn [run raw_machine m_read]. rewrite E3. cbn [run].
  set (w := takeN (N.min 8192 (N.max 1 k2)) (dropN 5 content)) in *.
  destruct (xml_chain_total w xml_rules) as (f & E & _).
  rewrite run_bindp, E. cbn [lift_exec run ok fst]. exists f. split; [reflexivity|].
  apply xml_chain_spec in E. cbn zeta in E. rewrite xml_table in E. exact E.
Qed.
(** An XML document is classified by the bytes the second read call returns, and nothing else. *)
Theorem C14_xml_single_read : forall (c : cfg) content p max d k1 k2 rest,
  supported c -> max < 2 ^ 64 -> 5 <= max ->
  well_behaved content p max d -> d_reads d = RShort k1 :: RShort k2 :: rest -> feat c FXml = true ->
  first_match signatures (takeN (N.min 36870 (N.max 1 k1)) (dropN p content)) ExtensibleMarkupLanguage ->
  exists f, fst (from_reader c d) = Done (Ok f) /\
            xml_dialect (takeN (N.min 8192 (N.max 1 k2)) (dropN 5 content)) f.
Proof. exact c14_xml. Qed.
Print Assumptions C14_xml_single_read.

Lemma c14_sqlite (c : cfg) content p max d k1 k2 rest : supported c -> max < 2 ^ 64 -> 100 <= max ->
  well_behaved content p max d -> d_reads d = RShort k1 :: RShort k2 :: rest -> feat c FSqlite3 = true ->
  first_match signatures (takeN (N.min 36870 (N.max 1 k1)) (dropN p content)) Sqlite3 ->
  let seen := takeN (N.min 32768 (N.max 1 k2)) (dropN 100 content) in
  (fst (from_reader c d) = Done (Ok Sketch) /\ occurs (bs "com.bohemiancoding.sketch3") seen) \/
  (fst (from_reader c d) = Done (Ok Sqlite3) /\ ~ occurs (bs "com.bohemiancoding.sketch3") seen).
Proof.
  intros Hc Hmax H5 (Hcont & Hp & Hm & Hr & Hs) Er Hf Hsig seen.
  pose proof (first_match_nonempty _ _ Hsig) as Hne. apply from_signature_some in Hsig.
  unfold from_reader, dev_read. rewrite Er, Hcont, Hp. change window with 36870.
  unfold avail. set (buf := takeN (N.min 36870 (N.max 1 k1)) (dropN p content)) in *.
  set (d1 := mkdev content (p + lenN buf) (RShort k2 :: rest) (d_seeks d) (d_max d)).
  destruct buf as [|b t] eqn:Eb; [now contradiction Hne|]. rewrite <- Eb in *.
  rewrite Hsig. unfold from_fmt_reader, fmt_reader. cbn [feature_of]. 
  destruct (single_read d1 100 32768) as (d2 & E1 & _ & _ & _ & E2); [exact Hs|cbn; now rewrite Hm|].
  specialize (E2 k2 rest eq_refl). cbn [d1 d_content] in E2.
  destruct (dev_read 32768 d2) as [r d3] eqn:E3. cbn [fst] in E2. subst r.
  cbn [uses_bufreader]. rewrite ?Hf. unfold run_raw, from_sqlite3_reader, seek, read.
  rewrite run_bindio. cbn [run raw_machine m_seek]. fold d1. rewrite E1. cbn [run].
  rewrite run_bindio. cbn [run raw_machine m_read]. rewrite E3. cbn [run]. fold seen.
  change (bs "com.bohemiancoding.sketch3") with SKETCH_MARKER.
  destruct (holds_total seen SKETCH_MARKER) as [[|] E];
    rewrite run_bindp, E; cbn [lift_exec run ok fst]; [left|right]; (split; [reflexivity|]).
  - now apply holds_true.
  - now apply holds_false.
Qed.
(** A SQLite 3 file is a Sketch document exactly if the marker is among the bytes the second read
    call returns. *)
Theorem C14_sqlite_single_read : forall (c : cfg) content p max d k1 k2 rest,
  supported c -> max < 2 ^ 64 -> 100 <= max ->
  well_behaved content p max d -> d_reads d = RShort k1 :: RShort k2 :: rest -> feat c FSqlite3 = true ->
  first_match signatures (takeN (N.min 36870 (N.max 1 k1)) (dropN p content)) Sqlite3 ->
  let seen := takeN (N.min 32768 (N.max 1 k2)) (dropN 100 content) in
  (fst (from_reader c d) = Done (Ok Sketch) /\ occurs (bs "com.bohemiancoding.sketch3") seen) \/
  (fst (from_reader c d) = Done (Ok Sqlite3) /\ ~ occurs (bs "com.bohemiancoding.sketch3") seen).
Proof. exact c14_sqlite. Qed.
Print Assumptions C14_sqlite_single_read.

(** Instances. *)
Example C14_first_read_witness :
  let l := bs "some text" ++ [x0a] ++ bs "more" in
  let d1 := mkdev l 2 [RShort 3; RShort 1; RIntr; RShort 2] [true] (2 ^ 63 - 1) in
  let d2 := mkdev l 2 [RShort 3] [] (2 ^ 63 - 1) in
  well_behaved l 2 (2 ^ 63 - 1) d1 /\ well_behaved l 2 (2 ^ 63 - 1) d2 /\
  fst (dev_read 36870 d1) = Ok (bs "me ") /\ fst (dev_read 36870 d2) = Ok (bs "me ") /\
  fst (from_reader cfg_all d1) = Done (Ok PlainText).
Proof. split; [repeat constructor|]. split; [repeat constructor|]. repeat split; vm_compute; reflexivity. Qed.
Example C14_single_read_witness :
  let l := bs "<?xml version='1.0'?><svg/>" in
  let d := mkdev l 0 [RShort 7; RShort 21; RIntr] [] (2 ^ 63 - 1) in
  well_behaved l 0 (2 ^ 63 - 1) d /\
  first_match signatures (takeN (N.min 36870 (N.max 1 7)) (dropN 0 l)) ExtensibleMarkupLanguage /\
  fst (from_reader cfg_all d) = Done (Ok ScalableVectorGraphics).
Proof.
  cbv zeta. split; [repeat constructor|]. split; [apply from_signature_some|]; vm_compute; reflexivity.
Qed.
