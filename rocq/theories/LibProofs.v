(** from_reader on arbitrary devices, and its reduction to the ideal reader. *)
From Coq Require Import List NArith ZArith Bool String Lia ZifyBool ZifyNat ZifyN.
From Verif Require Import Base BaseProofs Formats FormatsProofs Signatures IO Find FindProofs Utf8
  Readers Lib Mem IOProofs Documented Static ReaderStatic Lawful.
Local Open Scope N_scope.

(** ** The dispatch *)

Definition reader_of (c : plat) (fuel : nat) (x : feature) : io FileFormat :=
  match x with
  | FAsf => from_asf_reader c
  | FCfb => from_cfb_reader c
  | FEbml => from_ebml_reader c
  | FExe => from_exe_reader c
  | FId3v2 => from_id3v2_reader c fuel
  | FMp4 => from_mp4_reader c
  | FPdf => from_pdf_reader fuel
  | FRm => from_rm_reader c
  | FSqlite3 => from_sqlite3_reader
  | FTxt => from_txt_reader
  | FXml => from_xml_reader
  | FZip => from_zip_reader c
  end.

(** The feature whose container a format is. *)
Definition feature_of (f : FileFormat) : option feature :=
  match f with
  | AdvancedSystemsFormat => Some FAsf
  | CompoundFileBinary => Some FCfb
  | ExtensibleBinaryMetaLanguage => Some FEbml
  | MsDosExecutable => Some FExe
  | Id3v2 => Some FId3v2
  | Mpeg4Part14 => Some FMp4
  | PortableDocumentFormat => Some FPdf
  | Realmedia => Some FRm
  | Sqlite3 => Some FSqlite3
  | ExtensibleMarkupLanguage => Some FXml
  | Zip => Some FZip
  | _ => None
  end.

Lemma feature_of_some f x : feature_of f = Some x <-> f = container x /\ x <> FTxt.
Proof.
  split.
  - destruct f; cbn [feature_of]; intros E; try discriminate E; injection E as <-;
      split; try reflexivity; discriminate.
  - intros [-> Hx]. destruct x; try reflexivity. now contradiction Hx.
Qed.

Definition buffered (x : feature) : bool :=
  match x with FAsf | FEbml | FMp4 | FRm | FZip | FTxt => true | _ => false end.

Lemma from_fmt_reader_eq c fuel f d : from_fmt_reader c fuel f d =
  match feature_of f with
  | Some x =>
      if feat c x then
        if buffered x then run_buf (reader_of c fuel x) d else run_raw (reader_of c fuel x) d
      else (Done (Ok f), d)
  | None => (Done (Ok f), d)
  end.
Proof.
  unfold from_fmt_reader, fmt_reader.
  destruct f; cbn [feature_of]; try reflexivity;
    match goal with |- context [feat c ?x] => destruct (feat c x); reflexivity end.
Qed.

Lemma reader_static c fuel x : wf_cfg c -> wpio (sp c x) (reader_of c fuel x) (family x).
Proof.
  intros Hc. destruct x; cbn [reader_of].
  - now apply asf_static.
  - now apply cfb_static.
  - now apply ebml_static.
  - now apply exe_static.
  - now apply id3v2_static.
  - now apply mp4_static.
  - apply pdf_static.
  - now apply rm_static.
  - apply sqlite3_static.
  - apply txt_static.
  - apply xml_static.
  - now apply zip_static.
Qed.

(** ** Fuel *)

Lemma read_exact_pos content : forall fuel n acc d l d', Idev content d -> 0 < n ->
  read_exact_loop dev_read fuel n acc d = (Done (Ok l), d') -> d_pos d + n <= lenN content.
Proof.
  induction fuel as [|fuel IH]; intros n acc d l d' HI Hn; cbn [read_exact_loop];
    replace (n =? 0) with false by lia; [discriminate|].
  destruct (dev_read_law content n d HI Hn) as [H _].
  destruct (dev_read n d) as [[r|e] d1] eqn:E.
  - destruct H as (HI1 & Hr & _).
    assert (Hp : d_pos d1 = d_pos d + lenN r /\ (lenN r = 0 \/ d_pos d + lenN r <= lenN content)).
    { unfold dev_read, avail in E. destruct HI as [Hc _].
      assert (Hg : forall m, lenN (takeN m (dropN (d_pos d) (d_content d))) = 0 \/
                d_pos d + lenN (takeN m (dropN (d_pos d) (d_content d))) <= lenN content).
      { intros m. rewrite lenN_takeN, lenN_dropN, Hc. lia. }
      destruct (d_reads d) as [|[k| |e'] rs]; try discriminate E;
        injection E as <- <-; cbn [d_pos]; (split; [reflexivity|apply Hg]). }
    destruct r as [|b r']; [discriminate|].
    remember (b :: r') as r0 eqn:Er.
    assert (Hr0 : 0 < lenN r0) by (subst; rewrite lenN_cons; lia). clear Er.
    destruct Hp as [Hp1 Hp2].
    intros E2. destruct (N.eq_dec (lenN r0) n) as [Heq|Hne]; [lia|].
    specialize (IH (n - lenN r0) (acc ++ r0) d1 l d' HI1 ltac:(lia) E2). lia.
  - destruct e; try discriminate. destruct H as [HI1 _]. intros E2.
    assert (Hp : d_pos d1 = d_pos d).
    { unfold dev_read in E. destruct (d_reads d) as [|[k| |e'] rs]; try discriminate E.
      injection E as <-. reflexivity. }
    specialize (IH n acc d1 l d' HI1 Hn E2). lia.
Qed.

(** A successful absolute seek. *)
Lemma dev_seek_start content n d : Idev content d ->
  (exists e d', dev_seek (FromStart n) d = (Err e, d') /\ Idev content d') \/
  (exists d', dev_seek (FromStart n) d = (Ok n, d') /\ Idev content d' /\ d_pos d' = n).
Proof.
  intros HI. pose proof (dev_seek_law content (FromStart n) d HI) as [_ HI'].
  unfold dev_seek in *. cbn [seek_target] in *.
  assert (Hz : Z.to_N (Z.of_N n) = n) by lia.
  destruct (d_seeks d) as [|[|] ss]; cbn [tl] in *.
  - destruct (_ || _); [left; eauto|right]. rewrite Hz in *. eauto.
  - destruct (_ || _); [left; eauto|right]. rewrite Hz in *. eauto.
  - left; eauto.
Qed.

Lemma run_bindp {S A B} (M : machine S) (p : prog A) (f : A -> prog B) : forall s,
  run M (bindp p f) s =
  match run M p s with
  | (Done a, s') => run M (f a) s'
  | (Panicked, s') => (Panicked, s')
  | (OutOfFuel, s') => (OutOfFuel, s')
  end.
Proof.
  induction p as [a| | |n k IH|n k IH|n k IH|w k IH|k IH|n k IH]; intros s; cbn [bindp run]; auto.
  - destruct (m_read M n s) as [r s']. apply IH.
  - destruct (m_read_exact M n s) as [[r| |] s']; auto.
  - destruct (m_read_line M n s) as [[r| |] s']; auto.
  - destruct (m_seek M w s) as [r s']. apply IH.
  - destruct (m_tell M s) as [r s']. apply IH.
Qed.
Lemma run_bindio {S A B} (M : machine S) (p : io A) (f : A -> io B) s :
  run M (bindio p f) s =
  match run M p s with
  | (Done (Ok a), s') => run M (f a) s'
  | (Done (Err e), s') => (Done (Err e), s')
  | (Panicked, s') => (Panicked, s')
  | (OutOfFuel, s') => (OutOfFuel, s')
  end.
Proof.
  unfold bindio. rewrite run_bindp. destruct (run M p s) as [[[a|e]| |] s']; reflexivity.
Qed.

Definition is_done {A} (e : exec A) : Prop := exists a, e = Done a.

(** PDF: a round either stops or consumes at least one byte. *)
Lemma pdf_loop_done content : forall fuel total buf d, Idev content d ->
  (N.to_nat (lenN content - d_pos d) < fuel)%nat ->
  is_done (fst (run_raw (pdf_loop fuel total buf) d)) /\
  Idev content (snd (run_raw (pdf_loop fuel total buf) d)).
Proof.
  unfold is_done, run_raw.
  induction fuel as [|fuel IH]; intros total buf d HI Hf; [lia|].
  cbn [pdf_loop]. destruct (total <? PDF_READ_LIMIT); [|cbn; eauto].
  rewrite run_bindio. unfold read. cbn [run raw_machine m_read].
  destruct (dev_read_law content CHUNK_SIZE d HI ltac:(reflexivity)) as [H _].
  destruct (dev_read CHUNK_SIZE d) as [[chunk|e] d1] eqn:E; cbn [run fst snd].
  2:{ split; [eauto|]. destruct e; try exact H. apply H. }
  destruct H as (HI1 & _ & _).
  destruct (lenN chunk =? 0) eqn:En; [cbn; eauto|].
  rewrite run_bindp. destruct (holds_total (dropN (if total =? 0 then OVERLAP_SIZE else 0)
     (takeN (OVERLAP_SIZE + lenN chunk)
        (takeN OVERLAP_SIZE buf ++ chunk ++ dropN (OVERLAP_SIZE + lenN chunk) buf))) AI_MARKER)
     as [found Hfound].
  rewrite Hfound. cbn [lift_exec run].
  destruct found; [cbn; eauto|].
  apply IH; [exact HI1|].
  assert (Hp : d_pos d1 = d_pos d + lenN chunk /\ lenN chunk <= lenN content - d_pos d).
  { unfold dev_read, avail in E. destruct HI as [Hc _].
    assert (Hg : forall m, lenN (takeN m (dropN (d_pos d) (d_content d))) <=
                           lenN content - d_pos d).
    { intros m. rewrite lenN_takeN, lenN_dropN, Hc. lia. }
    destruct (d_reads d) as [|[k| |e'] rs]; try discriminate E;
      injection E as <- <-; cbn [d_pos]; (split; [reflexivity|apply Hg]). }
  lia.
Qed.
Lemma pdf_done content d : Idev content d ->
  is_done (fst (run_raw (from_pdf_reader (S (List.length content))) d)) /\
  Idev content (snd (run_raw (from_pdf_reader (S (List.length content))) d)).
Proof.
  intros HI. unfold from_pdf_reader, run_raw. rewrite run_bindio. unfold seek.
  cbn [run raw_machine m_seek].
  destruct (dev_seek_start content 5 d HI) as [(e & d' & E & HI')|(d' & E & HI' & Hp)]; rewrite E;
    cbn [run].
  - cbn. unfold is_done; eauto.
  - apply pdf_loop_done; [exact HI'|]. unfold lenN in *. lia.
Qed.

(** ID3v2: every tag ends at least ten bytes after its start, and must start inside the data. *)
Lemma tag_size_lt buf : id3v2_tag_size buf < 268435456.
Proof.
  unfold id3v2_tag_size. cbn zeta.
  assert (H7 : forall n, N.land n 127 < 128).
  { intros n. change 127 with (N.ones 7). rewrite N.land_ones. apply N.mod_lt. discriminate. }
  assert (Hb : forall i, N.land (bval (nth i buf x00)) 127 < 2 ^ 7) by (intros; apply H7).
  assert (Hlog : forall a b k, a < 2 ^ k -> b < 2 ^ k -> N.lor a b < 2 ^ k).
  { intros a b k Ha Hb'. destruct (N.eq_dec (N.lor a b) 0) as [->|Hne]; [lia|].
    apply N.log2_lt_pow2; [lia|]. rewrite N.log2_lor.
    destruct (N.eq_dec a 0) as [->|Ha0]; destruct (N.eq_dec b 0) as [->|Hb0].
    - now rewrite N.lor_0_l in Hne.
    - cbn [N.log2]. apply N.max_lub_lt; [|apply N.log2_lt_pow2; lia].
      apply N.log2_lt_pow2 in Hb'; lia.
    - cbn [N.log2]. apply N.max_lub_lt; [apply N.log2_lt_pow2; lia|].
      apply N.log2_lt_pow2 in Ha; lia.
    - apply N.max_lub_lt; apply N.log2_lt_pow2; lia. }
  assert (Hsh : forall i k, k <= 21 -> N.shiftl (N.land (bval (nth i buf x00)) 127) k < 2 ^ 28).
  { intros i k Hk. rewrite N.shiftl_mul_pow2. pose proof (Hb i).
    assert (2 ^ k <= 2 ^ 21) by (apply N.pow_le_mono_r; lia).
    change (2 ^ 28) with (2 ^ 7 * 2 ^ 21). nia. }
  change 268435456 with (2 ^ 28).
  apply Hlog; [apply Hlog; [apply Hlog|]|]; try (apply Hsh; lia).
  specialize (Hb 9%nat). eapply N.lt_trans; [exact Hb|reflexivity].
Qed.

Lemma run_u64_add {S} (M : machine S) c a b s : a + b < u64_max1 ->
  run M (u64_add c a b) s = (Done (a + b), s).
Proof.
  intros H. unfold u64_add. replace (a + b <? u64_max1) with true by lia. reflexivity.
Qed.

Lemma run_read_bytes {S} (M : machine S) c n s : n <= isize_max c ->
  run M (read_bytes c n) s =
  match m_read_exact M n s with
  | (Done r, s') => (Done r, s')
  | (Panicked, s') => (Panicked, s')
  | (OutOfFuel, s') => (OutOfFuel, s')
  end.
Proof.
  intros Hn. unfold read_bytes, alloc. replace (isize_max c <? n) with false by lia.
  cbn [bindp run]. unfold read_exact. cbn [run].
  destruct (m_read_exact M n s) as [[r| |] s']; reflexivity.
Qed.

Lemma id3v2_loop_done c content : wf_cfg c -> lenN content < 2 ^ 63 ->
  forall fuel offset d, Idev content d ->
  (N.to_nat (lenN content - offset) < fuel)%nat ->
  is_done (fst (run_raw (id3v2_loop c fuel offset) d)) /\
  Idev content (snd (run_raw (id3v2_loop c fuel offset) d)).
Proof.
  intros Hc Hlen. pose proof (isize_max_ge c Hc) as Hisz.
  unfold is_done, run_raw.
  assert (H63 : 2 ^ 63 + 2 ^ 34 < u64_max1) by reflexivity.
  change (2 ^ 34) with 17179869184 in H63.
  induction fuel as [|fuel IH]; intros offset d HI Hf; [lia|].
  cbn [id3v2_loop]. rewrite run_bindio. unfold seek. cbn [run raw_machine m_seek].
  destruct (dev_seek_start content offset d HI) as [(e & d1 & E & HI1)|(d1 & E & HI1 & Hp)];
    rewrite E; cbn [run]; [cbn; eauto|].
  rewrite run_bindio, run_read_bytes by lia. cbn [raw_machine m_read_exact].
  destruct (dev_read_exact_law content 10 d1 HI1) as (r & d2 & E2 & Hleg & HI2). rewrite E2.
  destruct r as [buf|e]; [|cbn; eauto].
  destruct (negb (beqb (takeN 3 buf) (bs "ID3"))); [cbn; eauto|].
  assert (Hoff : offset + 10 <= lenN content).
  { rewrite <- Hp. eapply read_exact_pos; [exact HI1|reflexivity|exact E2]. }
  pose proof (tag_size_lt buf) as Htag.
  cbn zeta. rewrite run_bindp, run_u64_add by lia.
  rewrite run_bindp, run_u64_add by lia.
  rewrite run_bindio.
  assert (Hcont : forall next d3, Idev content d3 -> offset + 10 <= next ->
     next < 2 ^ 63 + 17179869000 ->
     is_done (fst (run raw_machine
       (let* next_offset0 :=
          if negb (N.land (bval (nth 5 buf x00)) 16 =? 0) then u64_add c next 10 else Ret next in
        id3v2_loop c fuel next_offset0) d3)) /\
     Idev content (snd (run raw_machine
       (let* next_offset0 :=
          if negb (N.land (bval (nth 5 buf x00)) 16 =? 0) then u64_add c next 10 else Ret next in
        id3v2_loop c fuel next_offset0) d3))).
  { intros next d3 HI3 Hnext Hnext2. rewrite run_bindp.
    destruct (negb (N.land (bval (nth 5 buf x00)) 16 =? 0)).
    - rewrite run_u64_add by lia. apply IH; [exact HI3|lia].
    - cbn [run]. apply IH; [exact HI3|lia]. }
  destruct (negb (N.land (bval (nth 5 buf x00)) 64 =? 0)).
  - rewrite run_bindio. unfold read_u32_be. rewrite run_bindio. unfold read_exact.
    cbn [run raw_machine m_read_exact].
    destruct (dev_read_exact_law content 4 d2 HI2) as (r4 & d3 & E3 & Hleg3 & HI3). rewrite E3.
    destruct r4 as [ext|e]; [|cbn; eauto]. cbn [run ok].
    assert (Hext : be_val ext < 4294967296) by (apply (be_val_bound ext 4); exact Hleg3).
    rewrite run_bindp, run_u64_add by lia. cbn [run ok].
    apply Hcont; [exact HI3|lia|lia].
  - cbn [run ok]. apply Hcont; [exact HI2|lia|lia].
Qed.
Lemma id3v2_done c content d : wf_cfg c -> lenN content < 2 ^ 63 -> Idev content d ->
  is_done (fst (run_raw (from_id3v2_reader c (S (List.length content))) d)) /\
  Idev content (snd (run_raw (from_id3v2_reader c (S (List.length content))) d)).
Proof.
  intros Hc Hlen HI. pose proof (isize_max_ge c Hc) as Hisz.
  unfold from_id3v2_reader, run_raw. rewrite run_bindio.
  destruct (id3v2_loop_done c content Hc Hlen (S (List.length content)) 0 d HI) as [[r Hr] HI1].
  { unfold lenN. lia. }
  unfold run_raw in *.
  destruct (run raw_machine (id3v2_loop c (S (List.length content)) 0) d) as [e d1]. cbn in Hr, HI1.
  subst e. destruct r as [offset|e]; [|cbn; unfold is_done; eauto].
  rewrite run_bindio. unfold seek. cbn [run raw_machine m_seek].
  destruct (dev_seek_start content offset d1 HI1) as [(e & d2 & E & HI2)|(d2 & E & HI2 & _)];
    rewrite E; cbn [run]; [cbn; unfold is_done; eauto|].
  rewrite run_bindio, run_read_bytes by lia. cbn [raw_machine m_read_exact].
  destruct (dev_read_exact_law content 4 d2 HI2) as (r & d3 & E2 & Hleg & HI3). rewrite E2.
  destruct r as [buf|e]; [|cbn; unfold is_done; eauto].
  destruct (beqb buf (bs "fLaC")); [cbn; unfold is_done; eauto|].
  destruct (existsb _ mp3_magics); cbn; unfold is_done; eauto.
Qed.

(** ** Every reader on every device *)

Definition run_reader (c : plat) (fuel : nat) (x : feature) (d : dev) :=
  if buffered x then run_buf (reader_of c fuel x) d else run_raw (reader_of c fuel x) d.

(** Panics that remain possible in [from_reader]: overflow checks in three readers, allocation
    overflow on 32-bit platforms in the ZIP reader. *)
Definition may_panic' (c : plat) (x : feature) : Prop :=
  match x with
  | FAsf | FMp4 => ovf c = true
  | FZip => ovf c = true \/ usize_bits c = 32
  | _ => False
  end.

Lemma run_reader_any c content x d : wf_cfg c -> lenN content < 2 ^ 63 -> Idev content d ->
  Idev content (snd (run_reader c (S (List.length content)) x d)) /\
  match fst (run_reader c (S (List.length content)) x d) with
  | Done (Ok f) => family x f
  | Done (Err _) => True
  | Panicked => may_panic' c x
  | OutOfFuel => False
  end.
Proof.
  intros Hc Hlen HI. set (fuel := S (List.length content)).
  pose proof (reader_static c fuel x Hc) as Hwp.
  assert (Hgen : Idev content (snd (run_reader c fuel x d)) /\
                 match fst (run_reader c fuel x d) with
                 | Done r => okres (family x) r
                 | Panicked => may_panic c x
                 | OutOfFuel => uses_fuel x
                 end).
  { unfold run_reader. destruct (buffered x).
    - unfold run_buf.
      destruct (wp_sound buf_machine (Ibuf content) (sp c x) (buf_lawful content)
                  (reader_of c fuel x) _ Hwp (mkbdev d []) HI) as [H1 H2].
      destruct (run buf_machine (reader_of c fuel x) (mkbdev d [])) as [r s]. cbn in *.
      split; [exact H1|]. exact H2.
    - unfold run_raw.
      destruct (wp_sound raw_machine (Idev content) (sp c x) (raw_lawful content)
                  (reader_of c fuel x) _ Hwp d HI) as [H1 H2].
      destruct (run raw_machine (reader_of c fuel x) d) as [r s]. cbn in *.
      split; [exact H1|]. exact H2. }
  destruct Hgen as [H1 H2]. split; [exact H1|].
  destruct x; cbn [uses_fuel may_panic may_panic'] in *;
    try (destruct (fst (run_reader c fuel _ d)) as [[f|e]| |]; exact H2).
  - destruct (id3v2_done c content d Hc Hlen HI) as [[a Ha] _].
    unfold run_reader in *. cbn [buffered reader_of] in *. unfold fuel in *. rewrite Ha in *.
    destruct a; exact H2.
  - destruct (pdf_done content d HI) as [[a Ha] _].
    unfold run_reader in *. cbn [buffered reader_of] in *. unfold fuel in *. rewrite Ha in *.
    destruct a; exact H2.
Qed.

Lemma generic_any (c : cfg) content d : wf_cfg c -> lenN content < 2 ^ 63 -> Idev content d ->
  exists f d', from_generic_reader c d = (Done f, d') /\
    (f = ArbitraryBinaryData \/ (feat c FTxt = true /\ f = PlainText)).
Proof.
  intros Hc Hlen HI. unfold from_generic_reader. destruct (feat c FTxt); [|eauto].
  pose proof (run_reader_any c content FTxt d Hc Hlen HI) as [_ H].
  unfold run_reader in H. cbn [buffered reader_of] in H.
  destruct (run_buf from_txt_reader d) as [[[f|e]| |] d'] eqn:E; cbn [fst] in H.
  - exists f, d'. split; [reflexivity|]. right. split; [reflexivity|].
    destruct H as [H|H]; [exact H|destruct H].
  - exists default_format, d'. split; [reflexivity|]. left. reflexivity.
  - contradiction.
  - contradiction.
Qed.

(** The complete picture of [from_reader] on an arbitrary device. *)
Lemma from_reader_any (c : cfg) d : wf_cfg c -> lenN (d_content d) < 2 ^ 63 -> d_max d < u64_max1 ->
  match dev_read window d with
  | (Err e, _) => fst (from_reader c d) = Done (Err e)
  | (Ok [], _) => fst (from_reader c d) = Done (Ok Empty)
  | (Ok buf, _) =>
      match fst (from_reader c d) with
      | Done (Ok g) =>
          match from_signature buf with
          | None => g = ArbitraryBinaryData \/ (feat c FTxt = true /\ g = PlainText)
          | Some f =>
              match feature_of f with
              | Some x => if feat c x
                          then family x g \/ g = ArbitraryBinaryData \/
                               (feat c FTxt = true /\ g = PlainText)
                          else g = f
              | None => g = f
              end
          end
      | Done (Err _) => False
      | Panicked => exists x, from_signature buf = Some (container x) /\ feat c x = true /\
                              x <> FTxt /\ may_panic' c x
      | OutOfFuel => False
      end
  end.
Proof.
  intros Hc Hlen Hmax. set (content := d_content d) in *.
  assert (HI : Idev content d) by (split; auto).
  pose proof (dev_read_content content window d HI) as HI1.
  unfold from_reader. fold content.
  destruct (dev_read window d) as [[buf|e] d1]; [|reflexivity]. cbn [snd] in HI1.
  destruct buf as [|b buf']; [reflexivity|]. remember (b :: buf') as buf eqn:Ebuf. clear Ebuf.
  assert (Hgen : forall d2, Idev content d2 -> exists f d3,
     (match from_generic_reader c d2 with
      | (Done f, d3) => (Done (Ok f), d3)
      | (Panicked, d3) => (Panicked, d3)
      | (OutOfFuel, d3) => (OutOfFuel, d3)
      end) = (Done (Ok f), d3) /\
     (f = ArbitraryBinaryData \/ (feat c FTxt = true /\ f = PlainText))).
  { intros d2 HI2. destruct (generic_any c content d2 Hc Hlen HI2) as (f & d3 & E & Hf).
    rewrite E. eauto. }
  destruct (from_signature buf) as [f|] eqn:Esig.
  2:{ destruct (Hgen d1 HI1) as (f & d3 & E & Hf). rewrite E. exact Hf. }
  rewrite from_fmt_reader_eq.
  destruct (feature_of f) as [x|] eqn:Ef; [|reflexivity].
  destruct (feat c x) eqn:Efx; [|reflexivity].
  pose proof (run_reader_any c content x d1 Hc Hlen HI1) as [HI2 H].
  unfold run_reader in *.
  destruct (if buffered x then run_buf (reader_of c (S (List.length content)) x) d1
            else run_raw (reader_of c (S (List.length content)) x) d1) as [[[g|e]| |] d2];
    cbn [fst snd] in *.
  - left. exact H.
  - destruct (Hgen d2 HI2) as (g & d3 & E & Hg). rewrite E. cbn [fst]. right. exact Hg.
  - apply feature_of_some in Ef. destruct Ef as [-> Hx]. exists x. auto.
  - contradiction.
Qed.
