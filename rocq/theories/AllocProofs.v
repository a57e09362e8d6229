(** Bounds for the requested buffers. *)
From Coq Require Import NArith ZArith Bool String List Lia ZifyBool ZifyNat ZifyN.
From Verif Require Import Base BaseProofs Formats FormatsProofs Signatures IO Find FindProofs Utf8 Readers Lib Mem IOProofs
  Documented Static ReaderStatic Lawful LibProofs Alloc.
Local Open Scope N_scope.

(** At most [b] requests exceed [small], none exceeds [big]. *)
Fixpoint wpa {A} (small big : N) (p : prog A) (b : N) (Q : A -> N -> Prop) : Prop :=
  match p with
  | Ret a => Q a b
  | PPanic | PFuel => True
  | PRead n k | PReadLine n k => forall r, legal_read n r -> wpa small big (k r) b Q
  | PReadExact n k => forall r, legal_exact n r -> wpa small big (k r) b Q
  | PSeek _ k | PTell k => forall r, legal_pos r -> wpa small big (k r) b Q
  | PAlloc n k => (n <= small /\ wpa small big k b Q) \/ (n <= big /\ 1 <= b /\ wpa small big k (b - 1) Q)
  end.
Lemma wpa_mono {A} sm bg (p : prog A) : forall b (Q Q' : A -> N -> Prop),
  (forall a b, Q a b -> Q' a b) -> wpa sm bg p b Q -> wpa sm bg p b Q'.
Proof.
  induction p as [a| | |n k IH|n k IH|n k IH|w k IH|k IH|n k IH]; intros b Q Q' HQ H; cbn [wpa] in *; auto;
    try (intros r Hr; eapply IH; eauto).
  destruct H as [[H1 H2]|(H1 & H2 & H3)]; [left|right]; repeat split; auto; eapply IH; eauto.
Qed.
Lemma wpa_bindp {A B} sm bg (p : prog A) (h : A -> prog B) Q : forall b,
  wpa sm bg p b (fun a b => wpa sm bg (h a) b Q) -> wpa sm bg (bindp p h) b Q.
Proof.
  induction p as [a| | |n k IH|n k IH|n k IH|w k IH|k IH|n k IH]; intros b H; cbn [wpa bindp] in *; auto.
  destruct H as [[H1 H2]|(H1 & H2 & H3)]; [left|right]; repeat split; auto.
Qed.

(** The requests above [small]. *)
Definition above (small : N) (l : list N) : list N := filter (fun n => small <? n) l.

Lemma requests_bound {S A} (M : machine S) I sm bg : lawful M I ->
  forall (p : prog A) b, wpa sm bg p b (fun _ _ => True) -> forall s, I s ->
  Forall (fun n => n <= N.max sm bg) (requests M p s) /\ lenN (above sm (requests M p s)) <= b.
Proof.
  intros HM. induction p as [a| | |n k IH|n k IH|n k IH|w k IH|k IH|n k IH];
    intros b H s HI; cbn [wpa requests] in *; try (split; [constructor|cbn; lia]).
  - destruct (lw_read _ _ HM n s HI) as [H1 H2].
    destruct (m_read M n s) as [r s']. cbn [fst snd] in *. apply IH; auto.
  - destruct (lw_exact _ _ HM n s HI) as (r & s' & -> & H1 & H2). apply IH; auto.
  - destruct (lw_line _ _ HM n s HI) as (r & s' & -> & H1 & H2). apply IH; auto.
  - destruct (lw_seek _ _ HM w s HI) as [H1 H2].
    destruct (m_seek M w s) as [r s']. cbn [fst snd] in *. apply IH; auto.
  - destruct (lw_tell _ _ HM s HI) as [H1 H2].
    destruct (m_tell M s) as [r s']. cbn [fst snd] in *. apply IH; auto.
  - unfold above. cbn [filter]. destruct H as [[H1 H2]|(H1 & H2 & H3)].
    + destruct (IH b H2 s HI) as [H3 H4]. split; [constructor; [lia|exact H3]|].
      destruct (N.ltb_spec sm n); [lia|exact H4].
    + destruct (IH (b - 1) H3 s HI) as [H4 H5]. split; [constructor; [lia|exact H4]|].
      unfold above in H5. destruct (N.ltb_spec sm n); [rewrite lenN_cons|]; lia.
Qed.

(** From [wp] of Static.v: no request above the bound. *)
Lemma wp_wpa {A} s sm bg (p : prog A) : forall Q, (forall n, al s n -> n <= sm) -> wp s p Q -> forall b,
  wpa sm bg p b (fun _ _ => True).
Proof.
  induction p as [a| | |n k IH|n k IH|n k IH|w k IH|k IH|n k IH]; intros Q Hal H b; cbn [wp wpa] in *; auto.
  - intros r Hr. destruct H as [_ H]. eapply IH; eauto.
  - intros r Hr. eapply IH; eauto.
  - intros r Hr. destruct H as [_ H]. eapply IH; eauto.
  - intros r Hr. eapply IH; eauto.
  - intros r Hr. eapply IH; eauto.
  - left. destruct H as [H1 H2]. split; [auto|]. eapply IH; eauto.
Qed.

(** The ZIP reader asks for at most one buffer of more than 65557 bytes: the data of "mimetype". *)
Section Zip.
Variable c : plat.
Notation small := 65557.
Notation big := 4294967295.
Definition oka {A} (F : A -> N -> Prop) (r : result A) (b : N) : Prop := match r with Ok a => F a b | Err _ => True end.
Definition wpaio {A} (m : io A) (b : N) (F : A -> N -> Prop) : Prop := wpa small big m b (oka F).
Lemma wpaio_bind {A B} (m : io A) (h : A -> io B) b F :
  wpaio m b (fun a b => wpaio (h a) b F) -> wpaio (bindio m h) b F.
Proof.
  intros H. unfold wpaio, bindio in *. apply wpa_bindp. eapply wpa_mono; [|exact H].
  intros [a|e] b' Ha; [exact Ha|exact I].
Qed.
Lemma wpaio_bindp {A B} (m : prog A) (h : A -> io B) b F :
  wpa small big m b (fun a b => wpaio (h a) b F) -> wpaio (bindp m h) b F.
Proof. intros H. unfold wpaio in *. now apply wpa_bindp. Qed.
Lemma wpaio_exact n b (F : bytes -> N -> Prop) : (forall l, lenN l = n -> F l b) -> wpaio (read_exact n) b F.
Proof. intros H [l|e] Hr; cbn in *; auto. Qed.
Lemma wpaio_seek w b (F : N -> N -> Prop) : (forall p, F p b) -> wpaio (seek w) b F.
Proof. intros H [l|e] Hr; cbn in *; auto. Qed.
Lemma wpaio_bytes n b (F : bytes -> N -> Prop) : n <= small -> (forall l, lenN l = n -> F l b) -> wpaio (read_bytes c n) b F.
Proof.
  intros Hn H. unfold read_bytes. apply wpaio_bindp. unfold alloc. destruct (isize_max c <? n); [exact I|].
  cbn [wpa]. left. split; [exact Hn|]. now apply wpaio_exact.
Qed.
Lemma wpaio_big n b (F : bytes -> N -> Prop) : n <= big -> 1 <= b -> (forall l, lenN l = n -> F l (b - 1)) -> wpaio (read_bytes c n) b F.
Proof.
  intros Hn Hb H. unfold read_bytes. apply wpaio_bindp. unfold alloc. destruct (isize_max c <? n); [exact I|].
  cbn [wpa]. right. split; [exact Hn|]. split; [exact Hb|]. now apply wpaio_exact.
Qed.
Lemma wpaio_val (val : bytes -> N) n b (F : N -> N -> Prop) : (forall l, val l < 256 ^ lenN l) ->
  (forall v, v < 256 ^ n -> F v b) -> wpaio (let! buf := read_exact n in ok (val buf)) b F.
Proof.
  intros Hv H. apply wpaio_bind, wpaio_exact. intros l Hl. apply H. rewrite <- Hl. apply Hv.
Qed.
Lemma wpa_add a x b (Q : N -> N -> Prop) : (forall v, Q v b) -> wpa small big (u64_add c a x) b Q.
Proof. intros H. unfold u64_add. destruct (_ <? _); [apply H|]. destruct (ovf c); [exact I|apply H]. Qed.
Lemma wpa_sub a x b (Q : N -> N -> Prop) : (forall v, Q v b) -> wpa small big (u64_sub c a x) b Q.
Proof. intros H. unfold u64_sub. destruct (_ <=? _); [apply H|]. destruct (ovf c); [exact I|apply H]. Qed.
Lemma wpa_lift {A} (e : exec A) b (Q : A -> N -> Prop) : (forall v, Q v b) -> wpa small big (lift_exec e) b Q.
Proof. intros H. destruct e; cbn; auto. Qed.
Lemma wpaio_ok {A} (a : A) b (F : A -> N -> Prop) : F a b -> wpaio (ok a) b F.
Proof. auto. Qed.
Lemma wpaio_err {A} e b (F : A -> N -> Prop) : wpaio (err e) b F.
Proof. exact I. Qed.
Ltac astep :=
  match goal with
  | |- wpaio (bindio _ _) _ _ => apply wpaio_bind
  | |- wpaio (bindp _ _) _ _ => apply wpaio_bindp
  | |- wpaio (ok _) _ _ => apply wpaio_ok; try exact I
  | |- wpaio (err _) _ _ => apply wpaio_err
  | |- wpaio (seek _) _ _ => apply wpaio_seek; intros
  | |- wpaio read_u16_le _ _ => apply (wpaio_val le_val 2); [apply le_val_lt|intros]
  | |- wpaio read_u32_le _ _ => apply (wpaio_val le_val 4); [apply le_val_lt|intros]
  | |- wpaio read_u64_le _ _ => apply (wpaio_val le_val 8); [apply le_val_lt|intros]
  | |- wpaio (if ?b then _ else _) _ _ => destruct b
  | |- wpaio (read_bytes _ _) _ _ => apply wpaio_bytes; [lia|intros]
  | |- wpa _ _ (u64_add _ _ _) _ _ => apply wpa_add; intros
  | |- wpa _ _ (u64_sub _ _ _) _ _ => apply wpa_sub; intros
  | |- wpa _ _ (lift_exec _) _ _ => apply wpa_lift; intros
  end.
Lemma zip_entries_requests : forall n fmt b, 1 <= b -> wpaio (zip_entries c n fmt) b (fun _ _ => True).
Proof.
  induction n as [|n IH]; intros fmt b Hb; cbn [zip_entries]; [astep|].
  do 16 astep. change (256 ^ 2) with 65536 in *. change (256 ^ 4) with 4294967296 in *.
  astep. unfold read_string. astep. astep. astep.
  destruct (lookup_ustr _ zip_name_table) as [ff|]; [astep|].
  astep; [repeat astep; apply IH; lia|].
  astep.
  - unfold zip_mimetype, read_string. pose proof (as_usize_le c v) as Hu. astep. astep. astep. astep. astep. astep. astep. astep. astep. astep. astep.
    astep. apply wpaio_big; [lia|exact Hb|]. intros. repeat astep.
  - destruct (zip_name_rules _) as [ff|]; repeat astep. apply IH; lia.
Qed.
Lemma zip_requests : wpaio (from_zip_reader c) 1 (fun _ _ => True).
Proof.
  unfold from_zip_reader. astep. astep. astep. unfold zip_find_eocd, EOCD_MAX_SIZE, EOCD_MIN_SIZE.
  astep. astep. astep. astep. astep. astep. destruct v as [i|]; [|astep].
  astep. astep. astep. astep. unfold zip_is_zip64. astep.
  - astep. astep. astep. astep. astep. astep. astep. astep. unfold zip_directory. repeat astep; now apply zip_entries_requests.
  - astep. astep. unfold zip_directory. repeat astep. now apply zip_entries_requests.
Qed.
End Zip.

(** The largest request of a reader, and how many requests may exceed 65557 bytes. *)
Lemma reader_requests c fuel x : wf_cfg c ->
  wpa (max_alloc x) (max_alloc x) (reader_of c fuel x) 0 (fun _ _ => True).
Proof.
  intros Hc. eapply wp_wpa; [|exact (reader_static c fuel x Hc)]. intros n H. exact H.
Qed.

Lemma fmt_reader_feature (c : cfg) fuel f p : fmt_reader c fuel f = Some p ->
  exists x, feature_of f = Some x /\ feat c x = true /\ p = reader_of c fuel x /\ uses_bufreader f = buffered x.
Proof.
  unfold fmt_reader. destruct f; cbn [feature_of uses_bufreader]; try discriminate;
    match goal with |- context [feat c ?x] => destruct (feat c x) eqn:E; [|discriminate] end;
    intros [= <-]; eexists; (split; [reflexivity|]); auto.
Qed.

Lemma run_reader_keeps c content fuel x d : wf_cfg c -> Idev content d ->
  Idev content (snd (run_reader c fuel x d)).
Proof.
  intros Hc HI. unfold run_reader. destruct (buffered x).
  - unfold run_buf. pose proof (wp_sound buf_machine (Ibuf content) (sp c x) (buf_lawful content) _ _ (reader_static c fuel x Hc) (mkbdev d []) HI) as [H _].
    destruct (run buf_machine _ (mkbdev d [])) as [r t]. exact H.
  - exact (proj1 (wp_sound raw_machine (Idev content) (sp c x) (raw_lawful content) _ _ (reader_static c fuel x Hc) d HI)).
Qed.

Lemma txt_requests content d : Idev content d -> requests buf_machine from_txt_reader (mkbdev d []) = [].
Proof.
  intros HI.
  assert (Hno : forall A (p : prog A), (forall Q, wp (mksparams False False (fun _ => False) True True) p Q -> forall s, Ibuf content s -> requests buf_machine p s = [])).
  { intros A p. pose proof (buf_lawful content) as HM.
    induction p as [a| | |n k IH|n k IH|n k IH|w k IH|k IH|n k IH]; intros Q H s HIs; cbn [wp requests] in *; try reflexivity.
    - destruct H as [_ H]. destruct (lw_read _ _ HM n s HIs) as [H1 H2].
      destruct (m_read buf_machine n s) as [r s']. eapply IH; eauto.
    - destruct (lw_exact _ _ HM n s HIs) as (r & s' & -> & H1 & H2). eapply IH; eauto.
    - destruct H as [_ H]. destruct (lw_line _ _ HM n s HIs) as (r & s' & -> & H1 & H2). eapply IH; eauto.
    - destruct (lw_seek _ _ HM w s HIs) as [H1 H2].
      destruct (m_seek buf_machine w s) as [r s']. eapply IH; eauto.
    - destruct (lw_tell _ _ HM s HIs) as [H1 H2].
      destruct (m_tell buf_machine s) as [r s']. eapply IH; eauto.
    - destruct H as [[] _]. }
  apply (Hno _ _ (fun _ => True)); [|exact HI].
  clear. unfold from_txt_reader.
  assert (L : forall n lim, wp (mksparams False False (fun _ => False) True True) (txt_lines n lim) (fun _ => True)).
  { induction n as [|n IH]; intros lim; cbn [txt_lines]; [exact I|].
    unfold bindio, read_line. cbn [bindp wp]. split; [exact I|]. intros [line|e] _; cbn [bindp wp]; [|exact I].
    destruct line; [exact I|]. destruct (utf8_strict _); [|exact I]. destruct (existsb _ _); [exact I|apply IH]. }
  unfold bindio, rewind, seek. cbn [bindp wp]. intros [p|e] _; cbn [bindp]; [apply L|exact I].
Qed.

(** The requests of [from_reader] are those of the container reader that was chosen. *)
Lemma from_reader_requests_cases (c : cfg) d : wf_cfg c -> d_max d < u64_max1 ->
  from_reader_requests c d = [] \/
  exists x buf, fst (dev_read window d) = Ok buf /\ from_signature buf = Some (container x) /\ feat c x = true /\ x <> FTxt /\
    from_reader_requests c d =
      if buffered x then requests buf_machine (reader_of c (S (List.length (d_content d))) x) (mkbdev (snd (dev_read window d)) [])
      else requests raw_machine (reader_of c (S (List.length (d_content d))) x) (snd (dev_read window d)).
Proof.
  intros Hc Hmax. assert (HI : Idev (d_content d) d) by (split; auto).
  pose proof (dev_read_content _ window d HI) as HI1. unfold from_reader_requests.
  destruct (dev_read window d) as [[[|b buf]|e] d1]; cbn [fst snd] in *; auto.
  assert (Hg : forall d2, Idev (d_content d) d2 ->
    (if feat c FTxt then requests buf_machine from_txt_reader (mkbdev d2 []) else []) = []).
  { intros d2 HI2. destruct (feat c FTxt); [|reflexivity]. now apply (txt_requests (d_content d)). }
  destruct (from_signature (b :: buf)) as [f|] eqn:Es; [|left; now apply Hg].
  destruct (fmt_reader c (S (List.length (d_content d))) f) as [p|] eqn:Ef; [|now left].
  destruct (fmt_reader_feature _ _ _ _ Ef) as (x & Hx & Hfx & -> & Hb). right.
  apply feature_of_some in Hx as Hx'. destruct Hx' as [-> Hnt].
  exists x, (b :: buf). repeat split; auto. rewrite Hb.
  assert (Htail : match from_fmt_reader c (S (List.length (d_content d))) (container x) d1 with
     | (Done (Err _), d2) => if feat c FTxt then requests buf_machine from_txt_reader (mkbdev d2 []) else []
     | _ => [] end = []).
  { rewrite from_fmt_reader_eq, Hx, Hfx.
    pose proof (run_reader_keeps c (d_content d) (S (List.length (d_content d))) x d1 Hc HI1) as HI2. unfold run_reader in HI2.
    destruct (if buffered x then _ else _) as [[[g|e]| |] d2]; try reflexivity. now apply Hg. }
  rewrite Htail, app_nil_r. reflexivity.
Qed.
Lemma from_reader_requests_bound (c : cfg) d : wf_cfg c -> d_max d < u64_max1 ->
  from_reader_requests c d = [] \/
  exists x buf, fst (dev_read window d) = Ok buf /\ from_signature buf = Some (container x) /\ feat c x = true /\ x <> FTxt /\
    Forall (fun n => n <= max_alloc x) (from_reader_requests c d) /\
    lenN (above 65557 (from_reader_requests c d)) <= 1.
Proof.
  intros Hc Hmax. destruct (from_reader_requests_cases c d Hc Hmax) as [H|(x & buf & H1 & H2 & H3 & H4 & E)]; [now left|].
  right. exists x, buf. repeat split; auto; rewrite E; clear E.
  - assert (HI : Idev (d_content d) (snd (dev_read window d))) by (apply dev_read_content; split; auto).
    pose proof (reader_requests c (S (List.length (d_content d))) x Hc) as Hw.
    destruct (buffered x).
    + pose proof (proj1 (requests_bound buf_machine (Ibuf (d_content d)) _ _ (buf_lawful _) _ _ Hw (mkbdev (snd (dev_read window d)) []) HI)) as K.
      now rewrite N.max_id in K.
    + pose proof (proj1 (requests_bound raw_machine (Idev (d_content d)) _ _ (raw_lawful _) _ _ Hw (snd (dev_read window d)) HI)) as K.
      now rewrite N.max_id in K.
  - assert (HI : Idev (d_content d) (snd (dev_read window d))) by (apply dev_read_content; split; auto).
    assert (Hw : wpa 65557 4294967295 (reader_of c (S (List.length (d_content d))) x) 1 (fun _ _ => True)).
    { assert (Hsm : max_alloc x <= 65557 -> wpa 65557 4294967295 (reader_of c (S (List.length (d_content d))) x) 1 (fun _ _ => True)).
      { intros Hm. eapply wp_wpa; [|exact (reader_static c _ x Hc)]. intros n Hn. unfold sp in Hn. cbn [al] in Hn. lia. }
      destruct x; try (apply Hsm; cbn; lia). cbn [reader_of].
      eapply wpa_mono; [|apply (zip_requests c)]. auto. }
    destruct (buffered x).
    + exact (proj2 (requests_bound buf_machine (Ibuf (d_content d)) _ _ (buf_lawful _) _ _ Hw (mkbdev (snd (dev_read window d)) []) HI)).
    + exact (proj2 (requests_bound raw_machine (Idev (d_content d)) _ _ (raw_lawful _) _ _ Hw (snd (dev_read window d)) HI)).
Qed.
