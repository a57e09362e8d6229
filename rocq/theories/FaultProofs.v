(** A device whose calls may fail at any point, compared with the same device without failures:
    as every reader gives up when a call fails, a run either ends with an error or is the run on
    the device without failures. *)
From Coq Require Import NArith ZArith Bool String List Lia ZifyBool ZifyNat ZifyN.
From Verif Require Import Base BaseProofs Formats IO Find Utf8 Readers Lib Mem IOProofs Static ReaderStatic Lawful
  LibProofs Ideal MaxProofs.
Local Open Scope N_scope.

(** ** Removing the failures from a schedule *)
Definition keeps (e : revent) : bool := match e with RFault _ => false | _ => true end.
Definition healed (d : dev) : dev :=
  mkdev (d_content d) (d_pos d) (filter keeps (d_reads d)) (filter (fun b => b) (d_seeks d)) (d_max d).
Definition bhealed (s : bdev) : bdev := mkbdev (healed (b_dev s)) (b_buf s).

(** An answer that ends the reader. *)
Definition final {A} (r : result A) : Prop := exists e, r = Err e /\ e <> EInterrupted.

Lemma dev_read_healed n d :
  final (fst (dev_read n d)) \/
  dev_read n (healed d) = (fst (dev_read n d), healed (snd (dev_read n d))).
Proof.
  unfold dev_read, healed. destruct (d_reads d) as [|[k| |e] rs]; cbn [filter keeps d_reads fst snd d_content d_pos d_seeks d_max].
  - right. reflexivity.
  - right. reflexivity.
  - right. reflexivity.
  - left. exists (EOther e). split; [reflexivity|discriminate].
Qed.
Lemma dev_seek_healed w d :
  final (fst (dev_seek w d)) \/
  dev_seek w (healed d) = (fst (dev_seek w d), healed (snd (dev_seek w d))).
Proof.
  unfold dev_seek, healed. destruct (d_seeks d) as [|[|] ss]; cbn [filter d_seeks d_content d_pos d_reads d_max tl].
  - right. destruct (_ || _); reflexivity.
  - right. destruct (_ || _); reflexivity.
  - left. exists (EOther 0). split; [reflexivity|discriminate].
Qed.
Lemma dev_tell_healed d :
  final (fst (dev_tell d)) \/ dev_tell (healed d) = (fst (dev_tell d), healed (snd (dev_tell d))).
Proof. apply dev_seek_healed. Qed.

(** ** Loops *)
Definition finalx {A} (e : exec (result A)) : Prop := exists x, e = Done (Err x).

Lemma read_exact_loop_healed {S} (h : S -> S) (rd : N -> S -> result bytes * S) :
  (forall n s, final (fst (rd n s)) \/ rd n (h s) = (fst (rd n s), h (snd (rd n s)))) ->
  forall f f' n acc s, (f' <= f)%nat ->
  finalx (fst (read_exact_loop rd f n acc s)) \/
  fst (read_exact_loop rd f' n acc (h s)) = OutOfFuel \/
  read_exact_loop rd f' n acc (h s) =
    (fst (read_exact_loop rd f n acc s), h (snd (read_exact_loop rd f n acc s))).
Proof.
  intros Hrd. induction f as [|f IH]; intros f' n acc s Hf.
  - assert (f' = 0)%nat by lia. subst. cbn. destruct (n =? 0); [right; right; reflexivity|right; left; reflexivity].
  - destruct f' as [|f'].
    + cbn [read_exact_loop]. destruct (n =? 0) eqn:En; [right; right; reflexivity|]. right; left; reflexivity.
    + cbn [read_exact_loop]. destruct (n =? 0) eqn:En; [right; right; reflexivity|].
      destruct (Hrd n s) as [(e & He & Hni)|He].
      * left. destruct (rd n s) as [r s1]. cbn [fst] in He. subst r. destruct e; try congruence; eexists; reflexivity.
      * rewrite He. destruct (rd n s) as [[l|e] s1]; cbn [fst snd].
        -- destruct l as [|b l]; [left; eexists; reflexivity|]. apply IH. lia.
        -- destruct e; try (left; eexists; reflexivity). apply IH. lia.
Qed.

Lemma filter_len {A} (f : A -> bool) l : (List.length (filter f l) <= List.length l)%nat.
Proof. induction l as [|a l IH]; cbn; [lia|]. destruct (f a); cbn; lia. Qed.

Lemma dev_read_exact_healed n d :
  finalx (fst (dev_read_exact n d)) \/ fst (dev_read_exact n (healed d)) = OutOfFuel \/
  dev_read_exact n (healed d) = (fst (dev_read_exact n d), healed (snd (dev_read_exact n d))).
Proof.
  unfold dev_read_exact. apply read_exact_loop_healed; [intros; apply dev_read_healed|].
  cbn [healed d_reads]. pose proof (filter_len keeps (d_reads d)). lia.
Qed.

(** ** BufReader *)
Lemma b_fill_healed s :
  final (fst (b_fill s)) \/ b_fill (bhealed s) = (fst (b_fill s), bhealed (snd (b_fill s))).
Proof.
  unfold b_fill, bhealed. cbn [b_buf b_dev]. destruct (b_buf s) as [|b l] eqn:Eb.
  2:{ right. cbn [fst snd]. now rewrite Eb. }
  destruct (dev_read_healed buf_capacity (b_dev s)) as [H|H].
  - left. destruct (dev_read buf_capacity (b_dev s)) as [r d]. cbn [fst] in H. destruct H as (e & -> & He).
    exists e. split; [reflexivity|exact He].
  - right. rewrite H. destruct (dev_read buf_capacity (b_dev s)) as [[l|e] d]; reflexivity.
Qed.
Lemma b_read_healed n s :
  final (fst (b_read n s)) \/ b_read n (bhealed s) = (fst (b_read n s), bhealed (snd (b_read n s))).
Proof.
  unfold b_read. change (b_buf (bhealed s)) with (b_buf s). destruct (b_buf s) as [|b l] eqn:Eb.
  2:{ right. reflexivity. }
  destruct (buf_capacity <=? n).
  - change (b_dev (bhealed s)) with (healed (b_dev s)).
    destruct (dev_read_healed n (b_dev s)) as [H|H].
    + left. destruct (dev_read n (b_dev s)) as [r d]. exact H.
    + right. rewrite H. destruct (dev_read n (b_dev s)) as [r d]. reflexivity.
  - destruct (b_fill_healed s) as [H|H].
    + left. destruct (b_fill s) as [r d]. cbn [fst] in H. destruct H as (e & -> & He). exists e. split; [reflexivity|exact He].
    + right. rewrite H. destruct (b_fill s) as [[l|e] d]; reflexivity.
Qed.
Lemma b_read_exact_healed n s :
  finalx (fst (b_read_exact n s)) \/ fst (b_read_exact n (bhealed s)) = OutOfFuel \/
  b_read_exact n (bhealed s) = (fst (b_read_exact n s), bhealed (snd (b_read_exact n s))).
Proof.
  unfold b_read_exact. apply read_exact_loop_healed; [intros; apply b_read_healed|].
  cbn [bhealed b_dev healed d_reads]. pose proof (filter_len keeps (d_reads (b_dev s))). lia.
Qed.
Lemma b_until_healed : forall f f' lim acc s, (f' <= f)%nat ->
  finalx (fst (b_until f lim acc s)) \/ fst (b_until f' lim acc (bhealed s)) = OutOfFuel \/
  b_until f' lim acc (bhealed s) = (fst (b_until f lim acc s), bhealed (snd (b_until f lim acc s))).
Proof.
  induction f as [|f IH]; intros f' lim acc s Hf.
  - assert (f' = 0)%nat by lia. subst. cbn [b_until]. destruct (lim =? 0); [right; right; reflexivity|right; left; reflexivity].
  - destruct f' as [|f'].
    + cbn [b_until]. destruct (lim =? 0) eqn:En; [right; right; reflexivity|]. right; left; reflexivity.
    + cbn [b_until]. destruct (lim =? 0) eqn:En; [right; right; reflexivity|].
      destruct (b_fill_healed s) as [(e & He & Hni)|He].
      * left. destruct (b_fill s) as [r s1]. cbn [fst] in He. subst r. destruct e; try congruence; eexists; reflexivity.
      * rewrite He. destruct (b_fill s) as [[l|e] s1]; cbn [fst snd].
        -- cbn zeta. change (b_dev (bhealed s1)) with (healed (b_dev s1)).
           destruct (split_lf (takeN lim l)) as [[a r]|]; [right; right; reflexivity|].
           destruct (takeN lim l) as [|b v] eqn:Ev; [right; right; reflexivity|].
           rewrite <- Ev.
           apply (IH f' _ _ (mkbdev (b_dev s1) (dropN (lenN (takeN lim l)) l))). lia.
        -- destruct e; try (left; eexists; reflexivity). apply IH. lia.
Qed.
Lemma b_read_line_healed lim s :
  finalx (fst (b_read_line lim s)) \/ fst (b_read_line lim (bhealed s)) = OutOfFuel \/
  b_read_line lim (bhealed s) = (fst (b_read_line lim s), bhealed (snd (b_read_line lim s))).
Proof.
  unfold b_read_line. apply b_until_healed.
  cbn [bhealed b_dev healed d_reads]. pose proof (filter_len keeps (d_reads (b_dev s))). lia.
Qed.
Lemma b_seek_healed w s :
  final (fst (b_seek w s)) \/ b_seek w (bhealed s) = (fst (b_seek w s), bhealed (snd (b_seek w s))).
Proof.
  unfold b_seek. change (b_buf (bhealed s)) with (b_buf s). change (b_dev (bhealed s)) with (healed (b_dev s)).
  assert (K : forall w',
    final (fst (match dev_seek w' (b_dev s) with
      | (Ok p, d) => (Ok p, mkbdev d []) | (Err e, d) => (Err e, mkbdev d (b_buf s)) end)) \/
    match dev_seek w' (healed (b_dev s)) with
      | (Ok p, d) => (Ok p, mkbdev d []) | (Err e, d) => (Err e, mkbdev d (b_buf s)) end =
    (fst (match dev_seek w' (b_dev s) with
      | (Ok p, d) => (Ok p, mkbdev d []) | (Err e, d) => (Err e, mkbdev d (b_buf s)) end),
     bhealed (snd (match dev_seek w' (b_dev s) with
      | (Ok p, d) => (Ok p, mkbdev d []) | (Err e, d) => (Err e, mkbdev d (b_buf s)) end)))).
  { intros w'. destruct (dev_seek_healed w' (b_dev s)) as [H|H].
    - left. destruct (dev_seek w' (b_dev s)) as [r d]. cbn [fst] in H. destruct H as (e & -> & He). exists e. split; [reflexivity|exact He].
    - right. rewrite H. destruct (dev_seek w' (b_dev s)) as [[p|e] d]; reflexivity. }
  destruct w as [n|z|z]; [apply K| |apply K].
  destruct (i64_min <=? z - Z.of_N (lenN (b_buf s)))%Z; [apply K|].
  destruct (dev_seek_healed (FromCurrent (- Z.of_N (lenN (b_buf s)))) (b_dev s)) as [H|H].
  - left. destruct (dev_seek (FromCurrent (- Z.of_N (lenN (b_buf s)))) (b_dev s)) as [r d]. cbn [fst] in H.
    destruct H as (e & -> & He). exists e. split; [reflexivity|exact He].
  - rewrite H. destruct (dev_seek (FromCurrent (- Z.of_N (lenN (b_buf s)))) (b_dev s)) as [[p|e] d]; cbn [fst snd]; [|right; reflexivity].
    destruct (dev_seek_healed (FromCurrent z) d) as [H'|H'].
    + left. destruct (dev_seek (FromCurrent z) d) as [r d']. exact H'.
    + right. rewrite H'. destruct (dev_seek (FromCurrent z) d) as [r d']. reflexivity.
Qed.
Lemma b_tell_healed s :
  final (fst (b_tell s)) \/ b_tell (bhealed s) = (fst (b_tell s), bhealed (snd (b_tell s))).
Proof.
  unfold b_tell. change (b_buf (bhealed s)) with (b_buf s). change (b_dev (bhealed s)) with (healed (b_dev s)).
  destruct (dev_tell_healed (b_dev s)) as [H|H].
  - left. destruct (dev_tell (b_dev s)) as [r d]. cbn [fst] in H. destruct H as (e & -> & He). exists e. split; [reflexivity|exact He].
  - right. rewrite H. destruct (dev_tell (b_dev s)) as [[p|e] d]; reflexivity.
Qed.

(** ** Runs *)
Record heals {S} (M : machine S) (h : S -> S) : Prop := {
  hl_read : forall n s, final (fst (m_read M n s)) \/ m_read M n (h s) = (fst (m_read M n s), h (snd (m_read M n s)));
  hl_exact : forall n s, finalx (fst (m_read_exact M n s)) \/ fst (m_read_exact M n (h s)) = OutOfFuel \/
    m_read_exact M n (h s) = (fst (m_read_exact M n s), h (snd (m_read_exact M n s)));
  hl_line : forall n s, finalx (fst (m_read_line M n s)) \/ fst (m_read_line M n (h s)) = OutOfFuel \/
    m_read_line M n (h s) = (fst (m_read_line M n s), h (snd (m_read_line M n s)));
  hl_seek : forall w s, final (fst (m_seek M w s)) \/ m_seek M w (h s) = (fst (m_seek M w s), h (snd (m_seek M w s)));
  hl_tell : forall s, final (fst (m_tell M s)) \/ m_tell M (h s) = (fst (m_tell M s), h (snd (m_tell M s)))
}.

Lemma run_healed {S A} (M : machine S) h : heals M h -> forall (p : io A), strict p -> forall s,
  finalx (fst (run M p s)) \/ fst (run M p (h s)) = OutOfFuel \/
  run M p (h s) = (fst (run M p s), h (snd (run M p s))).
Proof.
  intros HM. induction p as [a| | |n k IH|n k IH|n k IH|w k IH|k IH|n k IH]; intros Hp s; cbn [strict run] in *;
    try (right; right; reflexivity).
  - destruct Hp as [He Hk]. destruct (hl_read _ _ HM n s) as [H|H].
    + left. destruct (m_read M n s) as [r s1]. cbn [fst] in H. destruct H as (e & -> & _).
      destruct (He e) as [e' ->]. now exists e'.
    + rewrite H. destruct (m_read M n s) as [r s1]. cbn [fst snd]. apply IH, Hk.
  - destruct Hp as [He Hk]. destruct (hl_exact _ _ HM n s) as [H|[H|H]].
    + left. destruct (m_read_exact M n s) as [r s1]. cbn [fst] in H. destruct H as (e & ->).
      destruct (He e) as [e' ->]. now exists e'.
    + right. left. destruct (m_read_exact M n (h s)) as [r s1]. cbn [fst] in H. subst r. reflexivity.
    + rewrite H. destruct (m_read_exact M n s) as [[r| |] s1]; cbn [fst snd]; try (right; right; reflexivity). apply IH, Hk.
  - destruct Hp as [He Hk]. destruct (hl_line _ _ HM n s) as [H|[H|H]].
    + left. destruct (m_read_line M n s) as [r s1]. cbn [fst] in H. destruct H as (e & ->).
      destruct (He e) as [e' ->]. now exists e'.
    + right. left. destruct (m_read_line M n (h s)) as [r s1]. cbn [fst] in H. subst r. reflexivity.
    + rewrite H. destruct (m_read_line M n s) as [[r| |] s1]; cbn [fst snd]; try (right; right; reflexivity). apply IH, Hk.
  - destruct Hp as [He Hk]. destruct (hl_seek _ _ HM w s) as [H|H].
    + left. destruct (m_seek M w s) as [r s1]. cbn [fst] in H. destruct H as (e & -> & _).
      destruct (He e) as [e' ->]. now exists e'.
    + rewrite H. destruct (m_seek M w s) as [r s1]. cbn [fst snd]. apply IH, Hk.
  - destruct Hp as [He Hk]. destruct (hl_tell _ _ HM s) as [H|H].
    + left. destruct (m_tell M s) as [r s1]. cbn [fst] in H. destruct H as (e & -> & _).
      destruct (He e) as [e' ->]. now exists e'.
    + rewrite H. destruct (m_tell M s) as [r s1]. cbn [fst snd]. apply IH, Hk.
  - apply IH, Hp.
Qed.


Lemma raw_heals : heals raw_machine healed.
Proof.
  constructor; cbn [raw_machine m_read m_read_exact m_read_line m_seek m_tell]; intros.
  - apply dev_read_healed.
  - apply dev_read_exact_healed.
  - pose proof (b_read_line_healed n (mkbdev s [])) as H.
    change (bhealed (mkbdev s [])) with (mkbdev (healed s) []) in H.
    destruct H as [H|[H|H]].
    + left. destruct (b_read_line n (mkbdev s [])) as [r t]. exact H.
    + right. left. destruct (b_read_line n (mkbdev (healed s) [])) as [r t]. exact H.
    + right. right. rewrite H. destruct (b_read_line n (mkbdev s [])) as [r t]. reflexivity.
  - apply dev_seek_healed.
  - apply dev_tell_healed.
Qed.
Lemma buf_heals : heals buf_machine bhealed.
Proof.
  constructor; cbn [buf_machine m_read m_read_exact m_read_line m_seek m_tell]; intros.
  - apply b_read_healed.
  - apply b_read_exact_healed.
  - apply b_read_line_healed.
  - apply b_seek_healed.
  - apply b_tell_healed.
Qed.

(** ** Readers that call [read] directly: only full reads and failures *)
Definition not_short (e : revent) : Prop := match e with RShort _ => False | _ => True end.
Definition quieted (d : dev) : dev :=
  mkdev (d_content d) (d_pos d) [] (filter (fun b => b) (d_seeks d)) (d_max d).

Fixpoint plain {A} (p : prog A) : Prop :=
  match p with
  | Ret _ | PPanic | PFuel => True
  | PRead _ k => forall r, plain (k r)
  | PReadExact _ _ | PReadLine _ _ => False
  | PSeek _ k | PTell k => forall r, plain (k r)
  | PAlloc _ k => plain k
  end.
Lemma plain_bindp {A B} (m : prog A) (f : A -> prog B) : plain m -> (forall a, plain (f a)) -> plain (bindp m f).
Proof.
  intros Hm Hf. induction m as [r| | |n k IH|n k IH|n k IH|w k IH|k IH|n k IH]; cbn [bindp plain] in *; auto.
Qed.
Lemma plain_bindio {A B} (m : io A) (f : A -> io B) : plain m -> (forall a, plain (f a)) -> plain (bindio m f).
Proof. intros Hm Hf. apply plain_bindp; [exact Hm|]. intros [a|e]; [apply Hf|exact I]. Qed.
Ltac plains :=
  repeat match goal with
  | |- forall _, _ => intro
  | |- plain (bindio _ _) => apply plain_bindio
  | |- plain (bindp (lift_exec ?e) _) => apply plain_bindp; [destruct e; exact I|]
  | |- plain (read _) => intro; exact I
  | |- plain (seek _) => intro; exact I
  | |- plain (ok _) => exact I
  | |- plain (Ret _) => exact I
  | |- plain PFuel => exact I
  | |- plain (if ?b then _ else _) => destruct b
  | |- plain (match ?x with _ => _ end) => destruct x
  | |- plain (let _ := _ in _) => cbv zeta
  | |- plain _ => solve [auto]
  end.
Lemma plain_pdf fuel : plain (from_pdf_reader fuel).
Proof.
  assert (H : forall fuel t b, plain (pdf_loop fuel t b)).
  { clear fuel. induction fuel; intros; cbn [pdf_loop]; plains. }
  unfold from_pdf_reader. plains.
Qed.
Lemma plain_xml : plain from_xml_reader.
Proof. unfold from_xml_reader. plains. Qed.
Lemma plain_sqlite : plain from_sqlite3_reader.
Proof. unfold from_sqlite3_reader. plains. Qed.
Lemma uses_read_plain c fuel x : uses_read x -> plain (reader_of c fuel x).
Proof. destruct x; cbn [uses_read reader_of]; try contradiction; intros _; auto using plain_pdf, plain_xml, plain_sqlite. Qed.

Lemma run_quieted {A} (p : io A) : strict p -> plain p -> forall d, Forall not_short (d_reads d) ->
  finalx (fst (run_raw p d)) \/ run_raw p (quieted d) = (fst (run_raw p d), quieted (snd (run_raw p d))).
Proof.
  unfold run_raw. induction p as [a| | |n k IH|n k IH|n k IH|w k IH|k IH|n k IH]; intros Hs Hp d Hd; cbn [strict plain run] in *;
    try (right; reflexivity); try contradiction.
  - destruct Hs as [He Hk]. cbn [raw_machine m_read]. unfold dev_read. cbn [quieted d_reads].
    destruct (d_reads d) as [|[k0| |e] rs] eqn:Er.
    + set (d1 := mkdev (d_content d) (d_pos d + lenN (takeN n (avail (d_content d) (d_pos d)))) [] (d_seeks d) (d_max d)).
      apply (IH (Ok (takeN n (avail (d_content d) (d_pos d)))) (Hk _) (Hp _) d1). constructor.
    + inversion_clear Hd. contradiction.
    + left. destruct (He EInterrupted) as [e' ->]. now exists e'.
    + left. destruct (He (EOther e)) as [e' ->]. now exists e'.
  - destruct Hs as [He Hk]. cbn [raw_machine m_seek]. unfold dev_seek. cbn [quieted d_seeks d_content d_pos d_reads d_max].
    set (t := seek_target (lenN (d_content d)) (d_pos d) w).
    destruct (d_seeks d) as [|[|] ss] eqn:Es; cbn [filter tl].
    + destruct ((t <? 0)%Z || (Z.of_N (d_max d) <? t)%Z).
      * left. destruct (He EInvalidInput) as [e' ->]. now exists e'.
      * apply (IH (Ok (Z.to_N t)) (Hk _) (Hp _) (mkdev (d_content d) (Z.to_N t) (d_reads d) [] (d_max d))). exact Hd.
    + destruct ((t <? 0)%Z || (Z.of_N (d_max d) <? t)%Z).
      * left. destruct (He EInvalidInput) as [e' ->]. now exists e'.
      * apply (IH (Ok (Z.to_N t)) (Hk _) (Hp _) (mkdev (d_content d) (Z.to_N t) (d_reads d) ss (d_max d))). exact Hd.
    + left. destruct (He (EOther 0)) as [e' ->]. now exists e'.
  - destruct Hs as [He Hk]. cbn [raw_machine m_tell]. unfold dev_tell, dev_seek.
    cbn [quieted d_seeks d_content d_pos d_reads d_max].
    set (t := seek_target (lenN (d_content d)) (d_pos d) (FromCurrent 0)).
    destruct (d_seeks d) as [|[|] ss] eqn:Es; cbn [filter tl].
    + destruct ((t <? 0)%Z || (Z.of_N (d_max d) <? t)%Z).
      * left. destruct (He EInvalidInput) as [e' ->]. now exists e'.
      * apply (IH (Ok (Z.to_N t)) (Hk _) (Hp _) (mkdev (d_content d) (Z.to_N t) (d_reads d) [] (d_max d))). exact Hd.
    + destruct ((t <? 0)%Z || (Z.of_N (d_max d) <? t)%Z).
      * left. destruct (He EInvalidInput) as [e' ->]. now exists e'.
      * apply (IH (Ok (Z.to_N t)) (Hk _) (Hp _) (mkdev (d_content d) (Z.to_N t) (d_reads d) ss (d_max d))). exact Hd.
    + left. destruct (He (EOther 0)) as [e' ->]. now exists e'.
  - apply IH; assumption.
Qed.

(** ** What a device keeps whatever happens *)
Definition Jdev (content : bytes) (max : N) (d : dev) : Prop :=
  d_content d = content /\ d_max d = max /\ d_pos d <= max /\ lenN content <= max.
Definition Jbuf (content : bytes) (max : N) (s : bdev) : Prop := Jdev content max (b_dev s).

Lemma dev_read_keeps content max n d : Jdev content max d -> Jdev content max (snd (dev_read n d)).
Proof.
  intros (Hc & Hm & Hp & Hl). unfold dev_read.
  assert (K : forall m rs, Jdev content max (mkdev (d_content d)
    (d_pos d + lenN (takeN m (avail (d_content d) (d_pos d)))) rs (d_seeks d) (d_max d))).
  { intros m rs. split; [exact Hc|]. split; [exact Hm|]. split; [|exact Hl]. cbn [d_pos]. unfold avail.
    rewrite lenN_takeN, lenN_dropN, Hc. lia. }
  destruct (d_reads d) as [|[k| |e] rs]; cbn [snd]; try apply K; repeat split; assumption.
Qed.
Lemma dev_seek_keeps content max w d : Jdev content max d -> Jdev content max (snd (dev_seek w d)).
Proof.
  intros (Hc & Hm & Hp & Hl). unfold dev_seek.
  assert (K : forall ss, let t := seek_target (lenN (d_content d)) (d_pos d) w in
    Jdev content max (snd (if (t <? 0)%Z || (Z.of_N (d_max d) <? t)%Z
      then (Err EInvalidInput, mkdev (d_content d) (d_pos d) (d_reads d) ss (d_max d))
      else (Ok (Z.to_N t), mkdev (d_content d) (Z.to_N t) (d_reads d) ss (d_max d))))).
  { intros ss t. destruct ((t <? 0)%Z || (Z.of_N (d_max d) <? t)%Z) eqn:E; cbn [snd].
    - repeat split; assumption.
    - split; [exact Hc|]. split; [exact Hm|]. split; [|exact Hl]. cbn [d_pos]. rewrite <- Hm. lia. }
  destruct (d_seeks d) as [|[|] ss]; [apply K|apply K|]. repeat split; assumption.
Qed.
Lemma loop_keeps {S} (J : S -> Prop) rd : (forall n s, J s -> J (snd (rd n s))) ->
  forall f n acc s, J s -> J (snd (read_exact_loop rd f n acc s)).
Proof.
  intros H. induction f as [|f IH]; intros n acc s Hs; cbn [read_exact_loop]; destruct (n =? 0); try exact Hs.
  pose proof (H n s Hs) as H1. destruct (rd n s) as [[l|e] s1]; cbn [snd] in H1.
  - destruct l; [exact H1|]. now apply IH.
  - destruct e; try exact H1. now apply IH.
Qed.
Lemma b_fill_keeps content max s : Jbuf content max s -> Jbuf content max (snd (b_fill s)).
Proof.
  intros H. unfold b_fill. destruct (b_buf s); [|exact H].
  pose proof (dev_read_keeps content max buf_capacity (b_dev s) H) as H1.
  destruct (dev_read buf_capacity (b_dev s)) as [[l|e] d]; exact H1.
Qed.
Lemma b_read_keeps content max n s : Jbuf content max s -> Jbuf content max (snd (b_read n s)).
Proof.
  intros H. unfold b_read. destruct (b_buf s); [|exact H]. destruct (buf_capacity <=? n).
  - pose proof (dev_read_keeps content max n (b_dev s) H) as H1. destruct (dev_read n (b_dev s)) as [r d]. exact H1.
  - pose proof (b_fill_keeps content max s H) as H1. destruct (b_fill s) as [[l|e] d]; exact H1.
Qed.
Lemma b_until_keeps content max : forall f lim acc s, Jbuf content max s -> Jbuf content max (snd (b_until f lim acc s)).
Proof.
  induction f as [|f IH]; intros lim acc s Hs; cbn [b_until]; destruct (lim =? 0); try exact Hs.
  pose proof (b_fill_keeps content max s Hs) as H1. destruct (b_fill s) as [[l|e] s1]; cbn [snd] in H1.
  - cbn zeta. destruct (split_lf (takeN lim l)) as [[a r]|]; [exact H1|].
    destruct (takeN lim l) as [|b v]; [exact H1|]. now apply IH.
  - destruct e; try exact H1. now apply IH.
Qed.
Lemma b_seek_keeps content max w s : Jbuf content max s -> Jbuf content max (snd (b_seek w s)).
Proof.
  intros H. unfold b_seek.
  assert (K : forall w', Jbuf content max (snd (match dev_seek w' (b_dev s) with
      | (Ok p, d) => (Ok p, mkbdev d []) | (Err e, d) => (Err e, mkbdev d (b_buf s)) end))).
  { intros w'. pose proof (dev_seek_keeps content max w' (b_dev s) H) as H1.
    destruct (dev_seek w' (b_dev s)) as [[p|e] d]; exact H1. }
  destruct w as [n|z|z]; [apply K| |apply K]. destruct (_ <=? _)%Z; [apply K|].
  pose proof (dev_seek_keeps content max (FromCurrent (- Z.of_N (lenN (b_buf s)))) (b_dev s) H) as H1.
  destruct (dev_seek (FromCurrent (- Z.of_N (lenN (b_buf s)))) (b_dev s)) as [[p|e] d]; [|exact H1]. cbn [snd] in H1.
  pose proof (dev_seek_keeps content max (FromCurrent z) d H1) as H2.
  destruct (dev_seek (FromCurrent z) d) as [r d']. exact H2.
Qed.
Lemma b_tell_keeps content max s : Jbuf content max s -> Jbuf content max (snd (b_tell s)).
Proof.
  intros H. unfold b_tell. pose proof (dev_seek_keeps content max (FromCurrent 0) (b_dev s) H) as H1.
  unfold dev_tell. destruct (dev_seek (FromCurrent 0) (b_dev s)) as [[p|e] d]; exact H1.
Qed.

Lemma run_keeps {S A} (M : machine S) (J : S -> Prop) :
  (forall n s, J s -> J (snd (m_read M n s))) -> (forall n s, J s -> J (snd (m_read_exact M n s))) ->
  (forall n s, J s -> J (snd (m_read_line M n s))) -> (forall w s, J s -> J (snd (m_seek M w s))) ->
  (forall s, J s -> J (snd (m_tell M s))) ->
  forall (p : prog A) s, J s -> J (snd (run M p s)).
Proof.
  intros H1 H2 H3 H4 H5. induction p as [a| | |n k IH|n k IH|n k IH|w k IH|k IH|n k IH]; intros s Hs; cbn [run]; try exact Hs.
  - pose proof (H1 n s Hs) as H. destruct (m_read M n s) as [r s1]. now apply IH.
  - pose proof (H2 n s Hs) as H. destruct (m_read_exact M n s) as [[r| |] s1]; [now apply IH|exact H|exact H].
  - pose proof (H3 n s Hs) as H. destruct (m_read_line M n s) as [[r| |] s1]; [now apply IH|exact H|exact H].
  - pose proof (H4 w s Hs) as H. destruct (m_seek M w s) as [r s1]. now apply IH.
  - pose proof (H5 s Hs) as H. destruct (m_tell M s) as [r s1]. now apply IH.
  - now apply IH.
Qed.
Lemma run_buf_keeps {A} content max (p : prog A) d : Jdev content max d -> Jdev content max (snd (run_buf p d)).
Proof.
  intros H. unfold run_buf.
  pose proof (run_keeps buf_machine (Jbuf content max)
    (fun n s => b_read_keeps content max n s)
    (fun n s => loop_keeps (Jbuf content max) b_read (fun n s => b_read_keeps content max n s) _ n [] s)
    (fun n s => b_until_keeps content max _ n [] s)
    (fun w s => b_seek_keeps content max w s) (fun s => b_tell_keeps content max s) p (mkbdev d []) H) as H1.
  destruct (run buf_machine p (mkbdev d [])) as [r s]. exact H1.
Qed.
Lemma run_raw_keeps {A} content max (p : prog A) d : Jdev content max d -> Jdev content max (snd (run_raw p d)).
Proof.
  intros H. unfold run_raw. apply run_keeps; cbn [raw_machine m_read m_read_exact m_read_line m_seek m_tell]; intros; try assumption.
  - now apply dev_read_keeps.
  - unfold dev_read_exact. apply loop_keeps; [intros; now apply dev_read_keeps|assumption].
  - pose proof (b_until_keeps content max (List.length (d_reads s) + N.to_nat n + 2) n [] (mkbdev s []) H0) as H1.
    unfold b_read_line. cbn [b_dev]. destruct (b_until _ n [] (mkbdev s [])) as [r t]. exact H1.
  - now apply dev_seek_keeps.
  - now apply dev_seek_keeps.
Qed.
Lemma run_reader_keeps c fuel x content max d : Jdev content max d -> Jdev content max (snd (run_reader c fuel x d)).
Proof. intros H. unfold run_reader. destruct (buffered x); [now apply run_buf_keeps|now apply run_raw_keeps]. Qed.

Lemma healed_good content max d : Jdev content max d -> good content max (healed d).
Proof.
  intros (Hc & Hm & Hp & Hl). split; [|exact Hp]. constructor; cbn [healed d_content d_max d_reads d_seeks]; auto.
  - apply Forall_forall. intros e He. apply filter_In in He. destruct He as [_ He]. destruct e; [exact I|exact I|discriminate].
  - apply Forall_forall. intros b Hb. apply filter_In in Hb. destruct Hb as [_ Hb]. now rewrite Hb.
Qed.
Lemma quieted_good content max d : Jdev content max d -> good content max (quieted d).
Proof.
  intros (Hc & Hm & Hp & Hl). split; [|exact Hp]. constructor; cbn [quieted d_content d_max d_reads d_seeks]; auto.
  apply Forall_forall. intros b Hb. apply filter_In in Hb. destruct Hb as [_ Hb]. now rewrite Hb.
Qed.

(** A reader on a device that may fail: an error, or what the ideal reader says. *)
Lemma run_reader_faulty c content max x d : wf_cfg c -> max < u64_max1 -> lenN content < 2 ^ 63 -> Jdev content max d ->
  ~ uses_read x \/ Forall not_short (d_reads d) ->
  finalx (fst (run_reader c (S (List.length content)) x d)) \/
  fst (run_reader c (S (List.length content)) x d) = mreader c content max x.
Proof.
  intros Hc Hmax Hl63 HJ Hx. set (fuel := S (List.length content)).
  assert (Hq : uses_read x -> finalx (fst (run_reader c fuel x d)) \/ fst (run_reader c fuel x d) = mreader c content max x).
  { intros Hu. destruct Hx as [Hx|Hx]; [contradiction|].
    assert (Hb : buffered x = false) by (destruct x; try contradiction; reflexivity).
    destruct (run_reader_ideal c content max x (quieted d) Hc Hmax (quieted_good _ _ _ HJ) ltac:(right; reflexivity)) as (d' & E & _).
    fold fuel in E. unfold run_reader in *. rewrite Hb in *.
    destruct (run_quieted (reader_of c fuel x) (reader_strict c fuel x) (uses_read_plain c fuel x Hu) d Hx) as [H|H];
      [left; exact H|right]. rewrite H in E. now injection E. }
  assert (Hn : ~ uses_read x -> finalx (fst (run_reader c fuel x d)) \/ fst (run_reader c fuel x d) = mreader c content max x).
  { intros Hu. destruct (run_reader_ideal c content max x (healed d) Hc Hmax (healed_good _ _ _ HJ) ltac:(left; exact Hu)) as (d' & E & _).
    fold fuel in E.
    assert (Hf : mreader c content max x <> OutOfFuel).
    { assert (HI : Idev content (healed d)).
      { destruct HJ as (H1 & H2 & _). split; [exact H1|]. cbn [healed d_max]. now rewrite H2. }
      pose proof (proj2 (run_reader_any c content x (healed d) Hc Hl63 HI)) as H.
      intros HH. rewrite HH in E. unfold fuel in E. rewrite E in H. exact H. }
    unfold run_reader in *. destruct (buffered x).
    - unfold run_buf in *.
      destruct (run_healed buf_machine bhealed buf_heals (reader_of c fuel x) (reader_strict c fuel x) (mkbdev d [])) as [H|[H|H]].
      + left. destruct (run buf_machine (reader_of c fuel x) (mkbdev d [])) as [r s]. exact H.
      + exfalso. change (bhealed (mkbdev d [])) with (mkbdev (healed d) []) in H.
        destruct (run buf_machine (reader_of c fuel x) (mkbdev (healed d) [])) as [r s]. cbn [fst] in H. subst r.
        injection E as E _. now apply Hf.
      + right. change (bhealed (mkbdev d [])) with (mkbdev (healed d) []) in H. rewrite H in E.
        destruct (run buf_machine (reader_of c fuel x) (mkbdev d [])) as [r s]. cbn [fst snd] in *. now injection E.
    - unfold run_raw in *.
      destruct (run_healed raw_machine healed raw_heals (reader_of c fuel x) (reader_strict c fuel x) d) as [H|[H|H]].
      + left. exact H.
      + exfalso. rewrite E in H. cbn [fst] in H. now apply Hf.
      + right. rewrite H in E. now injection E. }
  destruct x; cbn [uses_read] in *; auto.
Qed.

Lemma generic_faulty (c : cfg) content max d : wf_cfg c -> max < u64_max1 -> lenN content < 2 ^ 63 -> Jdev content max d ->
  fst (from_generic_reader c d) = Done ArbitraryBinaryData \/ fst (from_generic_reader c d) = ideal_generic c content max.
Proof.
  intros Hc Hmax Hl HJ. unfold from_generic_reader, ideal_generic.
  destruct (feat c FTxt); [|left; reflexivity].
  pose proof (run_reader_faulty c content max FTxt d Hc Hmax Hl HJ ltac:(left; cbn; auto)) as H.
  unfold run_reader in H. cbn [buffered reader_of] in H. destruct (run_buf from_txt_reader d) as [r d']. cbn [fst] in H.
  destruct H as [[e ->]|H]; [left; reflexivity|]. rewrite <- H. right. destruct r as [[f|e]| |]; reflexivity.
Qed.

(** from_reader: the calm answer, or the generic one, or ArbitraryBinaryData. *)
Lemma from_reader_faulty (c : cfg) content max d buf d1 :
  wf_cfg c -> max < u64_max1 -> lenN content < 2 ^ 63 -> Jdev content max d1 -> d_content d = content ->
  dev_read window d = (Ok buf, d1) ->
  (forall x, runs_reader c buf x -> uses_read x -> Forall not_short (d_reads d1)) ->
  fst (from_reader c d) = okexec (ideal_detect c content max buf) \/
  fst (from_reader c d) = Done (Ok ArbitraryBinaryData) \/
  fst (from_reader c d) = okexec (ideal_generic c content max).
Proof.
  intros Hc Hmax Hl HJ Hcont Eread Hq. unfold from_reader, ideal_detect. rewrite Eread, Hcont.
  destruct buf as [|b buf']; [left; reflexivity|]. remember (b :: buf') as buf eqn:Ebuf.
  clear Ebuf b buf'.
  assert (Hgen : forall d2, Jdev content max d2 ->
     let r := fst (match from_generic_reader c d2 with
      | (Done f, d3) => (Done (Ok f), d3)
      | (Panicked, d3) => (Panicked, d3)
      | (OutOfFuel, d3) => (OutOfFuel, d3)
      end) in r = Done (Ok ArbitraryBinaryData) \/ r = okexec (ideal_generic c content max)).
  { intros d2 Hd2. destruct (generic_faulty c content max d2 Hc Hmax Hl Hd2) as [H|H];
      destruct (from_generic_reader c d2) as [r d3]; cbn [fst] in H; subst r; [left; reflexivity|right].
    destruct (ideal_generic c content max); reflexivity. }
  destruct (from_signature buf) as [f|] eqn:Esig; [|right; apply Hgen; exact HJ].
  rewrite from_fmt_reader_eq.
  destruct (feature_of f) as [x|] eqn:Ef; [|left; reflexivity].
  destruct (feat c x) eqn:Efx; [|left; reflexivity].
  pose proof (run_reader_faulty c content max x d1 Hc Hmax Hl HJ) as H.
  pose proof (run_reader_keeps c (S (List.length content)) x content max d1 HJ) as HJ2.
  assert (Hx : ~ uses_read x \/ Forall not_short (d_reads d1)).
  { assert (Hr : runs_reader c buf x) by (exists f; auto).
    destruct x; cbn; auto; right; exact (Hq _ Hr I). }
  specialize (H Hx). unfold run_reader in H, HJ2.
  destruct (if buffered x then run_buf (reader_of c (S (List.length content)) x) d1
            else run_raw (reader_of c (S (List.length content)) x) d1) as [r d2]. cbn [fst snd] in H, HJ2.
  destruct H as [[e ->]|H].
  - right. apply Hgen. exact HJ2.
  - rewrite <- H. destruct r as [[g|e]| |]; try (left; reflexivity).
    right. apply Hgen. exact HJ2.
Qed.
