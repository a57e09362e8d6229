(** C52: what from_reader leaves behind: the stream itself, and the position of the reader. *)
From Coq Require Import NArith ZArith Bool String List Lia ZifyBool ZifyNat ZifyN.
From Verif Require Import Base BaseProofs Formats Signatures IO Readers Lib Spec SpecSig SpecApi SpecIo
  Mem IOProofs Static Lawful LibProofs SigProofs CoreProofs CallProofs Conf PropertiesSig.
Ltac Zify.zify_post_hook ::= idtac.
Local Open Scope N_scope.

(** A property of devices that no read and no seek changes is not changed by anything. *)
Section Kept.
Variable P : dev -> Prop.
Hypothesis Pread : forall n d, P d -> P (snd (dev_read n d)).
Hypothesis Pseek : forall w d, P d -> P (snd (dev_seek w d)).

Lemma loop_kept {S} (Q : S -> Prop) rd : (forall n s, Q s -> Q (snd (rd n s))) ->
  forall fuel n acc s, Q s -> Q (snd (@read_exact_loop S rd fuel n acc s)).
Proof.
  intros Hr. induction fuel as [|fuel IH]; intros n acc s H; cbn [read_exact_loop]; destruct (n =? 0); auto.
  specialize (Hr n s H). destruct (rd n s) as [[[|b l]|[]] s']; cbn [snd] in *; auto.
Qed.
Lemma fill_kept s : P (b_dev s) -> P (b_dev (snd (b_fill s))).
Proof.
  intros H. unfold b_fill. destruct (b_buf s); [|exact H].
  pose proof (Pread buf_capacity (b_dev s) H) as K. destruct (dev_read buf_capacity (b_dev s)) as [[l|e] d]; exact K.
Qed.
Lemma bread_kept n s : P (b_dev s) -> P (b_dev (snd (b_read n s))).
Proof.
  intros H. unfold b_read. destruct (b_buf s); [|exact H]. destruct (buf_capacity <=? n).
  - pose proof (Pread n (b_dev s) H) as K. destruct (dev_read n (b_dev s)) as [r d]. exact K.
  - pose proof (fill_kept s H) as K. destruct (b_fill s) as [[l|e] s']; exact K.
Qed.
Lemma until_kept : forall fuel lim acc s, P (b_dev s) -> P (b_dev (snd (b_until fuel lim acc s))).
Proof.
  induction fuel as [|fuel IH]; intros lim acc s H; cbn [b_until]; destruct (lim =? 0); auto.
  pose proof (fill_kept s H) as K. destruct (b_fill s) as [[l|[]] s']; cbn [snd] in *; auto.
  destruct (split_lf (takeN lim l)) as [[a r]|]; [exact K|].
  destruct (takeN lim l); [exact K|]. apply IH. exact K.
Qed.
Lemma bseek_kept w s : P (b_dev s) -> P (b_dev (snd (b_seek w s))).
Proof.
  intros H. unfold b_seek.
  assert (K : forall w', P (b_dev (snd (match dev_seek w' (b_dev s) with
      | (Ok p, d) => (Ok p, mkbdev d [])
      | (Err e, d) => (Err e, mkbdev d (b_buf s)) end)))).
  { intros w'. pose proof (Pseek w' _ H) as K. destruct (dev_seek w' (b_dev s)) as [[]]; exact K. }
  destruct w as [n|z|z]; try apply K. destruct (i64_min <=? _)%Z; [apply K|].
  pose proof (Pseek (FromCurrent (- Z.of_N (lenN (b_buf s)))) _ H) as K1.
  destruct (dev_seek _ (b_dev s)) as [[p|e] d]; [|exact K1]. cbn [snd] in K1.
  pose proof (Pseek (FromCurrent z) d K1) as K2. destruct (dev_seek (FromCurrent z) d) as [r d']. exact K2.
Qed.
Lemma btell_kept s : P (b_dev s) -> P (b_dev (snd (b_tell s))).
Proof.
  intros H. unfold b_tell, dev_tell. pose proof (Pseek (FromCurrent 0) _ H) as K.
  destruct (dev_seek _ (b_dev s)) as [[]]; exact K.
Qed.
Lemma run_kept {S A} (M : machine S) (Q : S -> Prop) :
  (forall n s, Q s -> Q (snd (m_read M n s))) -> (forall n s, Q s -> Q (snd (m_read_exact M n s))) ->
  (forall n s, Q s -> Q (snd (m_read_line M n s))) -> (forall w s, Q s -> Q (snd (m_seek M w s))) ->
  (forall s, Q s -> Q (snd (m_tell M s))) -> forall (p : prog A) s, Q s -> Q (snd (run M p s)).
Proof.
  intros H1 H2 H3 H4 H5. induction p as [a| | |n k IH|n k IH|n k IH|w k IH|k IH|n k IH]; intros s H; cbn [run]; auto.
  - specialize (H1 n s H). destruct (m_read M n s) as [r s']. now apply IH.
  - specialize (H2 n s H). destruct (m_read_exact M n s) as [[r| |] s']; auto.
  - specialize (H3 n s H). destruct (m_read_line M n s) as [[r| |] s']; auto.
  - specialize (H4 w s H). destruct (m_seek M w s) as [r s']. now apply IH.
  - specialize (H5 s H). destruct (m_tell M s) as [r s']. now apply IH.
Qed.
Lemma run_raw_kept {A} (p : prog A) d : P d -> P (snd (run_raw p d)).
Proof.
  apply (run_kept raw_machine P); cbn [raw_machine m_read m_read_exact m_read_line m_seek m_tell]; auto.
  - intros n s H. unfold dev_read_exact. now apply (loop_kept P).
  - intros n s H. pose proof (until_kept (List.length (d_reads s) + N.to_nat n + 2) n [] (mkbdev s []) H) as K.
    unfold b_read_line. cbn [b_dev]. destruct (b_until _ n [] (mkbdev s [])) as [r t]. exact K.
  - intros s H. now apply Pseek.
Qed.
Lemma run_buf_kept {A} (p : prog A) d : P d -> P (snd (run_buf p d)).
Proof.
  intros H. unfold run_buf.
  assert (K : P (b_dev (snd (run buf_machine p (mkbdev d []))))).
  { apply (run_kept buf_machine (fun s => P (b_dev s))); cbn [buf_machine m_read m_read_exact m_read_line m_seek m_tell]; auto.
    - intros n s K. now apply bread_kept.
    - intros n s K. unfold b_read_exact. apply (loop_kept (fun s => P (b_dev s))); auto. intros m t. apply bread_kept.
    - intros n s K. now apply until_kept.
    - intros w s K. now apply bseek_kept.
    - intros s K. now apply btell_kept. }
  destruct (run buf_machine p (mkbdev d [])) as [r s]. exact K.
Qed.
Lemma generic_kept c d : P d -> P (snd (from_generic_reader c d)).
Proof.
  intros H. unfold from_generic_reader. destruct (feat c FTxt); [|exact H].
  pose proof (run_buf_kept from_txt_reader d H) as K.
  destruct (run_buf from_txt_reader d) as [[[]| |] d']; exact K.
Qed.
Lemma fmt_kept c fuel f d : P d -> P (snd (from_fmt_reader c fuel f d)).
Proof.
  intros H. unfold from_fmt_reader. destruct (fmt_reader c fuel f); [|exact H].
  destruct (uses_bufreader f); [now apply run_buf_kept|now apply run_raw_kept].
Qed.
Lemma from_reader_kept c d : P d -> P (snd (from_reader c d)).
Proof.
  intros H. unfold from_reader. pose proof (Pread window d H) as K.
  destruct (dev_read window d) as [[[|b buf]|e] d1]; cbn [snd] in K; try exact K.
  assert (G : forall d2, P d2 -> P (snd (match from_generic_reader c d2 with
        | (Done f, d3) => (Done (Ok f), d3)
        | (Panicked, d3) => (Panicked, d3)
        | (OutOfFuel, d3) => (OutOfFuel, d3)
        end))).
  { intros d2 H2. pose proof (generic_kept c d2 H2) as K2. destruct (from_generic_reader c d2) as [[]]; exact K2. }
  destruct (from_signature _) as [f|]; [|now apply G].
  pose proof (fmt_kept c (S (List.length (d_content d))) f d1 K) as K2.
  destruct (from_fmt_reader _ _ f d1) as [[[]| |] d2]; try exact K2. now apply G.
Qed.
End Kept.

(** from_reader only reads and seeks: whatever the reader does, the stream afterwards is the one
    before. *)
Theorem C52_stream_is_unchanged : forall (c : cfg) d,
  d_content (snd (from_reader c d)) = d_content d /\ d_max (snd (from_reader c d)) = d_max d.
Proof.
  intros c d. apply (from_reader_kept (fun x => d_content x = d_content d /\ d_max x = d_max d)); auto.
  - intros n x H. unfold dev_read. destruct (d_reads x) as [|[]]; exact H.
  - intros w x H. unfold dev_seek. destruct (d_seeks x) as [|[]]; cbn; try exact H; destruct (_ || _)%bool; exact H.
Qed.
Print Assumptions C52_stream_is_unchanged.

(** A reader without faults, short reads or interruptions can be used again after seeking back: the
    answer is the same. *)
Lemma c52_again (c : cfg) content p max : p <= max ->
  let d := mkdev content p [] [] max in
  dev_seek (FromStart p) (snd (from_reader c d)) = (Ok p, d).
Proof.
  intros Hp d. destruct (C52_stream_is_unchanged c d) as (H1 & H2).
  assert (H3 : d_reads (snd (from_reader c d)) = [] /\ d_seeks (snd (from_reader c d)) = []).
  { apply (from_reader_kept (fun x => d_reads x = [] /\ d_seeks x = [])); auto.
    - intros n x [K1 K2]. unfold dev_read. rewrite K1. cbn. auto.
    - intros w x [K1 K2]. unfold dev_seek. rewrite K2. destruct (_ || _)%bool; cbn; auto. }
  destruct (snd (from_reader c d)) as [content' p' reads' seeks' max']. cbn [d_content d_max d_reads d_seeks] in *.
  destruct H3 as [-> ->]. subst content' max'. unfold dev_seek. cbn [d_seeks seek_target d_max d_content d_reads tl].
  destruct ((Z.of_N p <? 0)%Z || (Z.of_N max <? Z.of_N p)%Z) eqn:E; [lia|]. change (d_max d) with max. rewrite E, N2Z.id. reflexivity.
Qed.
Theorem C52_repeatable_after_seeking_back : forall (c : cfg) content p max, p <= max ->
  let d := mkdev content p [] [] max in
  let after := snd (from_reader c d) in
  exists d', dev_seek (FromStart p) after = (Ok p, d') /\ fst (from_reader c d') = fst (from_reader c d).
Proof. intros c content p max Hp d after. exists d. split; [exact (c52_again c content p max Hp)|reflexivity]. Qed.
Print Assumptions C52_repeatable_after_seeking_back.

(** The reader is not rewound: without reader features it stands behind the window that was read. *)
Theorem C52_position_without_readers : forall (c : cfg) d, featureless c ->
  snd (from_reader c d) = snd (dev_read 36870 d).
Proof.
  intros c d Hf. unfold from_reader. change window with 36870.
  destruct (dev_read 36870 d) as [[[|b buf]|e] d1]; cbn [snd]; try reflexivity.
  unfold from_generic_reader. rewrite (Hf FTxt).
  destruct (from_signature (b :: buf)) as [f|]; [|reflexivity].
  unfold from_fmt_reader. assert (E : fmt_reader c (S (List.length (d_content d))) f = None).
  { unfold fmt_reader. destruct f; try reflexivity; now rewrite Hf. }
  now rewrite E.
Qed.
Print Assumptions C52_position_without_readers.
(** ... so that a second call without seeking back looks at the rest of the stream. *)
Theorem C52_rewinds_refuted : exists (c : cfg) content max, let d := mkdev content 0 [] [] max in
  lenN content <= max /\ fst (from_reader c d) = Done (Ok GraphicsInterchangeFormat) /\
  fst (from_reader c (snd (from_reader c d))) = Done (Ok Empty).
Proof.
  exists cfg_all, (bs "GIF89a..."), (2 ^ 63 - 1). cbv zeta. split; [discriminate|]. split; vm_compute; reflexivity.
Qed.
Print Assumptions C52_rewinds_refuted.
Example C52_witness : let d := mkdev (bs "GIF89a...") 0 [] [] (2 ^ 63 - 1) in
  fst (from_reader cfg_all d) = Done (Ok GraphicsInterchangeFormat) /\
  d_pos (snd (from_reader cfg_all d)) = 9 /\
  dev_seek (FromStart 0) (snd (from_reader cfg_all d)) = (Ok 0, d).
Proof. cbv zeta. split; [vm_compute; reflexivity|]. split; vm_compute; reflexivity. Qed.
