(** Every device of IO.v, with any schedule of short reads, interruptions, read faults and seek
    faults, used directly or behind a BufReader, keeps the contract assumed in Static.v. *)
From Coq Require Import List NArith ZArith Bool Lia ZifyBool ZifyNat ZifyN.
From Verif Require Import Base BaseProofs IO Mem IOProofs Static.
Local Open Scope N_scope.

Definition Idev (content : bytes) (d : dev) : Prop :=
  d_content d = content /\ d_max d < u64_max1.
Definition Ibuf (content : bytes) (s : bdev) : Prop := Idev content (b_dev s).

Definition read_law {S} (I : S -> Prop) (mu : S -> nat) (dry : S -> Prop)
    (rd : N -> S -> result bytes * S) : Prop :=
  forall n s, I s -> 0 < n ->
  match rd n s with
  | (Err EInterrupted, s') => I s' /\ (mu s' < mu s)%nat
  | (Err _, s') => I s'
  | (Ok l, s') => I s' /\ lenN l <= n /\
      (lenN l < n -> (mu s' < mu s)%nat \/ (mu s' = 0%nat /\ dry s'))
  end /\ (dry s -> mu s = 0%nat -> fst (rd n s) = Ok []).

Lemma read_exact_loop_law {S} (I : S -> Prop) mu dry rd : read_law I mu dry rd ->
  forall fuel n acc s, I s ->
  (mu s + 2 <= fuel)%nat \/ (mu s = 0%nat /\ (1 <= fuel)%nat /\ dry s) ->
  exists r s', read_exact_loop rd fuel n acc s = (Done r, s') /\
     legal_exact (lenN acc + n) r /\ I s'.
Proof.
  intros Hrd. induction fuel as [|fuel IH]; intros n acc s HI Hf; [lia|].
  cbn [read_exact_loop]. destruct (N.eqb_spec n 0) as [->|Hn].
  { exists (Ok acc), s. repeat split; auto. cbn. lia. }
  destruct (Hrd n s HI ltac:(lia)) as [H Hdry].
  destruct (rd n s) as [[l|e] s'] eqn:E.
  - destruct H as (HI' & Hl & Hprog). destruct l as [|b l'].
    { exists (Err EUnexpectedEof), s'. repeat split; auto. }
    remember (b :: l') as l eqn:El.
    assert (Hpos : 0 < lenN l) by (subst l; rewrite lenN_cons; lia).
    assert (Hne : l <> []) by (subst l; discriminate). clear El.
    destruct (N.eq_dec (lenN l) n) as [Heq|Hneq].
    + replace (n - lenN l) with 0 by lia.
      exists (Ok (acc ++ l)), s'. split; [destruct fuel; reflexivity|].
      split; [cbn; rewrite lenN_app; lia|exact HI'].
    + destruct Hf as [Hf|(H0 & H1 & Hd)].
      2:{ exfalso. specialize (Hdry Hd H0). cbn in Hdry. congruence. }
      destruct (IH (n - lenN l) (acc ++ l) s' HI') as (r & s2 & E2 & Hleg & HI2).
      { destruct (Hprog ltac:(lia)) as [Hlt|[H0 Hd]]; [left; lia|right; repeat split; auto; lia]. }
      exists r, s2. split; [exact E2|]. split; [|exact HI2].
      replace (lenN acc + n) with (lenN (acc ++ l) + (n - lenN l))
        by (rewrite lenN_app; lia). exact Hleg.
  - destruct e; try (eexists _, s'; split; [reflexivity|]; split; [exact Logic.I|exact H]).
    destruct H as [HI' Hmu]. destruct Hf as [Hf|(H0 & _)]; [|lia].
    apply IH; [exact HI'|lia].
Qed.

Definition dry_dev (content : bytes) (d : dev) : Prop := lenN content <= d_pos d.

Lemma dev_read_law content :
  read_law (Idev content) (fun d => length (d_reads d)) (dry_dev content) dev_read.
Proof.
  intros n d [Hc Hm] Hn. unfold dev_read, dry_dev, avail.
  destruct (d_reads d) as [|[k| |e] rs] eqn:Er; cbn zeta; cbn [d_reads length fst].
  - rewrite Hc. split; [|intros Hd _; rewrite dropN_all by exact Hd; reflexivity].
    pose proof (lenN_takeN n (dropN (d_pos d) content)) as H. rewrite lenN_dropN in H.
    split; [split; [reflexivity|exact Hm]|]. split; [lia|].
    intros Hlt. right. split; [reflexivity|]. cbn [d_pos]. lia.
  - rewrite Hc. split; [|discriminate].
    pose proof (lenN_takeN (N.min n (N.max 1 k)) (dropN (d_pos d) content)) as H.
    split; [split; [reflexivity|exact Hm]|]. split; [lia|]. intros Hlt. left. lia.
  - split; [|discriminate]. repeat split; auto.
  - split; [|discriminate]. repeat split; auto.
Qed.
Lemma dev_read_content content n d : Idev content d -> Idev content (snd (dev_read n d)).
Proof.
  intros [Hc Hm]. unfold dev_read. destruct (d_reads d) as [|[k| |e] rs]; split; auto.
Qed.
Lemma dev_seek_law content w d : Idev content d ->
  legal_pos (fst (dev_seek w d)) /\ Idev content (snd (dev_seek w d)).
Proof.
  intros [Hc Hm]. unfold dev_seek.
  assert (H : forall ss,
    let t := seek_target (lenN (d_content d)) (d_pos d) w in
    let r := if (t <? 0)%Z || (Z.of_N (d_max d) <? t)%Z
      then (Err EInvalidInput, mkdev (d_content d) (d_pos d) (d_reads d) ss (d_max d))
      else (Ok (Z.to_N t), mkdev (d_content d) (Z.to_N t) (d_reads d) ss (d_max d)) in
    legal_pos (fst r) /\ Idev content (snd r)).
  { intros ss t r. subst r. destruct ((t <? 0)%Z || (Z.of_N (d_max d) <? t)%Z) eqn:E; cbn.
    - repeat split; auto.
    - split; [|split; auto]. unfold u64_max1 in *. lia. }
  destruct (d_seeks d) as [|[|] ss]; [apply H|apply H|]. cbn. repeat split; auto.
Qed.
Lemma dev_read_exact_law content n d : Idev content d ->
  exists r d', dev_read_exact n d = (Done r, d') /\ legal_exact n r /\ Idev content d'.
Proof.
  intros HI. unfold dev_read_exact.
  exact (read_exact_loop_law _ _ _ _ (dev_read_law content) (length (d_reads d) + 3) n [] d HI
           ltac:(lia)).
Qed.

(** BufReader. *)
Definition dry_buf (content : bytes) (s : bdev) : Prop :=
  b_buf s = [] /\ lenN content <= d_pos (b_dev s).

Lemma b_read_law content : read_law (Ibuf content) mubuf (dry_buf content) b_read.
Proof.
  intros n s HI Hn. unfold b_read.
  destruct (b_buf s) as [|b buf] eqn:Ebuf.
  - destruct (buf_capacity <=? n) eqn:Ecap.
    + destruct (dev_read_law content n (b_dev s) HI Hn) as [H Hdry].
      destruct (dev_read n (b_dev s)) as [[l|e] d'] eqn:E.
      * destruct H as (HI' & Hl & Hprog). split.
        -- split; [exact HI'|]. split; [exact Hl|]. intros Hlt.
           unfold mubuf, dry_buf; cbn [b_dev b_buf]; rewrite Ebuf.
           destruct (Hprog Hlt) as [H|[H0 Hd]]; [left; lia|right]. split; [lia|]. auto.
        -- intros [_ Hd] H0. cbn [fst]. apply Hdry; [exact Hd|].
           unfold mubuf in H0. lia.
      * split.
        -- destruct e; cbn; try exact H. destruct H as [H1 H2]. split; [exact H1|].
           unfold mubuf; cbn [b_dev b_buf]; rewrite Ebuf. lia.
        -- intros [_ Hd] H0. cbn [fst]. apply Hdry; [exact Hd|].
           unfold mubuf in H0. lia.
    + unfold b_fill. rewrite Ebuf.
      destruct (dev_read_law content buf_capacity (b_dev s) HI ltac:(reflexivity)) as [H Hdry].
      destruct (dev_read buf_capacity (b_dev s)) as [[l|e] d'] eqn:E; cbn [b_dev b_buf].
      * destruct H as (HI' & Hl & Hprog). split.
        -- split; [exact HI'|]. rewrite lenN_takeN. split; [lia|]. intros Hlt.
           unfold mubuf, dry_buf; cbn [b_dev b_buf]; rewrite Ebuf.
           assert (Hdl : dropN n l = []) by (apply dropN_all; lia). rewrite Hdl.
           destruct (Hprog ltac:(lia)) as [H|[H0 Hd]]; [left; lia|right]. split; [lia|]. auto.
        -- intros [_ Hd] H0. cbn [fst] in *.
           assert (Hl0 : Ok l = Ok []) by (apply Hdry; [exact Hd|unfold mubuf in H0; lia]).
           injection Hl0 as ->. reflexivity.
      * split.
        -- destruct e; cbn; try exact H. destruct H as [H1 H2]. split; [exact H1|].
           unfold mubuf; cbn [b_dev b_buf]; rewrite Ebuf. lia.
        -- intros [_ Hd] H0. cbn [fst] in *. 
           assert (Hl0 : Err e = @Ok bytes []) by (apply Hdry; [exact Hd|unfold mubuf in H0; lia]).
           discriminate Hl0.
  - rewrite <- Ebuf. split.
    + split; [exact HI|]. rewrite lenN_takeN. split; [lia|]. intros Hlt. left.
      unfold mubuf; cbn [b_dev b_buf].
      assert (Hdl : dropN n (b_buf s) = []) by (apply dropN_all; lia).
      rewrite Hdl, Ebuf. lia.
    + intros [Hd _]. congruence.
Qed.

Lemma b_fill_law content s : Ibuf content s ->
  Ibuf content (snd (b_fill s)) /\
  match b_fill s with
  | (Err EInterrupted, s') => (length (d_reads (b_dev s')) < length (d_reads (b_dev s)))%nat
  | (Err _, _) => True
  | (Ok l, s') => (length (d_reads (b_dev s')) <= length (d_reads (b_dev s)))%nat
  end.
Proof.
  intros HI. unfold b_fill. destruct (b_buf s) as [|b buf] eqn:Ebuf; [|split; [exact HI|cbn; lia]].
  destruct (dev_read_law content buf_capacity (b_dev s) HI ltac:(reflexivity)) as [H _].
  assert (Hle : forall r d', dev_read buf_capacity (b_dev s) = (r, d') ->
              (length (d_reads d') <= length (d_reads (b_dev s)))%nat).
  { intros r d'. unfold dev_read. destruct (d_reads (b_dev s)) as [|[k| |e] rs];
      intros E; injection E as _ <-; cbn; lia. }
  destruct (dev_read buf_capacity (b_dev s)) as [[l|e] d'] eqn:E.
  - destruct H as (H1 & _ & _). split; [exact H1|]. cbn. eapply Hle. reflexivity.
  - destruct e; cbn; split; auto; try apply H.
Qed.

Lemma b_until_law content : forall fuel lim acc s, Ibuf content s ->
  (length (d_reads (b_dev s)) + N.to_nat lim + 1 <= fuel)%nat ->
  exists r s', b_until fuel lim acc s = (Done r, s') /\
    legal_read (lenN acc + lim) r /\ Ibuf content s'.
Proof.
  induction fuel as [|fuel IH]; intros lim acc s HI Hf; [lia|].
  cbn [b_until]. destruct (N.eqb_spec lim 0) as [->|Hlim].
  { exists (Ok acc), s. repeat split; try apply HI. cbn. lia. }
  destruct (b_fill_law content s HI) as [HI' H].
  destruct (b_fill s) as [[l|e] s1]; cbn [snd] in HI'.
  - pose proof (split_lf_upto (takeN lim l)) as Hs.
    assert (Hv : lenN (takeN lim l) <= lim) by (rewrite lenN_takeN; lia).
    destruct (split_lf (takeN lim l)) as [[a r]|].
    + destruct Hs as (Hv2 & _ & _). rewrite Hv2, lenN_app in Hv.
      eexists _, _. split; [reflexivity|]. split; [cbn; rewrite lenN_app; lia|exact HI'].
    + destruct (takeN lim l) as [|x v] eqn:Ev.
      * eexists _, _. split; [reflexivity|]. split; [cbn; lia|exact HI'].
      * rewrite <- Ev in *.
        assert (Hp : 0 < lenN (takeN lim l)) by (rewrite Ev, lenN_cons; lia).
        destruct (IH (lim - lenN (takeN lim l)) (acc ++ takeN lim l)
                    (mkbdev (b_dev s1) (dropN (lenN (takeN lim l)) l)) HI')
          as (r & s' & E & Hleg & HI2).
        { cbn [b_dev]. lia. }
        exists r, s'. split; [exact E|]. split; [|exact HI2].
        replace (lenN acc + lim) with
          (lenN (acc ++ takeN lim l) + (lim - lenN (takeN lim l))) by (rewrite lenN_app; lia).
        exact Hleg.
  - destruct e; try (eexists _, _; split; [reflexivity|]; split; [exact I|exact HI']).
    apply IH; [exact HI'|lia].
Qed.

Lemma b_seek_law content w s : Ibuf content s ->
  legal_pos (fst (b_seek w s)) /\ Ibuf content (snd (b_seek w s)).
Proof.
  intros HI. unfold b_seek.
  assert (H : forall w', let r := match dev_seek w' (b_dev s) with
      | (Ok p, d) => (Ok p, mkbdev d [])
      | (Err e, d) => (Err e, mkbdev d (b_buf s))
      end in legal_pos (fst r) /\ Ibuf content (snd r)).
  { intros w'. destruct (dev_seek_law content w' (b_dev s) HI) as [H1 H2].
    destruct (dev_seek w' (b_dev s)) as [[p|e] d']; cbn in *; auto. }
  destruct w as [n|z|z]; [apply H| |apply H].
  destruct (i64_min <=? z - Z.of_N (lenN (b_buf s)))%Z; [apply H|].
  destruct (dev_seek_law content (FromCurrent (- Z.of_N (lenN (b_buf s)))) (b_dev s) HI)
    as [H1 H2].
  destruct (dev_seek (FromCurrent (- Z.of_N (lenN (b_buf s)))) (b_dev s)) as [[p|e] d'];
    cbn in *; auto.
  destruct (dev_seek_law content (FromCurrent z) d' H2) as [H3 H4].
  destruct (dev_seek (FromCurrent z) d') as [r d2]. cbn in *. auto.
Qed.

Lemma buf_lawful content : lawful buf_machine (Ibuf content).
Proof.
  constructor; cbn [buf_machine m_read m_read_exact m_read_line m_seek m_tell].
  - intros n s HI. destruct (N.eq_dec n 0) as [->|Hn].
    + unfold b_read. destruct (b_buf s) as [|b buf] eqn:Eb.
      * cbn [buf_capacity]. change (buf_capacity <=? 0) with false. cbn iota.
        destruct (b_fill_law content s HI) as [H1 _].
        destruct (b_fill s) as [[l|e] s']; cbn in *; [|auto].
        rewrite takeN_0, lenN_nil. split; [lia|exact H1].
      * cbn. split; [lia|exact HI].
    + destruct (b_read_law content n s HI ltac:(lia)) as [H _].
      destruct (b_read n s) as [[l|e] s']; cbn.
      * destruct H as (H1 & H2 & _). auto.
      * split; [exact I|]. destruct e; try exact H. apply H.
  - intros n s HI. unfold b_read_exact.
    apply (read_exact_loop_law _ _ _ _ (b_read_law content)
             (length (d_reads (b_dev s)) + 5) n [] s HI).
    left. unfold mubuf. destruct (b_buf s); lia.
  - intros n s HI. unfold b_read_line. apply (b_until_law content _ n [] s HI). lia.
  - intros w s HI. now apply b_seek_law.
  - intros s HI. unfold b_tell, dev_tell.
    destruct (dev_seek_law content (FromCurrent 0) (b_dev s) HI) as [H1 H2].
    destruct (dev_seek (FromCurrent 0) (b_dev s)) as [[p|e] d']; cbn in *; split; auto. lia.
Qed.

Lemma raw_lawful content : lawful raw_machine (Idev content).
Proof.
  constructor; cbn [raw_machine m_read m_read_exact m_read_line m_seek m_tell].
  - intros n d HI. split; [|now apply dev_read_content].
    unfold dev_read. destruct (d_reads d) as [|[k| |e] rs]; cbn; try exact I;
      rewrite lenN_takeN; lia.
  - intros n d HI. now apply dev_read_exact_law.
  - intros n d HI. pose proof (lw_line _ _ (buf_lawful content) n (mkbdev d []) HI) as
      (r & s' & E & H1 & H2). cbn [buf_machine m_read_line] in E. rewrite E.
    exists r, (b_dev s'). auto.
  - intros w d HI. now apply dev_seek_law.
  - intros d HI. unfold dev_tell. now apply dev_seek_law.
Qed.

