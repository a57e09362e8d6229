(** Devices with a fault-free schedule, used directly or behind a BufReader, behave like the
    ideal reader of Mem.v. *)
From Coq Require Import List NArith ZArith Bool Lia ZifyBool ZifyNat ZifyN.
From Verif Require Import Base BaseProofs IO Mem.
Local Open Scope N_scope.

(** ** Schedules *)

Definition no_fault (e : revent) : Prop := match e with RFault _ => False | _ => True end.
Definition no_fault_no_intr (e : revent) : Prop := match e with RShort _ => True | _ => False end.

(** A device without faults: reads may be short or interrupted, seeks succeed, and the stream is
    not longer than the offsets it supports. *)
Record benign (content : bytes) (max : N) (d : dev) : Prop := mkbenign {
  bn_content : d_content d = content;
  bn_max : d_max d = max;
  bn_reads : Forall no_fault (d_reads d);
  bn_seeks : Forall (eq true) (d_seeks d);
  bn_len : lenN content <= max
}.

(** Programs that never call [read] (only [read_exact], [read_until], seeks). *)
Fixpoint no_read {A} (p : prog A) : Prop :=
  match p with
  | Ret _ | PPanic | PFuel => True
  | PRead _ _ => False
  | PReadExact n k => forall r, legal_exact n r -> no_read (k r)
  | PReadLine n k => forall r, legal_read n r -> no_read (k r)
  | PSeek _ k | PTell k => forall r, legal_pos r -> no_read (k r)
  | PAlloc _ k => no_read k
  end.

(** ** Lines *)

Lemma split_lf_upto l : match split_lf l with
                        | Some (a, r) => l = a ++ r /\ upto_lf l = a /\ In x0a a
                        | None => upto_lf l = l /\ ~ In x0a l
                        end.
Proof.
  induction l as [|b l IH]; cbn [split_lf upto_lf]; [split; [reflexivity|intros []]|].
  destruct (Byte.eqb b x0a) eqn:E.
  - apply byte_eqb_eq in E. subst. repeat split; try reflexivity. now left.
  - destruct (split_lf l) as [[a r]|].
    + destruct IH as (-> & -> & Hin). repeat split; try reflexivity. now right.
    + destruct IH as [-> Hn]. split; [reflexivity|]. intros [H|H]; [|exact (Hn H)].
      subst. cbn in E. discriminate.
Qed.
Lemma upto_lf_app_in a b : In x0a a -> upto_lf (a ++ b) = upto_lf a.
Proof.
  induction a as [|x a IH]; [intros []|]. intros Hin. cbn [app upto_lf].
  destruct (Byte.eqb x x0a) eqn:E; [reflexivity|]. f_equal. apply IH.
  destruct Hin as [->|H]; [discriminate|exact H].
Qed.
Lemma upto_lf_app_notin a b : ~ In x0a a -> upto_lf (a ++ b) = a ++ upto_lf b.
Proof.
  induction a as [|x a IH]; [reflexivity|]. intros Hn. cbn [app upto_lf].
  destruct (Byte.eqb x x0a) eqn:E.
  - apply byte_eqb_eq in E. subst. exfalso. apply Hn. now left.
  - f_equal. apply IH. intros H. apply Hn. now right.
Qed.
Lemma upto_lf_prefix l : exists r, l = upto_lf l ++ r.
Proof.
  induction l as [|b l [r IH]]; [exists []; reflexivity|]. cbn [upto_lf].
  destruct (Byte.eqb b x0a); [exists l; reflexivity|]. exists r. cbn. congruence.
Qed.

(** ** One read on a device *)

Definition wfpos (content : bytes) (max pos : N) : Prop := pos <= max /\ lenN content <= max.

(** [R d pos]: the device behaves like the ideal reader at [pos]. *)
Definition Rraw (content : bytes) (max : N) (d : dev) (pos : N) : Prop :=
  benign content max d /\ d_pos d = pos /\ pos <= max.

(** What a single call of a [read] function may do. *)
Definition read_ok {S} (R : S -> N -> Prop) (mu : S -> nat) (content : bytes)
    (rd : N -> S -> result bytes * S) : Prop :=
  forall s pos n, R s pos -> 0 < n ->
  match rd n s with
  | (Err EInterrupted, s') => R s' pos /\ (mu s' < mu s)%nat
  | (Err _, _) => False
  | (Ok l, s') =>
      R s' (pos + lenN l) /\ l = takeN (lenN l) (dropN pos content) /\ lenN l <= n /\
      (l = [] -> lenN content <= pos) /\
      (lenN l < n -> (mu s' < mu s)%nat \/ (mu s' = 0%nat /\ lenN content <= pos + lenN l))
  end.

Lemma takeN_self_len {A} m (l : list A) : takeN m l = takeN (lenN (takeN m l)) l.
Proof.
  rewrite lenN_takeN. destruct (N.le_gt_cases m (lenN l)) as [H|H].
  - f_equal. lia.
  - rewrite !takeN_all by lia. reflexivity.
Qed.

Lemma dev_read_ok content max :
  read_ok (Rraw content max) (fun d => length (d_reads d)) content dev_read.
Proof.
  intros d pos n (Hb & Hpos & Hmax) Hn. destruct Hb as [Hc Hm Hr Hs Hl].
  assert (Hgive : forall m rs, Forall no_fault rs -> 0 < m -> m <= n ->
     let l := takeN m (avail (d_content d) (d_pos d)) in
     let d' := mkdev (d_content d) (d_pos d + lenN l) rs (d_seeks d) (d_max d) in
     Rraw content max d' (pos + lenN l) /\ l = takeN (lenN l) (dropN pos content) /\
     lenN l <= n /\ (l = [] -> lenN content <= pos) /\
     (lenN l < m -> lenN content <= pos + lenN l)).
  { intros m rs Hrs Hm0 Hmn l d'. unfold avail in l. subst l d'. rewrite Hc, Hpos, Hm.
    pose proof (lenN_takeN m (dropN pos content)) as Hlt.
    rewrite lenN_dropN in Hlt.
    split; [|split; [apply takeN_self_len|split; [lia|split]]].
    - split; [constructor; cbn; auto|]. cbn. split; [reflexivity|]. lia.
    - intros E. rewrite E, lenN_nil in Hlt. lia.
    - lia. }
  unfold dev_read. destruct (d_reads d) as [|[k| |e] rs] eqn:Er.
  - destruct (Hgive n [] ltac:(constructor) Hn ltac:(lia)) as (H1 & H2 & H3 & H4 & H5).
    cbn zeta. cbn [d_reads length].
    split; [exact H1|]. split; [exact H2|]. split; [exact H3|].
    split; [exact H4|]. intros Hlt. right. split; [reflexivity|]. apply H5. exact Hlt.
  - inversion Hr as [|? ? _ Hrs]; subst.
    destruct (Hgive (N.min n (N.max 1 k)) rs Hrs ltac:(lia) ltac:(lia)) as (H1 & H2 & H3 & H4 & H5).
    cbn zeta. cbn [d_reads length].
    split; [exact H1|]. split; [exact H2|]. split; [exact H3|].
    split; [exact H4|]. intros _. left. lia.
  - inversion Hr as [|? ? _ Hrs]; subst. cbn [d_reads length]. split; [|lia].
    split; [constructor; cbn; auto|]. cbn. auto.
  - inversion Hr as [|? ? H _]; subst. contradiction H.
Qed.

(** [read_exact] built from such a [read]. *)
Lemma read_exact_loop_ok {S} (R : S -> N -> Prop) (mu : S -> nat) content rd :
  read_ok R mu content rd ->
  forall fuel n acc s pos,
  R s pos ->
  (mu s + 2 <= fuel)%nat \/ (mu s = 0%nat /\ (1 <= fuel)%nat /\ lenN content <= pos) ->
  exists s', read_exact_loop rd fuel n acc s =
    (Done (if lenN (takeN n (dropN pos content)) =? n
           then Ok (acc ++ takeN n (dropN pos content)) else Err EUnexpectedEof), s')
    /\ R s' (pos + lenN (takeN n (dropN pos content))).
Proof.
  intros Hrd. induction fuel as [|fuel IH]; intros n acc s pos HR Hfuel; [lia|].
  cbn [read_exact_loop].
  destruct (N.eqb_spec n 0) as [->|Hn].
  { exists s. rewrite takeN_0, lenN_nil, app_nil_r, N.add_0_r. cbn. auto. }
  pose proof (Hrd s pos n HR ltac:(lia)) as H.
  destruct (rd n s) as [[l|e] s'] eqn:Erd.
  2:{ destruct e; try contradiction. destruct H as [HR' Hmu].
      destruct (IH n acc s' pos HR' ltac:(lia)) as (s2 & E & HR2).
      exists s2. split; [exact E|exact HR2]. }
  destruct H as (HR' & Hl & Hln & Hnil & Hprog).
  destruct l as [|b l'].
  { specialize (Hnil eq_refl).
    exists s'. rewrite dropN_all by exact Hnil. rewrite takeN_nil, !lenN_nil.
    replace (0 =? n) with false by lia. rewrite lenN_nil in HR'. auto. }
  remember (b :: l') as l eqn:El.
  assert (Hl1 : 0 < lenN l) by (subst l; rewrite lenN_cons; lia). clear El.
  set (D := dropN pos content) in *.
  assert (HlenD : lenN l <= lenN D).
  { rewrite Hl at 1. rewrite lenN_takeN. lia. }
  assert (Hsplit : takeN n D = l ++ takeN (n - lenN l) (dropN (pos + lenN l) content)).
  { replace n with (lenN l + (n - lenN l)) at 1 by lia. rewrite takeN_dropN_app.
    rewrite <- Hl. f_equal. f_equal. unfold D. now rewrite dropN_dropN. }
  destruct (N.eq_dec (lenN l) n) as [Heq|Hne].
  - (* done *)
    assert (Hz : n - lenN l = 0) by lia. rewrite Hz in *. 
    assert (Hex : read_exact_loop rd fuel 0 (acc ++ l) s' = (Done (Ok (acc ++ l)), s'))
      by (destruct fuel; reflexivity).
    rewrite Hex. exists s'. rewrite Hsplit, takeN_0, app_nil_r.
    replace (lenN l =? n) with true by lia. auto.
  - specialize (Hprog ltac:(lia)).
    destruct (IH (n - lenN l) (acc ++ l) s' (pos + lenN l) HR') as (s2 & E & HR2).
    { destruct Hprog as [Hp|[Hp1 Hp2]].
      - lia.
      - right. split; [exact Hp1|]. split; [|exact Hp2].
        destruct Hfuel as [Hf|(_ & _ & Hf)]; [lia|].
        assert (lenN D = 0) by (unfold D; rewrite lenN_dropN; lia). lia. }
    exists s2. rewrite E. rewrite Hsplit, lenN_app.
    split.
    + f_equal. f_equal.
      replace (lenN l + lenN (takeN (n - lenN l) (dropN (pos + lenN l) content)) =? n)
        with (lenN (takeN (n - lenN l) (dropN (pos + lenN l) content)) =? n - lenN l) by lia.
      destruct (_ =? _); [|reflexivity]. now rewrite app_assoc.
    + rewrite N.add_assoc. exact HR2.
Qed.

Lemma dev_read_exact_ok content max d pos n : Rraw content max d pos ->
  exists d', dev_read_exact n d = (fst (mem_read_exact content n pos), d') /\
             Rraw content max d' (snd (mem_read_exact content n pos)).
Proof.
  intros HR. unfold dev_read_exact.
  destruct (read_exact_loop_ok _ _ _ _ (dev_read_ok content max)
              (length (d_reads d) + 3) n [] d pos HR ltac:(lia)) as (d' & E & HR').
  exists d'. split; [exact E|exact HR'].
Qed.

Lemma seek_target_bound len pos w : (0 <= seek_target len pos w)%Z ->
  Z.of_N (Z.to_N (seek_target len pos w)) = seek_target len pos w.
Proof. intros H. lia. Qed.

Lemma dev_seek_ok content max d pos w : Rraw content max d pos ->
  exists d', dev_seek w d = (fst (mem_seek content max w pos), d') /\
             Rraw content max d' (snd (mem_seek content max w pos)) /\
             d_reads d' = d_reads d.
Proof.
  intros ([Hc Hm Hr Hs Hl] & Hpos & Hmax).
  unfold dev_seek, mem_seek. rewrite Hc, Hm, Hpos.
  set (t := seek_target (lenN content) pos w).
  destruct (d_seeks d) as [|b ss] eqn:Es.
  - cbn [tl]. destruct ((t <? 0)%Z || (Z.of_N max <? t)%Z) eqn:E; cbn [fst snd].
    + eexists. split; [reflexivity|]. split; [|reflexivity]. split; [constructor; cbn; auto|]. cbn; auto.
    + eexists. split; [reflexivity|]. split; [|reflexivity]. split; [constructor; cbn; auto|]. cbn. split; [reflexivity|]. lia.
  - inversion Hs as [|? ? Hb Hss]; subst. cbn [tl].
    destruct ((t <? 0)%Z || (Z.of_N (d_max d) <? t)%Z) eqn:E; cbn [fst snd].
    + eexists. split; [reflexivity|]. split; [|reflexivity]. split; [constructor; cbn; auto|]. cbn; auto.
    + eexists. split; [reflexivity|]. split; [|reflexivity]. split; [constructor; cbn; auto|]. cbn. split; [reflexivity|]. lia.
Qed.

Lemma dev_tell_ok content max d pos : Rraw content max d pos ->
  exists d', dev_tell d = (Ok pos, d') /\ Rraw content max d' pos /\ d_reads d' = d_reads d.
Proof.
  intros HR. unfold dev_tell.
  destruct (dev_seek_ok content max d pos (FromCurrent 0) HR) as (d' & E & HR' & Hrd).
  exists d'. unfold mem_seek in *. cbn [seek_target] in *.
  replace (Z.of_N pos + 0)%Z with (Z.of_N pos) in * by lia.
  destruct HR as (_ & _ & Hmax).
  replace ((Z.of_N pos <? 0)%Z || (Z.of_N max <? Z.of_N pos)%Z) with false in * by lia.
  cbn [fst snd] in *. rewrite N2Z.id in *. auto.
Qed.

(** ** BufReader *)

Definition Rbuf (content : bytes) (max : N) (s : bdev) (pos : N) : Prop :=
  benign content max (b_dev s) /\ pos <= max /\
  d_pos (b_dev s) = pos + lenN (b_buf s) /\ d_pos (b_dev s) <= max /\
  b_buf s = takeN (lenN (b_buf s)) (dropN pos content).

Definition mubuf (s : bdev) : nat :=
  (length (d_reads (b_dev s)) + (match b_buf s with [] => 0 | _ => 1 end))%nat.

Lemma Rbuf_raw content max s pos : Rbuf content max s pos -> b_buf s = [] ->
  Rraw content max (b_dev s) pos.
Proof.
  intros (Hb & Hm & Hp & Hp2 & _) E. rewrite E, lenN_nil, N.add_0_r in Hp.
  split; [exact Hb|]. split; [exact Hp|]. exact Hm.
Qed.
Lemma Rraw_buf content max d pos : Rraw content max d pos -> Rbuf content max (mkbdev d []) pos.
Proof.
  intros (Hb & Hp & Hm). unfold Rbuf. cbn [b_dev b_buf]. rewrite lenN_nil, takeN_0, N.add_0_r.
  split; [exact Hb|]. split; [exact Hm|]. split; [exact Hp|]. split; [lia|reflexivity].
Qed.

(** Consuming part of the buffer. *)
Lemma Rbuf_consume content max s pos n : Rbuf content max s pos -> n <= lenN (b_buf s) ->
  Rbuf content max (mkbdev (b_dev s) (dropN n (b_buf s))) (pos + n) /\
  takeN n (b_buf s) = takeN n (dropN pos content).
Proof.
  intros (Hb & Hm & Hp & Hp2 & Hbuf) Hn. unfold Rbuf. cbn [b_dev b_buf].
  rewrite lenN_dropN. split.
  - split; [exact Hb|]. split; [lia|]. split; [lia|]. split; [lia|].
    rewrite Hbuf at 1. rewrite dropN_takeN, dropN_dropN. reflexivity.
  - rewrite Hbuf at 1. rewrite takeN_takeN. f_equal. lia.
Qed.


Lemma b_fill_ok content max s pos : Rbuf content max s pos ->
  match b_fill s with
  | (Err EInterrupted, s') => Rbuf content max s' pos /\
       (length (d_reads (b_dev s')) < length (d_reads (b_dev s)))%nat /\ b_buf s = [] /\ b_buf s' = []
  | (Err _, _) => False
  | (Ok l, s') => Rbuf content max s' pos /\ b_buf s' = l /\ (l = [] -> lenN content <= pos) /\
       (length (d_reads (b_dev s')) <= length (d_reads (b_dev s)))%nat /\
       (b_buf s = [] -> lenN l < buf_capacity ->
          (length (d_reads (b_dev s')) < length (d_reads (b_dev s)))%nat \/
          (length (d_reads (b_dev s')) = 0%nat /\ lenN content <= pos + lenN l))
  end.
Proof.
  intros HR. unfold b_fill. destruct (b_buf s) as [|b buf] eqn:Ebuf.
  - pose proof (Rbuf_raw _ _ _ _ HR Ebuf) as Hraw.
    pose proof (dev_read_ok content max (b_dev s) pos buf_capacity Hraw ltac:(reflexivity)) as H.
    assert (Hle : forall r d', dev_read buf_capacity (b_dev s) = (r, d') ->
              (length (d_reads d') <= length (d_reads (b_dev s)))%nat).
    { intros r d'. unfold dev_read. destruct (d_reads (b_dev s)) as [|[k| |e] rs];
        intros E; injection E as _ <-; cbn; lia. }
    destruct (dev_read buf_capacity (b_dev s)) as [[l|e] d'] eqn:E.
    + destruct H as (HR' & Hl & Hn & Hnil & Hprog). cbn [b_dev b_buf].
      split; [|split; [reflexivity|split; [exact Hnil|split; [exact (Hle _ _ eq_refl)|]]]].
      * destruct HR' as (Hb' & Hp' & Hm'). unfold Rbuf. cbn [b_dev b_buf].
        destruct Hraw as (_ & _ & Hm). repeat split; try assumption; try apply Hb'. lia.
      * intros _ Hlt. apply Hprog. exact Hlt.
    + destruct e; try contradiction. destruct H as [HR' Hmu]. cbn [b_dev b_buf].
      split; [apply Rraw_buf; exact HR'|]. auto.
  - split; [exact HR|]. split; [exact Ebuf|]. split; [discriminate|].
    split; [lia|]. discriminate.
Qed.

Lemma b_read_ok content max : read_ok (Rbuf content max) mubuf content b_read.
Proof.
  intros s pos n HR Hn. unfold b_read.
  destruct (b_buf s) as [|b buf] eqn:Ebuf.
  - destruct (buf_capacity <=? n) eqn:Ecap.
    + pose proof (Rbuf_raw _ _ _ _ HR Ebuf) as Hraw.
      pose proof (dev_read_ok content max (b_dev s) pos n Hraw Hn) as H.
      destruct (dev_read n (b_dev s)) as [[l|e] d'] eqn:E.
      * destruct H as (HR' & Hl & Hln & Hnil & Hprog).
        split; [apply Rraw_buf; exact HR'|]. split; [exact Hl|]. split; [exact Hln|].
        unfold mubuf; cbn [b_dev b_buf]; rewrite Ebuf.
        split; [exact Hnil|]. intros Hlt. destruct (Hprog Hlt) as [H|[H1 H2]].
        -- left. lia.
        -- right. split; [lia|exact H2].
      * destruct e; try contradiction. destruct H as [HR' Hmu].
        split; [apply Rraw_buf; exact HR'|].
        unfold mubuf; cbn [b_dev b_buf]; rewrite Ebuf. lia.
    + pose proof (b_fill_ok content max s pos HR) as H.
      destruct (b_fill s) as [[l|e] s'] eqn:E.
      * destruct H as (HR' & Hl & Hnil & Hmu & Hprog). specialize (Hprog Ebuf).
        subst l.
        destruct (N.le_gt_cases n (lenN (b_buf s'))) as [Hle|Hgt].
        -- destruct (Rbuf_consume content max s' pos n HR' Hle) as [HR2 Htake].
           assert (Hlen : lenN (takeN n (b_buf s')) = n) by (rewrite lenN_takeN; lia).
           rewrite Hlen. split; [exact HR2|]. split; [exact Htake|]. split; [lia|].
           split; [|lia]. intros Ht. rewrite Ht, lenN_nil in Hlen. lia.
        -- rewrite takeN_all, dropN_all by lia.
           destruct (Rbuf_consume content max s' pos (lenN (b_buf s')) HR' ltac:(lia))
             as [HR2 Htake].
           rewrite dropN_all in HR2 by lia. rewrite takeN_all in Htake by lia.
           split; [exact HR2|]. split; [exact Htake|]. split; [lia|].
           split; [exact Hnil|]. intros _.
           unfold mubuf; cbn [b_dev b_buf]; rewrite Ebuf.
           destruct (Hprog ltac:(lia)) as [H|[H1 H2]]; [left; lia|right; split; [lia|exact H2]].
      * destruct e; try contradiction. destruct H as (HR' & Hmu & _ & E').
        split; [exact HR'|]. unfold mubuf. rewrite Ebuf, E'. lia.
  - rewrite <- Ebuf.
    destruct (N.le_gt_cases n (lenN (b_buf s))) as [Hle|Hgt].
    + destruct (Rbuf_consume content max s pos n HR Hle) as [HR2 Htake].
      assert (Hlen : lenN (takeN n (b_buf s)) = n) by (rewrite lenN_takeN; lia).
      rewrite Hlen. split; [exact HR2|]. split; [exact Htake|]. split; [lia|].
      split; [|lia]. intros Ht. rewrite Ht, lenN_nil in Hlen. lia.
    + rewrite takeN_all, dropN_all by lia.
      destruct (Rbuf_consume content max s pos (lenN (b_buf s)) HR ltac:(lia)) as [HR2 Htake].
      rewrite dropN_all in HR2 by lia. rewrite takeN_all in Htake by lia.
      split; [exact HR2|]. split; [exact Htake|]. split; [lia|].
      split; [rewrite Ebuf; discriminate|]. intros _. left.
      unfold mubuf; cbn [b_dev b_buf]; rewrite Ebuf. lia.
Qed.

Lemma b_read_exact_ok content max s pos n : Rbuf content max s pos ->
  exists s', b_read_exact n s = (fst (mem_read_exact content n pos), s') /\
             Rbuf content max s' (snd (mem_read_exact content n pos)).
Proof.
  intros HR. unfold b_read_exact.
  destruct (read_exact_loop_ok _ _ _ _ (b_read_ok content max)
              (length (d_reads (b_dev s)) + 5) n [] s pos HR) as (s' & E & HR').
  { left. unfold mubuf. destruct (b_buf s); lia. }
  exists s'. split; [exact E|exact HR'].
Qed.

Lemma b_until_ok content max : forall fuel lim acc s pos,
  Rbuf content max s pos ->
  (length (d_reads (b_dev s)) + N.to_nat lim + 1 <= fuel)%nat ->
  exists s', b_until fuel lim acc s =
     (Done (Ok (acc ++ upto_lf (takeN lim (dropN pos content)))), s') /\
     Rbuf content max s' (pos + lenN (upto_lf (takeN lim (dropN pos content)))).
Proof.
  induction fuel as [|fuel IH]; intros lim acc s pos HR Hf; [lia|].
  cbn [b_until]. destruct (N.eqb_spec lim 0) as [->|Hlim].
  { exists s. rewrite takeN_0. cbn [upto_lf]. rewrite app_nil_r, lenN_nil, N.add_0_r. auto. }
  pose proof (b_fill_ok content max s pos HR) as H.
  destruct (b_fill s) as [[l|e] s1] eqn:E.
  2:{ destruct e; try contradiction. destruct H as (HR1 & Hmu & _ & _).
      apply IH; [exact HR1|lia]. }
  destruct H as (HR1 & Hl & Hnil & Hmu & _). subst l.
  set (D := dropN pos content) in *.
  set (view := takeN lim (b_buf s1)) in *.
  assert (Hviewlen : lenN view <= lenN (b_buf s1)) by (unfold view; rewrite lenN_takeN; lia).
  assert (Hview : view = takeN (lenN view) D).
  { destruct HR1 as (_ & _ & _ & _ & Hbuf). unfold view. rewrite Hbuf at 1.
    rewrite takeN_takeN. rewrite lenN_takeN. reflexivity. }
  assert (HlenD : lenN view <= lenN D).
  { rewrite Hview at 1. rewrite lenN_takeN. lia. }
  assert (Hvl : lenN view <= lim) by (unfold view; rewrite lenN_takeN; lia).
  assert (Hsplit : takeN lim D = view ++ takeN (lim - lenN view) (dropN (pos + lenN view) content)).
  { replace lim with (lenN view + (lim - lenN view)) at 1 by lia. rewrite takeN_dropN_app.
    rewrite <- Hview. f_equal. f_equal. unfold D. now rewrite dropN_dropN. }
  pose proof (split_lf_upto view) as Hs.
  destruct (split_lf view) as [[a r]|].
  - destruct Hs as (Hv & Hu & Hin).
    assert (Hinv : In x0a view) by (rewrite Hv; apply in_or_app; now left).
    rewrite Hsplit, upto_lf_app_in by exact Hinv. rewrite Hu.
    eexists. split; [reflexivity|].
    assert (Hla : lenN a <= lenN (b_buf s1)) by (rewrite Hv, lenN_app in Hviewlen; lia).
    apply (Rbuf_consume content max s1 pos (lenN a) HR1 Hla).
  - destruct Hs as (Hu & Hnin).
    rewrite Hsplit, upto_lf_app_notin by exact Hnin.
    destruct (Rbuf_consume content max s1 pos (lenN view) HR1 Hviewlen) as [HR2 _].
    destruct view as [|b v] eqn:Ev.
    + (* end of file *)
      assert (Hempty : b_buf s1 = []).
      { destruct (b_buf s1) as [|x y] eqn:Eb; [reflexivity|].
        exfalso. assert (Hc : lenN (takeN lim (x :: y)) = 0).
        { unfold view in Ev. rewrite Ev. reflexivity. }
        rewrite lenN_takeN, lenN_cons in Hc. lia. }
      specialize (Hnil Hempty).
      change (lenN (@nil byte)) with 0 in HR2 |- *. rewrite N.add_0_r in HR2 |- *. cbn [app].
      rewrite (dropN_all pos content Hnil).
      rewrite takeN_nil. cbn [upto_lf]. rewrite app_nil_r.
      change (lenN (@nil byte)) with 0. rewrite ?N.add_0_r.
      eexists. split; [reflexivity|exact HR2].
    + rewrite <- Ev in *. clearbody view.
      assert (Hpos : 0 < lenN view) by (subst view; rewrite lenN_cons; lia). clear Ev.
      destruct (IH (lim - lenN view) (acc ++ view)
                   (mkbdev (b_dev s1) (dropN (lenN view) (b_buf s1))) (pos + lenN view) HR2)
        as (s' & E' & HR').
      { cbn [b_dev]. lia. }
      exists s'. split.
      * rewrite E'. rewrite app_assoc. reflexivity.
      * rewrite lenN_app, N.add_assoc. exact HR'.
Qed.

Lemma b_read_line_ok content max s pos lim : Rbuf content max s pos ->
  exists s', b_read_line lim s = (fst (mem_read_line content lim pos), s') /\
             Rbuf content max s' (snd (mem_read_line content lim pos)).
Proof.
  intros HR. unfold b_read_line.
  destruct (b_until_ok content max (length (d_reads (b_dev s)) + N.to_nat lim + 2) lim [] s pos
              HR ltac:(lia)) as (s' & E & HR').
  exists s'. split; [exact E|exact HR'].
Qed.

(** A seek on the device from the position behind the buffer. *)
Lemma Rbuf_dev content max s pos : Rbuf content max s pos ->
  Rraw content max (b_dev s) (pos + lenN (b_buf s)).
Proof.
  intros (Hb & Hm & Hp & Hp2 & _). split; [exact Hb|]. split; [exact Hp|]. lia.
Qed.
Lemma Rbuf_keep content max s pos d : Rbuf content max s pos ->
  Rraw content max d (pos + lenN (b_buf s)) -> Rbuf content max (mkbdev d (b_buf s)) pos.
Proof.
  intros (Hb & Hm & Hp & Hp2 & Hbuf) (Hb' & Hp' & Hm'). unfold Rbuf. cbn [b_dev b_buf].
  repeat split; try assumption; try apply Hb'. lia.
Qed.

Lemma mem_seek_current content max pos z rem :
  mem_seek content max (FromCurrent (z - Z.of_N rem)) (pos + rem) =
  (fst (mem_seek content max (FromCurrent z) pos),
   match fst (mem_seek content max (FromCurrent z) pos) with
   | Ok p => p | Err _ => pos + rem end).
Proof.
  unfold mem_seek. cbn [seek_target].
  replace (Z.of_N (pos + rem) + (z - Z.of_N rem))%Z with (Z.of_N pos + z)%Z by lia.
  destruct (_ || _); reflexivity.
Qed.
Lemma mem_seek_snd content max w pos :
  snd (mem_seek content max w pos) =
  match fst (mem_seek content max w pos) with Ok p => p | Err _ => pos end.
Proof. unfold mem_seek. destruct (_ || _); reflexivity. Qed.

Lemma b_seek_ok content max s pos w : Rbuf content max s pos ->
  exists s', b_seek w s = (fst (mem_seek content max w pos), s') /\
             Rbuf content max s' (snd (mem_seek content max w pos)).
Proof.
  intros HR. pose proof (Rbuf_dev _ _ _ _ HR) as Hd.
  unfold b_seek. rewrite mem_seek_snd.
  assert (Habs : forall w', (forall q, mem_seek content max w' q =
              (fst (mem_seek content max w' pos),
               match fst (mem_seek content max w' pos) with Ok p => p | Err _ => q end)) ->
     exists s', match dev_seek w' (b_dev s) with
                | (Ok p, d) => (Ok p, mkbdev d [])
                | (Err e, d) => (Err e, mkbdev d (b_buf s))
                end = (fst (mem_seek content max w' pos), s') /\
       Rbuf content max s' (match fst (mem_seek content max w' pos) with
                            | Ok p => p | Err _ => pos end)).
  { intros w' Hw. destruct (dev_seek_ok content max (b_dev s) _ w' Hd) as (d' & E & HR' & _).
    rewrite E. rewrite Hw in HR' |- *. cbn [fst snd] in HR' |- *.
    destruct (fst (mem_seek content max w' pos)) as [p|e].
    - eexists. split; [reflexivity|]. apply Rraw_buf. exact HR'.
    - eexists. split; [reflexivity|]. apply Rbuf_keep; assumption. }
  destruct w as [n|z|z].
  - apply Habs. intros q. unfold mem_seek. cbn [seek_target]. destruct (_ || _); reflexivity.
  - destruct (i64_min <=? z - Z.of_N (lenN (b_buf s)))%Z.
    + destruct (dev_seek_ok content max (b_dev s) _ (FromCurrent (z - Z.of_N (lenN (b_buf s)))) Hd)
        as (d' & E & HR' & _).
      rewrite E. rewrite mem_seek_current in HR' |- *. cbn [fst snd] in HR' |- *.
      destruct (fst (mem_seek content max (FromCurrent z) pos)) as [p|e].
      * eexists. split; [reflexivity|]. apply Rraw_buf. exact HR'.
      * eexists. split; [reflexivity|]. apply Rbuf_keep; assumption.
    + destruct (dev_seek_ok content max (b_dev s) _ (FromCurrent (- Z.of_N (lenN (b_buf s)))) Hd)
        as (d' & E & HR' & _).
      rewrite E. replace (- Z.of_N (lenN (b_buf s)))%Z with (0 - Z.of_N (lenN (b_buf s)))%Z in HR' |- * by lia.
      rewrite mem_seek_current in HR' |- *. cbn [fst snd] in HR' |- *.
      assert (H0 : fst (mem_seek content max (FromCurrent 0) pos) = Ok pos).
      { unfold mem_seek. cbn [seek_target]. destruct HR as (_ & Hm & _).
        replace ((Z.of_N pos + 0 <? 0)%Z || (Z.of_N max <? Z.of_N pos + 0)%Z) with false by lia.
        cbn [fst]. f_equal. lia. }
      rewrite H0 in HR' |- *.
      destruct (dev_seek_ok content max d' pos (FromCurrent z) HR') as (d2 & E2 & HR2 & _).
      rewrite E2. eexists. split; [reflexivity|]. apply Rraw_buf. rewrite mem_seek_snd in HR2.
      exact HR2.
  - apply Habs. intros q. unfold mem_seek. cbn [seek_target]. destruct (_ || _); reflexivity.
Qed.

Lemma b_tell_ok content max s pos : Rbuf content max s pos ->
  exists s', b_tell s = (Ok pos, s') /\ Rbuf content max s' pos.
Proof.
  intros HR. pose proof (Rbuf_dev _ _ _ _ HR) as Hd. unfold b_tell.
  destruct (dev_tell_ok content max (b_dev s) _ Hd) as (d' & E & HR' & _). rewrite E.
  eexists. split; [f_equal; f_equal; lia|]. apply Rbuf_keep; assumption.
Qed.

(** ** Refinement *)

(** A machine that answers every call except [read] like the ideal machine. *)
Record refines {S} (M : machine S) (R : S -> N -> Prop) (content : bytes) (max : N) : Prop := {
  rf_read_exact : forall n s pos, R s pos -> exists s',
    m_read_exact M n s = (fst (mem_read_exact content n pos), s') /\
    R s' (snd (mem_read_exact content n pos));
  rf_read_line : forall n s pos, R s pos -> exists s',
    m_read_line M n s = (fst (mem_read_line content n pos), s') /\
    R s' (snd (mem_read_line content n pos));
  rf_seek : forall w s pos, R s pos -> exists s',
    m_seek M w s = (fst (mem_seek content max w pos), s') /\
    R s' (snd (mem_seek content max w pos));
  rf_tell : forall s pos, R s pos -> exists s', m_tell M s = (Ok pos, s') /\ R s' pos;
  rf_pos : forall s pos, R s pos -> pos <= max
}.

(** The ideal machine keeps the contract. *)
Lemma mem_read_legal content n pos : legal_read n (fst (mem_read content n pos)).
Proof. unfold mem_read. cbn. rewrite lenN_takeN. lia. Qed.
Lemma mem_exact_legal content n pos :
  legal_exact n (if lenN (takeN n (dropN pos content)) =? n
                 then Ok (takeN n (dropN pos content)) else Err EUnexpectedEof).
Proof. destruct (_ =? n) eqn:E; cbn; [lia|exact I]. Qed.
Lemma upto_lf_len l : lenN (upto_lf l) <= lenN l.
Proof. destruct (upto_lf_prefix l) as [r E]. rewrite E at 2. rewrite lenN_app. lia. Qed.
Lemma mem_line_legal content n pos :
  legal_read n (Ok (upto_lf (takeN n (dropN pos content)))).
Proof.
  cbn. pose proof (upto_lf_len (takeN n (dropN pos content))) as H.
  rewrite lenN_takeN in H. lia.
Qed.
Lemma mem_seek_legal content max w pos : max < u64_max1 ->
  legal_pos (fst (mem_seek content max w pos)).
Proof.
  intros Hm. unfold mem_seek. destruct (_ || _) eqn:E; cbn; [exact I|]. unfold u64_max1 in *. lia.
Qed.
Lemma mem_seek_max content max w pos : pos <= max -> snd (mem_seek content max w pos) <= max.
Proof. intros H. unfold mem_seek. destruct (_ || _) eqn:E; cbn; lia. Qed.

Lemma run_refines {S A} (M : machine S) R content max : max < u64_max1 ->
  refines M R content max ->
  forall (p : prog A), no_read p -> forall s pos, R s pos ->
  exists s', run M p s = (fst (mrun content max p pos), s') /\ R s' (snd (mrun content max p pos)).
Proof.
  intros Hmax HM. unfold mrun.
  induction p as [a| | |n k IH|n k IH|n k IH|w k IH|k IH|n k IH]; intros Hnr s pos HR; cbn [run].
  - eexists; split; [reflexivity|exact HR].
  - eexists; split; [reflexivity|exact HR].
  - eexists; split; [reflexivity|exact HR].
  - contradiction Hnr.
  - destruct (rf_read_exact _ _ _ _ HM n s pos HR) as (s1 & E & HR1). rewrite E.
    cbn [m_read_exact mem_machine]. unfold mem_read_exact in *. cbn [fst snd] in *.
    apply IH; [apply Hnr, mem_exact_legal|exact HR1].
  - destruct (rf_read_line _ _ _ _ HM n s pos HR) as (s1 & E & HR1). rewrite E.
    cbn [m_read_line mem_machine]. unfold mem_read_line in *. cbn [fst snd] in *.
    apply IH; [apply Hnr, mem_line_legal|exact HR1].
  - destruct (rf_seek _ _ _ _ HM w s pos HR) as (s1 & E & HR1). rewrite E.
    cbn [m_seek mem_machine].
    pose proof (mem_seek_legal content max w pos Hmax) as Hleg.
    destruct (mem_seek content max w pos) as [r pos']. cbn [fst snd] in *.
    apply IH; [apply Hnr, Hleg|exact HR1].
  - destruct (rf_tell _ _ _ _ HM s pos HR) as (s1 & E & HR1). rewrite E.
    cbn [m_tell mem_machine]. pose proof (rf_pos _ _ _ _ HM s pos HR) as Hp.
    apply IH; [apply Hnr; exact (N.le_lt_trans _ _ _ Hp Hmax)|exact HR1].
  - apply IH; [exact Hnr|exact HR].
Qed.

Lemma buf_refines content max : refines buf_machine (Rbuf content max) content max.
Proof.
  constructor; cbn [buf_machine m_read_exact m_read_line m_seek m_tell]; intros.
  - now apply b_read_exact_ok.
  - now apply b_read_line_ok.
  - now apply b_seek_ok.
  - now apply b_tell_ok.
  - match goal with H : Rbuf _ _ _ _ |- _ => apply H end.
Qed.

(** The raw machine is only used for programs without [read_line]. *)
Fixpoint no_line {A} (p : prog A) : Prop :=
  match p with
  | Ret _ | PPanic | PFuel => True
  | PReadLine _ _ => False
  | PRead n k => forall r, legal_read n r -> no_line (k r)
  | PReadExact n k => forall r, legal_exact n r -> no_line (k r)
  | PSeek _ k | PTell k => forall r, legal_pos r -> no_line (k r)
  | PAlloc _ k => no_line k
  end.

Lemma raw_refines_prog {A} content max : max < u64_max1 -> forall (p : prog A), no_read p -> no_line p ->
  forall d pos, Rraw content max d pos ->
  exists d', run_raw p d = (fst (mrun content max p pos), d') /\
             Rraw content max d' (snd (mrun content max p pos)).
Proof.
  intros Hmax. unfold run_raw, mrun.
  induction p as [a| | |n k IH|n k IH|n k IH|w k IH|k IH|n k IH]; intros Hnr Hnl s pos HR;
    cbn [run]; try contradiction.
  - eexists; split; [reflexivity|exact HR].
  - eexists; split; [reflexivity|exact HR].
  - eexists; split; [reflexivity|exact HR].
  - destruct (dev_read_exact_ok content max s pos n HR) as (s1 & E & HR1).
    cbn [raw_machine m_read_exact mem_machine]. rewrite E.
    unfold mem_read_exact in *. cbn [fst snd] in *.
    apply IH; [apply Hnr, mem_exact_legal|apply Hnl, mem_exact_legal|exact HR1].
  - destruct (dev_seek_ok content max s pos w HR) as (s1 & E & HR1 & _).
    cbn [raw_machine m_seek mem_machine]. rewrite E.
    pose proof (mem_seek_legal content max w pos Hmax) as Hleg.
    destruct (mem_seek content max w pos) as [r pos']. cbn [fst snd] in *.
    apply IH; [apply Hnr, Hleg|apply Hnl, Hleg|exact HR1].
  - destruct (dev_tell_ok content max s pos HR) as (s1 & E & HR1 & _).
    cbn [raw_machine m_tell mem_machine]. rewrite E.
    assert (Hp : pos <= max) by apply HR.
    apply IH; [apply Hnr; exact (N.le_lt_trans _ _ _ Hp Hmax)|apply Hnl; exact (N.le_lt_trans _ _ _ Hp Hmax)|exact HR1].
  - apply IH; [exact Hnr|exact Hnl|exact HR].
Qed.

Lemma buf_refines_prog {A} content max : max < u64_max1 -> forall (p : prog A), no_read p ->
  forall d pos, Rraw content max d pos ->
  exists d', run_buf p d = (fst (mrun content max p pos), d') /\ benign content max d' /\
             d_pos d' <= max.
Proof.
  intros Hmax p Hnr d pos HR. unfold run_buf.
  destruct (run_refines buf_machine (Rbuf content max) content max Hmax (buf_refines content max) p Hnr
              (mkbdev d []) pos (Rraw_buf _ _ _ _ HR)) as (s' & E & HR').
  rewrite E. exists (b_dev s'). split; [reflexivity|].
  destruct HR' as (Hb & _ & _ & Hp & _). auto.
Qed.

(** With an empty schedule the raw machine also answers [read] like the ideal machine. *)
Definition Rquiet (content : bytes) (max : N) (d : dev) (pos : N) : Prop :=
  Rraw content max d pos /\ d_reads d = [].

Lemma dev_read_quiet content max d pos n : Rquiet content max d pos ->
  exists d', dev_read n d = (fst (mem_read content n pos), d') /\
             Rquiet content max d' (snd (mem_read content n pos)).
Proof.
  intros [(Hb & Hp & Hm) Hq]. unfold dev_read. rewrite Hq. destruct Hb as [Hc Hmx Hr Hs Hl].
  unfold mem_read, avail. rewrite Hc, Hp. cbn [fst snd].
  eexists. split; [reflexivity|]. split; [|reflexivity].
  pose proof (lenN_takeN n (dropN pos content)) as H. rewrite lenN_dropN in H.
  split; [constructor; cbn; auto|]. cbn. split; [reflexivity|]. lia.
Qed.

Lemma read_exact_loop_quiet content max : forall fuel n acc d pos,
  Rquiet content max d pos -> Forall no_fault (d_reads d) ->
  d_reads (snd (read_exact_loop dev_read fuel n acc d)) = [].
Proof.
  induction fuel as [|fuel IH]; intros n acc d pos HR Hn; cbn [read_exact_loop].
  - destruct (n =? 0); apply HR.
  - destruct (n =? 0); [apply HR|].
    destruct (dev_read_quiet content max d pos n HR) as (d' & E & HR'). rewrite E.
    unfold mem_read. cbn [fst].
    destruct (takeN n (dropN pos content)) as [|b l] eqn:El; [apply HR'|].
    eapply IH; [exact HR'|]. apply HR'.
Qed.

Lemma raw_quiet_prog {A} content max : max < u64_max1 -> forall (p : prog A), no_line p ->
  forall d pos, Rquiet content max d pos ->
  exists d', run_raw p d = (fst (mrun content max p pos), d') /\
             Rquiet content max d' (snd (mrun content max p pos)).
Proof.
  intros Hmax. unfold run_raw, mrun.
  induction p as [a| | |n k IH|n k IH|n k IH|w k IH|k IH|n k IH]; intros Hnl s pos HR;
    cbn [run]; try contradiction.
  - eexists; split; [reflexivity|exact HR].
  - eexists; split; [reflexivity|exact HR].
  - eexists; split; [reflexivity|exact HR].
  - destruct (dev_read_quiet content max s pos n HR) as (s1 & E & HR1).
    cbn [raw_machine m_read mem_machine]. rewrite E.
    pose proof (mem_read_legal content n pos) as Hleg.
    unfold mem_read in *. cbn [fst snd] in *. apply IH; [apply Hnl, Hleg|exact HR1].
  - destruct (dev_read_exact_ok content max s pos n (proj1 HR)) as (s1 & E & HR1).
    cbn [raw_machine m_read_exact mem_machine]. rewrite E.
    unfold mem_read_exact in *. cbn [fst snd] in *.
    apply IH; [apply Hnl, mem_exact_legal|]. split; [exact HR1|].
    replace s1 with (snd (dev_read_exact n s)) by (now rewrite E).
    eapply read_exact_loop_quiet; [exact HR|]. apply HR.
  - destruct (dev_seek_ok content max s pos w (proj1 HR)) as (s1 & E & HR1 & Hq).
    cbn [raw_machine m_seek mem_machine]. rewrite E.
    pose proof (mem_seek_legal content max w pos Hmax) as Hleg.
    destruct (mem_seek content max w pos) as [r pos']. cbn [fst snd] in *.
    apply IH; [apply Hnl, Hleg|]. split; [exact HR1|]. rewrite Hq. apply HR.
  - destruct (dev_tell_ok content max s pos (proj1 HR)) as (s1 & E & HR1 & Hq).
    cbn [raw_machine m_tell mem_machine]. rewrite E.
    assert (Hp : pos <= max) by apply HR. apply IH; [apply Hnl; exact (N.le_lt_trans _ _ _ Hp Hmax)|].
    split; [exact HR1|]. rewrite Hq. apply HR.
  - apply IH; [exact Hnl|exact HR].
Qed.
