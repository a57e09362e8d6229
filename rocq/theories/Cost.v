(** Accounting for the calls a reader program makes on a device. *)
From Coq Require Import NArith ZArith Bool List Lia ZifyBool ZifyNat ZifyN.
From Verif Require Import Base BaseProofs IO Mem IOProofs Static Lawful SpecIo.
Local Open Scope N_scope.

Definition prompt_in (content : bytes) (u : list revent) : Prop :=
  Forall (fun e => match e with RShort k => lenN content <= k | _ => False end) u.

(** At most [s] seek calls, [f] read calls on a prompt device, [g] answered read calls on any. *)
Definition spent (content : bytes) (d d' : dev) (s f g : N) : Prop :=
  exists u v, calls_made d d' u v /\ lenN v <= s /\ answered u <= g /\
    (prompt_in content (d_reads d) -> lenN u <= f).

Lemma answered_app u v : answered (u ++ v) = answered u + answered v.
Proof. unfold answered. now rewrite filter_app, lenN_app. Qed.
Lemma answered_le u : answered u <= lenN u.
Proof.
  unfold answered, lenN. induction u as [|e u IH]; cbn [filter List.length]; [lia|].
  destruct e; cbn [List.length]; lia.
Qed.

Lemma spent_refl content d s f g : spent content d d s f g.
Proof. exists [], []. repeat split; cbn; try lia. Qed.
Lemma spent_trans content a b c s1 f1 g1 s2 f2 g2 s f g :
  spent content a b s1 f1 g1 -> spent content b c s2 f2 g2 ->
  s1 + s2 <= s -> f1 + f2 <= f -> g1 + g2 <= g -> spent content a c s f g.
Proof.
  intros (u1 & v1 & [Hu1 Hv1] & Hs1 & Hg1 & Hf1) (u2 & v2 & [Hu2 Hv2] & Hs2 & Hg2 & Hf2) H1 H2 H3.
  exists (u1 ++ u2), (v1 ++ v2). split; [split|split; [|split]].
  - now rewrite <- app_assoc, <- Hu2.
  - now rewrite <- app_assoc, <- Hv2.
  - rewrite lenN_app. lia.
  - rewrite answered_app. lia.
  - intros Hp. specialize (Hf1 Hp). rewrite Hu1 in Hp. apply Forall_app in Hp as [_ Hp].
    specialize (Hf2 Hp). rewrite lenN_app. lia.
Qed.
Lemma spent_mono content a b s f g s' f' g' : spent content a b s f g -> s <= s' -> f <= f' -> g <= g' ->
  spent content a b s' f' g'.
Proof.
  intros (u & v & H & Hs & Hg & Hf) H1 H2 H3. exists u, v. split; [exact H|]. split; [lia|]. split; [lia|].
  intros Hp. specialize (Hf Hp). lia.
Qed.

(** The device is prompt from here on and has nothing left. *)
Definition done_dev (content : bytes) (d : dev) : Prop := lenN content <= d_pos d.

(** One read. *)
Lemma dev_read_spent content n d : Idev content d ->
  match dev_read n d with
  | (Err EInterrupted, d') => spent content d d' 0 1 0 /\ (prompt_in content (d_reads d) -> False)
  | (Err _, d') => spent content d d' 0 1 1
  | (Ok l, d') => spent content d d' 0 1 1 /\
      (prompt_in content (d_reads d) -> lenN l < n -> done_dev content d') /\
      (done_dev content d -> l = [] /\ done_dev content d')
  end.
Proof.
  intros [Hc _]. unfold dev_read, done_dev, avail. destruct (d_reads d) as [|[k| |e] rs] eqn:Er; cbn zeta iota; cbn [d_pos].
  - split; [|split].
    + exists [], []. unfold calls_made. rewrite Er. repeat split; cbn; lia.
    + intros _ H. rewrite lenN_takeN, lenN_dropN, Hc in *. lia.
    + intros H. rewrite dropN_all by (rewrite Hc; exact H). split; [reflexivity|]. cbn. lia.
  - split; [|split].
    + exists [RShort k], []. unfold calls_made. rewrite Er. repeat split; cbn; lia.
    + intros Hp H. inversion Hp as [|? ? Hk _]; subst. rewrite lenN_takeN, lenN_dropN in *. lia.
    + intros H. rewrite dropN_all by (rewrite Hc; exact H). split; [reflexivity|]. cbn. lia.
  - split.
    + exists [RIntr], []. unfold calls_made. rewrite Er. repeat split; cbn; lia.
    + intros Hp. inversion Hp as [|? ? H _]. exact H.
  - exists [RFault e], []. unfold calls_made. rewrite Er. repeat split; cbn; try lia.
Qed.

(** The abstract view of [read] used by [read_exact]; [pr]: the device is prompt, [dn]: nothing is
    left; [free]: the next call is served from a buffer. *)
Definition suffix (d d' : dev) : Prop := exists u, d_reads d = u ++ d_reads d'.
Lemma spent_prompt content d d' s f g : spent content d d' s f g -> prompt_in content (d_reads d) ->
  prompt_in content (d_reads d').
Proof.
  intros (u & v & [Hu _] & _) Hp. rewrite Hu in Hp. now apply Forall_app in Hp as [_ Hp].
Qed.

(** A read function with its device: what one call costs and when it can be short. *)
Definition rd_cost {S} (dv : S -> dev) (I : S -> Prop) (content : bytes) (dn free : S -> Prop)
  (rd : N -> S -> result bytes * S) : Prop :=
  forall n s, I s -> 0 < n ->
  match rd n s with
  | (Err EInterrupted, s') => I s' /\ spent content (dv s) (dv s') 0 1 0 /\ ~ prompt_in content (d_reads (dv s))
  | (Err _, s') => I s' /\ spent content (dv s) (dv s') 0 1 1
  | (Ok l, s') => I s' /\ lenN l <= n /\ spent content (dv s) (dv s') 0 1 1 /\
      (free s -> spent content (dv s) (dv s') 0 0 0 /\ l <> [] /\ (lenN l < n -> ~ free s')) /\
      (~ free s -> lenN l < n -> ~ free s') /\
      (~ free s -> prompt_in content (d_reads (dv s)) -> lenN l < n -> dn s') /\
      (dn s -> l = [])
  end.

Lemma spent_combine content d d' s f f' g : spent content d d' s f' g ->
  (prompt_in content (d_reads d) -> spent content d d' s f g) -> spent content d d' s f g.
Proof.
  intros (u & v & [Hu Hv] & H1 & H2 & _) H. exists u, v. repeat split; auto. intros Hp.
  destruct (H Hp) as (u' & v' & [Hu' _] & _ & _ & H3). rewrite Hu in Hu'.
  apply app_inv_tail in Hu'. subst u'. auto.
Qed.

Lemma exact_spent {S} dv I content dn free rd : @rd_cost S dv I content dn free rd ->
  (forall s, free s \/ ~ free s) ->
  forall fuel n acc s, I s ->
  spent content (dv s) (dv (snd (read_exact_loop rd fuel n acc s))) 0 2 n.
Proof.
  intros Hrd Hfree.
  (* the answered calls *)
  assert (Hgen : forall fuel n acc s, I s ->
    spent content (dv s) (dv (snd (read_exact_loop rd fuel n acc s))) 0
      (lenN (d_reads (dv s))) n).
  { induction fuel as [|fuel IH]; intros n acc s HI; cbn [read_exact_loop];
      destruct (N.eqb_spec n 0) as [->|Hn]; try apply spent_refl.
    specialize (Hrd n s HI ltac:(lia)).
    assert (Hwk : forall a b s1 f1 g1 g2, spent content a b s1 f1 g1 -> g1 <= g2 -> s1 = 0 ->
       spent content a b 0 (lenN (d_reads a)) g2).
    { intros a b s1 f1 g1 g2 (u & v & [Hu Hv] & H1 & H2 & H3) Hg ->. exists u, v.
      repeat split; auto; try lia. intros _. rewrite Hu, lenN_app. lia. }
    assert (Htr : forall a b e s1 f1 g1 g2, spent content a b s1 f1 g1 -> s1 = 0 ->
       spent content b e 0 (lenN (d_reads b)) g2 -> spent content a e 0 (lenN (d_reads a)) (g1 + g2)).
    { intros a b e s1 f1 g1 g2 (u & v & [Hu Hv] & H1 & H2 & H3) -> (u2 & v2 & [Hu2 Hv2] & H4 & H5 & H6).
      exists (u ++ u2), (v ++ v2). split; [split|split; [|split]].
      - now rewrite <- app_assoc, <- Hu2.
      - now rewrite <- app_assoc, <- Hv2.
      - rewrite lenN_app. lia.
      - rewrite answered_app. lia.
      - intros _. rewrite Hu, Hu2, !lenN_app. lia. }
    destruct (rd n s) as [[l|e] s'].
    - destruct Hrd as (HI' & Hl & Hsp & Hfr & _). destruct l as [|b l'].
      { cbn [snd]. eapply Hwk; eauto. lia. }
      remember (b :: l') as l eqn:El.
      assert (0 < lenN l) by (subst l; rewrite lenN_cons; lia). clear El.
      eapply spent_mono.
      + eapply (Htr _ _ _ 0 1 1 (n - lenN l)); [exact Hsp|reflexivity|]. now apply IH.
      + lia.
      + lia.
      + lia.
    - destruct e; try (destruct Hrd as [HI' Hsp]; cbn [snd]; eapply Hwk; eauto; lia).
      destruct Hrd as (HI' & Hsp & _). eapply spent_mono.
      + eapply (Htr _ _ _ 0 1 0 n); [exact Hsp|reflexivity|]. now apply IH.
      + lia.
      + lia.
      + lia. }
  (* the calls on a prompt device, nothing left *)
  assert (Hd : forall fuel n acc s, I s -> dn s -> prompt_in content (d_reads (dv s)) ->
    spent content (dv s) (dv (snd (read_exact_loop rd fuel n acc s))) 0 1 n).
  { intros fuel n acc s HI Hds Hp. destruct fuel as [|fuel]; cbn [read_exact_loop];
      destruct (N.eqb_spec n 0) as [->|Hn]; try apply spent_refl.
    specialize (Hrd n s HI ltac:(lia)). destruct (rd n s) as [[l|e] s'].
    - destruct Hrd as (HI' & Hl & Hsp & _ & _ & _ & Hnil). rewrite (Hnil Hds). cbn [snd].
      eapply spent_mono; [exact Hsp|lia|lia|lia].
    - destruct e; try (destruct Hrd as [HI' Hsp]; cbn [snd]; eapply spent_mono; [exact Hsp|lia|lia|lia]).
      destruct Hrd as (_ & _ & Hn2). contradiction. }
  (* not served from the buffer *)
  assert (Hnf : forall fuel n acc s, I s -> ~ free s -> prompt_in content (d_reads (dv s)) ->
    spent content (dv s) (dv (snd (read_exact_loop rd fuel n acc s))) 0 2 n).
  { intros fuel n acc s HI Hf Hp. destruct fuel as [|fuel]; cbn [read_exact_loop];
      destruct (N.eqb_spec n 0) as [->|Hn]; try apply spent_refl.
    specialize (Hrd n s HI ltac:(lia)). destruct (rd n s) as [[l|e] s'].
    - destruct Hrd as (HI' & Hl & Hsp & _ & _ & Hshort & _). destruct l as [|b l'].
      { cbn [snd]. eapply spent_mono; [exact Hsp|lia|lia|lia]. }
      remember (b :: l') as l eqn:El.
      assert (0 < lenN l) by (subst l; rewrite lenN_cons; lia). clear El.
      destruct (N.eq_dec (lenN l) n) as [Heq|Hneq].
      + replace (n - lenN l) with 0 by lia. replace (snd (read_exact_loop rd fuel 0 (acc ++ l) s')) with s'
          by (destruct fuel; reflexivity). eapply spent_mono; [exact Hsp|lia|lia|lia].
      + eapply spent_trans; [exact Hsp|apply Hd; auto|lia|lia|lia].
        * apply Hshort; auto. lia.
        * eapply spent_prompt; eauto.
    - destruct e; try (destruct Hrd as [HI' Hsp]; cbn [snd]; eapply spent_mono; [exact Hsp|lia|lia|lia]).
      destruct Hrd as (_ & _ & Hn2). contradiction. }
  intros fuel n acc s HI.
  assert (Hcase : prompt_in content (d_reads (dv s)) ->
    spent content (dv s) (dv (snd (read_exact_loop rd fuel n acc s))) 0 2 n).
  { intros Hp. destruct (Hfree s) as [Hf|Hf]; [|now apply Hnf].
    destruct fuel as [|fuel]; cbn [read_exact_loop];
      destruct (N.eqb_spec n 0) as [->|Hn]; try apply spent_refl.
    specialize (Hrd n s HI ltac:(lia)). destruct (rd n s) as [[l|e] s'].
    - destruct Hrd as (HI' & Hl & _ & Hfr & _). destruct (Hfr Hf) as (Hsp & Hne & Hnf').
      destruct l as [|b l']; [now contradiction Hne|].
      remember (b :: l') as l eqn:El. clear El.
      destruct (N.eq_dec (lenN l) n) as [Heq|Hneq].
      + replace (n - lenN l) with 0 by lia. replace (snd (read_exact_loop rd fuel 0 (acc ++ l) s')) with s'
          by (destruct fuel; reflexivity). eapply spent_mono; [exact Hsp|lia|lia|lia].
      + eapply spent_trans; [exact Hsp|apply Hnf; auto|lia|lia|lia].
        * apply Hnf'. lia.
        * eapply spent_prompt; eauto.
    - destruct e; try (destruct Hrd as [HI' Hsp]; cbn [snd]; eapply spent_mono; [exact Hsp|lia|lia|lia]).
      destruct Hrd as (_ & _ & Hn2). contradiction. }
  eapply spent_combine; [now apply Hgen|exact Hcase].
Qed.

Lemma dev_rd_cost content : rd_cost (fun d => d) (Idev content) content (done_dev content) (fun _ => False) dev_read.
Proof.
  intros n d HI Hn. pose proof (dev_read_spent content n d HI) as H.
  pose proof (dev_read_law content n d HI Hn) as [Hl _].
  destruct (dev_read n d) as [[l|e] d'].
  - destruct H as (H1 & H2 & H3). destruct Hl as (HI' & Hlen & _).
    split; [exact HI'|]. split; [exact Hlen|]. split; [exact H1|]. split; [tauto|]. split; [tauto|]. split; [intros; now apply H2|].
    intros Hd. now apply H3.
  - destruct e; (split; [apply Hl|exact H]).
Qed.
Lemma dev_exact_spent content n d : Idev content d -> spent content d (snd (dev_read_exact n d)) 0 2 n.
Proof.
  intros HI. apply (exact_spent (fun d => d) (Idev content) content (done_dev content) (fun _ => False) dev_read
    (dev_rd_cost content)); auto.
Qed.

Definition done_buf (content : bytes) (s : bdev) : Prop := b_buf s = [] /\ done_dev content (b_dev s).
Definition buffered_data (s : bdev) : Prop := b_buf s <> [].
Lemma b_rd_cost content : rd_cost b_dev (Ibuf content) content (done_buf content) buffered_data b_read.
Proof.
  intros n s HI Hn. unfold b_read, done_buf, buffered_data.
  destruct (b_buf s) as [|b buf] eqn:Eb.
  - destruct (buf_capacity <=? n) eqn:Ec.
    + pose proof (dev_read_spent content n (b_dev s) HI) as H.
      pose proof (dev_read_law content n (b_dev s) HI Hn) as [Hl _].
      destruct (dev_read n (b_dev s)) as [[l|e] d']; cbn [b_dev b_buf].
      * destruct H as (H1 & H2 & H3). destruct Hl as (HI' & Hlen & _).
        split; [exact HI'|]. split; [exact Hlen|]. split; [exact H1|]. split; [tauto|]. split; [tauto|]. split; [intros; split; [reflexivity|now apply H2]|].
        intros [_ Hd]. now apply H3.
      * destruct e; (split; [apply Hl|exact H]).
    + unfold b_fill. rewrite Eb. pose proof (dev_read_spent content buf_capacity (b_dev s) HI) as H.
      pose proof (dev_read_law content buf_capacity (b_dev s) HI ltac:(reflexivity)) as [Hl _].
      destruct (dev_read buf_capacity (b_dev s)) as [[l|e] d']; cbn [b_dev b_buf].
      * destruct H as (H1 & H2 & H3). destruct Hl as (HI' & Hlen & _).
        rewrite lenN_takeN.
        assert (Hdr : N.min n (lenN l) < n -> dropN n l = []) by (intros ?; apply dropN_all; lia).
        split; [exact HI'|]. split; [lia|]. split; [exact H1|]. split; [tauto|]. split; [|split].
        -- intros _ Hlt. rewrite (Hdr Hlt). tauto.
        -- intros _ Hp Hlt. split; [now apply Hdr|]. apply H2; [exact Hp|]. unfold buf_capacity in *. lia.
        -- intros [_ Hd]. destruct (H3 Hd) as [-> _]. reflexivity.
      * destruct e; (split; [apply Hl|exact H]).
  - rewrite <- Eb. cbn [b_dev b_buf]. split; [exact HI|]. rewrite lenN_takeN. split; [lia|].
    split; [apply spent_refl|]. split; [|split; [|split]].
    + intros _. split; [apply spent_refl|]. split.
      * rewrite Eb. cbn [takeN]. destruct (N.eqb_spec n 0); [lia|discriminate].
      * intros Hlt. rewrite dropN_all by lia. tauto.
    + rewrite Eb. intros Hc. contradiction Hc. discriminate.
    + rewrite Eb. intros Hc. contradiction Hc. discriminate.
    + rewrite Eb. intros [Hc _]. discriminate.
Qed.
Lemma b_exact_spent content n s : Ibuf content s -> spent content (b_dev s) (b_dev (snd (b_read_exact n s))) 0 2 n.
Proof.
  intros HI. apply (exact_spent b_dev (Ibuf content) content (done_buf content) buffered_data b_read
    (b_rd_cost content)); auto.
  intros t. unfold buffered_data. destruct (b_buf t); [right; tauto|left; discriminate].
Qed.

(** Lines. *)
Lemma b_fill_spent content s : Ibuf content s ->
  match b_fill s with
  | (Err EInterrupted, s') => Ibuf content s' /\ b_buf s' = [] /\ spent content (b_dev s) (b_dev s') 0 1 0 /\
      ~ prompt_in content (d_reads (b_dev s))
  | (Err _, s') => Ibuf content s' /\ spent content (b_dev s) (b_dev s') 0 1 1
  | (Ok l, s') => Ibuf content s' /\ spent content (b_dev s) (b_dev s') 0 1 1 /\
      (b_buf s <> [] -> spent content (b_dev s) (b_dev s') 0 0 0 /\ l <> []) /\
      (b_buf s = [] -> prompt_in content (d_reads (b_dev s)) -> lenN l < 8192 -> done_dev content (b_dev s')) /\
      (b_buf s = [] -> done_dev content (b_dev s) -> l = [])
  end.
Proof.
  intros HI. unfold b_fill. destruct (b_buf s) as [|b buf] eqn:Eb.
  - pose proof (dev_read_spent content buf_capacity (b_dev s) HI) as H.
    pose proof (dev_read_law content buf_capacity (b_dev s) HI ltac:(reflexivity)) as [Hl _].
    destruct (dev_read buf_capacity (b_dev s)) as [[l|e] d']; cbn [b_dev b_buf].
    + destruct H as (H1 & H2 & H3). destruct Hl as (HI' & Hlen & _).
      split; [exact HI'|]. split; [exact H1|]. split; [tauto|]. split; [intros; now apply H2|]. intros _ Hd. now apply H3.
    + destruct e; try (split; [apply Hl|exact H]).
      destruct H as [H1 H2]. destruct Hl as [HI' _]. split; [exact HI'|auto].
  - split; [exact HI|]. split; [apply spent_refl|]. split; [|split; discriminate].
    intros _. split; [apply spent_refl|discriminate].
Qed.

Lemma b_until_spent content : forall fuel lim acc s, Ibuf content s ->
  spent content (b_dev s) (b_dev (snd (b_until fuel lim acc s))) 0 (lenN (d_reads (b_dev s))) lim.
Proof.
  assert (Hwk : forall a b s1 f1 g1 g2, spent content a b s1 f1 g1 -> g1 <= g2 -> s1 = 0 ->
     spent content a b 0 (lenN (d_reads a)) g2).
  { intros a b s1 f1 g1 g2 (u & v & [Hu Hv] & H1 & H2 & H3) Hg ->. exists u, v.
    repeat split; auto; try lia. intros _. rewrite Hu, lenN_app. lia. }
  assert (Htr : forall a b e s1 f1 g1 g2, spent content a b s1 f1 g1 -> s1 = 0 ->
     spent content b e 0 (lenN (d_reads b)) g2 -> spent content a e 0 (lenN (d_reads a)) (g1 + g2)).
  { intros a b e s1 f1 g1 g2 (u & v & [Hu Hv] & H1 & H2 & H3) -> (u2 & v2 & [Hu2 Hv2] & H4 & H5 & H6).
    exists (u ++ u2), (v ++ v2). split; [split|split; [|split]].
    - now rewrite <- app_assoc, <- Hu2.
    - now rewrite <- app_assoc, <- Hv2.
    - rewrite lenN_app. lia.
    - rewrite answered_app. lia.
    - intros _. rewrite Hu, Hu2, !lenN_app. lia. }
  induction fuel as [|fuel IH]; intros lim acc s HI; cbn [b_until];
    destruct (N.eqb_spec lim 0) as [->|Hn]; try apply spent_refl.
  pose proof (b_fill_spent content s HI) as H. destruct (b_fill s) as [[l|e] s1].
  - destruct H as (HI1 & Hsp & _). destruct (split_lf (takeN lim l)) as [[a r]|].
    { cbn [snd b_dev]. eapply Hwk; eauto. lia. }
    cbn zeta. destruct (takeN lim l) as [|x v] eqn:Ev.
    { cbn [snd b_dev]. eapply Hwk; eauto. lia. }
    rewrite <- Ev. assert (0 < lenN (takeN lim l)) by (rewrite Ev, lenN_cons; lia).
    eapply spent_mono.
    + eapply (Htr _ (b_dev s1) _ 0 1 1 (lim - lenN (takeN lim l))); [exact Hsp|reflexivity|].
      apply (IH _ _ (mkbdev (b_dev s1) (dropN (lenN (takeN lim l)) l)) HI1).
    + lia.
    + lia.
    + assert (lenN (takeN lim l) <= lim) by (rewrite lenN_takeN; lia). lia.
  - destruct e; try (destruct H as [HI' Hsp]; cbn [snd]; eapply Hwk; eauto; lia).
    destruct H as (HI1 & _ & Hsp & _). eapply spent_mono; [eapply (Htr _ _ _ 0 1 0 lim); [exact Hsp|reflexivity|now apply IH]|lia|lia|lia].
Qed.

Lemma b_until_prompt content : forall fuel lim acc s, Ibuf content s -> prompt_in content (d_reads (b_dev s)) ->
  (b_buf s = [] -> spent content (b_dev s) (b_dev (snd (b_until fuel lim acc s))) 0 (lim / 8192 + 2) lim) /\
  (b_buf s = [] -> done_dev content (b_dev s) -> spent content (b_dev s) (b_dev (snd (b_until fuel lim acc s))) 0 1 lim).
Proof.
  induction fuel as [|fuel IH]; intros lim acc s HI Hp; cbn [b_until];
    destruct (N.eqb_spec lim 0) as [->|Hn]; try (split; intros; apply spent_refl).
  pose proof (b_fill_spent content s HI) as H. pose proof (b_until_spent content fuel) as Hany.
  destruct (b_fill s) as [[l|e] s1] eqn:Ef.
  - destruct H as (HI1 & Hsp & _ & Hshort & Hnil). split.
    + intros Hb. destruct (split_lf (takeN lim l)) as [[a r]|].
      { cbn [snd b_dev]. eapply spent_mono; [exact Hsp|lia|lia|lia]. }
      cbn zeta. destruct (takeN lim l) as [|x v] eqn:Ev.
      { cbn [snd b_dev]. eapply spent_mono; [exact Hsp|lia|lia|lia]. }
      rewrite <- Ev. assert (0 < lenN (takeN lim l)) by (rewrite Ev, lenN_cons; lia).
      pose proof (lenN_takeN lim l) as Hlt.
      assert (Hp1 : prompt_in content (d_reads (b_dev s1))) by (eapply spent_prompt; eauto).
      destruct (N.le_gt_cases lim (lenN l)) as [Hll|Hll].
      { replace (lim - lenN (takeN lim l)) with 0 by lia.
        destruct fuel; cbn [b_until N.eqb snd b_dev]; (eapply spent_mono; [exact Hsp|lia|lia|lia]). }
      rewrite takeN_all by lia. rewrite (takeN_all lim l) in * by lia.
      rewrite (dropN_all (lenN l) l) by lia.
      destruct (IH (lim - lenN l) (acc ++ l) (mkbdev (b_dev s1) []) HI1 Hp1) as [IHa IHd].
      destruct (N.le_gt_cases 8192 (lenN l)) as [Hbig|Hsm].
      * eapply spent_trans; [exact Hsp|apply IHa; reflexivity|lia| |lia].
        assert ((lim - lenN l) / 8192 <= lim / 8192 - 1); [|].
        { replace lim with (lim - 8192 + 1 * 8192) at 2 by lia. rewrite N.div_add by discriminate.
          replace ((lim - 8192) / 8192 + 1 - 1) with ((lim - 8192) / 8192) by lia.
          apply N.div_le_mono; [discriminate|lia]. }
        assert (1 <= lim / 8192) by (apply N.div_le_lower_bound; lia). lia.
      * eapply spent_trans; [exact Hsp|apply IHd; [reflexivity|now apply Hshort]|lia|lia|lia].
    + intros Hb Hd. rewrite (Hnil Hb Hd). cbn [takeN split_lf snd b_dev]. 
      eapply spent_mono; [exact Hsp|lia|lia|lia].
  - destruct e; try (destruct H as [HI' Hsp]; cbn [snd]; split; intros; eapply spent_mono; [exact Hsp|lia|lia|lia|exact Hsp|lia|lia|lia]).
    destruct H as (HI1 & _ & Hsp & Hnp). contradiction.
Qed.
Lemma b_line_spent content lim s : Ibuf content s ->
  spent content (b_dev s) (b_dev (snd (b_read_line lim s))) 0 (lim / 8192 + 2) lim.
Proof.
  intros HI. unfold b_read_line. set (fuel := (_ + _ + _)%nat).
  eapply spent_combine; [apply b_until_spent; exact HI|]. intros Hp.
  destruct (b_buf s) as [|b buf] eqn:Eb.
  { now apply b_until_prompt. }
  destruct fuel as [|fuel]; cbn [b_until]; destruct (N.eqb_spec lim 0) as [->|Hn]; try apply spent_refl.
  pose proof (b_fill_spent content s HI) as H. unfold b_fill in *. rewrite Eb in *.
  rewrite <- Eb in *. destruct (split_lf (takeN lim (b_buf s))) as [[a r]|]; [apply spent_refl|].
  cbn zeta. destruct (takeN lim (b_buf s)) as [|x v] eqn:Ev; [apply spent_refl|]. rewrite <- Ev.
  pose proof (lenN_takeN lim (b_buf s)) as Hlt.
  destruct (N.le_gt_cases lim (lenN (b_buf s))) as [Hll|Hll].
  { replace (lim - lenN (takeN lim (b_buf s))) with 0 by lia.
    destruct fuel; cbn [b_until N.eqb snd b_dev]; apply spent_refl. }
  rewrite (takeN_all lim (b_buf s)) by lia. rewrite dropN_all by lia.
  eapply spent_mono; [apply (proj1 (b_until_prompt content fuel (lim - lenN (b_buf s)) _ (mkbdev (b_dev s) []) HI Hp)); reflexivity|lia| |lia].
  assert ((lim - lenN (b_buf s)) / 8192 <= lim / 8192) by (apply N.div_le_mono; [discriminate|lia]). lia.
Qed.

(** Seeks. *)
Lemma dev_seek_spent content w d : spent content d (snd (dev_seek w d)) 1 0 0.
Proof.
  unfold dev_seek. assert (Hk : forall ss, d_seeks d = ss -> 
    forall (P : bool) r1 p1 r2 p2 , spent content d (snd (if P then (r1 : result N, mkdev (d_content d) p1 (d_reads d) (tl ss) (d_max d))
       else (r2, mkdev (d_content d) p2 (d_reads d) (tl ss) (d_max d)))) 1 0 0).
  { intros ss E P r1 p1 r2 p2. exists [], (firstn 1 ss). unfold calls_made. rewrite E.
    destruct P; cbn [snd d_reads d_seeks]; destruct ss; cbn; repeat split; cbn; lia. }
  destruct (d_seeks d) as [|[|] ss] eqn:E; [apply (Hk []); reflexivity|apply (Hk (true :: ss)); reflexivity|].
  exists [], [false]. unfold calls_made. rewrite E. repeat split; cbn; lia.
Qed.
Lemma b_seek_spent content w s : spent content (b_dev s) (b_dev (snd (b_seek w s))) 2 0 0.
Proof.
  unfold b_seek.
  assert (H : forall w', spent content (b_dev s) (b_dev (snd (match dev_seek w' (b_dev s) with
      | (Ok p, d) => (Ok p, mkbdev d [])
      | (Err e, d) => (Err e, mkbdev d (b_buf s))
      end))) 2 0 0).
  { intros w'. pose proof (dev_seek_spent content w' (b_dev s)) as H.
    destruct (dev_seek w' (b_dev s)) as [[p|e] d']; cbn in *; (eapply spent_mono; [exact H|lia|lia|lia]). }
  destruct w as [n|z|z]; [apply H| |apply H].
  destruct (i64_min <=? z - Z.of_N (lenN (b_buf s)))%Z; [apply H|].
  pose proof (dev_seek_spent content (FromCurrent (- Z.of_N (lenN (b_buf s)))) (b_dev s)) as H1.
  destruct (dev_seek (FromCurrent (- Z.of_N (lenN (b_buf s)))) (b_dev s)) as [[p|e] d'];
    cbn [snd b_dev] in *; [|eapply spent_mono; [exact H1|lia|lia|lia]].
  pose proof (dev_seek_spent content (FromCurrent z) d') as H2.
  destruct (dev_seek (FromCurrent z) d') as [r d2]. cbn [snd b_dev] in *.
  eapply spent_trans; [exact H1|exact H2|lia|lia|lia].
Qed.
Lemma b_tell_spent content s : spent content (b_dev s) (b_dev (snd (b_tell s))) 1 0 0.
Proof.
  unfold b_tell, dev_tell. pose proof (dev_seek_spent content (FromCurrent 0) (b_dev s)) as H.
  destruct (dev_seek (FromCurrent 0) (b_dev s)) as [[p|e] d']; exact H.
Qed.

(** ** Programs with a budget *)

(** Every path of the program stays within [s] seeks, [f] read calls on a prompt device and [g]
    answered read calls on any; [Q] holds of the result and what is left of the budget. *)
Fixpoint wpc {A} (p : prog A) (s f g : N) (Q : A -> N -> N -> N -> Prop) : Prop :=
  match p with
  | Ret a => Q a s f g
  | PPanic => True
  | PFuel => True
  | PRead n k => 1 <= f /\ 1 <= g /\ forall r, legal_read n r -> wpc (k r) s (f - 1) (g - 1) Q
  | PReadExact n k => 2 <= f /\ n <= g /\ forall r, legal_exact n r -> wpc (k r) s (f - 2) (g - n) Q
  | PReadLine n k => n / 8192 + 2 <= f /\ n <= g /\
      forall r, legal_read n r -> wpc (k r) s (f - (n / 8192 + 2)) (g - n) Q
  | PSeek _ k => 1 <= s /\ forall r, legal_pos r -> wpc (k r) (s - 1) f g Q
  | PTell k => 1 <= s /\ forall r, legal_pos r -> wpc (k r) (s - 1) f g Q
  | PAlloc _ k => wpc k s f g Q
  end.

Lemma wpc_mono {A} (p : prog A) : forall s f g (Q Q' : A -> N -> N -> N -> Prop),
  (forall a s f g, Q a s f g -> Q' a s f g) -> wpc p s f g Q -> wpc p s f g Q'.
Proof.
  induction p as [a| | |n k IH|n k IH|n k IH|w k IH|k IH|n k IH]; intros s f g Q Q' HQ H; cbn [wpc] in *; auto.
  - destruct H as (H1 & H2 & H3). repeat split; auto. intros r Hr. eapply IH; eauto.
  - destruct H as (H1 & H2 & H3). repeat split; auto. intros r Hr. eapply IH; eauto.
  - destruct H as (H1 & H2 & H3). repeat split; auto. intros r Hr. eapply IH; eauto.
  - destruct H as (H1 & H3). repeat split; auto. intros r Hr. eapply IH; eauto.
  - destruct H as (H1 & H3). repeat split; auto. intros r Hr. eapply IH; eauto.
  - eapply IH; eauto.
Qed.
Lemma wpc_bindp {A B} (p : prog A) (h : A -> prog B) Q : forall s f g,
  wpc p s f g (fun a s f g => wpc (h a) s f g Q) -> wpc (bindp p h) s f g Q.
Proof.
  induction p as [a| | |n k IH|n k IH|n k IH|w k IH|k IH|n k IH]; intros s f g H; cbn [wpc bindp] in *; auto.
  - destruct H as (H1 & H2 & H3). repeat split; auto.
  - destruct H as (H1 & H2 & H3). repeat split; auto.
  - destruct H as (H1 & H2 & H3). repeat split; auto.
  - destruct H as (H1 & H3). repeat split; auto.
  - destruct H as (H1 & H3). repeat split; auto.
Qed.

(** ** Soundness *)
Lemma run_buf_spent content {A} : forall (p : prog A) s f g, wpc p s f g (fun _ _ _ _ => True) ->
  forall t, Ibuf content t ->
  Ibuf content (snd (run buf_machine p t)) /\
  spent content (b_dev t) (b_dev (snd (run buf_machine p t))) (2 * s) f g.
Proof.
  pose proof (buf_lawful content) as HM.
  induction p as [a| | |n k IH|n k IH|n k IH|w k IH|k IH|n k IH]; intros s f g H t HI; cbn [wpc run] in *;
    try (split; [exact HI|apply spent_refl]); auto.
  - destruct H as (H1 & H2 & H). destruct (lw_read _ _ HM n t HI) as [Hr HI'].
    assert (Hs : spent content (b_dev t) (b_dev (snd (m_read buf_machine n t))) 0 1 1).
    { cbn [m_read buf_machine] in *. destruct (N.eq_dec n 0) as [->|Hn].
      - unfold b_read. destruct (b_buf t) eqn:Eb; [|apply spent_refl].
        change (buf_capacity <=? 0) with false. cbn iota.
        pose proof (b_fill_spent content t HI) as Hf.
        destruct (b_fill t) as [[l|[]] t']; cbn [snd b_dev];
          try (destruct Hf as (_ & Hf & _); exact Hf); try (destruct Hf as (_ & Hf); exact Hf).
        destruct Hf as (_ & _ & Hf & _). eapply spent_mono; [exact Hf|lia|lia|lia].
      - pose proof (b_rd_cost content n t HI ltac:(lia)) as Hf.
        destruct (b_read n t) as [[l|[]] t']; cbn [snd b_dev];
          try (destruct Hf as (_ & _ & Hf & _); exact Hf); try (destruct Hf as (_ & Hf); exact Hf).
        destruct Hf as (_ & Hf & _). eapply spent_mono; [exact Hf|lia|lia|lia]. }
    destruct (m_read buf_machine n t) as [r t']. cbn [fst snd] in *.
    destruct (IH r s (f - 1) (g - 1) (H r Hr) t' HI') as [H3 H4]. split; [exact H3|].
    eapply spent_trans; [exact Hs|exact H4|lia|lia|lia].
  - destruct H as (H1 & H2 & H). destruct (lw_exact _ _ HM n t HI) as (r & t' & E & Hr & HI').
    pose proof (b_exact_spent content n t HI) as Hs. cbn [m_read_exact buf_machine] in *. rewrite E in *. cbn [snd] in Hs.
    destruct (IH r s (f - 2) (g - n) (H r Hr) t' HI') as [H3 H4]. split; [exact H3|].
    eapply spent_trans; [exact Hs|exact H4|lia|lia|lia].
  - destruct H as (H1 & H2 & H). destruct (lw_line _ _ HM n t HI) as (r & t' & E & Hr & HI').
    pose proof (b_line_spent content n t HI) as Hs. cbn [m_read_line buf_machine] in *. rewrite E in *. cbn [snd] in Hs.
    destruct (IH r s (f - (n / 8192 + 2)) (g - n) (H r Hr) t' HI') as [H3 H4]. split; [exact H3|].
    eapply spent_trans; [exact Hs|exact H4|lia|lia|lia].
  - destruct H as (H1 & H). destruct (lw_seek _ _ HM w t HI) as [Hr HI'].
    pose proof (b_seek_spent content w t) as Hs. cbn [m_seek buf_machine] in *.
    destruct (b_seek w t) as [r t']. cbn [fst snd] in *.
    destruct (IH r (s - 1) f g (H r Hr) t' HI') as [H3 H4]. split; [exact H3|].
    eapply spent_trans; [exact Hs|exact H4|lia|lia|lia].
  - destruct H as (H1 & H). destruct (lw_tell _ _ HM t HI) as [Hr HI'].
    pose proof (b_tell_spent content t) as Hs. cbn [m_tell buf_machine] in *.
    destruct (b_tell t) as [r t']. cbn [fst snd] in *.
    destruct (IH r (s - 1) f g (H r Hr) t' HI') as [H3 H4]. split; [exact H3|].
    eapply spent_trans; [exact Hs|exact H4|lia|lia|lia].
Qed.
Lemma run_raw_spent content {A} : forall (p : prog A), no_line p -> forall s f g, wpc p s f g (fun _ _ _ _ => True) ->
  forall t, Idev content t ->
  Idev content (snd (run raw_machine p t)) /\
  spent content t (snd (run raw_machine p t)) s f g.
Proof.
  pose proof (raw_lawful content) as HM.
  induction p as [a| | |n k IH|n k IH|n k IH|w k IH|k IH|n k IH]; intros Hnl s f g H t HI; cbn [wpc run no_line] in *;
    try (split; [exact HI|apply spent_refl]); auto.
  - destruct H as (H1 & H2 & H). destruct (lw_read _ _ HM n t HI) as [Hr HI'].
    pose proof (dev_read_spent content n t HI) as Hs. cbn [m_read raw_machine] in *.
    assert (Hs' : spent content t (snd (dev_read n t)) 0 1 1).
    { destruct (dev_read n t) as [[l|[]] t']; cbn [snd]; try (destruct Hs as (Hs & _); exact Hs); try exact Hs.
      destruct Hs as [Hs _]. eapply spent_mono; [exact Hs|lia|lia|lia]. }
    destruct (dev_read n t) as [r t']. cbn [fst snd] in *.
    destruct (IH r (Hnl r Hr) s (f - 1) (g - 1) (H r Hr) t' HI') as [H3 H4]. split; [exact H3|].
    eapply spent_trans; [exact Hs'|exact H4|lia|lia|lia].
  - destruct H as (H1 & H2 & H). destruct (lw_exact _ _ HM n t HI) as (r & t' & E & Hr & HI').
    pose proof (dev_exact_spent content n t HI) as Hs. cbn [m_read_exact raw_machine] in *. rewrite E in *. cbn [snd] in Hs.
    destruct (IH r (Hnl r Hr) s (f - 2) (g - n) (H r Hr) t' HI') as [H3 H4]. split; [exact H3|].
    eapply spent_trans; [exact Hs|exact H4|lia|lia|lia].
  - contradiction.
  - destruct H as (H1 & H). destruct (lw_seek _ _ HM w t HI) as [Hr HI'].
    pose proof (dev_seek_spent content w t) as Hs. cbn [m_seek raw_machine] in *.
    destruct (dev_seek w t) as [r t']. cbn [fst snd] in *.
    destruct (IH r (Hnl r Hr) (s - 1) f g (H r Hr) t' HI') as [H3 H4]. split; [exact H3|].
    eapply spent_trans; [exact Hs|exact H4|lia|lia|lia].
  - destruct H as (H1 & H). destruct (lw_tell _ _ HM t HI) as [Hr HI'].
    pose proof (dev_seek_spent content (FromCurrent 0) t) as Hs. cbn [m_tell raw_machine] in *. unfold dev_tell in *.
    destruct (dev_seek (FromCurrent 0) t) as [r t']. cbn [fst snd] in *.
    destruct (IH r (Hnl r Hr) (s - 1) f g (H r Hr) t' HI') as [H3 H4]. split; [exact H3|].
    eapply spent_trans; [exact Hs|exact H4|lia|lia|lia].
Qed.
