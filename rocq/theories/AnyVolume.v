(** How many bytes the readers take from the reader of the caller (C59). *)
From Coq Require Import List NArith ZArith Bool String Lia ZifyBool ZifyNat ZifyN.
From Verif Require Import Base BaseProofs Formats FormatsProofs Signatures IO Find FindProofs Utf8
  Readers Lib Mem IOProofs Documented Static ReaderStatic LibProofs Ideal SpecIo Cost ReaderCost AnyReader SpecAny AnyProofs.
Local Open Scope N_scope.

(** ** Programs with a budget: [s] seeks, [g] bytes *)
Definition used (n : N) (r : result bytes) : N := match r with Ok l => lenN l | Err _ => n end.
Fixpoint wpv {A} (p : prog A) (s g : N) (Q : A -> N -> N -> Prop) : Prop :=
  match p with
  | Ret a => Q a s g
  | PPanic => True
  | PFuel => True
  | PRead n k => n <= g /\ forall r, legal_read n r -> wpv (k r) s (g - used 0 r) Q
  | PReadExact n k => n <= g /\ forall r, legal_exact n r -> wpv (k r) s (g - n) Q
  | PReadLine n k => n <= g /\ forall r, legal_read n r -> wpv (k r) s (g - used n r) Q
  | PSeek _ k => 1 <= s /\ forall r, legal_pos r -> wpv (k r) (s - 1) g Q
  | PTell k => forall r, legal_pos r -> wpv (k r) s g Q
  | PAlloc _ k => wpv k s g Q
  end.
Lemma wpv_mono {A} (p : prog A) : forall s g (Q Q' : A -> N -> N -> Prop), (forall a s g, Q a s g -> Q' a s g) ->
  wpv p s g Q -> wpv p s g Q'.
Proof.
  induction p as [a| | |n k IH|n k IH|n k IH|w k IH|k IH|n k IH]; intros s g Q Q' HQ H; cbn [wpv] in *; auto.
  - destruct H as [H1 H2]. split; [exact H1|]. intros r Hr. eapply IH; eauto.
  - destruct H as [H1 H2]. split; [exact H1|]. intros r Hr. eapply IH; eauto.
  - destruct H as [H1 H2]. split; [exact H1|]. intros r Hr. eapply IH; eauto.
  - destruct H as [H1 H2]. split; [exact H1|]. intros r Hr. eapply IH; eauto.
  - intros r Hr. eapply IH; eauto.
  - eapply IH; eauto.
Qed.
Lemma wpv_more {A} (p : prog A) : forall s g s' g', s <= s' -> g <= g' ->
  wpv p s g (fun _ _ _ => True) -> wpv p s' g' (fun _ _ _ => True).
Proof.
  induction p as [a| | |n k IH|n k IH|n k IH|w k IH|k IH|n k IH]; intros s g s' g' H1 H2 H; cbn [wpv] in *; auto.
  - destruct H as [H3 H]. split; [lia|]. intros r Hr. apply (IH r s (g - used 0 r)); auto. lia.
  - destruct H as [H3 H]. split; [lia|]. intros r Hr. apply (IH r s (g - n)); auto. lia.
  - destruct H as [H3 H]. split; [lia|]. intros r Hr. apply (IH r s (g - used n r)); auto. lia.
  - destruct H as [H3 H]. split; [lia|]. intros r Hr. apply (IH r (s - 1) g); auto. lia.
  - intros r Hr. apply (IH r s g); auto.
  - apply (IH s g); auto.
Qed.
Lemma wpv_bindp {A B} (p : prog A) (h : A -> prog B) Q : forall s g,
  wpv p s g (fun a s g => wpv (h a) s g Q) -> wpv (bindp p h) s g Q.
Proof.
  induction p as [a| | |n k IH|n k IH|n k IH|w k IH|k IH|n k IH]; intros s g H; cbn [wpv bindp] in *; auto.
  - destruct H as [H1 H2]. split; auto.
  - destruct H as [H1 H2]. split; auto.
  - destruct H as [H1 H2]. split; auto.
  - destruct H as [H1 H2]. split; auto.
Qed.
(** The budgets of C38 count the bytes of [read_exact]. *)
Lemma wpc_wpv {A} (p : prog A) : forall s f g, no_read p -> no_line p -> wpc p s f g (fun _ _ _ _ => True) ->
  wpv p s g (fun _ _ _ => True).
Proof.
  induction p as [a| | |n k IH|n k IH|n k IH|w k IH|k IH|n k IH]; intros s f g Hr Hl H; cbn [wpv wpc no_read no_line] in *; auto.
  - contradiction.
  - destruct H as (H1 & H2 & H). split; [exact H2|]. intros r Hx. eapply IH; eauto.
  - contradiction.
  - destruct H as (H1 & H). split; [exact H1|]. intros r Hx. eapply IH; eauto.
  - destruct H as (H1 & H). intros r Hx. apply (wpv_more _ (s - 1) g); [lia|lia|]. eapply IH; eauto.
  - eapply IH; eauto.
Qed.

Notation anyv := (fun _ _ _ => True).
Lemma lift_vol {A B} (e : exec A) (h : A -> prog B) s g : (forall a, wpv (h a) s g anyv) -> wpv (bindp (lift_exec e) h) s g anyv.
Proof. intros H. destruct e; cbn [lift_exec bindp wpv]; auto. Qed.
Lemma pdf_loop_vol : forall fuel total buf s g, PDF_READ_LIMIT + 32767 - total <= g -> wpv (pdf_loop fuel total buf) s g anyv.
Proof.
  induction fuel as [|fuel IH]; intros total buf s g Hg; cbn [pdf_loop];
    (destruct (N.ltb_spec total PDF_READ_LIMIT) as [Hlt|Hlt]; [|exact I]); unfold read, bindio; cbn [bindp wpv];
    (split; [unfold CHUNK_SIZE; lia|]); intros [chunk|e] Hr; cbn [wpv used] in *; try exact I; cbn zeta;
    (destruct (lenN chunk =? 0); [exact I|]); apply lift_vol; intros [|]; try exact I.
  apply IH. lia.
Qed.
Lemma txt_lines_vol : forall n lim s g, lim <= g -> wpv (txt_lines n lim) s g anyv.
Proof.
  induction n as [|n IH]; intros lim s g Hg; cbn [txt_lines]; [exact I|]. unfold read_line, bindio. cbn [bindp wpv].
  split; [exact Hg|]. intros [line|e] Hr; cbn [wpv used] in *; [|exact I]. destruct line as [|b line]; [exact I|].
  destruct (utf8_strict (b :: line)); [|exact I]. destruct (existsb bad_char _); [exact I|]. apply IH. lia.
Qed.

(** What each reader needs. *)
Definition needs (x : feature) (fuel : nat) : N * N :=
  match x with
  | FAsf => (16898, 563716)
  | FCfb => (5, 150)
  | FEbml => (514, 19456)
  | FExe => (4, 10)
  | FId3v2 => (N.of_nat fuel + 2, 14 * (N.of_nat fuel + 1) + 4)
  | FMp4 => (770, 5120)
  | FPdf => (1, 33554432 + 32767)
  | FRm => (321, 16964)
  | FSqlite3 => (1, 32768)
  | FTxt => (1, 65536)
  | FXml => (1, 8192)
  | FZip => (3081, 4362159156)
  end.
Lemma reader_vol (c : plat) fuel x : wf_cfg c -> let '(s, g) := needs x fuel in wpv (reader_of c fuel x) s g anyv.
Proof.
  intros Hc.
  assert (K : forall s f g, ~ uses_read x -> ~ uses_line x -> wpcio (reader_of c fuel x) s f g anyc -> wpv (reader_of c fuel x) s g anyv).
  { intros s f g H1 H2 H. apply (wpc_wpv _ s f g); [now apply reader_no_read|now apply reader_no_line|].
    unfold wpcio in H. eapply wpc_mono; [|exact H]. auto. }
  destruct x; cbn [needs].
  - apply (K 16898 50690); [cbn; intuition discriminate ..|]. apply asf_cost; lia.
  - apply (K 5 10); [cbn; intuition discriminate ..|]. apply cfb_cost; lia.
  - apply (K 514 6656); [cbn; intuition discriminate ..|]. apply ebml_cost; lia.
  - apply (K 4 6); [cbn; intuition discriminate ..|]. apply exe_cost; lia.
  - apply (K _ (4 * (N.of_nat fuel + 1) + 2)); [cbn; intuition discriminate ..|]. apply id3v2_cost; lia.
  - apply (K 770 2048); [cbn; intuition discriminate ..|]. apply mp4_cost; lia.
  - cbn [reader_of]. unfold from_pdf_reader, seek, bindio. cbn [bindp wpv]. split; [lia|]. intros [p|e] _; [|exact I].
    apply pdf_loop_vol. unfold PDF_READ_LIMIT. lia.
  - apply (K 321 642); [cbn; intuition discriminate ..|]. apply rm_cost; lia.
  - cbn [reader_of]. unfold from_sqlite3_reader, seek, read, bindio. cbn [bindp wpv]. split; [lia|]. intros [p|e] _; [|exact I].
    cbn [bindp wpv]. split; [lia|]. intros [buf|e] _; [|exact I]. cbn [used]. apply lift_vol. intros [|]; exact I.
  - cbn [reader_of]. unfold from_txt_reader, rewind, seek, bindio. cbn [bindp wpv]. split; [lia|]. intros [p|e] _; [|exact I].
    apply txt_lines_vol. lia.
  - cbn [reader_of]. unfold from_xml_reader, seek, read, bindio. cbn [bindp wpv]. split; [lia|]. intros [p|e] _; [|exact I].
    cbn [bindp wpv]. split; [lia|]. intros [buf|e] _; [|exact I]. cbn [used]. apply lift_vol. intros f; exact I.
  - apply (K 3081 14352); [cbn; intuition discriminate ..|]. apply zip_cost; lia.
Qed.

(** ** Machines with a meter *)
(** [L]: it is asked for lines.  [D]: what a seek may throw away. *)
Record vlaw {T} (M : amachine T) (L : Prop) (J : T -> Prop) (phi : T -> N) (D : N) : Prop := {
  vl_read : forall n s, J s -> let '(r, s') := am_read M n s in legal_read n r /\ J s' /\ phi s' <= phi s + used 0 r;
  vl_exact : forall n s, J s -> let '(r, s') := am_read_exact M n s in
    J s' /\ phi s' <= phi s + n /\ match r with Done r => legal_exact n r | _ => True end;
  vl_line : L -> forall n s, J s -> let '(r, s') := am_read_line M n s in
    J s' /\ match r with Done r => legal_read n r /\ phi s' <= phi s + used n r | _ => phi s' <= phi s + n end;
  vl_seek : forall w s, J s -> let '(r, s') := am_seek M w s in legal_pos r /\ J s' /\ phi s' <= phi s + D;
  vl_tell : forall s, J s -> let '(r, s') := am_tell M s in
    J s' /\ phi s' <= phi s /\ match r with Done r => legal_pos r | _ => True end
}.
Lemma arun_vol {T A} (M : amachine T) L J phi D (HM : vlaw M L J phi D) (p : prog A) : L \/ no_line p -> forall s g t,
  wpv p s g (fun _ _ _ => True) -> J t -> J (snd (arun M p t)) /\ phi (snd (arun M p t)) <= phi t + g + D * s.
Proof.
  induction p as [a| | |n k IH|n k IH|n k IH|w k IH|k IH|n k IH]; intros HL s g t H Ht; cbn [arun wpv no_line] in *;
    try (cbn [snd]; split; [exact Ht|lia]); auto.
  - destruct H as [Hg H]. pose proof (vl_read _ _ _ _ _ HM n t Ht) as K. destruct (am_read M n t) as [r t'].
    destruct K as (K1 & K2 & K3). destruct (IH r ltac:(destruct HL; auto) s _ t' (H r K1) K2) as [H1 H2]. split; [exact H1|].
    assert (used 0 r <= n) by (destruct r; cbn [used legal_read] in *; lia). lia.
  - destruct H as [Hg H]. pose proof (vl_exact _ _ _ _ _ HM n t Ht) as K. destruct (am_read_exact M n t) as [[r| |] t'];
      destruct K as (K1 & K2 & K3); cbn [snd]; [|split; [exact K1|lia] ..].
    destruct (IH r ltac:(destruct HL; auto) s _ t' (H r K3) K1) as [H1 H2]. split; [exact H1|]. lia.
  - destruct HL as [HL|[]]. destruct H as [Hg H]. pose proof (vl_line _ _ _ _ _ HM HL n t Ht) as K. destruct (am_read_line M n t) as [[r| |] t'];
      destruct K as (K1 & K2); cbn [snd]; [|split; [exact K1|lia] ..]. destruct K2 as [K2 K3].
    destruct (IH r (or_introl HL) s _ t' (H r K2) K1) as [H1 H2]. split; [exact H1|].
    assert (used n r <= n) by (destruct r; cbn [used legal_read] in *; lia). lia.
  - destruct H as [Hg H]. pose proof (vl_seek _ _ _ _ _ HM w t Ht) as K. destruct (am_seek M w t) as [r t'].
    destruct K as (K1 & K2 & K3). destruct (IH r ltac:(destruct HL; auto) _ g t' (H r K1) K2) as [H1 H2]. split; [exact H1|]. nia.
  - pose proof (vl_tell _ _ _ _ _ HM t Ht) as K. destruct (am_tell M t) as [[r| |] t'];
      destruct K as (K1 & K2 & K3); cbn [snd]; [|split; [exact K1|lia] ..].
    destruct (IH r ltac:(destruct HL; auto) s g t' (H r K3) K1) as [H1 H2]. split; [exact H1|]. lia.
Qed.

Lemma line_len l a r : split_lf l = Some (a, r) -> lenN a <= lenN l.
Proof.
  revert a r. induction l as [|b l IH]; intros a r; cbn [split_lf]; [discriminate|].
  destruct (Byte.eqb b x0a); [intros [= <- <-]; rewrite !lenN_cons, lenN_nil; lia|].
  destruct (split_lf l) as [[a' r']|]; [|discriminate]. intros [= <- <-]. rewrite !lenN_cons. specialize (IH _ _ eq_refl). lia.
Qed.

Section Metered.
Context {S : Type}.
Variables (rd : N -> S -> result bytes * S) (sk : whence -> S -> result N * S) (fuel : nat).
Hypothesis Hrd : read_contract rd.
Hypothesis Hsk : seek_contract sk.
Variable m : S -> N.
Hypothesis m_rd : forall n s r s', rd n s = (r, s') -> m s' = m s + used 0 r.
Hypothesis m_sk : forall w s r s', sk w s = (r, s') -> m s' = m s.

Lemma exact_vol {T} (rd' : N -> T -> result bytes * T) (J : T -> Prop) (phi : T -> N) :
  (forall n s, J s -> let '(r, s') := rd' n s in legal_read n r /\ J s' /\ phi s' <= phi s + used 0 r) ->
  forall f n acc s, J s -> let '(r, s') := read_exact_loop rd' f n acc s in
    J s' /\ phi s' <= phi s + n /\ match r with Done r => legal_exact (lenN acc + n) r | _ => True end.
Proof.
  intros H. induction f as [|f IH]; intros n acc s Hs; cbn [read_exact_loop].
  - destruct (N.eqb_spec n 0) as [->|]; (split; [exact Hs|]); (split; [lia|]); [cbn; lia|exact I].
  - destruct (N.eqb_spec n 0) as [->|]; [split; [exact Hs|]; split; [lia|cbn; lia]|].
    specialize (H n s Hs). destruct (rd' n s) as [[l|e] s']; cbn [legal_read used] in H; destruct H as (H1 & H2 & H3).
    + destruct l as [|b l]; [split; [exact H2|]; split; [rewrite lenN_nil in H3; lia|exact I]|].
      specialize (IH (n - lenN (b :: l)) (acc ++ b :: l) s' H2).
      destruct (read_exact_loop rd' f _ _ s') as [r s2]. destruct IH as (H4 & H5 & H6). split; [exact H4|]. split; [lia|].
      destruct r as [[r|]| |]; cbn [legal_exact] in *; auto. rewrite lenN_app in H6. lia.
    + destruct e; try (split; [exact H2|]; split; [lia|exact I]).
      specialize (IH n acc s' H2). destruct (read_exact_loop rd' f n acc s') as [r s2]. destruct IH as (H4 & H5 & H6).
      split; [exact H4|]. split; [lia|exact H6].
Qed.
Lemma rd_vol n s : let '(r, s') := rd n s in legal_read n r /\ True /\ m s' <= m s + used 0 r.
Proof.
  pose proof (rd_legal rd Hrd n s) as H. destruct (rd n s) as [r s'] eqn:E. cbn [fst] in H. split; [exact H|]. split; [exact I|].
  rewrite (m_rd _ _ _ _ E). lia.
Qed.

(** Delivered and not waiting in the buffer. *)
Definition Jv (s : abuf S) : Prop := lenN (a_buf s) <= 8192 /\ lenN (a_buf s) <= m (a_dev s).
Definition phi (s : abuf S) : N := m (a_dev s) - lenN (a_buf s).
Lemma a_fill_vol s : Jv s -> let '(r, s') := a_fill S rd s in Jv s' /\ phi s' = phi s /\
  match r with Ok l => a_buf s' = l | Err _ => a_buf s' = [] end.
Proof.
  destruct s as [d b]. unfold Jv, phi, a_fill. cbn [a_buf a_dev]. intros [H1 H2]. destruct b as [|b0 b].
  - pose proof (rd_legal rd Hrd buf_capacity d) as HL. destruct (rd buf_capacity d) as [[l|e] d'] eqn:E;
      pose proof (m_rd _ _ _ _ E) as HE; cbn [a_buf a_dev fst legal_read used] in *; rewrite ?lenN_nil in *.
    + unfold buf_capacity in HL. split; [split; lia|]. split; [lia|reflexivity].
    + split; [split; lia|]. split; [lia|reflexivity].
  - cbn [a_buf a_dev]. auto.
Qed.
Lemma phi_drop d b k : lenN b <= m d -> phi (mkabuf d (dropN k b)) = phi (mkabuf d b) + N.min k (lenN b).
Proof. unfold phi. cbn [a_dev a_buf]. rewrite lenN_dropN. lia. Qed.
Lemma Jv_drop d b k : Jv (mkabuf d b) -> Jv (mkabuf d (dropN k b)).
Proof. unfold Jv. cbn [a_dev a_buf]. rewrite lenN_dropN. lia. Qed.
Lemma a_read_vol n s : Jv s -> let '(r, s') := a_read S rd n s in legal_read n r /\ Jv s' /\ phi s' <= phi s + used 0 r.
Proof.
  destruct s as [d b]. intros Hs. unfold a_read. cbn [a_buf a_dev]. destruct b as [|b0 b].
  - destruct (buf_capacity <=? n).
    + pose proof (rd_legal rd Hrd n d) as HL. destruct (rd n d) as [r d'] eqn:E. cbn [fst] in HL. split; [exact HL|].
      pose proof (m_rd _ _ _ _ E) as HE. unfold Jv, phi. cbn [a_buf a_dev]. rewrite lenN_nil. split; [split; lia|lia].
    + pose proof (a_fill_vol _ Hs) as H. destruct (a_fill S rd (mkabuf d [])) as [[l|e] [d' b']]; cbn [a_dev a_buf] in *.
      * destruct H as (H1 & H2 & <-). split; [cbn [legal_read]; rewrite lenN_takeN; lia|]. split; [now apply Jv_drop|].
        destruct H1 as [_ H1]. cbn [a_buf a_dev] in H1. rewrite phi_drop by exact H1. cbn [used]. rewrite lenN_takeN. lia.
      * destruct H as (H1 & H2 & _). split; [exact I|]. split; [exact H1|]. lia.
  - split; [cbn [legal_read]; rewrite lenN_takeN; lia|]. split; [now apply Jv_drop|].
    destruct Hs as [_ Hs]. cbn [a_buf a_dev] in Hs. rewrite phi_drop by exact Hs. cbn [used]. rewrite lenN_takeN. lia.
Qed.
Lemma a_until_vol : forall f lim acc s, Jv s -> let '(r, s') := a_until S rd f lim acc s in
  Jv s' /\ match r with
           | Done r => legal_read (lenN acc + lim) r /\ phi s' + lenN acc <= phi s + used (lenN acc + lim) r
           | _ => phi s' <= phi s + lim end.
Proof.
  induction f as [|f IH]; intros lim acc s Hs; cbn [a_until].
  - destruct (lim =? 0); (split; [exact Hs|]); [split; cbn [legal_read used]; lia|lia].
  - destruct (N.eqb_spec lim 0) as [->|]; [split; [exact Hs|]; split; cbn [legal_read used]; lia|].
    pose proof (a_fill_vol _ Hs) as H. destruct (a_fill S rd s) as [[l|e] [d' b']].
    + destruct H as (H1 & H2 & H3). cbn [a_buf a_dev] in *. subst b'. cbv zeta.
      pose proof (proj2 H1) as Hm. cbn [a_buf a_dev] in Hm.
      destruct (split_lf (takeN lim l)) as [[a r]|] eqn:E.
      * split; [now apply Jv_drop|]. apply line_len in E. rewrite lenN_takeN in E. cbn [legal_read used].
        rewrite lenN_app. split; [lia|]. rewrite phi_drop by exact Hm. lia.
      * destruct (takeN lim l) as [|b0 v] eqn:Ev.
        -- split; [now apply Jv_drop|]. cbn [legal_read used]. rewrite phi_drop by exact Hm. rewrite lenN_nil. split; lia.
        -- rewrite <- Ev in *. clear b0 v Ev.
           specialize (IH (lim - lenN (takeN lim l)) (acc ++ takeN lim l) (mkabuf d' (dropN (lenN (takeN lim l)) l)) ltac:(now apply Jv_drop)).
           destruct (a_until S rd f _ _ _) as [r s2]. destruct IH as [H4 H5]. split; [exact H4|].
           rewrite phi_drop, lenN_takeN in H5 by exact Hm. rewrite lenN_app, lenN_takeN in H5.
           destruct r as [[r|]| |]; cbn [legal_read used] in *; [split; lia|split; lia|lia|lia].
    + destruct H as (H1 & H2 & _).
      destruct e; try (split; [exact H1|]; cbn [legal_read used]; split; [exact I|lia]).
      specialize (IH lim acc _ H1). destruct (a_until S rd f lim acc _) as [r s2]. destruct IH as [H4 H5].
      split; [exact H4|]. destruct r as [r| |]; [split; [apply H5|lia]|lia|lia].
Qed.
Lemma a_seek_vol w s : Jv s -> let '(r, s') := a_seek S sk w s in legal_pos r /\ Jv s' /\ phi s' <= phi s + 8192.
Proof.
  destruct s as [d b]. unfold Jv, phi, a_seek. cbn [a_buf a_dev]. intros [Hs1 Hs2].
  assert (H1 : forall w, let '(r, s') := match sk w d with (Ok p, d0) => (Ok p, mkabuf d0 []) | (Err e, d0) => (Err e, mkabuf d0 b) end in
    legal_pos r /\ (lenN (a_buf s') <= 8192 /\ lenN (a_buf s') <= m (a_dev s')) /\ m (a_dev s') - lenN (a_buf s') <= m d - lenN b + 8192).
  { intros w'. pose proof (sk_legal sk Hsk w' d) as HL. destruct (sk w' d) as [[p|e] d'] eqn:E; cbn [fst a_dev a_buf] in *;
      (split; [exact HL|]); rewrite (m_sk _ _ _ _ E), ?lenN_nil; split; try split; lia. }
  destruct w as [n|z|z]; [apply H1| |apply H1].
  destruct (i64_min <=? z - Z.of_N (lenN b))%Z; [apply H1|].
  destruct (sk (FromCurrent (- Z.of_N (lenN b))) d) as [[p|e] d'] eqn:E; pose proof (m_sk _ _ _ _ E) as HE.
  - pose proof (sk_legal sk Hsk (FromCurrent z) d') as HL.
    destruct (sk (FromCurrent z) d') as [q d2] eqn:E2. pose proof (m_sk _ _ _ _ E2) as HE2. cbn [fst a_dev a_buf] in *.
    rewrite lenN_nil. split; [exact HL|]. split; [split; lia|lia].
  - cbn [a_dev a_buf]. split; [exact I|]. split; [split; lia|lia].
Qed.
Lemma buf_vlaw : vlaw (a_buf_machine S rd sk fuel) True Jv phi 8192.
Proof.
  split; cbn [a_buf_machine am_read am_read_exact am_read_line am_seek am_tell].
  - exact a_read_vol.
  - intros n s Hs. exact (exact_vol _ _ _ a_read_vol fuel n [] s Hs).
  - intros _ n s Hs. pose proof (a_until_vol (fuel + N.to_nat n) n [] s Hs) as H.
    destruct (a_until S rd _ n [] s) as [r s']. destruct H as [H1 H2]. split; [exact H1|].
    destruct r as [r| |]; [|exact H2 ..]. rewrite lenN_nil in H2. destruct H2 as [H2 H3]. split; [exact H2|].
    change (0 + n) with n in H3. lia.
  - exact a_seek_vol.
  - intros [d b] Hs. unfold a_tell. cbn [a_dev a_buf]. pose proof (sk_legal sk Hsk (FromCurrent 0) d) as HL.
    unfold Jv, phi in *. cbn [a_dev a_buf] in *.
    destruct (sk (FromCurrent 0) d) as [[p|e] d'] eqn:E; pose proof (m_sk _ _ _ _ E) as HE; cbn [fst legal_pos] in HL.
    + destruct (N.ltb_spec p (lenN b)); cbn [a_dev a_buf]; (split; [split; lia|]); (split; [lia|]); [exact I|]. cbn [legal_pos]. lia.
    + cbn [a_dev a_buf]. split; [split; lia|]. split; [lia|exact I].
Qed.
Lemma raw_vlaw : vlaw (a_raw_machine S rd sk fuel) False (fun _ => True) m 0.
Proof.
  split; cbn [a_raw_machine am_read am_read_exact am_read_line am_seek am_tell].
  - intros n s _. exact (rd_vol n s).
  - intros n s _. exact (exact_vol _ (fun _ => True) _ (fun n s _ => rd_vol n s) fuel n [] s I).
  - intros [].
  - intros w s _. pose proof (sk_legal sk Hsk w s) as HL. destruct (sk w s) as [r s'] eqn:E. rewrite (m_sk _ _ _ _ E).
    split; [exact HL|]. split; [exact I|lia].
  - intros s _. pose proof (sk_legal sk Hsk (FromCurrent 0) s) as HL. destruct (sk (FromCurrent 0) s) as [r s'] eqn:E.
    rewrite (m_sk _ _ _ _ E). split; [exact I|]. split; [lia|exact HL].
Qed.

(** What the readers take. *)
Definition takes (x : feature) : N :=
  let '(s, g) := needs x fuel in if buffered x then g + 8192 * (s + 1) else g.
Lemma a_run_vol (c : plat) x s : wf_cfg c -> m (snd (a_run rd sk fuel x (reader_of c fuel x) s)) <= m s + takes x.
Proof.
  intros Hc. unfold a_run, takes. pose proof (reader_vol c fuel x Hc) as H. destruct (needs x fuel) as [k g].
  destruct (buffered x) eqn:Eb.
  - unfold arun_buf. assert (HJ : Jv (mkabuf s [])) by (split; cbn [a_buf a_dev]; rewrite lenN_nil; lia).
    destruct (arun_vol _ _ _ _ _ buf_vlaw (reader_of c fuel x) (or_introl I) k g _ H HJ) as [[H1 H2] H3].
    destruct (arun (a_buf_machine S rd sk fuel) (reader_of c fuel x) (mkabuf s [])) as [r t]. cbn [snd] in *.
    unfold phi in H3. cbn [a_dev a_buf] in H3. rewrite lenN_nil in H3. lia.
  - unfold arun_raw. assert (Hn : no_line (reader_of c fuel x)).
    { apply reader_no_line; [exact Hc|]. destruct x; cbn; try discriminate; intuition discriminate. }
    destruct (arun_vol _ _ _ _ _ raw_vlaw (reader_of c fuel x) (or_intror Hn) k g s H I) as [_ H3]. lia.
Qed.
Lemma a_generic_vol (c : cfg) s : wf_cfg c -> m (snd (a_from_generic_reader S rd sk fuel c s)) <= m s + takes FTxt.
Proof.
  intros Hc. unfold a_from_generic_reader. destruct (feat c FTxt); [|cbn [snd]; lia].
  pose proof (a_run_vol c FTxt s Hc) as K. unfold a_run in K. cbn [buffered reader_of] in K.
  destruct (arun_buf S rd sk fuel from_txt_reader s) as [[[f|e]| |] t]; exact K.
Qed.
(** The container the first read found, if its reader is enabled. *)
Definition a_chosen (c : cfg) (s : S) : option feature :=
  match fst (rd window s) with
  | Ok buf => match from_signature buf with
              | Some f => match feature_of f with Some x => if feat c x then Some x else None | None => None end
              | None => None end
  | Err _ => None
  end.
Lemma from_reader_vol (c : cfg) s : wf_cfg c ->
  m (snd (a_from_reader S rd sk fuel c s)) <= m s + 36870 + match a_chosen c s with Some x => takes x | None => 0 end + takes FTxt.
Proof.
  intros Hc. unfold a_from_reader, a_chosen. pose proof (rd_legal rd Hrd window s) as HL.
  destruct (rd window s) as [r s1] eqn:E. pose proof (m_rd _ _ _ _ E) as HE. cbn [fst] in *.
  destruct r as [buf|e]; cbn [used legal_read] in *; [|cbn [snd]; lia].
  unfold window in HL.
  assert (Hg : forall s2, m (snd (match a_from_generic_reader S rd sk fuel c s2 with
        | (Done f, s3) => (Done (@Ok FileFormat f), s3) | (Panicked, s3) => (Panicked, s3) | (OutOfFuel, s3) => (OutOfFuel, s3) end))
      <= m s2 + takes FTxt).
  { intros s2. pose proof (a_generic_vol c s2 Hc) as K. destruct (a_from_generic_reader S rd sk fuel c s2) as [[f| |] s3]; exact K. }
  destruct buf as [|b l]; [cbn [snd]; lia|]. remember (b :: l) as buf eqn:Eb. clear Eb.
  destruct (from_signature buf) as [f|]; [|specialize (Hg s1); lia]. rewrite a_fmt_eq.
  destruct (feature_of f) as [x|]; [|cbn [snd]; lia]. destruct (feat c x); [|cbn [snd]; lia].
  pose proof (a_run_vol c x s1 Hc) as K. destruct (a_run rd sk fuel x (reader_of c fuel x) s1) as [[[g|e]| |] s2]; cbn [snd] in *;
    [lia|specialize (Hg s2); lia|lia|lia].
Qed.
End Metered.
