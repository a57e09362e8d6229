(** from_reader on arbitrary [Read + Seek] implementations (C53). *)
From Coq Require Import List NArith ZArith Bool String Lia ZifyBool ZifyNat ZifyN.
From Verif Require Import Base BaseProofs Formats FormatsProofs Signatures IO Find FindProofs Utf8
  Readers Lib Mem IOProofs Documented Static ReaderStatic LibProofs AnyReader SpecAny.
Local Open Scope N_scope.

(** ** Soundness of the static analysis *)
Record alaw {T} (M : amachine T) (I : T -> Prop) (tp : Prop) : Prop := {
  al_read : forall n s, I s -> legal_read n (fst (am_read M n s)) /\ I (snd (am_read M n s));
  al_exact : forall n s, I s -> match am_read_exact M n s with
    | (Done r, s') => legal_exact n r /\ I s' | (Panicked, _) => False | (OutOfFuel, _) => True end;
  al_line : forall n s, I s -> match am_read_line M n s with
    | (Done r, s') => legal_read n r /\ I s' | (Panicked, _) => False | (OutOfFuel, _) => True end;
  al_seek : forall w s, I s -> legal_pos (fst (am_seek M w s)) /\ I (snd (am_seek M w s));
  al_tell : forall s, I s -> match am_tell M s with
    | (Done r, s') => legal_pos r /\ I s' | (Panicked, _) => tp | (OutOfFuel, _) => True end
}.

Lemma arun_wp {T A} (M : amachine T) I tp (HM : alaw M I tp) st (p : prog A) : forall Q s, wp st p Q -> I s ->
  match arun M p s with
  | (Done a, _) => Q a
  | (Panicked, _) => pa st \/ tp
  | (OutOfFuel, _) => True
  end.
Proof.
  induction p as [a| | |n k IH|n k IH|n k IH|w k IH|k IH|n k IH]; intros Q s Hw Hs; cbn [arun wp] in *; auto.
  - destruct Hw as [_ Hw]. pose proof (al_read _ _ _ HM n s Hs) as [H1 H2].
    destruct (am_read M n s) as [r s']. cbn [fst snd] in *. apply IH; auto.
  - pose proof (al_exact _ _ _ HM n s Hs) as H. destruct (am_read_exact M n s) as [[r| |] s']; [|contradiction|exact Logic.I].
    destruct H. apply IH; auto.
  - destruct Hw as [_ Hw]. pose proof (al_line _ _ _ HM n s Hs) as H.
    destruct (am_read_line M n s) as [[r| |] s']; [|contradiction|exact Logic.I]. destruct H. apply IH; auto.
  - pose proof (al_seek _ _ _ HM w s Hs) as [H1 H2]. destruct (am_seek M w s) as [r s']. cbn [fst snd] in *. apply IH; auto.
  - pose proof (al_tell _ _ _ HM s Hs) as H. destruct (am_tell M s) as [[r| |] s']; [|auto|exact Logic.I].
    destruct H. apply IH; auto.
  - apply IH; [apply Hw|exact Hs].
Qed.

Lemma arun_bindp {T A B} (M : amachine T) (p : prog A) (f : A -> prog B) : forall s,
  arun M (bindp p f) s =
  match arun M p s with
  | (Done a, s') => arun M (f a) s'
  | (Panicked, s') => (Panicked, s')
  | (OutOfFuel, s') => (OutOfFuel, s')
  end.
Proof.
  induction p as [a| | |n k IH|n k IH|n k IH|w k IH|k IH|n k IH]; intros s; cbn [bindp arun]; auto.
  - destruct (am_read M n s) as [r s']. apply IH.
  - destruct (am_read_exact M n s) as [[r| |] s']; auto.
  - destruct (am_read_line M n s) as [[r| |] s']; auto.
  - destruct (am_seek M w s) as [r s']. apply IH.
  - destruct (am_tell M s) as [[r| |] s']; auto.
Qed.

(** Programs that never ask for the position. *)
Fixpoint no_tell {A} (p : prog A) : Prop :=
  match p with
  | Ret _ | PPanic | PFuel => True
  | PRead _ k | PReadExact _ k | PReadLine _ k => forall r, no_tell (k r)
  | PSeek _ k => forall r, no_tell (k r)
  | PTell _ => False
  | PAlloc _ k => no_tell k
  end.
Definition deaf {T} (M : amachine T) : amachine T :=
  mkamachine (am_read M) (am_read_exact M) (am_read_line M) (am_seek M) (fun s => (OutOfFuel, s)).
Lemma arun_deaf {T A} (M : amachine T) (p : prog A) : no_tell p -> forall s, arun (deaf M) p s = arun M p s.
Proof.
  induction p as [a| | |n k IH|n k IH|n k IH|w k IH|k IH|n k IH]; intros H s; cbn [arun no_tell] in *; auto.
  - cbn [am_read deaf]. destruct (am_read M n s) as [r s']. now apply IH.
  - cbn [am_read_exact deaf]. destruct (am_read_exact M n s) as [[r| |] s']; auto.
  - cbn [am_read_line deaf]. destruct (am_read_line M n s) as [[r| |] s']; auto.
  - cbn [am_seek deaf]. destruct (am_seek M w s) as [r s']. now apply IH.
  - contradiction.
Qed.
Lemma deaf_law {T} (M : amachine T) I tp : alaw M I tp -> alaw (deaf M) I False.
Proof. intros [H1 H2 H3 H4 H5]. split; auto. intros s Hs. exact Logic.I. Qed.
Lemma no_tell_bindp {A B} (p : prog A) (f : A -> prog B) : no_tell p -> (forall a, no_tell (f a)) -> no_tell (bindp p f).
Proof.
  intros Hp Hf. induction p as [a| | |n k IH|n k IH|n k IH|w k IH|k IH|n k IH]; cbn [no_tell bindp] in *; auto.
Qed.
Lemma no_tell_bindio {A B} (p : io A) (f : A -> io B) : no_tell p -> (forall a, no_tell (f a)) -> no_tell (bindio p f).
Proof. intros Hp Hf. apply no_tell_bindp; [exact Hp|]. intros [a|e]; [apply Hf|exact I]. Qed.
Lemma no_tell_u64_add c a b : no_tell (u64_add c a b).
Proof. unfold u64_add. destruct (_ <? _); [exact I|]. destruct (ovf c); exact I. Qed.
Lemma no_tell_u64_sub c a b : no_tell (u64_sub c a b).
Proof. unfold u64_sub. destruct (_ <=? _); [exact I|]. destruct (ovf c); exact I. Qed.
Lemma no_tell_i64_sub c a b : no_tell (i64_sub c a b).
Proof. unfold i64_sub. destruct (_ && _); [exact I|]. destruct (ovf c); exact I. Qed.
Lemma no_tell_alloc c n : no_tell (alloc c n).
Proof. unfold alloc. destruct (_ <? _); exact I. Qed.
Ltac nt :=
  repeat first
    [ exact I
    | match goal with
      | |- no_tell (match ?x with (_, _) => _ end) => destruct x
      | |- no_tell (bindio _ _) => apply no_tell_bindio; [|intros ?]
      | |- no_tell (bindp _ _) => apply no_tell_bindp; [|intros ?]
      | |- no_tell (u64_add _ _ _) => apply no_tell_u64_add
      | |- no_tell (u64_sub _ _ _) => apply no_tell_u64_sub
      | |- no_tell (i64_sub _ _ _) => apply no_tell_i64_sub
      | |- no_tell (alloc _ _) => apply no_tell_alloc
      | |- no_tell (lift_exec ?e) => destruct e
      | |- no_tell (if ?b then _ else _) => destruct b
      | |- no_tell (match ?x with Some _ => _ | None => _ end) => destruct x
      | |- no_tell (match ?x with [] => _ | _ :: _ => _ end) => destruct x
      end
    | progress unfold read_bytes, read_string, read_u8, read_u16_le, read_u32_le, read_u32_be, read_u64_le, read_u64_be,
        rewind, read_exact, read_line, read, seek, ok, err
    | progress cbn [no_tell]
    | intros ? ].
Lemma txt_lines_no_tell : forall n lim, no_tell (txt_lines n lim).
Proof.
  induction n as [|n IH]; intros lim; cbn [txt_lines]; nt. apply IH.
Qed.
Lemma txt_no_tell : no_tell from_txt_reader.
Proof. unfold from_txt_reader. apply no_tell_bindio; [nt|intros _; apply txt_lines_no_tell]. Qed.
Lemma zip_mimetype_no_tell c o n : no_tell (zip_mimetype c o n).
Proof. unfold zip_mimetype. nt. Qed.
Lemma zip_entries_no_tell c : forall n f, no_tell (zip_entries c n f).
Proof.
  induction n as [|n IH]; intros f; cbn [zip_entries]; [exact I|].
  assert (Hn : forall a b g, no_tell (let! _ := seek (FromCurrent (Z.of_N a + Z.of_N b)) in zip_entries c n g)).
  { intros a b g. apply no_tell_bindio; [nt|intros _; apply IH]. }
  cbv zeta. do 9 (apply no_tell_bindio; [nt|intros ?]).
  destruct (lookup_ustr _ _); [exact I|]. destruct (ustr_eqb _ _); [apply Hn|].
  destruct (_ && _); [apply zip_mimetype_no_tell|]. destruct (zip_name_rules _); [exact I|apply Hn].
Qed.
Lemma zip_no_tell c : no_tell (from_zip_reader c).
Proof.
  unfold from_zip_reader, zip_find_eocd, zip_is_zip64, zip_directory.
  apply no_tell_bindio; [nt|intros len]. apply no_tell_bindio; [nt|intros e]. apply no_tell_bindio; [nt|intros z].
  apply no_tell_bindio; [nt|intros [a b]]. apply no_tell_bindio; [nt|intros _]. apply zip_entries_no_tell.
Qed.

(** ** The two machines obey the law *)
Section Laws.
Context {S : Type}.
Variables (rd : N -> S -> result bytes * S) (sk : whence -> S -> result N * S) (fuel : nat).
Hypothesis Hrd : read_contract rd.
Hypothesis Hsk : seek_contract sk.

Lemma rd_legal n s : legal_read n (fst (rd n s)).
Proof. destruct (rd n s) as [[l|e] s'] eqn:E; cbn; [eapply Hrd; eauto|exact I]. Qed.
Lemma sk_legal w s : legal_pos (fst (sk w s)).
Proof. destruct (sk w s) as [[l|e] s'] eqn:E; cbn; [eapply Hsk; eauto|exact I]. Qed.

Lemma exact_law {T} (rd' : N -> T -> result bytes * T) (J : T -> Prop) :
  (forall n s, J s -> legal_read n (fst (rd' n s)) /\ J (snd (rd' n s))) ->
  forall f n acc s, J s -> match read_exact_loop rd' f n acc s with
    | (Done r, s') => legal_exact (lenN acc + n) r /\ J s' | (Panicked, _) => False | (OutOfFuel, _) => True end.
Proof.
  intros H. induction f as [|f IH]; intros n acc s Hs; cbn [read_exact_loop].
  - destruct (N.eqb_spec n 0) as [->|]; [|exact I]. split; [cbn; lia|exact Hs].
  - destruct (N.eqb_spec n 0) as [->|]; [split; [cbn; lia|exact Hs]|].
    specialize (H n s Hs). destruct (rd' n s) as [[l|e] s']; cbn [fst snd legal_read] in H; destruct H as [H1 H2].
    + destruct l as [|b l]; [split; [exact I|exact H2]|].
      specialize (IH (n - lenN (b :: l)) (acc ++ b :: l) s' H2).
      destruct (read_exact_loop rd' f _ _ s') as [[r| |] s2]; auto. destruct IH as [H3 H4]. split; [|exact H4].
      destruct r as [r|]; [|exact I]. cbn [legal_exact] in *. rewrite lenN_app in H3. lia.
    + destruct e; first [exact (IH n acc s' H2)|split; [exact I|exact H2]].
Qed.

(** What the buffered reader must know about its inner reader. *)
Variables (J : abuf S -> Prop) (tp : Prop).
Hypothesis J_read : forall n d b l d', b = [] -> rd n d = (Ok l, d') -> J (mkabuf d b) -> forall k, J (mkabuf d' (dropN k l)).
Hypothesis J_read_err : forall n d b e d', b = [] -> rd n d = (Err e, d') -> J (mkabuf d b) -> J (mkabuf d' b).
Hypothesis J_drop : forall d b k, J (mkabuf d b) -> J (mkabuf d (dropN k b)).
Hypothesis J_seek : forall w d b p d', sk w d = (Ok p, d') -> J (mkabuf d b) -> J (mkabuf d' []).
Hypothesis J_seek_err : forall w d b e d', sk w d = (Err e, d') -> J (mkabuf d b) -> J (mkabuf d' b).
Hypothesis J_tell : forall d b p d', sk (FromCurrent 0) d = (Ok p, d') -> J (mkabuf d b) ->
  (p < lenN b -> tp) /\ (lenN b <= p -> J (mkabuf d' b)).

Lemma a_fill_law s : J s -> match a_fill S rd s with
  | (Ok l, s') => l = a_buf s' /\ J s' | (Err _, s') => J s' end.
Proof.
  destruct s as [d [|b0 b]]; intros Hs; unfold a_fill; cbn [a_buf a_dev]; [|split; [reflexivity|exact Hs]].
  destruct (rd buf_capacity d) as [[l|e] d'] eqn:E.
  - split; [reflexivity|]. pose proof (J_read _ _ _ _ _ eq_refl E Hs 0) as H. now rewrite dropN_0 in H.
  - exact (J_read_err _ _ _ _ _ eq_refl E Hs).
Qed.
Lemma a_read_law n s : J s -> legal_read n (fst (a_read S rd n s)) /\ J (snd (a_read S rd n s)).
Proof.
  destruct s as [d b]. intros Hs. unfold a_read. cbn [a_buf a_dev]. destruct b as [|b0 b].
  - destruct (buf_capacity <=? n).
    + pose proof (rd_legal n d) as HL. destruct (rd n d) as [[l|e] d'] eqn:E; cbn [fst snd] in *; (split; [exact HL|]).
      * pose proof (J_read _ _ _ _ _ eq_refl E Hs (lenN l)) as H. now rewrite dropN_all in H by lia.
      * exact (J_read_err _ _ _ _ _ eq_refl E Hs).
    + pose proof (a_fill_law _ Hs) as H. destruct (a_fill S rd (mkabuf d [])) as [[l|e] [d' b']]; cbn [fst snd a_dev a_buf] in *.
      * destruct H as [-> H]. split; [cbn [legal_read]; rewrite lenN_takeN; lia|now apply J_drop].
      * split; [exact I|exact H].
  - cbn [fst snd]. split; [cbn [legal_read]; rewrite lenN_takeN; lia|]. now apply J_drop.
Qed.
Lemma split_lf_len l a r : split_lf l = Some (a, r) -> lenN a <= lenN l.
Proof.
  revert a r. induction l as [|b l IH]; intros a r; cbn [split_lf]; [discriminate|].
  destruct (Byte.eqb b x0a); [intros [= <- <-]; rewrite !lenN_cons; change (lenN (@nil byte)) with 0; lia|].
  destruct (split_lf l) as [[a' r']|]; [|discriminate]. intros [= <- <-]. rewrite !lenN_cons. specialize (IH _ _ eq_refl). lia.
Qed.
Lemma a_until_law : forall f lim acc s, J s -> match a_until S rd f lim acc s with
  | (Done r, s') => legal_read (lenN acc + lim) r /\ J s' | (Panicked, _) => False | (OutOfFuel, _) => True end.
Proof.
  induction f as [|f IH]; intros lim acc s Hs; cbn [a_until].
  - destruct (lim =? 0); [split; [cbn; lia|exact Hs]|exact I].
  - destruct (N.eqb_spec lim 0) as [->|]; [split; [cbn; lia|exact Hs]|].
    pose proof (a_fill_law _ Hs) as H. destruct (a_fill S rd s) as [[l|e] [d' b']].
    + destruct H as [-> H]. cbn [a_buf a_dev] in *. cbv zeta. destruct (split_lf (takeN lim b')) as [[a r]|] eqn:E.
      * split; [|now apply J_drop]. apply split_lf_len in E. rewrite lenN_takeN in E. cbn [legal_read]. rewrite lenN_app. lia.
      * destruct (takeN lim b') as [|b0 v] eqn:Ev; [split; [cbn; lia|now apply J_drop]|].
        rewrite <- Ev in *. clear b0 v Ev.
        specialize (IH (lim - lenN (takeN lim b')) (acc ++ takeN lim b') (mkabuf d' (dropN (lenN (takeN lim b')) b')) ltac:(now apply J_drop)).
        destruct (a_until S rd f _ _ _) as [[r| |] s2]; auto. destruct IH as [H1 H2]. split; [|exact H2].
        destruct r as [r|]; [|exact I]. cbn [legal_read] in *. rewrite lenN_app, lenN_takeN in H1. lia.
    + destruct e; first [exact (IH lim acc _ H)|split; [exact I|exact H]].
Qed.
Lemma a_seek_law w s : J s -> legal_pos (fst (a_seek S sk w s)) /\ J (snd (a_seek S sk w s)).
Proof.
  destruct s as [d b]. intros Hs. unfold a_seek. cbn [a_buf a_dev].
  assert (H1 : forall w, let r := match sk w d with (Ok p, d0) => (Ok p, mkabuf d0 []) | (Err e, d0) => (Err e, mkabuf d0 b) end in
    legal_pos (fst r) /\ J (snd r)).
  { intros w'. pose proof (sk_legal w' d) as HL. destruct (sk w' d) as [[p|e] d'] eqn:E; cbn [fst snd] in *; (split; [exact HL|]); eauto. }
  destruct w as [n|z|z]; [apply H1| |apply H1].
  destruct (i64_min <=? z - Z.of_N (lenN b))%Z; [apply H1|].
  destruct (sk (FromCurrent (- Z.of_N (lenN b))) d) as [[p|e] d'] eqn:E.
  - pose proof (J_seek _ _ _ _ _ E Hs) as H. pose proof (sk_legal (FromCurrent z) d') as HL.
    destruct (sk (FromCurrent z) d') as [[q|e] d2] eqn:E2; cbn [fst snd] in *; (split; [exact HL|]); eauto.
  - cbn [fst snd]. split; [exact I|eauto].
Qed.
Lemma a_buf_law : alaw (a_buf_machine S rd sk fuel) J tp.
Proof.
  split; cbn [a_buf_machine am_read am_read_exact am_read_line am_seek am_tell].
  - exact a_read_law.
  - intros n s Hs. exact (exact_law _ _ a_read_law fuel n [] s Hs).
  - intros n s Hs. exact (a_until_law (fuel + N.to_nat n) n [] s Hs).
  - exact a_seek_law.
  - intros [d b] Hs. unfold a_tell. cbn [a_dev a_buf]. pose proof (sk_legal (FromCurrent 0) d) as HL.
    destruct (sk (FromCurrent 0) d) as [[p|e] d'] eqn:E; [|split; [exact I|eauto]].
    destruct (J_tell _ _ _ _ E Hs) as [H1 H2]. destruct (N.ltb_spec p (lenN b)); [auto|].
    split; [cbn in *; lia|auto].
Qed.
End Laws.

Section Machines.
Context {S : Type}.
Variables (rd : N -> S -> result bytes * S) (sk : whence -> S -> result N * S) (fuel : nat).
Hypothesis Hrd : read_contract rd.
Hypothesis Hsk : seek_contract sk.

Lemma any_buf_law : alaw (a_buf_machine S rd sk fuel) (fun _ => True) True.
Proof. apply a_buf_law; auto. Qed.
Lemma owned_buf_law position : own_cursor rd sk position ->
  alaw (a_buf_machine S rd sk fuel) (fun s => lenN (a_buf s) <= position (a_dev s)) False.
Proof.
  intros [O1 O2 O3 O4 O5]. apply a_buf_law; auto; cbn [a_buf a_dev].
  - intros n d b l d' -> E H k. rewrite (O1 _ _ _ _ E), lenN_dropN. lia.
  - intros n d b e d' -> E H. rewrite (O2 _ _ _ _ E). exact H.
  - intros d b k H. rewrite lenN_dropN. lia.
  - intros w d b p d' E H. rewrite lenN_nil. lia.
  - intros w d b e d' E H. rewrite (O4 _ _ _ _ E). exact H.
  - intros d b p d' E H. pose proof (O5 _ _ _ E). pose proof (O3 _ _ _ _ E). split; intros; subst; lia.
Qed.
Lemma any_raw_law : alaw (a_raw_machine S rd sk fuel) (fun _ => True) False.
Proof.
  split; cbn [a_raw_machine am_read am_read_exact am_read_line am_seek am_tell]; intros.
  - split; [now apply rd_legal|exact I].
  - apply (exact_law rd (fun _ => True)); auto. intros; split; [now apply rd_legal|exact I].
  - assert (K : match a_until S rd (fuel + N.to_nat n) n [] (mkabuf s []) with
      | (Done r, s') => legal_read (lenN (@nil byte) + n) r /\ True | (Panicked, _) => False | (OutOfFuel, _) => True end)
      by (eapply (a_until_law) with (J := fun _ => True) (sk := sk); eauto; exact (fun _ _ => I)).
    destruct (a_until S rd _ _ _ _) as [[r| |] t]; auto.
  - split; [now apply sk_legal|exact I].
  - pose proof (sk_legal sk Hsk (FromCurrent 0) s) as K. destruct (sk (FromCurrent 0) s) as [r s']. split; [exact K|exact I].
Qed.

Definition tells (x : feature) : Prop := x = FAsf \/ x = FEbml \/ x = FMp4 \/ x = FRm.
Definition a_run {A} (x : feature) (p : prog A) (s : S) : exec A * S :=
  if buffered x then arun_buf S rd sk fuel p s else arun_raw S rd sk fuel p s.
Definition expected (x : feature) (panic : Prop) (r : exec (result FileFormat)) : Prop :=
  match r with Done (Ok f) => family x f | Panicked => panic | _ => True end.

Lemma a_run_law (J : abuf S -> Prop) tp (c : plat) x s : wf_cfg c -> alaw (a_buf_machine S rd sk fuel) J tp ->
  J (mkabuf s []) -> expected x (may_panic c x \/ tp /\ tells x) (fst (a_run x (reader_of c fuel x) s)).
Proof.
  intros Hc HM HJ. pose proof (reader_static c fuel x Hc) as Hw. unfold a_run.
  destruct (buffered x) eqn:Eb.
  - unfold arun_buf. assert (Hd : (no_tell (reader_of c fuel x) \/ tells x)).
    { unfold tells. destruct x; try discriminate Eb; auto; left; [apply txt_no_tell|apply zip_no_tell]. }
    destruct Hd as [Hd|Hd].
    + rewrite <- (arun_deaf _ _ Hd). pose proof (arun_wp _ _ _ (deaf_law _ _ _ HM) _ _ _ _ Hw HJ) as K.
      destruct (arun _ _ _) as [[[f|e]| |] t]; cbn [fst expected] in *; auto. cbn [sp pa] in K. tauto.
    + pose proof (arun_wp _ _ _ HM _ _ _ _ Hw HJ) as K.
      destruct (arun _ _ _) as [[[f|e]| |] t]; cbn [fst expected] in *; auto. cbn [sp pa] in K. tauto.
  - unfold arun_raw. pose proof (arun_wp _ _ _ any_raw_law _ _ _ s Hw I) as K.
    destruct (arun _ _ _) as [[[f|e]| |] t]; cbn [fst expected] in *; auto. cbn [sp pa] in K. tauto.
Qed.

Lemma a_fmt_eq c f s : a_from_fmt_reader S rd sk fuel c f s =
  match feature_of f with
  | Some x => if feat c x then a_run x (reader_of c fuel x) s else (Done (Ok f), s)
  | None => (Done (Ok f), s)
  end.
Proof.
  unfold a_from_fmt_reader, fmt_reader.
  destruct f; cbn [feature_of]; try reflexivity;
    match goal with |- context [feat c ?x] => destruct (feat c x); reflexivity end.
Qed.

Lemma a_generic_law (J : abuf S -> Prop) tp (c : cfg) s : wf_cfg c -> alaw (a_buf_machine S rd sk fuel) J tp ->
  J (mkabuf s []) ->
  match fst (a_from_generic_reader S rd sk fuel c s) with
  | Done f => f = PlainText /\ feat c FTxt = true \/ f = ArbitraryBinaryData
  | Panicked => False
  | OutOfFuel => True
  end.
Proof.
  intros Hc HM HJ. unfold a_from_generic_reader. destruct (feat c FTxt); [|now right].
  pose proof (a_run_law J tp c FTxt s Hc HM HJ) as K. unfold a_run in K. cbn [buffered reader_of] in K.
  destruct (arun_buf S rd sk fuel from_txt_reader s) as [[[f|e]| |] t]; cbn [fst expected] in *; auto.
  - left. split; [|reflexivity]. unfold family in K. cbn in K. intuition.
  - unfold tells in K. cbn in K. intuition discriminate.
Qed.
End Machines.

(** ** Fuel: more fuel never changes a result *)
Inductive ple {A} : prog A -> prog A -> Prop :=
| ple_fuel q : ple PFuel q
| ple_ret a : ple (Ret a) (Ret a)
| ple_panic : ple PPanic PPanic
| ple_read n k k' : (forall r, ple (k r) (k' r)) -> ple (PRead n k) (PRead n k')
| ple_exact n k k' : (forall r, ple (k r) (k' r)) -> ple (PReadExact n k) (PReadExact n k')
| ple_line n k k' : (forall r, ple (k r) (k' r)) -> ple (PReadLine n k) (PReadLine n k')
| ple_seek w k k' : (forall r, ple (k r) (k' r)) -> ple (PSeek w k) (PSeek w k')
| ple_tell k k' : (forall r, ple (k r) (k' r)) -> ple (PTell k) (PTell k')
| ple_alloc n k k' : ple k k' -> ple (PAlloc n k) (PAlloc n k').
Lemma ple_refl {A} (p : prog A) : ple p p.
Proof. induction p; constructor; auto. Qed.
Lemma ple_bindp {A B} (p p' : prog A) (f f' : A -> prog B) : ple p p' -> (forall a, ple (f a) (f' a)) ->
  ple (bindp p f) (bindp p' f').
Proof. intros H Hf. induction H; cbn [bindp]; auto; constructor; auto. Qed.
Lemma ple_bindio {A B} (p p' : io A) (f f' : A -> io B) : ple p p' -> (forall a, ple (f a) (f' a)) ->
  ple (bindio p f) (bindio p' f').
Proof. intros H Hf. apply ple_bindp; [exact H|]. intros [a|e]; [apply Hf|constructor]. Qed.

(** [M2] does what [M1] does, and more where [M1] runs out of fuel. *)
Definition oneop {B T1 T2} (R : T1 -> T2 -> Prop) (x : exec B * T1) (y : exec B * T2) : Prop :=
  match x with
  | (OutOfFuel, _) => True
  | (r, s') => exists t', y = (r, t') /\ R s' t'
  end.
Definition sameop {B T1 T2} (R : T1 -> T2 -> Prop) (x : B * T1) (y : B * T2) : Prop :=
  fst x = fst y /\ R (snd x) (snd y).
Record msim {T1 T2} (R : T1 -> T2 -> Prop) (M1 : amachine T1) (M2 : amachine T2) : Prop := {
  ms_read : forall n s t, R s t -> sameop R (am_read M1 n s) (am_read M2 n t);
  ms_exact : forall n s t, R s t -> oneop R (am_read_exact M1 n s) (am_read_exact M2 n t);
  ms_line : forall n s t, R s t -> oneop R (am_read_line M1 n s) (am_read_line M2 n t);
  ms_seek : forall w s t, R s t -> sameop R (am_seek M1 w s) (am_seek M2 w t);
  ms_tell : forall s t, R s t -> oneop R (am_tell M1 s) (am_tell M2 t)
}.
Lemma arun_sim {T1 T2 A} R (M1 : amachine T1) (M2 : amachine T2) (HM : msim R M1 M2) (p q : prog A) : ple p q ->
  forall s t, R s t -> oneop R (arun M1 p s) (arun M2 q t).
Proof.
  assert (Hone : forall B (x : exec B * T1) (y : exec B * T2) (k1 : B -> T1 -> exec A * T1) (k2 : B -> T2 -> exec A * T2),
    oneop R x y -> (forall r s t, R s t -> oneop R (k1 r s) (k2 r t)) ->
    oneop R (match x with (Done r, s') => k1 r s' | (Panicked, s') => (Panicked, s') | (OutOfFuel, s') => (OutOfFuel, s') end)
            (match y with (Done r, s') => k2 r s' | (Panicked, s') => (Panicked, s') | (OutOfFuel, s') => (OutOfFuel, s') end)).
  { intros B [[r| |] s'] y k1 k2 H Hk; [| |exact I].
    - destruct H as (t' & -> & H). auto.
    - destruct H as (t' & -> & H). cbn. eauto. }
  assert (Hsame : forall B (x : B * T1) (y : B * T2) (k1 : B -> T1 -> exec A * T1) (k2 : B -> T2 -> exec A * T2),
    sameop R x y -> (forall r s t, R s t -> oneop R (k1 r s) (k2 r t)) ->
    oneop R (let '(r, s') := x in k1 r s') (let '(r, s') := y in k2 r s')).
  { intros B [r s'] [r' t'] k1 k2 [H1 H2] Hk. cbn [fst snd] in *. subst r'. auto. }
  induction 1 as [q|a| |n k k' _ IH|n k k' _ IH|n k k' _ IH|w k k' _ IH|k k' _ IH|n k k' _ IH]; intros s t HR; cbn [arun].
  - exact I.
  - cbn. eauto.
  - cbn. eauto.
  - apply (Hsame _ _ _ (fun r s' => arun M1 (k r) s') (fun r s' => arun M2 (k' r) s')); [now apply ms_read|auto].
  - apply (Hone _ _ _ (fun r s' => arun M1 (k r) s') (fun r s' => arun M2 (k' r) s')); [now apply ms_exact|auto].
  - apply (Hone _ _ _ (fun r s' => arun M1 (k r) s') (fun r s' => arun M2 (k' r) s')); [now apply ms_line|auto].
  - apply (Hsame _ _ _ (fun r s' => arun M1 (k r) s') (fun r s' => arun M2 (k' r) s')); [now apply ms_seek|auto].
  - apply (Hone _ _ _ (fun r s' => arun M1 (k r) s') (fun r s' => arun M2 (k' r) s')); [now apply ms_tell|auto].
  - auto.
Qed.

(** The loops of the readers. *)
Ltac pl := repeat first [apply ple_refl | apply ple_bindio; [|intros ?] | apply ple_bindp; [|intros ?]
  | match goal with |- ple (if ?b then _ else _) _ => destruct b
    | |- ple (match ?x with Some _ => _ | None => _ end) _ => destruct x
    | |- ple (match ?x with [] => _ | _ :: _ => _ end) _ => destruct x end].
Lemma id3v2_loop_ple c : forall f g offset, (f <= g)%nat -> ple (id3v2_loop c f offset) (id3v2_loop c g offset).
Proof.
  induction f as [|f IH]; intros g offset Hg; destruct g as [|g]; try lia; cbn [id3v2_loop].
  - apply ple_refl.
  - pl. apply ple_fuel.
  - pl. apply IH. lia.
Qed.
Lemma pdf_loop_ple : forall f g total buf, (f <= g)%nat -> ple (pdf_loop f total buf) (pdf_loop g total buf).
Proof.
  induction f as [|f IH]; intros g total buf Hg; destruct g as [|g]; try lia; cbn [pdf_loop].
  - apply ple_refl.
  - pl. apply ple_fuel.
  - pl. apply IH. lia.
Qed.
Lemma reader_ple c f g x : (f <= g)%nat -> ple (reader_of c f x) (reader_of c g x).
Proof.
  intros H. destruct x; cbn [reader_of]; try apply ple_refl.
  - unfold from_id3v2_reader. apply ple_bindio; [now apply id3v2_loop_ple|intros; apply ple_refl].
  - unfold from_pdf_reader. apply ple_bindio; [apply ple_refl|intros]. now apply pdf_loop_ple.
Qed.

(** The loops of the standard library. *)
Lemma exact_mono {T1 T2} (R : T1 -> T2 -> Prop) rd1 rd2 :
  (forall n s t, R s t -> sameop R (rd1 n s) (rd2 n t)) ->
  forall f g n acc s t, (f <= g)%nat -> R s t -> oneop R (read_exact_loop rd1 f n acc s) (read_exact_loop rd2 g n acc t).
Proof.
  intros H. induction f as [|f IH]; intros g n acc s t Hg HR.
  - destruct g; cbn [read_exact_loop]; (destruct (n =? 0); [cbn; eauto|exact I]).
  - destruct g as [|g]; [lia|]. cbn [read_exact_loop]. destruct (n =? 0); [cbn; eauto|].
    destruct (H n s t HR) as [H1 H2]. destruct (rd1 n s) as [r s'], (rd2 n t) as [r2 t']. cbn [fst snd] in *. subst r2.
    destruct r as [[|b l]|e]; [cbn; eauto|apply IH; [lia|exact H2]|].
    destruct e; first [apply IH; [lia|exact H2]|cbn; eauto].
Qed.
Lemma until_mono S rd : forall f g lim acc s, (f <= g)%nat -> oneop eq (a_until S rd f lim acc s) (a_until S rd g lim acc s).
Proof.
  induction f as [|f IH]; intros g lim acc s Hg.
  - destruct g; cbn [a_until]; (destruct (lim =? 0); [cbn; eauto|exact I]).
  - destruct g as [|g]; [lia|]. cbn [a_until]. destruct (lim =? 0); [cbn; eauto|].
    destruct (a_fill S rd s) as [[l|e] s'].
    + cbv zeta. destruct (split_lf _) as [[a r]|]; [cbn; eauto|].
      destruct (takeN lim l) as [|b0 v]; [cbn; eauto|]. apply IH. lia.
    + destruct e; first [apply IH; lia|cbn; eauto].
Qed.

Lemma sameop_eq {B T} (x : B * T) : sameop eq x x.
Proof. now split. Qed.
Lemma oneop_eq {B T} (x : exec B * T) : oneop eq x x.
Proof. destruct x as [[r| |] s]; cbn; eauto. Qed.
Lemma a_buf_mono S rd sk f g : (f <= g)%nat -> msim eq (a_buf_machine S rd sk f) (a_buf_machine S rd sk g).
Proof.
  intros H. split; cbn [a_buf_machine am_read am_read_exact am_read_line am_seek am_tell]; intros; subst.
  - apply sameop_eq.
  - apply (exact_mono eq); auto. intros; subst; apply sameop_eq.
  - apply until_mono. lia.
  - apply sameop_eq.
  - apply oneop_eq.
Qed.
Lemma a_raw_mono S rd sk f g : (f <= g)%nat -> msim eq (a_raw_machine S rd sk f) (a_raw_machine S rd sk g).
Proof.
  intros H. split; cbn [a_raw_machine am_read am_read_exact am_read_line am_seek am_tell]; intros; subst.
  - apply sameop_eq.
  - apply (exact_mono eq); auto. intros; subst; apply sameop_eq.
  - pose proof (until_mono S rd (f + N.to_nat n) (g + N.to_nat n) n [] (mkabuf t []) ltac:(lia)) as K.
    destruct (a_until S rd (f + N.to_nat n) n [] (mkabuf t [])) as [[r| |] u]; cbn [oneop] in *; auto;
      destruct K as (t' & -> & <-); eauto.
  - apply sameop_eq.
  - destruct (sk (FromCurrent 0) t). cbn. eauto.
Qed.
Lemma a_run_mono S rd sk f g (c : plat) x s : (f <= g)%nat ->
  oneop eq (a_run (S := S) rd sk f x (reader_of c f x) s) (a_run rd sk g x (reader_of c g x) s).
Proof.
  intros H. unfold a_run. destruct (buffered x).
  - unfold arun_buf. pose proof (arun_sim _ _ _ (a_buf_mono S rd sk f g H) _ _ (reader_ple c f g x H) (mkabuf s []) _ eq_refl) as K.
    destruct (arun _ (reader_of c f x) _) as [[r| |] t]; cbn [oneop] in *; auto; destruct K as (t' & -> & <-); eauto.
  - unfold arun_raw. exact (arun_sim _ _ _ (a_raw_mono S rd sk f g H) _ _ (reader_ple c f g x H) s _ eq_refl).
Qed.

(** Whatever relates the runs of the container readers relates [from_reader]. *)
Lemma generic_mono S rd sk f g c s : (f <= g)%nat ->
  oneop eq (a_from_generic_reader S rd sk f c s) (a_from_generic_reader S rd sk g c s).
Proof.
  intros H. unfold a_from_generic_reader. destruct (feat c FTxt); [|cbn; eauto].
  pose proof (a_run_mono S rd sk f g c FTxt s H) as K. unfold a_run in K. cbn [buffered reader_of] in K.
  destruct (arun_buf S rd sk f from_txt_reader s) as [[[r|e]| |] t]; cbn [oneop] in *; auto; destruct K as (t' & -> & <-); eauto.
Qed.
Lemma from_reader_mono S rd sk f g c s : (f <= g)%nat ->
  oneop eq (a_from_reader S rd sk f c s) (a_from_reader S rd sk g c s).
Proof.
  intros H. unfold a_from_reader. destruct (rd window s) as [[[|b l]|e] s1]; [cbn; eauto| |cbn; eauto].
  assert (Hg : forall s2, oneop eq
     match a_from_generic_reader S rd sk f c s2 with
     | (Done f0, s3) => (Done (Ok f0), s3) | (Panicked, s3) => (Panicked, s3) | (OutOfFuel, s3) => (OutOfFuel, s3) end
     match a_from_generic_reader S rd sk g c s2 with
     | (Done f0, s3) => (Done (@Ok FileFormat f0), s3) | (Panicked, s3) => (Panicked, s3) | (OutOfFuel, s3) => (OutOfFuel, s3) end).
  { intros s2. pose proof (generic_mono S rd sk f g c s2 H) as K.
    destruct (a_from_generic_reader S rd sk f c s2) as [[r| |] t]; cbn [oneop] in *; auto; destruct K as (t' & -> & <-); eauto. }
  destruct (from_signature (b :: l)) as [m|]; [|apply Hg]. rewrite !a_fmt_eq.
  destruct (feature_of m) as [x|]; [|cbn; eauto]. destruct (feat c x); [|cbn; eauto].
  pose proof (a_run_mono S rd sk f g c x s1 H) as K.
  destruct (a_run rd sk f x (reader_of c f x) s1) as [[[r|e]| |] t]; cbn [oneop] in K;
    [destruct K as (t' & -> & <-) ..|exact I].
  - cbn. eauto.
  - apply Hg.
  - cbn. eauto.
Qed.

(** ** The devices of IO.v are such readers *)
Definition embed {T} (M : machine T) : amachine T :=
  mkamachine (m_read M) (m_read_exact M) (m_read_line M) (m_seek M)
    (fun s => let '(r, s') := m_tell M s in (Done r, s')).
Lemma run_embed {T A} (M : machine T) (p : prog A) : forall s, run M p s = arun (embed M) p s.
Proof.
  induction p as [a| | |n k IH|n k IH|n k IH|w k IH|k IH|n k IH]; intros s; cbn [run arun]; auto.
  - cbn [embed am_read]. destruct (m_read M n s). apply IH.
  - cbn [embed am_read_exact]. destruct (m_read_exact M n s) as [[r| |] s']; auto.
  - cbn [embed am_read_line]. destruct (m_read_line M n s) as [[r| |] s']; auto.
  - cbn [embed am_seek]. destruct (m_seek M w s). apply IH.
  - cbn [embed am_tell]. destruct (m_tell M s). apply IH.
Qed.

Section Devices.
Variable F : nat.
Definition few (d : dev) : Prop := (List.length (d_reads d) + 5 <= F)%nat.
Definition Rraw (d d' : dev) : Prop := d = d' /\ few d.
Definition Rbuf (b : bdev) (a : abuf dev) : Prop :=
  a = mkabuf (b_dev b) (b_buf b) /\ few (b_dev b) /\ lenN (b_buf b) <= d_pos (b_dev b).

Lemma dev_read_few n d : few d -> few (snd (dev_read n d)).
Proof.
  unfold few, dev_read. destruct (d_reads d) as [|[k| |e] rs] eqn:E; cbn [snd d_reads List.length]; lia.
Qed.
Lemma dev_read_pos n d : match dev_read n d with
  | (Ok l, d') => d_pos d' = d_pos d + lenN l | (Err _, d') => d_pos d' = d_pos d end.
Proof. unfold dev_read. destruct (d_reads d) as [|[k| |e] rs]; reflexivity. Qed.
Lemma dev_seek_few w d : few d -> few (snd (dev_seek w d)).
Proof.
  unfold few, dev_seek. destruct (d_seeks d) as [|[|] ss]; [destruct (_ || _) ..|]; cbn [snd d_reads]; auto.
Qed.
Lemma dev_seek_pos w d : match dev_seek w d with
  | (Ok p, d') => d_pos d' = p | (Err _, d') => d_pos d' = d_pos d end.
Proof. unfold dev_seek. destruct (d_seeks d) as [|[|] ss]; [destruct (_ || _) ..|]; reflexivity. Qed.
Lemma dev_tell_pos d : match dev_seek (FromCurrent 0) d with (Ok p, _) => p = d_pos d | (Err _, _) => True end.
Proof.
  unfold dev_seek. cbn [seek_target]. destruct (d_seeks d) as [|[|] ss]; [destruct (_ || _) ..|]; try exact I; lia.
Qed.

Lemma b_fill_sim b a : Rbuf b a -> sameop Rbuf (b_fill b) (a_fill dev dev_read a) /\
  match b_fill b with (Ok l, b') => l = b_buf b' | _ => True end.
Proof.
  destruct b as [d buf]. intros (-> & H1 & H2). cbn [b_dev b_buf] in *. unfold b_fill, a_fill. cbn [b_dev b_buf a_dev a_buf].
  destruct buf as [|b0 buf].
  - pose proof (dev_read_few buf_capacity d H1) as HF. pose proof (dev_read_pos buf_capacity d) as HP.
    destruct (dev_read buf_capacity d) as [[l|e] d']; cbn [snd] in HF; (split; [|try reflexivity; exact I]);
      split; try reflexivity; cbn [snd]; (split; [reflexivity|]); (split; [exact HF|]); cbn [b_dev b_buf]; rewrite HP; try lia.
  - split; [|reflexivity]. split; [reflexivity|]. now split.
Qed.
Lemma Rbuf_drop d l k : few d -> lenN l <= d_pos d -> Rbuf (mkbdev d (dropN k l)) (mkabuf d (dropN k l)).
Proof. intros H1 H2. split; [reflexivity|]. split; [exact H1|]. cbn [b_buf b_dev]. rewrite lenN_dropN. lia. Qed.
Lemma b_read_sim n b a : Rbuf b a -> sameop Rbuf (b_read n b) (a_read dev dev_read n a).
Proof.
  intros HR. pose proof (b_fill_sim b a HR) as [[K1 K2] K3].
  destruct b as [d buf]. destruct HR as (-> & H1 & H2). cbn [b_dev b_buf] in *. unfold b_read, a_read.
  cbn [b_dev b_buf a_dev a_buf]. destruct buf as [|b0 buf].
  - destruct (buf_capacity <=? n).
    + pose proof (dev_read_few n d H1) as HF. pose proof (dev_read_pos n d) as HP.
      destruct (dev_read n d) as [r d']; cbn [snd] in HF. split; [reflexivity|]. cbn [snd].
      split; [reflexivity|]. split; [exact HF|]. cbn [b_buf]. rewrite lenN_nil. lia.
    + destruct (b_fill _) as [r b'], (a_fill _ _ _) as [r2 a']. cbn [fst snd] in *. subst r2.
      destruct r as [l|e]; [|split; [reflexivity|exact K2]]. subst l. destruct K2 as (-> & K2 & K3). destruct b' as [d' l].
      split; [reflexivity|]. cbn [snd b_buf b_dev a_buf a_dev] in *. now apply Rbuf_drop.
  - split; [reflexivity|]. cbn [snd]. now apply Rbuf_drop.
Qed.
Lemma b_until_sim : forall f lim acc b a, Rbuf b a -> oneop Rbuf (b_until f lim acc b) (a_until dev dev_read f lim acc a).
Proof.
  induction f as [|f IH]; intros lim acc b a HR.
  - cbn [b_until a_until]. destruct (lim =? 0); [cbn; eauto|exact I].
  - cbn [b_until a_until]. destruct (lim =? 0); [cbn; eauto|].
    pose proof (b_fill_sim b a HR) as [[K1 K2] K3].
    destruct (b_fill b) as [r b'], (a_fill dev dev_read a) as [r2 a']. cbn [fst snd] in *. subst r2.
    destruct r as [l|e].
    + subst l. destruct K2 as (-> & K2 & K3). destruct b' as [d' l]. cbn [b_buf b_dev a_buf a_dev] in *. cbv zeta.
      destruct (split_lf _) as [[x y]|]; [cbn; eexists; split; [reflexivity|]; now apply Rbuf_drop|].
      destruct (takeN lim l) as [|b0 v] eqn:Ev; [cbn [oneop]; eexists; split; [reflexivity|]; now apply Rbuf_drop|].
      apply IH. now apply Rbuf_drop.
    + destruct e; first [apply IH; exact K2|cbn; eauto].
Qed.
Lemma b_seek_sim w b a : Rbuf b a -> sameop Rbuf (b_seek w b) (a_seek dev dev_seek w a).
Proof.
  destruct b as [d buf]. intros (-> & H1 & H2). cbn [b_dev b_buf] in *. unfold b_seek, a_seek. cbn [b_dev b_buf a_dev a_buf].
  assert (Hw : forall w, sameop Rbuf
     match dev_seek w d with (Ok p, d0) => (Ok p, mkbdev d0 []) | (Err e, d0) => (Err e, mkbdev d0 buf) end
     match dev_seek w d with (Ok p, d0) => (Ok p, mkabuf d0 []) | (Err e, d0) => (Err e, mkabuf d0 buf) end).
  { intros w'. pose proof (dev_seek_few w' d H1) as HF. pose proof (dev_seek_pos w' d) as HP.
    destruct (dev_seek w' d) as [[p|e] d']; cbn [snd] in HF; split; try reflexivity; cbn [snd];
      (split; [reflexivity|]); (split; [exact HF|]); cbn [b_buf b_dev]; rewrite ?lenN_nil; lia. }
  destruct w as [n|z|z]; [apply Hw| |apply Hw]. cbv zeta.
  destruct (_ <=? _)%Z; [apply Hw|].
  pose proof (dev_seek_few (FromCurrent (- Z.of_N (lenN buf))) d H1) as HF. pose proof (dev_seek_pos (FromCurrent (- Z.of_N (lenN buf))) d) as HP.
  destruct (dev_seek _ d) as [[p|e] d']; cbn [snd] in HF.
  - pose proof (dev_seek_few (FromCurrent z) d' HF) as HF'.
    destruct (dev_seek (FromCurrent z) d') as [r d2]; cbn [snd] in HF'. split; [reflexivity|]. cbn [snd].
    split; [reflexivity|]. split; [exact HF'|]. cbn [b_buf]. rewrite lenN_nil. lia.
  - split; [reflexivity|]. cbn [snd]. split; [reflexivity|]. split; [exact HF|]. cbn [b_buf b_dev]. lia.
Qed.
Lemma b_tell_sim b a : Rbuf b a -> oneop Rbuf (let '(r, b') := b_tell b in (Done r, b')) (a_tell dev dev_seek a).
Proof.
  destruct b as [d buf]. intros (-> & H1 & H2). cbn [b_dev b_buf] in *. unfold b_tell, a_tell, dev_tell. cbn [b_dev b_buf a_dev a_buf].
  pose proof (dev_seek_few (FromCurrent 0) d H1) as HF. pose proof (dev_seek_pos (FromCurrent 0) d) as HP. pose proof (dev_tell_pos d) as HT.
  destruct (dev_seek (FromCurrent 0) d) as [[p|e] d']; cbn [snd oneop] in *.
  - replace (p <? lenN buf) with false by lia. eexists. split; [reflexivity|]. split; [reflexivity|]. split; [exact HF|].
    cbn [b_buf b_dev]. lia.
  - eexists. split; [reflexivity|]. split; [reflexivity|]. split; [exact HF|]. cbn [b_buf b_dev]. lia.
Qed.
Lemma oneop_compose {B T1 T2} (R : T1 -> T2 -> Prop) (x : exec B * T1) (y z : exec B * T2) : oneop R x y -> oneop eq y z -> oneop R x z.
Proof.
  destruct x as [[r| |] s]; cbn [oneop]; auto; intros (t & -> & HR); cbn [oneop]; intros (t' & -> & <-); eauto.
Qed.
Lemma buf_sim : msim Rbuf (embed buf_machine) (a_buf_machine dev dev_read dev_seek F).
Proof.
  split; cbn [embed buf_machine a_buf_machine m_read m_read_exact m_read_line m_seek m_tell am_read am_read_exact am_read_line am_seek am_tell].
  - exact b_read_sim.
  - intros n s t HR. unfold b_read_exact. apply exact_mono; [exact b_read_sim| |exact HR]. apply HR.
  - intros n s t HR. unfold b_read_line. eapply oneop_compose; [apply b_until_sim, HR|]. apply until_mono.
    destruct HR as (_ & HF & _). unfold few in HF. lia.
  - exact b_seek_sim.
  - exact b_tell_sim.
Qed.
Lemma raw_sim : msim Rraw (embed raw_machine) (a_raw_machine dev dev_read dev_seek F).
Proof.
  assert (Hr : forall n s t, Rraw s t -> sameop Rraw (dev_read n s) (dev_read n t)).
  { intros n s t [-> H]. split; [reflexivity|]. split; [reflexivity|]. now apply dev_read_few. }
  split; cbn [embed raw_machine a_raw_machine m_read m_read_exact m_read_line m_seek m_tell am_read am_read_exact am_read_line am_seek am_tell].
  - exact Hr.
  - intros n s t HR. unfold dev_read_exact. apply exact_mono; [exact Hr| |exact HR]. destruct HR as [_ HF]. unfold few in HF. lia.
  - intros n s t [-> HF]. unfold b_read_line.
    assert (K : oneop Rbuf (b_until (List.length (d_reads t) + N.to_nat n + 2) n [] (mkbdev t []))
                           (a_until dev dev_read (F + N.to_nat n) n [] (mkabuf t []))).
    { eapply oneop_compose; [apply b_until_sim|].
      - split; [reflexivity|]. split; [exact HF|]. cbn [b_buf]. rewrite lenN_nil. lia.
      - apply until_mono. unfold few in HF. lia. }
    cbn [b_dev]. destruct (b_until _ _ _ _) as [[r| |] u]; cbn [oneop] in *; auto; destruct K as (t' & -> & -> & K1 & _);
      eexists; (split; [reflexivity|]); split; auto.
  - intros w s t [-> H]. split; [reflexivity|]. split; [reflexivity|]. now apply dev_seek_few.
  - intros s t [-> H]. unfold dev_tell. pose proof (dev_seek_few (FromCurrent 0) t H) as HF.
    destruct (dev_seek (FromCurrent 0) t) as [r d']. cbn in *. eexists. split; [reflexivity|]. now split.
Qed.

Lemma device_run c f x d : (f <= F)%nat -> few d ->
  oneop Rraw (if buffered x then run_buf (reader_of c f x) d else run_raw (reader_of c f x) d)
             (a_run dev_read dev_seek F x (reader_of c F x) d).
Proof.
  intros Hf Hd. unfold a_run. destruct (buffered x).
  - unfold run_buf, arun_buf. rewrite run_embed.
    assert (HR : Rbuf (mkbdev d []) (mkabuf d [])) by (split; [reflexivity|]; split; [exact Hd|cbn [b_buf]; rewrite lenN_nil; lia]).
    pose proof (arun_sim _ _ _ buf_sim _ _ (reader_ple c f F x Hf) _ _ HR) as K.
    destruct (arun (embed buf_machine) _ _) as [[r| |] b']; cbn [oneop] in *; auto; destruct K as (t' & -> & -> & K1 & _);
      eexists; (split; [reflexivity|]); now split.
  - unfold run_raw, arun_raw. rewrite run_embed. apply (arun_sim _ _ _ raw_sim); [now apply reader_ple|]. now split.
Qed.
Lemma device_generic c d : few d -> oneop Rraw (from_generic_reader c d) (a_from_generic_reader dev dev_read dev_seek F c d).
Proof.
  intros Hd. unfold from_generic_reader, a_from_generic_reader. destruct (feat c FTxt); [|cbn; eexists; split; [reflexivity|now split]].
  pose proof (device_run c 0 FTxt d ltac:(lia) Hd) as K. unfold a_run in K. cbn [buffered reader_of] in K.
  destruct (run_buf from_txt_reader d) as [[[r|e]| |] t]; cbn [oneop] in *; auto; destruct K as (t' & -> & K); eauto.
Qed.
Lemma device_from_reader c d : (List.length (d_reads d) + S (List.length (d_content d)) + 5 <= F)%nat ->
  oneop Rraw (from_reader c d) (a_from_reader dev dev_read dev_seek F c d).
Proof.
  intros HF. assert (Hd : few d) by (unfold few; lia). unfold from_reader, a_from_reader.
  pose proof (dev_read_few window d Hd) as H1.
  destruct (dev_read window d) as [[[|b l]|e] d1]; cbn [snd] in H1; [cbn; eexists; split; [reflexivity|now split]| |cbn; eexists; split; [reflexivity|now split]].
  assert (Hg : forall s2, few s2 -> oneop Rraw
     match from_generic_reader c s2 with
     | (Done f0, s3) => (Done (Ok f0), s3) | (Panicked, s3) => (Panicked, s3) | (OutOfFuel, s3) => (OutOfFuel, s3) end
     match a_from_generic_reader dev dev_read dev_seek F c s2 with
     | (Done f0, s3) => (Done (@Ok FileFormat f0), s3) | (Panicked, s3) => (Panicked, s3) | (OutOfFuel, s3) => (OutOfFuel, s3) end).
  { intros s2 H2. pose proof (device_generic c s2 H2) as K.
    destruct (from_generic_reader c s2) as [[r| |] t]; cbn [oneop] in *; auto; destruct K as (t' & -> & K); eauto. }
  destruct (from_signature (b :: l)) as [m|]; [|now apply Hg]. rewrite a_fmt_eq, from_fmt_reader_eq.
  destruct (feature_of m) as [x|]; [|cbn; eexists; split; [reflexivity|now split]].
  destruct (feat c x); [|cbn; eexists; split; [reflexivity|now split]].
  pose proof (device_run c (S (List.length (d_content d))) x d1 ltac:(lia) H1) as K.
  destruct (if buffered x then run_buf (reader_of c (S (List.length (d_content d))) x) d1 else run_raw (reader_of c (S (List.length (d_content d))) x) d1) as [[[r|e]| |] t]; cbn [oneop] in K;
    [destruct K as (t' & -> & K) ..|exact I].
  - cbn. eauto.
  - destruct K as [-> K]. now apply Hg.
  - cbn. eauto.
Qed.
End Devices.
