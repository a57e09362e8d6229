(** from_reader returns on every stream that ends, even if its content changes between calls (C58). *)
From Coq Require Import List NArith ZArith Bool String Lia ZifyBool ZifyNat ZifyN.
From Verif Require Import Base BaseProofs Formats FormatsProofs Signatures IO Find FindProofs Utf8
  Readers Lib Mem IOProofs Documented Static ReaderStatic LibProofs AnyReader SpecAny AnyProofs Id3Proofs.
Ltac Zify.zify_post_hook ::= idtac.
Import ListNotations.
Local Open Scope N_scope.

(** It returns (or panics), and the state afterwards satisfies [I]. *)
Definition ret {A T} (I : T -> Prop) (x : exec A * T) : Prop :=
  match x with (Done _, s') => I s' | (Panicked, _) => True | (OutOfFuel, _) => False end.

Record returns {T} (M : amachine T) (I : T -> Prop) : Prop := {
  re_exact : forall n s, I s -> fst (am_read_exact M n s) <> OutOfFuel;
  re_line : forall n s, I s -> fst (am_read_line M n s) <> OutOfFuel;
  re_tell : forall s, I s -> fst (am_tell M s) <> OutOfFuel
}.
Lemma arun_returns {T A} (M : amachine T) I tp (HM : alaw M I tp) (HR : returns M I) st (p : prog A) : ~ fu st ->
  forall Q s, wp st p Q -> I s -> ret I (arun M p s).
Proof.
  intros Hfu. induction p as [a| | |n k IH|n k IH|n k IH|w k IH|k IH|n k IH]; intros Q s Hw Hs; cbn [arun wp] in *.
  - exact Hs.
  - exact Logic.I.
  - exact (Hfu Hw).
  - destruct Hw as [_ Hw]. pose proof (al_read _ _ _ HM n s Hs) as [H1 H2].
    destruct (am_read M n s) as [r s']. cbn [fst snd] in *. eapply IH; eauto.
  - pose proof (al_exact _ _ _ HM n s Hs) as H. pose proof (re_exact _ _ HR n s Hs) as K.
    destruct (am_read_exact M n s) as [[r| |] s']; [|exact Logic.I|now contradiction K].
    destruct H. eapply IH; eauto.
  - destruct Hw as [_ Hw]. pose proof (al_line _ _ _ HM n s Hs) as H. pose proof (re_line _ _ HR n s Hs) as K.
    destruct (am_read_line M n s) as [[r| |] s']; [|exact Logic.I|now contradiction K]. destruct H. eapply IH; eauto.
  - pose proof (al_seek _ _ _ HM w s Hs) as [H1 H2]. destruct (am_seek M w s) as [r s']. cbn [fst snd] in *. eapply IH; eauto.
  - pose proof (al_tell _ _ _ HM s Hs) as H. pose proof (re_tell _ _ HR s Hs) as K.
    destruct (am_tell M s) as [[r| |] s']; [|exact Logic.I|now contradiction K].
    destruct H. eapply IH; eauto.
  - eapply IH; [apply Hw|exact Hs].
Qed.
Lemma ret_bindp {T A B} (M : amachine T) I (p : prog A) (f : A -> prog B) s :
  ret I (arun M p s) -> (forall a s', arun M p s = (Done a, s') -> I s' -> ret I (arun M (f a) s')) -> ret I (arun M (bindp p f) s).
Proof.
  intros Hp Hf. rewrite arun_bindp. destruct (arun M p s) as [[a| |] s']; [|exact Logic.I|contradiction]. now apply Hf.
Qed.

(** [read_exact] returns when each successful or interrupted read lowers a measure. *)
Lemma exact_returns {T} (rd : N -> T -> result bytes * T) (J : T -> Prop) (mu : T -> nat) :
  (forall n s, J s -> J (snd (rd n s))) ->
  (forall n s, J s -> 0 < n -> match rd n s with
     | (Ok [], _) => True | (Ok _, s') => (mu s' < mu s)%nat | (Err EInterrupted, s') => (mu s' < mu s)%nat | _ => True end) ->
  forall f n acc s, J s -> (mu s < f)%nat -> fst (read_exact_loop rd f n acc s) <> OutOfFuel.
Proof.
  intros HJ H. induction f as [|f IH]; intros n acc s Hs Hf; [lia|]. cbn [read_exact_loop].
  destruct (N.eqb_spec n 0) as [->|Hn]; [discriminate|]. specialize (H n s Hs ltac:(lia)). specialize (HJ n s Hs).
  destruct (rd n s) as [[[|b l]|e] s']; cbn [snd] in *; [discriminate|apply IH; [exact HJ|lia]|].
  destruct e; try discriminate. apply IH; [exact HJ|lia].
Qed.

Section Return.
Context {S : Type}.
Variables (rd : N -> S -> result bytes * S) (sk : whence -> S -> result N * S).
Variables (position : S -> N) (patience : S -> nat) (sz : S -> N) (size : N) (P fuel : nat).
Hypothesis Hrd : read_contract rd.
Hypothesis Hsk : seek_contract sk.
Hypothesis Hoc : own_cursor rd sk position.
Hypothesis Hfs : finite_stream rd sk position patience sz.
Hypothesis Hsize : size < 9223372036854775808.
Hypothesis Hfuel : (N.to_nat size + P + 1 <= fuel)%nat.

Definition Iraw (s : S) : Prop := (patience s <= P)%nat /\ sz s <= size.
Definition Jbuf (s : abuf S) : Prop := lenN (a_buf s) <= position (a_dev s) /\
  (a_buf s = [] \/ position (a_dev s) <= size) /\ Iraw (a_dev s).
Definition muraw (s : S) : nat := (N.to_nat (size - position s) + patience s)%nat.
Definition mubuf (s : abuf S) : nat := (N.to_nat (lenN (a_buf s) + (size - position (a_dev s))) + patience (a_dev s))%nat.

Lemma rd_next n s r s' : rd n s = (r, s') -> Iraw s -> Iraw s' /\ (patience s' <= patience s)%nat.
Proof. unfold Iraw. intros E [H1 H2]. destruct (fs_read_next _ _ _ _ _ Hfs _ _ _ _ E). repeat split; lia. Qed.
Lemma sk_next w s r s' : sk w s = (r, s') -> Iraw s -> Iraw s'.
Proof. unfold Iraw. intros E [H1 H2]. destruct (fs_seek_next _ _ _ _ _ Hfs _ _ _ _ E). split; lia. Qed.
Lemma rd_patience n s : Iraw s -> Iraw (snd (rd n s)).
Proof. intros H. destruct (rd n s) as [r s'] eqn:E. exact (proj1 (rd_next _ _ _ _ E H)). Qed.
Lemma sk_patience w s : Iraw s -> Iraw (snd (sk w s)).
Proof. intros H. destruct (sk w s) as [r s'] eqn:E. exact (sk_next _ _ _ _ E H). Qed.
Lemma rd_below n s l s' : rd n s = (Ok l, s') -> Iraw s -> l = [] \/ position s + lenN l <= size.
Proof. intros E [_ H]. destruct (fs_read _ _ _ _ _ Hfs _ _ _ _ E) as [K|K]; [now left|right; lia]. Qed.
Lemma rd_progress n s : Iraw s -> match rd n s with
  | (Ok [], _) => True | (Ok _, s') => (muraw s' < muraw s)%nat | (Err EInterrupted, s') => (muraw s' < muraw s)%nat | _ => True end.
Proof.
  intros Hs. unfold muraw. destruct (rd n s) as [[[|b l]|e] s'] eqn:E; [exact I| |].
  - destruct (rd_next _ _ _ _ E Hs). pose proof (oc_read _ _ _ Hoc _ _ _ _ E) as Hp.
    destruct (rd_below _ _ _ _ E Hs) as [K|K]; [discriminate|]. rewrite lenN_cons in *. lia.
  - destruct e; try exact I. pose proof (fs_interrupted _ _ _ _ _ Hfs _ _ _ E). rewrite (oc_read_err _ _ _ Hoc _ _ _ _ E). lia.
Qed.
Lemma muraw_le s : Iraw s -> (muraw s < fuel)%nat.
Proof. unfold Iraw, muraw. intros [H1 H2]. lia. Qed.

(** ** Behind a BufReader *)
Lemma jbuf_law : alaw (a_buf_machine S rd sk fuel) Jbuf False.
Proof.
  apply a_buf_law; auto; unfold Jbuf; cbn [a_buf a_dev].
  - intros n d b l d' -> E (_ & _ & H) k. pose proof (oc_read _ _ _ Hoc _ _ _ _ E) as Hp.
    split; [rewrite lenN_dropN; lia|]. split; [|exact (proj1 (rd_next _ _ _ _ E H))].
    destruct (rd_below _ _ _ _ E H) as [->|K]; [left; apply dropN_nil|right; lia].
  - intros n d b e d' -> E (_ & _ & H). split; [rewrite lenN_nil; lia|]. split; [now left|].
    exact (proj1 (rd_next _ _ _ _ E H)).
  - intros d b k (H1 & H2 & H3). split; [rewrite lenN_dropN; lia|]. split; [|exact H3].
    destruct H2 as [->|H2]; [left; apply dropN_nil|now right].
  - intros w d b p d' E (_ & _ & H). split; [rewrite lenN_nil; lia|]. split; [now left|]. exact (sk_next _ _ _ _ E H).
  - intros w d b e d' E (H1 & H2 & H3). rewrite (oc_seek_err _ _ _ Hoc _ _ _ _ E).
    split; [exact H1|]. split; [exact H2|exact (sk_next _ _ _ _ E H3)].
  - intros d b p d' E (H1 & H2 & H3).
    pose proof (oc_tell _ _ _ Hoc _ _ _ E). pose proof (oc_seek _ _ _ Hoc _ _ _ _ E) as Hp. subst p.
    split; [lia|]. intros _. rewrite Hp. split; [exact H1|]. split; [exact H2|exact (sk_next _ _ _ _ E H3)].
Qed.
Lemma mubuf_le s : Jbuf s -> (mubuf s < fuel)%nat.
Proof. unfold Jbuf, Iraw, mubuf. intros (H1 & [->|H2] & H3 & H4); [rewrite lenN_nil|]; lia. Qed.
Lemma a_fill_progress s : Iraw (a_dev s) -> a_buf s = [] -> match a_fill S rd s with
  | (Ok l, s') => a_buf s' = l /\ (l = [] \/ position (a_dev s') <= size /\ (mubuf s' <= mubuf s)%nat)
  | (Err EInterrupted, s') => (patience (a_dev s') < patience (a_dev s))%nat /\ a_buf s' = [] /\ (mubuf s' < mubuf s)%nat
  | _ => True end.
Proof.
  destruct s as [d b]. cbn [a_buf a_dev]. intros Hs ->. unfold a_fill. cbn [a_buf a_dev].
  destruct (rd buf_capacity d) as [[l|e] d'] eqn:E; unfold mubuf; cbn [a_buf a_dev].
  - split; [reflexivity|]. destruct (rd_below _ _ _ _ E Hs) as [->|K]; [now left|right].
    rewrite (oc_read _ _ _ Hoc _ _ _ _ E). destruct (rd_next _ _ _ _ E Hs). rewrite lenN_nil. lia.
  - destruct e; try exact I. pose proof (fs_interrupted _ _ _ _ _ Hfs _ _ _ E). rewrite (oc_read_err _ _ _ Hoc _ _ _ _ E).
    repeat split; lia.
Qed.
Lemma a_read_progress n s : Jbuf s -> 0 < n -> match a_read S rd n s with
  | (Ok [], _) => True | (Ok _, s') => (mubuf s' < mubuf s)%nat | (Err EInterrupted, s') => (mubuf s' < mubuf s)%nat | _ => True end.
Proof.
  intros HJ Hn. assert (Hdrop : forall d b, b <> [] -> (mubuf (mkabuf d (dropN n b)) < mubuf (mkabuf d b))%nat).
  { intros d b Hb. unfold mubuf. cbn [a_buf a_dev]. rewrite lenN_dropN.
    assert (0 < lenN b) by (destruct b; [easy|rewrite lenN_cons; lia]). lia. }
  assert (Htake : forall (b : bytes) (X : Prop), (b <> [] -> X) -> match takeN n b with [] => True | _ => X end).
  { intros b X HX. destruct (takeN n b) as [|b0 t] eqn:E; [exact I|]. apply HX. intros ->.
    apply (f_equal lenN) in E. rewrite lenN_takeN, lenN_cons, lenN_nil in E. lia. }
  destruct s as [d b]. unfold a_read. cbn [a_buf a_dev]. destruct b as [|b0 b].
  - destruct (buf_capacity <=? n).
    + pose proof (rd_progress n d (proj2 (proj2 HJ))) as K. unfold muraw in K. unfold mubuf.
      destruct (rd n d) as [[[|b l]|e] d']; cbn [a_buf a_dev]; rewrite ?lenN_nil; [exact I|lia|].
      destruct e; try exact I. lia.
    + pose proof (a_fill_progress (mkabuf d []) (proj2 (proj2 HJ)) eq_refl) as K.
      destruct (a_fill S rd (mkabuf d [])) as [[l|e] [d' b']]; cbn [a_buf a_dev] in K |- *.
      * destruct K as [-> K]. specialize (Htake l (mubuf (mkabuf d' (dropN n l)) < mubuf (mkabuf d []))%nat).
        destruct (takeN n l); [exact I|]. apply Htake. intros Hl. destruct K as [->|[_ K]]; [easy|].
        specialize (Hdrop d' l Hl). lia.
      * destruct e; try exact I. apply K.
  - specialize (Htake (b0 :: b) (mubuf (mkabuf d (dropN n (b0 :: b))) < mubuf (mkabuf d (b0 :: b)))%nat).
    destruct (takeN n (b0 :: b)); [exact I|]. apply Htake. intros Hl. now apply Hdrop.
Qed.
Lemma a_until_returns : forall f lim acc s, (N.to_nat lim + patience (a_dev s) + 1 <= f)%nat ->
  fst (a_until S rd f lim acc s) <> OutOfFuel.
Proof.
  induction f as [|f IH]; intros lim acc s Hf; [lia|]. cbn [a_until].
  destruct (N.eqb_spec lim 0) as [->|Hl]; [discriminate|].
  assert (Hfill : match a_fill S rd s with (Ok l, s') => l = a_buf s' /\ (patience (a_dev s') <= patience (a_dev s))%nat
    | (Err EInterrupted, s') => (patience (a_dev s') < patience (a_dev s))%nat | _ => True end).
  { unfold a_fill. destruct s as [d [|b0 b]]; cbn [a_buf a_dev]; [|split; auto].
    destruct (rd buf_capacity d) as [[l|e] d'] eqn:E; cbn [a_buf a_dev].
    - split; [reflexivity|]. exact (proj1 (fs_read_next _ _ _ _ _ Hfs _ _ _ _ E)).
    - destruct e; try exact I. exact (fs_interrupted _ _ _ _ _ Hfs _ _ _ E). }
  destruct (a_fill S rd s) as [[l|e] s'].
  - destruct Hfill as [-> Hp]. cbv zeta. destruct (split_lf (takeN lim (a_buf s'))) as [[a r]|]; [discriminate|].
    destruct (takeN lim (a_buf s')) as [|b0 v] eqn:Ev; [discriminate|]. apply IH. cbn [a_dev]. rewrite lenN_cons. lia.
  - destruct e; try discriminate. apply IH. lia.
Qed.
Lemma buf_returns : returns (a_buf_machine S rd sk fuel) Jbuf.
Proof.
  split; cbn [a_buf_machine am_read_exact am_read_line am_tell].
  - intros n s Hs. apply (exact_returns _ Jbuf mubuf).
    + intros m t Ht. exact (proj2 (al_read _ _ _ jbuf_law m t Ht)).
    + exact a_read_progress.
    + exact Hs.
    + now apply mubuf_le.
  - intros n s (_ & _ & H & _). apply a_until_returns. lia.
  - intros s _. unfold a_tell. destruct (sk (FromCurrent 0) (a_dev s)) as [[p|e] d']; [|discriminate].
    destruct (p <? lenN (a_buf s)); discriminate.
Qed.
Lemma buf_run {A} st (p : prog A) Q s : ~ fu st -> wp st p Q -> Iraw s -> ret Iraw (arun_buf S rd sk fuel p s).
Proof.
  intros Hf Hw Hs. unfold arun_buf.
  assert (HJ : Jbuf (mkabuf s [])) by (split; cbn [a_buf a_dev]; [rewrite lenN_nil; lia|split; [now left|exact Hs]]).
  pose proof (arun_returns _ _ _ jbuf_law buf_returns st p Hf Q _ Hw HJ) as K.
  destruct (arun _ p _) as [[a| |] t]; cbn [ret] in *; auto. apply K.
Qed.

(** ** Without a buffer *)
Lemma raw_law : alaw (a_raw_machine S rd sk fuel) Iraw False.
Proof.
  split; cbn [a_raw_machine am_read am_read_exact am_read_line am_seek am_tell].
  - intros n s Hs. split; [now apply rd_legal|now apply rd_patience].
  - intros n s Hs. apply (exact_law rd Iraw); auto. intros; split; [now apply rd_legal|now apply rd_patience].
  - intros n s Hs.
    assert (K : match a_until S rd (fuel + N.to_nat n) n [] (mkabuf s []) with
      | (Done r, s') => legal_read (lenN (@nil byte) + n) r /\ Jbuf s' | (Panicked, _) => False | (OutOfFuel, _) => True end).
    { pose proof (al_line _ _ _ jbuf_law n (mkabuf s [])) as K. cbn [a_buf_machine am_read_line] in K. apply K.
      split; cbn [a_buf a_dev]; [rewrite lenN_nil; lia|split; [now left|exact Hs]]. }
    destruct (a_until S rd _ _ _ _) as [[r| |] t]; auto. split; [apply K|]. apply K.
  - intros w s Hs. split; [now apply sk_legal|now apply sk_patience].
  - intros s Hs. pose proof (sk_legal sk Hsk (FromCurrent 0) s) as K. pose proof (sk_patience (FromCurrent 0) s Hs) as K2.
    destruct (sk (FromCurrent 0) s) as [r s']. split; [exact K|exact K2].
Qed.
Lemma raw_returns : returns (a_raw_machine S rd sk fuel) Iraw.
Proof.
  split; cbn [a_raw_machine am_read_exact am_read_line am_tell].
  - intros n s Hs. apply (exact_returns _ Iraw muraw); [exact rd_patience| |exact Hs|now apply muraw_le].
    intros m t Ht _. now apply rd_progress.
  - intros n s Hs. pose proof (a_until_returns (fuel + N.to_nat n) n [] (mkabuf s [])) as K. cbn [a_dev] in K.
    destruct Hs as [Hs _]. destruct (a_until S rd (fuel + N.to_nat n) n [] (mkabuf s [])) as [r t]. apply K. lia.
  - intros s _. destruct (sk (FromCurrent 0) s); discriminate.
Qed.
Let M := a_raw_machine S rd sk fuel.
Lemma raw_run {A} st (p : prog A) Q s : ~ fu st -> wp st p Q -> Iraw s -> ret Iraw (arun M p s).
Proof. intros Hf Hw Hs. exact (arun_returns _ _ _ raw_law raw_returns st p Hf Q _ Hw Hs). Qed.

(** A successful [read_exact] stays below [size]. *)
Lemma exact_below : forall f n acc s l s', Iraw s -> 0 < n -> read_exact_loop rd f n acc s = (Done (Ok l), s') -> position s + n <= size.
Proof.
  induction f as [|f IH]; intros n acc s l s' Hs Hn; cbn [read_exact_loop]; (destruct (N.eqb_spec n 0); [lia|]); [discriminate|].
  destruct (rd n s) as [[[|b t]|e] s1] eqn:E; [discriminate| |].
  - intros H. pose proof (oc_read _ _ _ Hoc _ _ _ _ E) as Hp. pose proof (Hrd _ _ _ _ E) as Hle.
    destruct (rd_below _ _ _ _ E Hs) as [K|K]; [discriminate|].
    destruct (N.eq_dec (lenN (b :: t)) n) as [He|He]; [lia|]. apply IH in H; [lia|exact (proj1 (rd_next _ _ _ _ E Hs))|lia].
  - destruct e; try discriminate. intros H. apply IH in H; [|exact (proj1 (rd_next _ _ _ _ E Hs))|exact Hn]. now rewrite (oc_read_err _ _ _ Hoc _ _ _ _ E) in H.
Qed.

Lemma sk_ret w s : Iraw s -> ret Iraw (arun M (seek w) s).
Proof. intros Hs. unfold seek. cbn. pose proof (sk_patience w s Hs) as H. destruct (sk w s) as [[p|e] s']; exact H. Qed.
Lemma sk_start n s u s' : arun M (seek (FromStart n)) s = (Done (Ok u), s') -> position s' = n.
Proof.
  unfold seek. cbn. destruct (sk (FromStart n) s) as [[p|e] t] eqn:E; cbn; intros H; try discriminate H.
  injection H as _ <-. rewrite (oc_seek _ _ _ Hoc _ _ _ _ E). exact (fs_start _ _ _ _ _ Hfs _ _ _ _ E).
Qed.
Lemma add_run c a b s : a + b < 18446744073709551616 -> arun M (u64_add c a b) s = (Done (a + b), s).
Proof.
  intros H. unfold u64_add. replace (a + b <? u64_max1) with true; [reflexivity|].
  symmetry. apply N.ltb_lt. change u64_max1 with 18446744073709551616. exact H.
Qed.
Lemma bytes_run c n s : wf_cfg c -> n <= 100 -> 0 < n -> Iraw s -> ret Iraw (arun M (read_bytes c n) s) /\
  forall l s', arun M (read_bytes c n) s = (Done (Ok l), s') -> position s + n <= size.
Proof.
  intros Hc Hn Hn0 Hs. pose proof (isize_max_ge c Hc). unfold read_bytes, alloc.
  replace (isize_max c <? n) with false by (symmetry; apply N.ltb_ge; lia). cbn [bindp arun read_exact].
  pose proof (al_exact _ _ _ raw_law n s Hs) as HL. pose proof (re_exact _ _ raw_returns n s Hs) as HR.
  fold M in HL, HR. split.
  - destruct (am_read_exact M n s) as [[r| |] s']; cbn [ret arun]; [apply HL|exact I|now contradiction HR].
  - intros l s' E. destruct (am_read_exact M n s) as [[r| |] s1] eqn:E1; cbn [arun] in E; try discriminate E.
    injection E as -> <-. exact (exact_below _ _ _ _ _ _ Hs Hn0 E1).
Qed.
Lemma u32_run s : Iraw s -> ret Iraw (arun M read_u32_be s) /\
  forall v s', arun M read_u32_be s = (Done (Ok v), s') -> v < 4294967296.
Proof.
  intros Hs. unfold read_u32_be, read_exact, bindio. cbn [bindp arun].
  pose proof (al_exact _ _ _ raw_law 4 s Hs) as HL. pose proof (re_exact _ _ raw_returns 4 s Hs) as HR. fold M in HL, HR.
  destruct (am_read_exact M 4 s) as [[[l|e]| |] s']; cbn [bindp arun ok err ret fst] in *.
  - split; [apply HL|]. intros v s2 [= <- <-]. destruct HL as [HL _]. cbn in HL. apply (be_val_bound l 4). exact HL.
  - split; [apply HL|discriminate].
  - split; [exact I|discriminate].
  - now contradiction HR.
Qed.
Lemma id3_loop_returns (c : plat) : wf_cfg c -> forall f offset s, (N.to_nat (size - offset) <= f)%nat -> Iraw s ->
  ret Iraw (arun M (id3v2_loop c f offset) s).
Proof.
  intros Hc. induction f as [|f IH]; intros offset s Hf Hs; cbn [id3v2_loop].
  all: apply ret_bindp; [apply sk_ret; exact Hs|].
  all: intros r1 s1 E1 Hs1; destruct r1 as [p1|e1]; [|exact Hs1].
  all: apply ret_bindp; [now apply bytes_run|].
  all: intros r2 s2 E2 Hs2; destruct r2 as [buf|e2]; [|exact Hs2].
  all: assert (Hoff : offset + 10 <= size) by
    (pose proof (proj2 (bytes_run c 10 s1 Hc ltac:(discriminate) ltac:(reflexivity) Hs1) _ _ E2) as K;
     rewrite (sk_start _ _ _ _ E1) in K; exact K).
  { exfalso. lia. }
  destruct (negb (beqb (takeN 3 buf) (bs "ID3"))); [exact Hs2|].
  pose proof (tag_size_lt buf) as Htag. cbn zeta.
  rewrite arun_bindp, add_run by lia. rewrite arun_bindp, add_run by lia.
  assert (Hcont : forall next s3, Iraw s3 -> offset + 10 <= next -> next < 18446744073709551000 ->
     ret Iraw (arun M (let* next_offset0 :=
          if negb (N.land (bval (nth 5 buf x00)) 16 =? 0) then u64_add c next 10 else Ret next in
        id3v2_loop c f next_offset0) s3)).
  { intros next s3 Hs3 H1 H2. rewrite arun_bindp. destruct (negb _).
    - rewrite add_run by lia. apply IH; [lia|exact Hs3].
    - cbn [arun]. apply IH; [lia|exact Hs3]. }
  destruct (negb (N.land (bval (nth 5 buf x00)) 64 =? 0)).
  - unfold bindio. rewrite !arun_bindp. destruct (u32_run s2 Hs2) as [H1 H2].
    destruct (arun M read_u32_be s2) as [[[ext|e]| |] s3]; cbn [ret arun err] in *; [|exact H1|exact I|contradiction].
    specialize (H2 _ _ eq_refl). rewrite arun_bindp, add_run by lia. cbn [arun ok]. apply Hcont; [exact H1|lia|lia].
  - apply ret_bindp; [exact Hs2|]. intros r s3 [= <- <-] Hs3. apply Hcont; [exact Hs3|lia|lia].
Qed.
(** The bound of the loop may be smaller than the fuel: more fuel does not change a result. *)
Lemma id3_returns (c : plat) s : wf_cfg c -> Iraw s -> ret Iraw (arun M (from_id3v2_reader c fuel) s).
Proof.
  intros Hc Hs. unfold from_id3v2_reader. apply ret_bindp; [apply id3_loop_returns; [exact Hc|lia|exact Hs]|].
  intros r1 s1 _ Hs1. destruct r1 as [offset|e]; [|exact Hs1].
  apply ret_bindp; [now apply sk_ret|]. intros r2 s2 _ Hs2. destruct r2 as [u|e]; [|exact Hs2].
  apply ret_bindp; [now apply bytes_run|]. intros r3 s3 _ Hs3. destruct r3 as [buf|e]; [|exact Hs3].
  destruct (beqb buf (bs "fLaC")); [exact Hs3|]. destruct (existsb _ mp3_magics); exact Hs3.
Qed.
Lemma pdf_loop_returns : forall f total buf s, (N.to_nat (size - position s) <= f)%nat -> Iraw s ->
  ret Iraw (arun M (pdf_loop f total buf) s).
Proof.
  induction f as [|f IH]; intros total buf s Hf Hs; cbn [pdf_loop]; (destruct (total <? PDF_READ_LIMIT); [|exact Hs]).
  all: unfold read; cbn [bindio bindp arun]; change (am_read M CHUNK_SIZE s) with (rd CHUNK_SIZE s).
  all: pose proof (rd_patience CHUNK_SIZE s Hs) as Hs1.
  all: destruct (rd CHUNK_SIZE s) as [[chunk|e] s1] eqn:E; cbn [snd bindp arun] in *; [|exact Hs1].
  all: destruct (N.eqb_spec (lenN chunk) 0) as [E0|E0]; [exact Hs1|].
  all: assert (Hp : position s1 = position s + lenN chunk /\ position s1 <= size) by
    (pose proof (oc_read _ _ _ Hoc _ _ _ _ E); destruct (rd_below _ _ _ _ E Hs) as [->|K]; [now contradiction E0|lia]).
  { exfalso. lia. }
  destruct (holds_total (dropN (if total =? 0 then OVERLAP_SIZE else 0) (takeN (OVERLAP_SIZE + lenN chunk)
     (takeN OVERLAP_SIZE buf ++ chunk ++ dropN (OVERLAP_SIZE + lenN chunk) buf))) AI_MARKER) as (b & Hb).
  rewrite Hb. cbn [lift_exec bindp]. destruct b; [exact Hs1|]. apply IH; [lia|exact Hs1].
Qed.
Lemma pdf_returns s : Iraw s -> ret Iraw (arun M (from_pdf_reader fuel) s).
Proof.
  intros Hs. unfold from_pdf_reader. apply ret_bindp; [now apply sk_ret|].
  intros r s1 _ Hs1. destruct r as [u|e]; [|exact Hs1]. apply pdf_loop_returns; [lia|exact Hs1].
Qed.

Lemma reader_returns (c : plat) x s : wf_cfg c -> Iraw s -> ret Iraw (a_run rd sk fuel x (reader_of c fuel x) s).
Proof.
  intros Hc Hs. unfold a_run. pose proof (reader_static c fuel x Hc) as Hw.
  assert (Hd : uses_fuel x \/ ~ uses_fuel x) by (destruct x; cbn; tauto). destruct Hd as [Hd|Hd].
  - destruct x; try contradiction; cbn [buffered reader_of].
    + now apply id3_returns.
    + now apply pdf_returns.
  - destruct (buffered x); [exact (buf_run (sp c x) _ _ s Hd Hw Hs)|exact (raw_run (sp c x) _ _ s Hd Hw Hs)].
Qed.
Lemma from_reader_returns (c : cfg) s : wf_cfg c -> Iraw s ->
  fst (a_from_reader S rd sk fuel c s) <> OutOfFuel.
Proof.
  intros Hc Hs. unfold a_from_reader. pose proof (rd_patience window s Hs) as Hs1.
  destruct (rd window s) as [[[|b l]|e] s1]; cbn [snd] in Hs1; try discriminate.
  assert (G : forall s2, Iraw s2 -> fst (a_from_generic_reader S rd sk fuel c s2) <> OutOfFuel).
  { intros s2 Hs2. unfold a_from_generic_reader. destruct (feat c FTxt); [|discriminate].
    pose proof (reader_returns c FTxt s2 Hc Hs2) as K. unfold a_run in K. cbn [buffered reader_of] in K.
    destruct (arun_buf S rd sk fuel from_txt_reader s2) as [[[f|e]| |] s3]; cbn [ret] in K; try discriminate. contradiction. }
  assert (G' : forall s2, Iraw s2 -> fst (match a_from_generic_reader S rd sk fuel c s2 with
    | (Done f, s3) => (Done (@Ok FileFormat f), s3) | (Panicked, s3) => (Panicked, s3) | (OutOfFuel, s3) => (OutOfFuel, s3) end) <> OutOfFuel).
  { intros s2 Hs2. specialize (G s2 Hs2). destruct (a_from_generic_reader S rd sk fuel c s2) as [[f| |] s3]; try discriminate. now contradiction G. }
  destruct (from_signature (b :: l)) as [f|]; [|now apply G'].
  rewrite a_fmt_eq. destruct (feature_of f) as [x|]; [|discriminate]. destruct (feat c x); [|discriminate].
  pose proof (reader_returns c x s1 Hc Hs1) as K.
  destruct (a_run rd sk fuel x (reader_of c fuel x) s1) as [[[g|e]| |] s2]; cbn [ret] in K; try discriminate; [now apply G'|contradiction].
Qed.
End Return.
