(** The text reader recognises clean UTF-8 (C22, C23). *)
From Coq Require Import NArith ZArith Bool String List Lia ZifyBool ZifyNat ZifyN.
From Verif Require Import Base BaseProofs Formats IO Utf8 Readers Lib Mem IOProofs Spec SpecText Utf8Proofs
  LibProofs Ideal Static ReaderStatic.
Local Open Scope N_scope.

Lemma clean_nil : clean_text [].
Proof. exists []. auto. Qed.
Lemma clean_app a b : clean_text a -> clean_text b -> clean_text (a ++ b).
Proof.
  intros (xs & H1 & H2 & ->) (ys & H3 & H4 & ->). exists (xs ++ ys).
  rewrite !Forall_app, flat_map_app. auto.
Qed.

(** A line feed is always a character of its own. *)
Lemma encode_split_lf : forall cs x y, Forall scalar cs ->
  flat_map utf8_encode cs = x ++ x0a :: y ->
  exists cs1 cs2, cs = cs1 ++ 10 :: cs2 /\ x = flat_map utf8_encode cs1 /\
                  y = flat_map utf8_encode cs2.
Proof.
  induction cs as [|c cs IH]; intros x y Hs E.
  - destruct x; discriminate.
  - inversion Hs as [|? ? Hc Hs']; subst. cbn [flat_map] in E.
    destruct (N.le_gt_cases 128 c) as [Hhi|Hlo].
    + assert (Hpre : exists x', x = utf8_encode c ++ x' /\
                flat_map utf8_encode cs = x' ++ x0a :: y).
      { assert (Hall : forall b, In b (utf8_encode c) -> b <> x0a).
        { intros b Hin ->. pose proof (encode_high c x0a Hhi Hc Hin) as H.
          change (bval x0a) with 10 in H. lia. }
        revert x E Hall. generalize (utf8_encode c). intros e.
        induction e as [|b e IHe]; intros x E Hall; cbn [app] in E.
        - exists x. auto.
        - destruct x as [|b' x]; cbn [app] in E; injection E as -> E.
          + exfalso. apply (Hall x0a); [now left|reflexivity].
          + destruct (IHe x E) as (x' & -> & E').
            { intros b Hb. apply Hall. now right. }
            exists x'. auto. }
      destruct Hpre as (x' & -> & E'). destruct (IH x' y Hs' E') as (cs1 & cs2 & -> & -> & ->).
      exists (c :: cs1), cs2. auto.
    + rewrite encode_ascii in E by exact Hlo. cbn [app] in E. destruct x as [|b x]; cbn [app] in E.
      * injection E as Eb E. exists [], cs. split; [|auto]. cbn [app]. f_equal.
        rewrite <- (bval_byteN c) by lia. rewrite Eb. reflexivity.
      * injection E as Eb E. destruct (IH x y Hs' E) as (cs1 & cs2 & -> & -> & ->).
        exists (c :: cs1), cs2. split; [reflexivity|]. split; [|reflexivity].
        cbn [flat_map]. rewrite encode_ascii by exact Hlo. cbn [app]. congruence.
Qed.
Lemma clean_split x y : clean_text (x ++ x0a :: y) -> clean_text (x ++ [x0a]) /\ clean_text y.
Proof.
  intros (cs & H1 & H2 & E). symmetry in E.
  destruct (encode_split_lf cs x y H1 E) as (cs1 & cs2 & -> & -> & ->).
  rewrite Forall_app in H1, H2. destruct H1 as [H1 H1'], H2 as [H2 H2'].
  inversion H1'; inversion H2'; subst. split.
  - exists (cs1 ++ [10]). rewrite !Forall_app, flat_map_app. repeat split; auto.
  - exists cs2. auto.
Qed.

Lemma upto_lf_cases l : (~ In x0a l /\ upto_lf l = l) \/
  (exists x y, l = x ++ x0a :: y /\ ~ In x0a x /\ upto_lf l = x ++ [x0a]).
Proof.
  induction l as [|b l IH]; [left; split; [intros []|reflexivity]|].
  cbn [upto_lf]. destruct (Byte.eqb b x0a) eqn:E.
  - apply byte_eqb_eq in E. subst. right. exists [], l. split; [reflexivity|]. split; [intros []|reflexivity].
  - apply byte_eqb_neq in E. destruct IH as [[H1 H2]|(x & y & -> & H1 & H2)].
    + left. split; [|congruence]. intros [H|H]; auto.
    + right. exists (b :: x), y. split; [reflexivity|]. split; [intros [H|H]; auto|]. cbn. congruence.
Qed.

Lemma first_lines_0 l : first_lines 0 l = [].
Proof. now destruct l. Qed.
Lemma first_lines_nolf n l : ~ In x0a l -> first_lines (S n) l = l.
Proof.
  induction l as [|b l IH]; intros H; [reflexivity|]. cbn [first_lines].
  replace (Byte.eqb b x0a) with false.
  - f_equal. apply IH. intros Hin. apply H. now right.
  - symmetry. apply byte_eqb_neq. intros ->. apply H. now left.
Qed.
Lemma first_lines_lf n x y : ~ In x0a x ->
  first_lines (S n) (x ++ x0a :: y) = x ++ x0a :: first_lines n y.
Proof.
  induction x as [|b x IH]; intros H; [reflexivity|]. cbn [app first_lines].
  replace (Byte.eqb b x0a) with false.
  - f_equal. apply IH. intros Hin. apply H. now right.
  - symmetry. apply byte_eqb_neq. intros ->. apply H. now left.
Qed.
Lemma first_lines_step n l :
  first_lines (S n) l = upto_lf l ++ first_lines n (dropN (lenN (upto_lf l)) l).
Proof.
  destruct (upto_lf_cases l) as [[H ->]|(x & y & -> & H & ->)].
  - rewrite first_lines_nolf by exact H. rewrite dropN_all by lia.
    destruct n; cbn; now rewrite app_nil_r.
  - rewrite first_lines_lf by exact H.
    replace (x ++ x0a :: y) with ((x ++ [x0a]) ++ y) by now rewrite <- app_assoc.
    rewrite dropN_app_len by reflexivity. now rewrite <- app_assoc.
Qed.
Lemma clean_first_lines n l :
  clean_text (first_lines (S n) l) <->
  clean_text (upto_lf l) /\ clean_text (first_lines n (dropN (lenN (upto_lf l)) l)).
Proof.
  rewrite first_lines_step. split; [|intros [H1 H2]; now apply clean_app].
  destruct (upto_lf_cases l) as [[H ->]|(x & y & -> & H & ->)].
  - rewrite dropN_all by lia. destruct n; cbn [first_lines]; rewrite app_nil_r;
      intros Hc; (split; [exact Hc|apply clean_nil]).
  - rewrite <- app_assoc. apply clean_split.
Qed.

(** ** Characters *)

Lemma bad_char_iff c : bad_char c = true <-> forbidden c.
Proof.
  unfold bad_char, is_control, is_whitespace, forbidden, in_range. lia.
Qed.

Lemma rev_cons_eq {A} (l : list A) x r : rev l = x :: r -> l = rev r ++ [x].
Proof. intros H. now rewrite <- (rev_involutive l), H. Qed.
Lemma strip_eol_bad l : existsb bad_char (strip_eol l) = existsb bad_char l.
Proof.
  unfold strip_eol. destruct (rev l) as [|a r] eqn:E; [reflexivity|].
  apply rev_cons_eq in E.
  assert (H10 : a = 10 -> existsb bad_char (rev r) = existsb bad_char l).
  { intros ->. rewrite E, existsb_app. cbn [existsb].
    change (bad_char 10) with false. now rewrite !orb_false_r. }
  assert (H13 : forall r', a = 10 -> r = 13 :: r' -> existsb bad_char (rev r') = existsb bad_char l).
  { intros r' -> ->. rewrite E. cbn [rev]. rewrite !existsb_app. cbn [existsb].
    change (bad_char 10) with false. change (bad_char 13) with false. now rewrite !orb_false_r. }
  destruct (N.eq_dec a 10) as [->|Hne].
  - destruct r as [|b r']; [now apply H10|].
    destruct (N.eq_dec b 13) as [->|Hb]; [now apply H13|].
    destruct b as [|p]; [now apply H10|].
    do 4 (destruct p as [p|p|]; try (now apply H10)); now contradiction Hb.
  - destruct a as [|p]; [reflexivity|].
    do 4 (destruct p as [p|p|]; try reflexivity); now contradiction Hne.
Qed.

Lemma line_clean l cs : utf8_strict l = Some cs -> existsb bad_char (strip_eol cs) = false <-> clean_text l.
Proof.
  intros H. rewrite strip_eol_bad. split.
  - intros Hb. apply utf8_strict_spec in H. destruct H as [H1 H2]. exists cs.
    split; [exact H1|]. split; [|exact H2]. apply Forall_forall. intros c Hin Hf.
    apply bad_char_iff in Hf. assert (existsb bad_char cs = true) by (apply existsb_exists; eauto).
    congruence.
  - intros (cs' & H1 & H2 & H3). assert (Hs : utf8_strict l = Some cs') by (apply utf8_strict_spec; auto).
    rewrite Hs in H. injection H as ->. destruct (existsb bad_char cs) eqn:E; [|reflexivity].
    apply existsb_exists in E. destruct E as (c & Hin & Hb). apply bad_char_iff in Hb.
    rewrite Forall_forall in H2. exfalso. exact (H2 c Hin Hb).
Qed.

(** ** The reader *)

Lemma txt_lines_spec content max : forall n lim pos,
  let head := first_lines n (takeN lim (dropN pos content)) in
  (clean_text head /\ fst (mrun content max (txt_lines n lim) pos) = Done (Ok PlainText)) \/
  (~ clean_text head /\ exists e, fst (mrun content max (txt_lines n lim) pos) = Done (Err e)).
Proof.
  induction n as [|n IH]; intros lim pos head.
  - left. unfold head. rewrite first_lines_0. split; [apply clean_nil|reflexivity].
  - unfold head. rewrite clean_first_lines. cbn [txt_lines]. unfold mrun in *.
    rewrite run_bindio. unfold read_line. cbn [run mem_machine m_read_line mem_read_line].
    set (view := takeN lim (dropN pos content)).
    pose proof (upto_lf_prefix view) as [rest Hrest].
    set (line := upto_lf view) in *.
    assert (Hnext : takeN (lim - lenN line) (dropN (pos + lenN line) content) = dropN (lenN line) view).
    { rewrite <- dropN_dropN. unfold view. rewrite dropN_takeN. reflexivity. }
    destruct line as [|b line'] eqn:El.
    + left. cbn [run ok fst]. split; [|reflexivity]. split; [apply clean_nil|].
      assert (Hv : view = []).
      { unfold line in El. destruct view as [|v vs]; [reflexivity|]. cbn [upto_lf] in El.
        destruct (Byte.eqb v x0a); discriminate. }
      rewrite Hv. destruct n; apply clean_nil.
    + remember (b :: line') as line0 eqn:E0. clear E0.
      destruct (utf8_strict line0) as [cs|] eqn:Eu.
      * destruct (existsb bad_char (strip_eol cs)) eqn:Eb.
        -- right. split; [|cbn [run err fst]; eauto]. intros [H _].
           apply (line_clean line0 cs Eu) in H. congruence.
        -- apply (line_clean line0 cs Eu) in Eb.
           specialize (IH (lim - lenN line0) (pos + lenN line0)). cbn zeta in IH.
           rewrite Hnext in IH. destruct IH as [[H1 H2]|[H1 H2]]; [left|right]; tauto.
      * right. split; [|cbn [run err fst]; eauto]. intros [(cs & H1 & H2 & H3) _].
        assert (Hs : utf8_strict line0 = Some cs) by (apply utf8_strict_spec; auto). congruence.
Qed.

Lemma txt_reader_spec (c : plat) content max :
  (clean_text (text_head content) /\ mreader c content max FTxt = Done (Ok PlainText)) \/
  (~ clean_text (text_head content) /\ exists e, mreader c content max FTxt = Done (Err e)).
Proof.
  unfold mreader, mrun, text_head. cbn [reader_of]. unfold from_txt_reader, rewind, seek.
  rewrite run_bindio. cbn [run mem_machine m_seek mem_seek].
  unfold mem_seek. cbn [seek_target].
  replace ((Z.of_N 0 <? 0)%Z || (Z.of_N max <? Z.of_N 0)%Z) with false by lia.
  change (Z.to_N (Z.of_N 0)) with 0. cbn [run].
  pose proof (txt_lines_spec content max 16 65536 0) as H. cbn zeta in H. rewrite dropN_0 in H.
  exact H.
Qed.

Lemma ideal_generic_spec (c : cfg) content max :
  (feat c FTxt = true /\ clean_text (text_head content) /\
   ideal_generic c content max = Done PlainText) \/
  ((feat c FTxt = false \/ ~ clean_text (text_head content)) /\
   ideal_generic c content max = Done ArbitraryBinaryData).
Proof.
  unfold ideal_generic. destruct (feat c FTxt); [|right; auto].
  destruct (txt_reader_spec c content max) as [[H1 ->]|[H1 [e ->]]]; auto.
Qed.

(** ** Encoded text *)

Lemma first_lines_clean n l : clean_text l -> clean_text (first_lines n l).
Proof.
  revert l. induction n as [|n IH]; intros l H; [rewrite first_lines_0; apply clean_nil|].
  apply clean_first_lines. destruct (upto_lf_cases l) as [[Hn ->]|(x & y & -> & Hn & ->)].
  - split; [exact H|]. rewrite dropN_all by lia. destruct n; apply clean_nil.
  - apply clean_split in H. destruct H as [H1 H2]. split; [exact H1|].
    replace (x ++ x0a :: y) with ((x ++ [x0a]) ++ y) by now rewrite <- app_assoc.
    rewrite dropN_app_len by reflexivity. now apply IH.
Qed.
Lemma text_head_clean l : clean_text l -> lenN l <= 65536 -> clean_text (text_head l).
Proof.
  intros H Hl. unfold text_head. rewrite takeN_all by exact Hl. now apply first_lines_clean.
Qed.
