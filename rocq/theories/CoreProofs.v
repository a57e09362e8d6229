(** Consequences for the public API: C01-C03, C04-C07, C09-C17. *)
From Coq Require Import NArith ZArith Bool String List Lia ZifyBool ZifyNat ZifyN.
From Verif Require Import Base BaseProofs Formats FormatsProofs Signatures IO Find FindProofs Utf8
  Readers Lib Mem IOProofs Documented Static ReaderStatic Lawful LibProofs Ideal Spec SpecSig SigProofs.
Local Open Scope N_scope.

(** ** Formats that cannot come out *)

Lemma from_signature_in_table l f : from_signature l = Some f -> In f (map fst signatures).
Proof.
  rewrite from_signature_some. intros (before & alts & after & -> & _).
  rewrite map_app, in_app_iff. right. now left.
Qed.
Definition never_signed : list FileFormat := [Empty; ArbitraryBinaryData; PlainText].
Lemma table_formats :
  forallb (fun e : sig_entry => negb (fmem (fst e) never_signed)) signatures = true.
Proof. vm_compute. reflexivity. Qed.
Lemma from_signature_never l f : from_signature l = Some f -> ~ In f never_signed.
Proof.
  intros H Hin. apply from_signature_in_table in H. apply in_map_iff in H.
  destruct H as (e & <- & He). pose proof table_formats as Ht. rewrite forallb_forall in Ht.
  specialize (Ht e He). apply fmem_in in Hin. rewrite Hin in Ht. discriminate Ht.
Qed.
Lemma family_never x f : x <> FTxt -> family x f -> ~ In f never_signed.
Proof.
  intros Hx H Hin. apply familyb_ok in H. apply fmem_in in Hin.
  assert (Hall : forallb (fun g => negb (familyb x g && fmem g never_signed)) all_formats = true).
  { destruct x; try (now contradiction Hx); vm_compute; reflexivity. }
  pose proof (proj1 (forallb_forall _ _) Hall f (all_formats_complete f)) as Hf. clear Hall. rename Hf into Hall. cbn beta in Hall.
  rewrite H, Hin in Hall. discriminate Hall.
Qed.

(** ** from_bytes in terms of from_reader *)

Lemma cursor_read l : dev_read window (cursor l) =
  (Ok (takeN window l), mkdev l (lenN (takeN window l)) [] [] (u64_max1 - 1)).
Proof.
  unfold dev_read, cursor, avail. cbn [d_reads d_content d_pos d_max d_seeks].
  now rewrite dropN_0, N.add_0_l.
Qed.
Lemma takeN_window_nil (l : bytes) : takeN window l = [] <-> l = [].
Proof. destruct l; [split; reflexivity|]. split; discriminate. Qed.

Section Any.
Variable c : cfg.
Hypothesis Hc : wf_cfg c.

(** No panic is possible. *)
Definition no_panic_cfg : Prop :=
  forall x, feat c x = true -> ~ may_panic' c x.

Lemma from_reader_done d : no_panic_cfg -> lenN (d_content d) < 2 ^ 63 -> d_max d < u64_max1 ->
  exists r, fst (from_reader c d) = Done r.
Proof.
  intros Hn Hlen Hmax. pose proof (from_reader_any c d Hc Hlen Hmax) as H.
  destruct (dev_read window d) as [[buf|e] d1]; [|eauto].
  destruct buf as [|b buf]; [eauto|].
  destruct (fst (from_reader c d)) as [r| |]; [eauto| |contradiction].
  destruct H as (x & _ & Hx & _ & Hp). exfalso. exact (Hn x Hx Hp).
Qed.

Lemma from_reader_err d e : lenN (d_content d) < 2 ^ 63 -> d_max d < u64_max1 ->
  fst (from_reader c d) = Done (Err e) <-> fst (dev_read window d) = Err e.
Proof.
  intros Hlen Hmax. pose proof (from_reader_any c d Hc Hlen Hmax) as H.
  destruct (dev_read window d) as [[buf|e'] d1]; cbn [fst].
  - split; [|discriminate]. intros E. destruct buf as [|b buf].
    + rewrite H in E. discriminate.
    + rewrite E in H. contradiction.
  - rewrite H. split; intros [= ->]; reflexivity.
Qed.

Lemma from_reader_empty d : lenN (d_content d) < 2 ^ 63 -> d_max d < u64_max1 ->
  fst (from_reader c d) = Done (Ok Empty) <-> fst (dev_read window d) = Ok [].
Proof.
  intros Hlen Hmax. pose proof (from_reader_any c d Hc Hlen Hmax) as H.
  destruct (dev_read window d) as [[buf|e'] d1]; cbn [fst].
  - destruct buf as [|b buf].
    + rewrite H. split; reflexivity.
    + split; [|discriminate]. intros E. exfalso. rewrite E in H.
      assert (He : In Empty never_signed) by now left.
      destruct (from_signature (b :: buf)) as [f|] eqn:Ef.
      * destruct (feature_of f) as [x|] eqn:Ex.
        -- destruct (feat c x) eqn:Efx.
           ++ destruct H as [H|[H|[_ H]]]; [|discriminate H|discriminate H].
              apply feature_of_some in Ex.
              apply (family_never x Empty); [apply Ex|exact H|exact He].
           ++ subst f. exact (from_signature_never _ _ Ef He).
        -- subst f. exact (from_signature_never _ _ Ef He).
      * destruct H as [H|[_ H]]; discriminate H.
  - rewrite H. split; intros; discriminate.
Qed.

Lemma from_reader_result d buf g : lenN (d_content d) < 2 ^ 63 -> d_max d < u64_max1 ->
  fst (dev_read window d) = Ok buf -> buf <> [] -> fst (from_reader c d) = Done (Ok g) ->
  match from_signature buf with
  | None => g = ArbitraryBinaryData \/ (feat c FTxt = true /\ g = PlainText)
  | Some f =>
      match feature_of f with
      | Some x => if feat c x
                  then family x g \/ g = ArbitraryBinaryData \/
                       (feat c FTxt = true /\ g = PlainText)
                  else g = f
      | None => g = f
      end
  end.
Proof.
  intros Hlen Hmax E Hne Er. pose proof (from_reader_any c d Hc Hlen Hmax) as H.
  destruct (dev_read window d) as [r d1]. cbn [fst] in E. subst r.
  destruct buf as [|b buf]; [contradiction|]. rewrite Er in H. exact H.
Qed.

Lemma from_bytes_reader l f : lenN l < 2 ^ 63 ->
  from_bytes c l = Done f <-> fst (from_reader c (cursor l)) = Done (Ok f).
Proof.
  intros Hlen.
  assert (Hne : forall e, fst (from_reader c (cursor l)) <> Done (Err e)).
  { intros e He. apply from_reader_err in He; [|exact Hlen|reflexivity].
    rewrite cursor_read in He. discriminate He. }
  unfold from_bytes. destruct (fst (from_reader c (cursor l))) as [[g|e]| |].
  - split; intros [= ->]; reflexivity.
  - exfalso. exact (Hne e eq_refl).
  - split; discriminate.
  - split; discriminate.
Qed.

Lemma from_bytes_done l : no_panic_cfg -> lenN l < 2 ^ 63 -> exists f, from_bytes c l = Done f.
Proof.
  intros Hn Hlen. destruct (from_reader_done (cursor l) Hn Hlen eq_refl) as [[f|e] Hr].
  - exists f. apply from_bytes_reader; assumption.
  - apply from_reader_err in Hr; [|exact Hlen|reflexivity].
    rewrite cursor_read in Hr. discriminate Hr.
Qed.

Lemma from_bytes_empty l : lenN l < 2 ^ 63 -> from_bytes c l = Done Empty <-> l = [].
Proof.
  intros Hlen. rewrite from_bytes_reader, from_reader_empty by (exact Hlen || reflexivity).
  rewrite cursor_read. cbn [fst]. split.
  - intros [= H]. now apply takeN_window_nil.
  - intros ->. reflexivity.
Qed.

Lemma from_bytes_result l g : lenN l < 2 ^ 63 -> l <> [] -> from_bytes c l = Done g ->
  match from_signature l with
  | None => g = ArbitraryBinaryData \/ (feat c FTxt = true /\ g = PlainText)
  | Some f =>
      match feature_of f with
      | Some x => if feat c x
                  then family x g \/ g = ArbitraryBinaryData \/
                       (feat c FTxt = true /\ g = PlainText)
                  else g = f
      | None => g = f
      end
  end.
Proof.
  intros Hlen Hne E. rewrite from_bytes_reader in E by exact Hlen.
  rewrite <- from_signature_window.
  apply (from_reader_result (cursor l)); try assumption; try reflexivity.
  - now rewrite cursor_read.
  - intros H. exact (Hne (proj1 (takeN_window_nil l) H)).
Qed.
End Any.

(** ** Without readers *)

Definition featureless (c : cfg) : Prop := forall x, feat c x = false.

Lemma from_bytes_featureless (c : cfg) l : wf_cfg c -> featureless c -> lenN l < u64_max1 -> l <> [] ->
  from_bytes c l = Done (match from_signature l with Some f => f | None => ArbitraryBinaryData end).
Proof.
  intros Hc Hf Hlen Hne. rewrite from_bytes_ideal by assumption.
  unfold ideal_detect, ideal_generic. rewrite Hf.
  destruct (takeN window l) as [|b t] eqn:E; [exfalso; exact (Hne (proj1 (takeN_window_nil l) E))|].
  rewrite <- E, from_signature_window.
  destruct (from_signature l) as [f|]; [|reflexivity].
  destruct (feature_of f) as [x|]; [|reflexivity]. rewrite Hf. reflexivity.
Qed.

(** ** Dependence on the features *)

Lemma from_bytes_feature (c c' : cfg) l x : wf_cfg c -> lenN l < u64_max1 ->
  platform c = platform c' -> x <> FTxt -> (forall y, y <> x -> feat c y = feat c' y) ->
  from_signature l <> Some (container x) -> from_bytes c l = from_bytes c' l.
Proof.
  intros Hc Hlen Hp Hx Hy Hs.
  rewrite !from_bytes_ideal; try assumption; [|rewrite <- Hp; assumption].
  unfold ideal_detect, ideal_generic. rewrite <- Hp, from_signature_window.
  rewrite <- (Hy FTxt) by congruence.
  destruct (takeN window l) as [|b t]; [reflexivity|].
  destruct (from_signature l) as [f|]; [|reflexivity].
  destruct (feature_of f) as [y|] eqn:Ef; [|reflexivity].
  apply feature_of_some in Ef. destruct Ef as [-> Hyt].
  rewrite (Hy y) by congruence. reflexivity.
Qed.

Lemma from_bytes_txt (c c' : cfg) l : wf_cfg c -> lenN l < 2 ^ 63 ->
  platform c = platform c' -> (forall y, y <> FTxt -> feat c y = feat c' y) ->
  feat c FTxt = true -> feat c' FTxt = false ->
  from_bytes c l = from_bytes c' l \/
  (from_bytes c l = Done PlainText /\ from_bytes c' l = Done ArbitraryBinaryData).
Proof.
  intros Hc Hlen Hp Hy H1 H2.
  assert (Hlen' : lenN l < u64_max1) by (eapply N.lt_trans; [exact Hlen|reflexivity]).
  rewrite !from_bytes_ideal; try assumption; [|rewrite <- Hp; assumption].
  assert (Hg : ideal_generic c l (u64_max1 - 1) = ideal_generic c' l (u64_max1 - 1) \/
    ideal_generic c l (u64_max1 - 1) = Done PlainText /\
    ideal_generic c' l (u64_max1 - 1) = Done ArbitraryBinaryData).
  { assert (Hgood : good l (u64_max1 - 1) (mkdev l 0 [] [] (u64_max1 - 1))).
    { split; [constructor; cbn; auto; unfold u64_max1 in *; lia|cbn; lia]. }
    destruct (generic_any c l (mkdev l 0 [] [] (u64_max1 - 1)) Hc Hlen (conj eq_refl eq_refl))
      as (f & d' & E & Hf).
    destruct (generic_ideal c l (u64_max1 - 1) (mkdev l 0 [] [] (u64_max1 - 1)) Hc eq_refl Hgood)
      as (d2 & E2 & _).
    assert (Hi : ideal_generic c l (u64_max1 - 1) = Done f) by congruence.
    assert (E3 : ideal_generic c' l (u64_max1 - 1) = Done ArbitraryBinaryData)
      by (unfold ideal_generic; now rewrite H2).
    rewrite E3, Hi. destruct Hf as [->|[_ ->]]; auto. }
  unfold ideal_detect. rewrite <- Hp.
  destruct (takeN window l) as [|b t]; [left; reflexivity|].
  destruct (from_signature (b :: t)) as [f|]; [|exact Hg].
  destruct (feature_of f) as [y|] eqn:Ef; [|left; reflexivity].
  apply feature_of_some in Ef. destruct Ef as [-> Hyt].
  rewrite <- (Hy y) by assumption. destruct (feat c y); [|left; reflexivity].
  destruct (mreader c l (u64_max1 - 1) y) as [[g|e]| |]; auto.
Qed.

(** ** Buffering *)

Lemma buffering {A} content max (p : prog A) d : max < u64_max1 -> no_read p -> no_line p ->
  benign content max d -> d_pos d <= max -> fst (run_buf p d) = fst (run_raw p d).
Proof.
  intros Hmax H1 H2 Hb Hp. pose proof (good_raw content max d (conj Hb Hp)) as HR.
  destruct (buf_refines_prog content max Hmax p H1 d (d_pos d) HR) as (d1 & E1 & _).
  destruct (raw_refines_prog content max Hmax p H1 H2 d (d_pos d) HR) as (d2 & E2 & _).
  rewrite E1, E2. reflexivity.
Qed.
