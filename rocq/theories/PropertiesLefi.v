(** C45: the command-line program. *)
From Coq Require Import NArith ZArith Bool String List Lia ZifyBool ZifyNat ZifyN.
From Verif Require Import Base BaseProofs Formats IO Utf8 Lib Lefi Spec SpecApi SpecLefi Conf PropertiesApi.
Import ListNotations.
Local Open Scope N_scope.

Lemma fold_max_spec l : forall m, let r := fold_left N.max l m in
  m <= r /\ (forall n, In n l -> n <= r) /\ (r = m \/ In r l).
Proof.
  induction l as [|a l IH]; intros m; cbn [fold_left].
  - cbn. split; [lia|]. split; [easy|now left].
  - specialize (IH (N.max m a)). cbv zeta in *. destruct IH as (H1 & H2 & H3). split; [lia|]. split.
    + intros n [<-|H]; [lia|auto].
    + destruct H3 as [H3|H3]; [|right; now right].
      destruct (N.max_spec m a) as [[_ E]|[_ E]]; rewrite E in *; [right; left; congruence|left; exact H3].
Qed.

Lemma width_column args : is_column args (lefi_width args).
Proof.
  unfold lefi_width. destruct (fold_max_spec (map lenN args) 0) as (_ & H2 & H3). cbv zeta in *. split.
  - intros a Ha. specialize (H2 (lenN a) (in_map lenN _ _ Ha)). lia.
  - intros Hne. destruct H3 as [H3|H3].
    + rewrite H3. destruct args as [|a args]; [easy|]. exists a. split; [now left|].
      specialize (H2 (lenN a) (or_introl eq_refl)). rewrite H3 in H2. lia.
    + apply in_map_iff in H3 as (a & Ea & Ha). exists a. split; [exact Ha|]. rewrite Ea. lia.
Qed.

Lemma line_spec (c : cfg) width arg e line : lenN arg + 1 <= width ->
  (lefi_line c width arg e = Done (Ok line) <->
   exists msg, described c e msg /\ aligned_line width arg msg line).
Proof.
  intros Hw.
  assert (K : forall msg, aligned_line width arg msg (pad_right width (lefi_input arg) ++ us " " ++ msg)).
  { intros msg. exists (repeat 32 (N.to_nat (width - lenN (lefi_input arg)))). split.
    - apply Forall_forall. intros x Hx. now apply repeat_spec in Hx.
    - unfold pad_right, lefi_input. change (us ":") with [58]. split; [now rewrite <- !app_assoc|].
      rewrite !lenN_app. change (lenN [58]) with 1.
      assert (Er : forall k, lenN (repeat 32 (N.to_nat k)) = k) by (intros k; unfold lenN; rewrite repeat_length; lia).
      rewrite Er. lia. }
  assert (U : forall msg l1 l2, aligned_line width arg msg l1 -> aligned_line width arg msg l2 -> l1 = l2).
  { intros msg l1 l2 (s1 & F1 & -> & E1) (s2 & F2 & -> & E2). do 2 f_equal.
    assert (Hl : List.length s1 = List.length s2).
    { rewrite !lenN_app in E1, E2. unfold lenN in E1, E2. lia. }
    rewrite !app_assoc. do 2 f_equal.
    clear - F1 F2 Hl. revert s2 F2 Hl. induction F1 as [|x s1 <- F1 IH]; intros [|y s2] F2 Hl; try discriminate; [easy|].
    inversion F2; subst. f_equal. apply IH; auto. }
  unfold lefi_line. split.
  - destruct e as [| |n].
    + intros [= <-]. exists (us "Symbolic Link"). split; [constructor|apply K].
    + intros [= <-]. exists (us "Directory"). split; [constructor|apply K].
    + destruct (from_file c n) as [[f|x]| |] eqn:E; try discriminate. intros [= <-].
      exists (lefi_describe f). split; [|apply K]. unfold lefi_describe.
      destruct (short_name f) as [s|] eqn:Es; econstructor; eauto.
  - intros (msg & Hd & Ha). destruct Hd as [| |n f s Hf Hs|n f Hf Hs].
    + do 2 f_equal. now apply (U (us "Symbolic Link")).
    + do 2 f_equal. now apply (U (us "Directory")).
    + rewrite Hf. do 2 f_equal. eapply U; [apply K|]. unfold lefi_describe. rewrite Hs. exact Ha.
    + rewrite Hf. do 2 f_equal. eapply U; [apply K|]. unfold lefi_describe. rewrite Hs. exact Ha.
Qed.

Lemma loop_ok (c : cfg) fs width args : (forall a, In a args -> lenN a + 1 <= width) ->
  forall lines, lefi_loop c fs width args = (lines, Done (Ok tt)) <->
    Forall2 (fun a line => exists msg, described c (fs a) msg /\ aligned_line width a msg line) args lines.
Proof.
  induction args as [|a args IH]; intros Hw lines; cbn [lefi_loop].
  - split; [intros [= <-]; constructor|intros H; inversion H; reflexivity].
  - assert (Ha : lenN a + 1 <= width) by (apply Hw; now left).
    assert (Hr : forall b, In b args -> lenN b + 1 <= width) by (intros b Hb; apply Hw; now right).
    pose proof (fun line => line_spec c width a (fs a) line Ha) as L.
    split.
    + destruct (lefi_line c width a (fs a)) as [[l|x]| |] eqn:E; try discriminate.
      destruct (lefi_loop c fs width args) as [ls r] eqn:El. intros [= <- ->].
      constructor; [now apply L|]. now apply (IH Hr ls).
    + intros H. inversion H as [|x y l1 l2 H1 H2]; subst. apply L in H1. rewrite H1.
      apply (IH Hr) in H2. now rewrite H2.
Qed.

Lemma loop_err (c : cfg) fs width args : (forall a, In a args -> lenN a + 1 <= width) ->
  forall lines e, lefi_loop c fs width args = (lines, Done (Err e)) <->
    exists before a after n, args = before ++ a :: after /\
      Forall2 (fun a line => exists msg, described c (fs a) msg /\ aligned_line width a msg line) before lines /\
      fs a = EOtherNode n /\ from_file c n = Done (Err e).
Proof.
  induction args as [|a args IH]; intros Hw lines e; cbn [lefi_loop].
  - split; [discriminate|]. intros (b & x & y & n & E & _). destruct b; discriminate E.
  - assert (Ha : lenN a + 1 <= width) by (apply Hw; now left).
    assert (Hr : forall b, In b args -> lenN b + 1 <= width) by (intros b Hb; apply Hw; now right).
    pose proof (fun line => line_spec c width a (fs a) line Ha) as L.
    split.
    + destruct (lefi_line c width a (fs a)) as [[l|x]| |] eqn:E; try discriminate.
      * destruct (lefi_loop c fs width args) as [ls r] eqn:El. intros [= <- ->].
        destruct (proj1 (IH Hr ls e) eq_refl) as (b & y & z & n & -> & H1 & H2 & H3).
        exists (a :: b), y, z, n. split; [reflexivity|]. split; [|auto]. constructor; [now apply L|exact H1].
      * intros [= <- ->]. exists [], a, args. unfold lefi_line in E.
        destruct (fs a) as [| |n]; try discriminate E. exists n.
        destruct (from_file c n) as [[f|x]| |] eqn:Ef; try discriminate E. injection E as ->.
        split; [reflexivity|]. split; [constructor|]. auto.
    + intros (b & x & y & n & E & H1 & H2 & H3). destruct b as [|b0 b].
      * injection E as <- <-. inversion H1; subst. unfold lefi_line. rewrite H2, H3. reflexivity.
      * injection E as <- ->. inversion H1 as [|? line ? lines' G1 G2]; subst. apply L in G1. rewrite G1.
        assert (G : lefi_loop c fs width (b ++ x :: y) = (lines', Done (Err e)))
          by (apply (IH Hr); eauto 10). now rewrite G.
Qed.

(** When every path can be read the program succeeds and prints one line per argument, in order,
    with all descriptions starting in the same column, one behind the longest argument and its
    colon; and it succeeds only then. *)
Theorem C45_success : forall (c : cfg) fs args lines,
  lefi_main c fs args = (lines, Done (Ok tt)) <->
  exists column, is_column args column /\
    Forall2 (fun a line => exists msg, described c (fs a) msg /\ aligned_line column a msg line) args lines.
Proof.
  intros c fs args lines. destruct (width_column args) as [W1 W2]. unfold lefi_main. rewrite (loop_ok c fs _ args W1). split.
  - intros H. exists (lefi_width args). split; [now split|exact H].
  - intros (column & [C1 C2] & H). destruct args as [|a args]; [inversion H; constructor|].
    replace (lefi_width (a :: args)) with column; [exact H|].
    destruct W2 as (x & X1 & X2); [easy|]. destruct C2 as (y & Y1 & Y2); [easy|].
    specialize (C1 x X1). specialize (W1 y Y1). lia.
Qed.
Print Assumptions C45_success.

(** It fails exactly at the first path that cannot be read, with the error of that path and after
    printing the lines of the paths before it. *)
Theorem C45_failure : forall (c : cfg) fs args lines e,
  lefi_main c fs args = (lines, Done (Err e)) <->
  exists before a after n column, args = before ++ a :: after /\ is_column args column /\
    Forall2 (fun a line => exists msg, described c (fs a) msg /\ aligned_line column a msg line) before lines /\
    fs a = EOtherNode n /\ from_file c n = Done (Err e).
Proof.
  intros c fs args lines e. destruct (width_column args) as [W1 W2]. unfold lefi_main. rewrite (loop_err c fs _ args W1). split.
  - intros (b & a & t & n & H). exists b, a, t, n, (lefi_width args). destruct H as (H1 & H2 & H3 & H4).
    split; [exact H1|]. split; [now split|]. auto.
  - intros (b & a & t & n & column & H1 & [C1 C2] & H2 & H3 & H4).
    assert (E : lefi_width args = column).
    { assert (Hne : args <> []) by (rewrite H1; destruct b; discriminate).
      destruct W2 as (x & X1 & X2); [easy|]. destruct C2 as (y & Y1 & Y2); [easy|].
      specialize (C1 x X1). specialize (W1 y Y1). lia. }
    rewrite E. exists b, a, t, n. auto.
Qed.
Print Assumptions C45_failure.

(** In the builds of C02 the program ends, and never by a panic. *)
Theorem C45_total : forall (c : cfg) fs args, supported c ->
  (forall a l max, In a args -> fs a = EOtherNode (FsRegular l max) -> rust_slice l /\ max < 2 ^ 64) ->
  ovf c = false -> usize_bits c = 64 \/ feat c FZip = false ->
  exists lines r, lefi_main c fs args = (lines, Done r).
Proof.
  intros c fs args Hc Hfs Ho Hz. unfold lefi_main. generalize (lefi_width args). intros w.
  revert Hfs. induction args as [|a args IH]; intros Hfs; cbn [lefi_loop]; [eauto|].
  assert (T : exists r, lefi_line c w a (fs a) = Done r).
  { unfold lefi_line. destruct (fs a) as [| |n] eqn:E; eauto.
    assert (F : exists r, from_file c n = Done r).
    { destruct n as [e|e|l max]; cbn [from_file]; [eauto|cbn; eauto|].
      destruct (Hfs a l max ltac:(now left) E) as [H1 H2].
      apply C02_from_reader_total; auto. }
    destruct F as ([f|x] & ->); eauto. }
  destruct T as ([l|x] & ->); [|eauto].
  destruct (IH ltac:(intros b l' m Hb; apply Hfs; now right)) as (ls & r & ->). eauto.
Qed.
Print Assumptions C45_total.

(** A run on a link, a directory, a GIF and an empty file, then on a missing one. *)
Definition demo_fs (a : ustr) : entry :=
  if ustr_eqb a (us "link") then ESymlink
  else if ustr_eqb a (us "dir") then EDirectory
  else if ustr_eqb a (us "picture") then EOtherNode (FsRegular (bs "GIF89a....") 1000)
  else if ustr_eqb a (us "e") then EOtherNode (FsRegular [] 1000)
  else EOtherNode (FsNoOpen 2).
Example C45_demo : lefi_main cfg_all demo_fs (map us ["link"; "dir"; "picture"; "e"]%string) =
  (map us [ "link:    Symbolic Link";
            "dir:     Directory";
            "picture: Graphics Interchange Format (GIF)";
            "e:       Empty" ]%string, Done (Ok tt)).
Proof. vm_compute. reflexivity. Qed.
Example C45_demo_missing : lefi_main cfg_all demo_fs (map us ["dir"; "?"; "link"]%string) =
  (map us [ "dir:  Directory" ]%string, Done (Err (EOther 2))).
Proof. vm_compute. reflexivity. Qed.
