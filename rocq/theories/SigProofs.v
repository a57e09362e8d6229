(** The signature scan. *)
From Coq Require Import NArith ZArith Bool String List Lia ZifyBool ZifyNat ZifyN.
From Verif Require Import Base BaseProofs Formats FormatsProofs Signatures IO Readers Lib Spec SpecSig.
Local Open Scope N_scope.

Lemma present_iff l off v : present l off v <->
  off + lenN v <= lenN l /\ takeN (lenN v) (dropN off l) = v.
Proof.
  split.
  - intros (pre & post & -> & <-). rewrite !lenN_app. split; [lia|].
    rewrite dropN_app_len by reflexivity. now apply takeN_app_len.
  - intros [H1 H2]. exists (takeN off l), (dropN (off + lenN v) l). split.
    + rewrite <- H2 at 1. rewrite app_assoc, <- takeN_dropN_app, take_dropN. reflexivity.
    + rewrite lenN_takeN. lia.
Qed.

Lemma part_matches_iff l off v : part_matches l (off, v) = true <-> present l off v.
Proof.
  unfold part_matches. rewrite andb_true_iff, N.leb_le, beqb_eq. symmetry. apply present_iff.
Qed.

Lemma alt_matches_iff l alt : forallb (part_matches l) alt = true <-> alt_matches l alt.
Proof.
  rewrite forallb_forall. unfold alt_matches. split.
  - intros H off v Hin. apply part_matches_iff. now apply H.
  - intros H [off v] Hin. apply part_matches_iff. now apply H.
Qed.

Lemma sig_matches_iff l alts : existsb (forallb (part_matches l)) alts = true <-> sig_matches l alts.
Proof.
  rewrite existsb_exists. unfold sig_matches. split; intros (a & H1 & H2); exists a;
    (split; [exact H1|]); now apply alt_matches_iff.
Qed.
Lemma sig_matches_false l alts :
  existsb (forallb (part_matches l)) alts = false <-> ~ sig_matches l alts.
Proof. rewrite <- sig_matches_iff. destruct (existsb _ alts); intuition congruence. Qed.

Lemma from_signature_in_some table l f : from_signature_in table l = Some f <-> first_match table l f.
Proof.
  unfold first_match. induction table as [|[g galts] table IH]; cbn [from_signature_in].
  - split; [discriminate|]. intros (before & alts & after & E & _). now destruct before.
  - destruct (existsb (forallb (part_matches l)) galts) eqn:Em.
    + apply sig_matches_iff in Em. split.
      * intros [= ->]. exists [], galts, table. split; [reflexivity|]. split; [exact Em|]. intros ? ? [].
      * intros (before & alts & after & E & H1 & H2). destruct before as [|[h halts] before].
        -- now injection E as -> _ _.
        -- injection E as <- <- _. exfalso. apply (H2 g galts); [now left|exact Em].
    + apply sig_matches_false in Em. rewrite IH. split.
      * intros (before & alts & after & -> & H1 & H2). exists ((g, galts) :: before), alts, after.
        split; [reflexivity|]. split; [exact H1|]. intros h halts [[= <- <-]|Hin]; eauto.
      * intros (before & alts & after & E & H1 & H2). destruct before as [|[h halts] before].
        -- injection E as -> -> _. contradiction.
        -- injection E as <- <- ->. exists before, alts, after. split; [reflexivity|].
           split; [exact H1|]. intros h' halts' Hin. apply (H2 h' halts'). now right.
Qed.
Lemma from_signature_in_none table l : from_signature_in table l = None <-> no_match table l.
Proof.
  unfold no_match. induction table as [|[g galts] table IH]; cbn [from_signature_in].
  - split; [intros _ ? ? []|reflexivity].
  - destruct (existsb (forallb (part_matches l)) galts) eqn:Em.
    + apply sig_matches_iff in Em. split; [discriminate|]. intros H. exfalso.
      apply (H g galts); [now left|exact Em].
    + apply sig_matches_false in Em. rewrite IH. split.
      * intros H h halts [[= <- <-]|Hin]; eauto.
      * intros H h halts Hin. apply (H h halts). now right.
Qed.

Lemma from_signature_some l f : from_signature l = Some f <-> first_match signatures l f.
Proof. apply from_signature_in_some. Qed.
Lemma from_signature_none l : from_signature l = None <-> no_match signatures l.
Proof. apply from_signature_in_none. Qed.

(** ** The window *)

Definition extent_ok (w : N) (e : sig_entry) : bool :=
  forallb (forallb (fun p : sig_part => fst p + lenN (snd p) <=? w)) (snd e).
Lemma table_extent : forallb (extent_ok 36870) signatures = true.
Proof. vm_compute. reflexivity. Qed.

Lemma part_window l off v : off + lenN v <= window ->
  part_matches (takeN window l) (off, v) = part_matches l (off, v).
Proof.
  intros H. unfold part_matches. rewrite lenN_takeN, dropN_takeN, takeN_takeN.
  replace (N.min (lenN v) (window - off)) with (lenN v) by lia. f_equal. lia.
Qed.

Lemma existsb_ext' {A} (f g : A -> bool) l : (forall x, In x l -> f x = g x) -> existsb f l = existsb g l.
Proof.
  induction l as [|x l IH]; intros H; [reflexivity|]. cbn [existsb]. rewrite H by now left.
  f_equal. apply IH. intros y Hy. apply H. now right.
Qed.
Lemma forallb_ext' {A} (f g : A -> bool) l : (forall x, In x l -> f x = g x) -> forallb f l = forallb g l.
Proof.
  induction l as [|x l IH]; intros H; [reflexivity|]. cbn [forallb]. rewrite H by now left.
  f_equal. apply IH. intros y Hy. apply H. now right.
Qed.

Lemma from_signature_window l : from_signature (takeN window l) = from_signature l.
Proof.
  unfold from_signature. pose proof table_extent as Ht. revert Ht.
  generalize signatures. intros table. induction table as [|[f alts] table IH]; [reflexivity|].
  cbn [forallb]. rewrite andb_true_iff. intros [H1 H2]. cbn [from_signature_in].
  rewrite IH by exact H2.
  assert (E : existsb (forallb (part_matches (takeN window l))) alts =
              existsb (forallb (part_matches l)) alts).
  { unfold extent_ok in H1. cbn [snd] in H1. rewrite forallb_forall in H1.
    apply existsb_ext'. intros alt Halt. specialize (H1 alt Halt). rewrite forallb_forall in H1.
    apply forallb_ext'. intros [off v] Hp. specialize (H1 _ Hp). cbn [fst snd] in H1.
    apply part_window. unfold window. lia. }
  rewrite E. reflexivity.
Qed.

(** ** Extension *)

Lemma present_app l r off v : present l off v -> present (l ++ r) off v.
Proof.
  intros (pre & post & -> & H). exists pre, (post ++ r). split; [|exact H]. now rewrite !app_assoc.
Qed.
Lemma sig_matches_app l r alts : sig_matches l alts -> sig_matches (l ++ r) alts.
Proof.
  intros (a & H1 & H2). exists a. split; [exact H1|]. intros off v Hin. now apply present_app, H2.
Qed.

(** Position of the entry that decides. *)
Fixpoint sig_rank_in (table : list sig_entry) (l : bytes) : option nat :=
  match table with
  | [] => None
  | (_, alts) :: table' =>
      if existsb (forallb (part_matches l)) alts then Some O
      else option_map S (sig_rank_in table' l)
  end.

Lemma from_signature_app table l r f : from_signature_in table l = Some f ->
  exists before alts after g, table = before ++ (f, alts) :: after /\
    from_signature_in table (l ++ r) = Some g /\
    (g = f \/ exists galts, In (g, galts) before).
Proof.
  induction table as [|[g galts] table IH]; cbn [from_signature_in]; [discriminate|].
  destruct (existsb (forallb (part_matches l)) galts) eqn:Em.
  - intros [= ->]. apply sig_matches_iff in Em. apply (sig_matches_app _ r) in Em.
    apply sig_matches_iff in Em. rewrite Em. exists [], galts, table, f. auto.
  - intros H. destruct (IH H) as (before & alts & after & h & -> & Hh & Hor).
    destruct (existsb (forallb (part_matches (l ++ r))) galts).
    + exists ((g, galts) :: before), alts, after, g. split; [reflexivity|]. split; [reflexivity|].
      right. exists galts. now left.
    + exists ((g, galts) :: before), alts, after, h. split; [reflexivity|]. split; [exact Hh|].
      destruct Hor as [->|[ha Hin]]; [now left|]. right. exists ha. now right.
Qed.

(** ** Fast evaluation, for the finite checks *)

Definition fast_part (l : bytes) (p : sig_part) : bool :=
  let '(off, v) := p in bstarts_with (dropN off l) v.
Lemma fast_part_ok l off v : (off < lenN l \/ v <> []) -> fast_part l (off, v) = part_matches l (off, v).
Proof.
  intros Hv. unfold fast_part. apply eq_true_iff_eq. rewrite part_matches_iff, bstarts_with_iff.
  split.
  - intros [r Hr]. exists (takeN off l), r. rewrite <- Hr, take_dropN. split; [reflexivity|].
    rewrite lenN_takeN. destruct (N.le_gt_cases off (lenN l)); [lia|].
    rewrite dropN_all in Hr by lia. destruct v; [|discriminate]. destruct Hv as [Hv|Hv]; [lia|congruence].
  - intros (pre & post & -> & <-). exists post. now rewrite dropN_app_len.
Qed.

Fixpoint fast_sig_in (table : list sig_entry) (l : bytes) : option FileFormat :=
  match table with
  | [] => None
  | (f, alts) :: table' =>
      if existsb (forallb (fast_part l)) alts then Some f else fast_sig_in table' l
  end.
Definition nonempty_values (e : sig_entry) : bool :=
  forallb (forallb (fun p : sig_part => match snd p with [] => false | _ => true end)) (snd e).
Lemma table_nonempty : forallb nonempty_values signatures = true.
Proof. vm_compute. reflexivity. Qed.
Lemma fast_sig_ok l : fast_sig_in signatures l = from_signature l.
Proof.
  unfold from_signature. pose proof table_nonempty as Ht. revert Ht.
  generalize signatures. intros table. induction table as [|[f alts] table IH]; [reflexivity|].
  cbn [forallb]. rewrite andb_true_iff. intros [H1 H2]. cbn [from_signature_in fast_sig_in].
  rewrite IH by exact H2.
  assert (E : existsb (forallb (fast_part l)) alts = existsb (forallb (part_matches l)) alts).
  { unfold nonempty_values in H1. cbn [snd] in H1. rewrite forallb_forall in H1.
    apply existsb_ext'. intros alt Halt. specialize (H1 alt Halt). rewrite forallb_forall in H1.
    apply forallb_ext'. intros [off v] Hp. specialize (H1 _ Hp). cbn [fst snd] in H1.
    apply fast_part_ok. right. destruct v; [discriminate|congruence]. }
  rewrite E. reflexivity.
Qed.

(** ** Witnesses *)

(** Overwrites [l] (extended with zeros) with [v] at [off]. *)
Definition place (l : bytes) (p : sig_part) : bytes :=
  let '(off, v) := p in
  takeN off l ++ repeat x00 (N.to_nat (off - lenN l)) ++ v ++ dropN (off + lenN v) l.
Definition witness (alt : sig_alt) : bytes := fold_left place alt [].

Definition witness_ok (f : FileFormat) (alt : sig_alt) : bool :=
  let l := witness alt in
  forallb (fast_part l) alt &&
  match fast_sig_in signatures l with Some g => feqb g f | None => false end.
Lemma witnesses_ok :
  forallb (fun e : sig_entry => forallb (witness_ok (fst e)) (snd e)) signatures = true.
Proof. vm_compute. reflexivity. Qed.
