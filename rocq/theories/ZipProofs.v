(** ZIP (C34-C36). *)
From Coq Require Import NArith ZArith Bool String List Lia ZifyBool ZifyNat ZifyN.
From Verif Require Import Base BaseProofs Formats FormatsProofs IO Find FindProofs Utf8 Readers Mem LibProofs Ideal Spec SpecText
  SpecBin SpecZip SpecApi Utf8Proofs BinProofs Exec ExeProofs Static ReaderStatic MediaProofs.
Ltac Zify.zify_post_hook ::= idtac.
Local Open Scope N_scope.

(** ** Names *)
Definition bends_with (l p : bytes) : bool := bstarts_with (rev l) (rev p).
Lemma bends_with_iff p l : bends_with l p = true <-> exists r, l = r ++ p.
Proof.
  unfold bends_with. rewrite bstarts_with_iff. split; intros [r E].
  - exists (rev r). rewrite <- (rev_involutive l), E, rev_app_distr. now rewrite rev_involutive.
  - exists (rev r). now rewrite E, rev_app_distr.
Qed.
Fixpoint bcontains (l p : bytes) : bool :=
  bstarts_with l p || match l with [] => false | _ :: t => bcontains t p end.
Lemma bcontains_iff p : forall l, bcontains l p = true <-> occurs p l.
Proof.
  unfold occurs. induction l as [|x l IH]; cbn [bcontains]; rewrite orb_true_iff, bstarts_with_iff.
  - split.
    + intros [[r E]|H]; [|discriminate H]. exists [], r. exact E.
    + intros ([|a a'] & b & E); [left; now exists b|discriminate E].
  - rewrite IH. split.
    + intros [[r E]|(a & b & ->)]; [exists [], r; exact E|exists (x :: a), b; reflexivity].
    + intros ([|a a'] & b & E); [left; now exists b|]. injection E as -> ->. right. now exists a', b.
Qed.
Definition has_slash (l : bytes) : bool := existsb (Byte.eqb x2f) l.
Lemma has_slash_iff l : has_slash l = true <-> In x2f l.
Proof.
  unfold has_slash. rewrite existsb_exists. split.
  - intros (x & Hin & E). apply byte_eqb_eq in E. now subst.
  - intros H. exists x2f. split; [exact H|reflexivity].
Qed.

Definition passesb (name : bytes) (t : name_test) : bool :=
  match t with
  | Is s => beqb name (bs s)
  | Under d => bstarts_with name (bs d)
  | UnderEnding d s => bstarts_with name (bs d) && bends_with name (bs s)
  | UnderHolding d s => bstarts_with name (bs d) && bcontains name (bs s)
  | TopLevel s => bends_with name (bs s) && negb (has_slash name)
  end.
Lemma passesb_iff name t : passesb name t = true <-> passes name t.
Proof.
  destruct t; cbn [passesb passes]; rewrite ?andb_true_iff, ?beqb_eq, ?bstarts_with_iff, ?bends_with_iff, ?bcontains_iff,
    ?negb_true_iff, <- ?not_true_iff_false, ?has_slash_iff; reflexivity.
Qed.

Fixpoint first_pass (name : bytes) (l : list (name_test * FileFormat)) : option FileFormat :=
  match l with
  | [] => None
  | (t, f) :: r => if passesb name t then Some f else first_pass name r
  end.
Lemma first_pass_some name l f : first_pass name l = Some f -> exists t, In (t, f) l /\ passes name t.
Proof.
  induction l as [|[t g] l IH]; cbn [first_pass]; [discriminate|].
  destruct (passesb name t) eqn:E.
  - intros [= ->]. exists t. split; [now left|now apply passesb_iff].
  - intros H. destruct (IH H) as (t' & Hin & Hp). exists t'. split; [now right|exact Hp].
Qed.
Lemma first_pass_none name l : first_pass name l = None -> forall t f, In (t, f) l -> ~ passes name t.
Proof.
  induction l as [|[t g] l IH]; cbn [first_pass]; [intros _ t f []|].
  destruct (passesb name t) eqn:E; [discriminate|].
  intros H t' f [[= <- <-]|Hin]; [|now apply (IH H) in Hin].
  intros K. apply passesb_iff in K. congruence.
Qed.

(** Two tests no name passes together. *)
Definition test_dir (t : name_test) : option bytes :=
  match t with
  | Under d | UnderEnding d _ | UnderHolding d _ => Some (bs d)
  | Is _ | TopLevel _ => None
  end.
Definition incompatible (t u : name_test) : bool :=
  match t, u with
  | Is s, _ => negb (passesb (bs s) u)
  | _, Is s => negb (passesb (bs s) t)
  | TopLevel s, TopLevel s' => negb (bends_with (bs s) (bs s') || bends_with (bs s') (bs s))
  | _, _ =>
      match test_dir t, test_dir u with
      | Some d, Some d' => negb (bstarts_with d d' || bstarts_with d' d)
      | Some d, None | None, Some d => has_slash d
      | None, None => false
      end
  end.
Lemma app_split_prefix {A} (a b : list A) : forall r s, a ++ r = b ++ s -> (exists x, a = b ++ x) \/ (exists x, b = a ++ x).
Proof.
  revert b. induction a as [|x a IH]; intros [|y b] r s E.
  - left. now exists [].
  - right. now exists (y :: b).
  - left. now exists (x :: a).
  - injection E as -> E. destruct (IH b r s E) as [[z ->]|[z ->]]; [left|right]; now exists z.
Qed.
Lemma passes_dir name t d : test_dir t = Some d -> passes name t -> exists r, name = d ++ r.
Proof. destruct t; cbn; intros [= <-]; tauto. Qed.
Lemma incompatible_sound name t u : incompatible t u = true -> passes name t -> passes name u -> False.
Proof.
  assert (His : forall s v, negb (passesb (bs s) v) = true -> passes name (Is s) -> passes name v -> False).
  { intros s v H H1 H2. cbn in H1. subst name. apply passesb_iff in H2. rewrite H2 in H. discriminate H. }
  assert (Hdd : forall v w d d', test_dir v = Some d -> test_dir w = Some d' ->
            negb (bstarts_with d d' || bstarts_with d' d) = true -> passes name v -> passes name w -> False).
  { intros v w d d' Hv Hw H H1 H2. apply (passes_dir _ _ _ Hv) in H1 as [r ->].
    apply (passes_dir _ _ _ Hw) in H2 as [s E]. apply negb_true_iff, orb_false_iff in H as [K1 K2].
    destruct (app_split_prefix _ _ _ _ E) as [[z ->]|[z ->]].
    - rewrite bstarts_with_app in K1. discriminate K1.
    - rewrite bstarts_with_app in K2. discriminate K2. }
  assert (Hdt : forall v d s, test_dir v = Some d -> has_slash d = true -> passes name v -> passes name (TopLevel s) -> False).
  { intros v d s Hv H H1 [_ H2]. apply (passes_dir _ _ _ Hv) in H1 as [r ->]. apply H2.
    apply in_or_app. left. now apply has_slash_iff. }
  destruct t, u; cbn [incompatible test_dir]; intros H H1 H2;
    try (eapply His; [exact H|exact H1|exact H2]); try (eapply His; [exact H|exact H2|exact H1]);
    try (eapply Hdd; [| |exact H|exact H1|exact H2]; reflexivity);
    try (eapply Hdt; [|exact H|exact H1|exact H2]; reflexivity);
    try (eapply Hdt; [|exact H|exact H2|exact H1]; reflexivity).
  cbn in H1, H2. destruct H1 as [[r ->] _], H2 as [[s E] _].
  apply negb_true_iff, orb_false_iff in H as [K1 K2].
  apply (f_equal (@rev byte)) in E. rewrite !rev_app_distr in E. unfold bends_with in *.
  destruct (app_split_prefix _ _ _ _ E) as [[z Ez]|[z Ez]].
  - rewrite Ez, bstarts_with_app in K1. discriminate K1.
  - rewrite Ez, bstarts_with_app in K2. discriminate K2.
Qed.

Lemma decisive_names_disjoint :
  forallb (fun a => forallb (fun b => feqb (snd a) (snd b) || incompatible (fst a) (fst b)) decisive_names)
    decisive_names = true.
Proof. vm_compute. reflexivity. Qed.
Lemma names_disjoint name f g : decisive_name name f -> decisive_name name g -> f = g.
Proof.
  intros (t & Ht & Hpt) (u & Hu & Hpu). pose proof decisive_names_disjoint as H.
  rewrite forallb_forall in H. specialize (H _ Ht). rewrite forallb_forall in H. specialize (H _ Hu).
  cbn [fst snd] in H. apply orb_prop in H as [H|H]; [now apply feqb_eq|].
  exfalso. exact (incompatible_sound _ _ _ H Hpt Hpu).
Qed.
Lemma first_pass_iff name f : first_pass name decisive_names = Some f <-> decisive_name name f.
Proof.
  split; [apply first_pass_some|]. intros H. destruct (first_pass name decisive_names) as [g|] eqn:E.
  - f_equal. symmetry. apply (names_disjoint name); [exact H|]. now apply first_pass_some.
  - destruct H as (t & Hin & Hp). exfalso. exact (first_pass_none _ _ E t f Hin Hp).
Qed.

(** Tests on decoded names are tests on the bytes. *)
Definition asciib (l : bytes) : bool := forallb (fun b => bval b <? 128) l.
Lemma asciib_ok l : asciib l = true -> ascii_bytes l.
Proof. unfold asciib, ascii_bytes. rewrite forallb_forall, Forall_forall. intros H b Hb. specialize (H b Hb). lia. Qed.
Lemma lossy_eqb n s : asciib (bs s) = true -> ustr_eqb (utf8_lossy n) (us s) = beqb n (bs s).
Proof.
  intros H. apply asciib_ok in H. apply eq_true_iff_eq. rewrite ustr_eqb_eq, beqb_eq. now apply lossy_eq.
Qed.
Lemma lossy_startsb n s : asciib (bs s) = true -> ustarts_with (utf8_lossy n) (us s) = bstarts_with n (bs s).
Proof.
  intros H. apply asciib_ok in H. apply eq_true_iff_eq. rewrite us_chars, lossy_starts, bstarts_with_iff by exact H. reflexivity.
Qed.
Lemma lossy_endsb n s : asciib (bs s) = true -> uends_with (utf8_lossy n) (us s) = bends_with n (bs s).
Proof.
  intros H. apply asciib_ok in H. apply eq_true_iff_eq. rewrite us_chars, lossy_ends, bends_with_iff by exact H. reflexivity.
Qed.
Lemma lossy_hasb n s : asciib (bs s) = true -> ucontains (utf8_lossy n) (us s) = bcontains n (bs s).
Proof.
  intros H. apply asciib_ok in H. apply eq_true_iff_eq. rewrite us_chars, lossy_contains, bcontains_iff by exact H. reflexivity.
Qed.
Lemma lossy_slash n : ucontains_char (utf8_lossy n) 47 = has_slash n.
Proof.
  apply eq_true_iff_eq. rewrite has_slash_iff. change 47 with (bval x2f). apply lossy_contains_char. reflexivity.
Qed.
Lemma lossy_lookup {B} n (t : list (string * B)) : forallb (fun e => asciib (bs (fst e))) t = true ->
  lookup_ustr (utf8_lossy n) t = (fix go t := match t with [] => None | (k, v) :: t' => if beqb n (bs k) then Some v else go t' end) t.
Proof.
  induction t as [|[k v] t IH]; cbn [forallb fst lookup_ustr]; [reflexivity|].
  intros H. apply andb_prop in H as [H1 H2]. rewrite lossy_eqb by exact H1. destruct (beqb n (bs k)); auto.
Qed.

Definition exact_names : list (name_test * FileFormat) := firstn 14 decisive_names.
Definition rule_names : list (name_test * FileFormat) := skipn 14 decisive_names.
Lemma first_pass_app n a b : first_pass n (a ++ b) = match first_pass n a with Some f => Some f | None => first_pass n b end.
Proof. induction a as [|[t f] a IH]; [reflexivity|]. cbn [app first_pass]. now destruct (passesb n t). Qed.
Lemma exact_names_ok n : lookup_ustr (utf8_lossy n) zip_name_table = first_pass n exact_names.
Proof. rewrite lossy_lookup by (vm_compute; reflexivity). reflexivity. Qed.
Lemma rule_names_ok n : zip_name_rules (utf8_lossy n) = first_pass n rule_names.
Proof.
  unfold zip_name_rules. cbv zeta.
  rewrite !lossy_startsb, !lossy_endsb, lossy_hasb, lossy_slash by (vm_compute; reflexivity).
  change rule_names with
    [(Under "Fusion[Active]/", Autodesk123d);
    (Under "circuitdiagram/", CircuitDiagramDocument);
    (Under "dwf/", DesignWebFormatXps);
    (TopLevel ".fb2", FictionbookZip);
    (Under "FusionAssetName[Active]/", Fusion360);
    (UnderHolding "Payload/" ".app/", IosAppStorePackage);
    (Under "word/", OfficeOpenXmlDocument);
    (Under "visio/", OfficeOpenXmlDrawing);
    (Under "ppt/", OfficeOpenXmlPresentation);
    (Under "xl/", OfficeOpenXmlSpreadsheet);
    (UnderEnding "Documents/" ".fpage", Openxps);
    (Under "SpaceClaim/", SpaceclaimDocument);
    (UnderEnding "3D/" ".model", ThreeDimensionalManufacturingFormat);
    (TopLevel ".usd", UniversalSceneDescriptionZip);
    (TopLevel ".usda", UniversalSceneDescriptionZip);
    (TopLevel ".usdc", UniversalSceneDescriptionZip) ]%string.
  cbn [first_pass passesb].
  destruct (bstarts_with n (bs "Fusion[Active]/")); [reflexivity|].
  destruct (bstarts_with n (bs "circuitdiagram/")); [reflexivity|].
  destruct (bstarts_with n (bs "dwf/")); [reflexivity|].
  destruct (bends_with n (bs ".fb2") && negb (has_slash n)); [reflexivity|].
  destruct (bstarts_with n (bs "FusionAssetName[Active]/")); [reflexivity|].
  destruct (bstarts_with n (bs "Payload/") && bcontains n (bs ".app/")); [reflexivity|].
  destruct (bstarts_with n (bs "word/")); [reflexivity|].
  destruct (bstarts_with n (bs "visio/")); [reflexivity|].
  destruct (bstarts_with n (bs "ppt/")); [reflexivity|].
  destruct (bstarts_with n (bs "xl/")); [reflexivity|].
  destruct (bstarts_with n (bs "Documents/") && bends_with n (bs ".fpage")); [reflexivity|].
  destruct (bstarts_with n (bs "SpaceClaim/")); [reflexivity|].
  destruct (bstarts_with n (bs "3D/") && bends_with n (bs ".model")); [reflexivity|].
  destruct (has_slash n); [now rewrite !andb_false_r|]. cbn [negb]. rewrite !andb_true_r.
  destruct (bends_with n (bs ".usd")); [reflexivity|]. destruct (bends_with n (bs ".usda")); [reflexivity|].
  reflexivity.
Qed.

Definition manifest_name : bytes := bs "META-INF/MANIFEST.MF".
Definition mimetype_name : bytes := bs "mimetype".
(** One round of the loop, in terms of the bytes of the name. *)
Lemma step_eq {A} n (stored : bool) (F : FileFormat -> A) (J M K : A) :
  match lookup_ustr (utf8_lossy n) zip_name_table with
  | Some f => F f
  | None =>
      if ustr_eqb (utf8_lossy n) (us "META-INF/MANIFEST.MF") then J
      else if ustr_eqb (utf8_lossy n) (us "mimetype") && stored then M
      else match zip_name_rules (utf8_lossy n) with Some f => F f | None => K end
  end =
  match first_pass n decisive_names with
  | Some f => F f
  | None => if beqb n manifest_name then J else if beqb n mimetype_name && stored then M else K
  end.
Proof.
  rewrite exact_names_ok, rule_names_ok, !lossy_eqb by (vm_compute; reflexivity).
  change decisive_names with (exact_names ++ rule_names). rewrite first_pass_app.
  fold manifest_name mimetype_name.
  destruct (first_pass n exact_names) as [f|]; [reflexivity|].
  destruct (beqb n manifest_name) eqn:E1.
  { apply beqb_eq in E1. subst n. reflexivity. }
  destruct (beqb n mimetype_name) eqn:E2; [|reflexivity].
  apply beqb_eq in E2. subst n. cbn [andb]. reflexivity.
Qed.

(** ** Media types *)
Lemma white_space_iff ch : is_whitespace ch = true <-> In ch white_spaces.
Proof.
  unfold is_whitespace, in_range, white_spaces. split; [|cbn [In]; lia].
  intros H. cbn [In]. lia.
Qed.
Lemma white_space_scalar ch : In ch white_spaces -> scalar ch /\ ch <> 65533.
Proof. unfold scalar. cbn [In white_spaces]. intros H. lia. Qed.
Lemma utf8_lossy_cons_white l ch t : utf8_lossy l = ch :: t -> ch <> 65533 -> exists r,
  l = utf8_encode ch ++ r /\ utf8_lossy r = t.
Proof.
  rewrite utf8_lossy_step. destruct (utf8_next l) as [[[c'|] r]|] eqn:E; [| |discriminate].
  - intros [= <- <-] _. apply utf8_next_sound in E. destruct E as [_ ->]. now exists r.
  - intros [= <- <-] H. now elim H.
Qed.
Lemma lossy_blank_prefix cs : Forall (fun ch => In ch white_spaces) cs -> forall l t,
  utf8_lossy l = cs ++ t <-> exists r, l = flat_map utf8_encode cs ++ r /\ utf8_lossy r = t.
Proof.
  induction 1 as [|ch cs Hch _ IH]; intros l t.
  - cbn. split; [intros H; now exists l|intros (r & -> & H); exact H].
  - cbn [app flat_map]. destruct (white_space_scalar ch Hch) as [Hs Hn]. split.
    + intros H. apply utf8_lossy_cons_white in H as (r & -> & Hr); [|exact Hn].
      apply IH in Hr as (r' & -> & Hr'). exists r'. now rewrite app_assoc.
    + intros (r & -> & Hr). rewrite <- app_assoc, utf8_lossy_step, utf8_next_complete by exact Hs.
      f_equal. apply IH. now exists r.
Qed.

Definition solid (t : ustr) : bool :=
  match t, rev t with
  | a :: _, b :: _ => negb (is_whitespace a) && negb (is_whitespace b)
  | _, _ => false
  end.
Lemma utrim_start_spec s : exists w, Forall (fun ch => In ch white_spaces) w /\ s = w ++ utrim_start s.
Proof.
  induction s as [|ch s (w & Hw & E)]; [now exists []|]. cbn [utrim_start].
  destruct (is_whitespace ch) eqn:Ec.
  - exists (ch :: w). split; [constructor; [now apply white_space_iff|exact Hw]|]. cbn. now rewrite <- E.
  - now exists [].
Qed.
Lemma utrim_start_skip w t : Forall (fun ch => In ch white_spaces) w ->
  match t with a :: _ => is_whitespace a = false | [] => True end -> utrim_start (w ++ t) = t.
Proof.
  induction 1 as [|ch w Hch _ IH]; intros Ht.
  - destruct t as [|a t]; [reflexivity|]. cbn. now rewrite Ht.
  - cbn [app utrim_start]. apply white_space_iff in Hch. rewrite Hch. exact (IH Ht).
Qed.
Lemma utrim_iff s t : solid t = true ->
  utrim s = t <-> exists a b, Forall (fun ch => In ch white_spaces) a /\ Forall (fun ch => In ch white_spaces) b /\ s = a ++ t ++ b.
Proof.
  intros Ht. split.
  - intros E. destruct (utrim_start_spec s) as (a & Ha & Ea).
    destruct (utrim_start_spec (rev (utrim_start s))) as (b & Hb & Eb).
    exists a, (rev b). split; [exact Ha|]. split; [now apply Forall_rev|].
    rewrite Ea at 1. f_equal. unfold utrim in E. rewrite <- E, <- rev_app_distr, <- Eb. now rewrite rev_involutive.
  - intros (a & b & Ha & Hb & ->). unfold solid in Ht. unfold utrim.
    destruct t as [|x t]; [discriminate Ht|]. destruct (rev (x :: t)) as [|y r] eqn:Er; [discriminate Ht|].
    apply andb_prop in Ht as [H1 H2]. apply negb_true_iff in H1, H2.
    rewrite utrim_start_skip; [|exact Ha|exact H1].
    rewrite rev_app_distr, Er, utrim_start_skip; [|now apply Forall_rev|exact H2].
    rewrite <- Er. apply rev_involutive.
Qed.

Lemma is_media_iff data m : asciib (bs m) = true -> solid (us m) = true ->
  utrim (utf8_lossy data) = us m <-> is_media_type data m.
Proof.
  intros Ha Hs. apply asciib_ok in Ha. rewrite (utrim_iff _ _ Hs). unfold is_media_type, blank. split.
  - intros (a & b & Wa & Wb & E). apply (lossy_blank_prefix a Wa) in E as (r & -> & Hr).
    rewrite us_chars in Hr. apply (utf8_lossy_prefix _ Ha) in Hr as (q & -> & Hq).
    rewrite <- (app_nil_r b) in Hq. apply (lossy_blank_prefix b Wb) in Hq as (z & -> & Hz).
    apply utf8_lossy_nil in Hz. subst z. rewrite app_nil_r.
    exists (flat_map utf8_encode a), (flat_map utf8_encode b). split; [now exists a|]. split; [now exists b|reflexivity].
  - intros (a' & b' & (a & Wa & ->) & (b & Wb & ->) & ->). exists a, b. split; [exact Wa|]. split; [exact Wb|].
    apply (lossy_blank_prefix a Wa). eexists. split; [reflexivity|].
    assert (Hne : bs m <> []) by (intros K; rewrite us_chars, K in Hs; discriminate Hs).
    pose proof (utf8_lossy_app_chars [] (bs m) (flat_map utf8_encode b) Ha Hne) as K. cbn [app] in K.
    rewrite K. change (utf8_lossy []) with (@nil N). cbn [app]. rewrite us_chars. f_equal.
    rewrite <- (app_nil_r b) at 2. apply (lossy_blank_prefix b Wb). exists []. now rewrite app_nil_r.
Qed.
Lemma media_table_ok : forallb (fun e => asciib (bs (fst e)) && solid (us (fst e))) media_types = true.
Proof. vm_compute. reflexivity. Qed.
Lemma lookup_media data l : forallb (fun e : string * FileFormat => asciib (bs (fst e)) && solid (us (fst e))) l = true ->
  match lookup_ustr (utrim (utf8_lossy data)) l with
  | Some f => exists m, In (m, f) l /\ is_media_type data m
  | None => forall m f, In (m, f) l -> ~ is_media_type data m
  end.
Proof.
  induction l as [|[m f] l IH]; cbn [forallb fst lookup_ustr]; intros H; [intros m f []|].
  apply andb_prop in H as [H1 H2]. apply andb_prop in H1 as [Ha Hs]. specialize (IH H2).
  destruct (ustr_eqb (utrim (utf8_lossy data)) (us m)) eqn:E.
  - apply ustr_eqb_eq, is_media_iff in E; [|exact Ha|exact Hs]. exists m. split; [now left|exact E].
  - destruct (lookup_ustr (utrim (utf8_lossy data)) l) as [g|].
    + destruct IH as (m' & Hin & Hm). exists m'. split; [now right|exact Hm].
    + intros m' f' [[= <- <-]|Hin]; [|now apply (IH m' f')].
      intros K. apply is_media_iff in K; [|exact Ha|exact Hs]. apply ustr_eqb_eq in K. congruence.
Qed.
Lemma media_types_unique data : forall m m' f f', In (m, f) media_types -> In (m', f') media_types ->
  is_media_type data m -> is_media_type data m' -> f = f'.
Proof.
  intros m m' f f' Hin Hin' Hm Hm'. pose proof media_table_ok as Ht. rewrite forallb_forall in Ht.
  pose proof (Ht _ Hin) as T. pose proof (Ht _ Hin') as T'. cbn [fst] in T, T'.
  apply andb_prop in T as [A S]. apply andb_prop in T' as [A' S'].
  apply (is_media_iff data m A S) in Hm. apply (is_media_iff data m' A' S') in Hm'.
  rewrite Hm in Hm'. 
  assert (U : forallb (fun a => forallb (fun b => negb (ustr_eqb (us (fst a)) (us (fst b))) || feqb (snd a) (snd b)) media_types)
                media_types = true) by (vm_compute; reflexivity).
  rewrite forallb_forall in U. specialize (U _ Hin). rewrite forallb_forall in U. specialize (U _ Hin').
  cbn [fst snd] in U. rewrite Hm' in U. replace (ustr_eqb (us m') (us m')) with true in U by (symmetry; now apply ustr_eqb_eq).
  cbn in U. now apply feqb_eq.
Qed.
Lemma media_class_result data f : media_class data f <-> zip_mime_result (utf8_lossy data) = f.
Proof.
  unfold zip_mime_result. change zip_mime_table with media_types.
  pose proof (lookup_media data media_types media_table_ok) as H.
  destruct (lookup_ustr (utrim (utf8_lossy data)) media_types) as [g|].
  - destruct H as (m & Hin & Hm). split.
    + intros [m' f' Hin' Hm'|Hn]; [|exfalso; exact (Hn m g Hin Hm)].
      exact (media_types_unique data _ _ _ _ Hin Hin' Hm Hm').
    + intros <-. exact (media_known data m g Hin Hm).
  - split; [|intros <-; now apply media_unknown].
    intros [m' f' Hin' Hm'|Hn]; [exfalso; exact (H m' f' Hin' Hm')|reflexivity].
Qed.

(** ** The reader *)
Section Zip.
Variables (c : plat) (content : bytes) (max : N).
Hypothesis Hc : wf_cfg c.
Hypothesis Hlen : lenN content <= max.
Hypothesis Hfit : lenN content <= isize_max c.
Hypothesis Hlen2 : lenN content < 2 ^ 63.

Lemma mimetype_spec e data f : entry_data content e data -> media_class data f -> e_csize e < 2 ^ 32 ->
  forall pos, ex content max (Readers.zip_mimetype c (e_offset e) (e_csize e)) pos = Done (Ok f).
Proof.
  change (2 ^ 63) with 9223372036854775808 in Hlen2.
  intros (before & head & name & extra & after & E & Hb & Hh & Hn & Hx & Hd) Hm Hcs pos.
  assert (Hat : at_ content (e_offset e + 26) (le_bytes 2 (lenN name) ++ le_bytes 2 (lenN extra) ++ name ++ extra ++ data ++ after)).
  { rewrite <- Hb, <- Hh, <- lenN_app. apply at_abs. rewrite <- app_assoc. exact E. }
  pose proof (proj2 Hat) as Hpos. rewrite !lenN_app, !lenN_le_bytes in Hpos.
  unfold Readers.zip_mimetype. apply ex_u64_add; [change u64_max1 with 18446744073709551616; lia|].
  apply ex_goto; [lia|].
  eapply (ex_int _ _ le_val 2); [exact Hat|apply lenN_le_bytes|apply le_val_le_bytes; exact Hn|]. intros Hat1.
  eapply (ex_int _ _ le_val 2); [exact Hat1|apply lenN_le_bytes|apply le_val_le_bytes; exact Hx|]. intros Hat2.
  rewrite app_assoc in Hat2.
  eapply ex_skip; [exact Hat2|rewrite lenN_app; lia|exact Hlen|]. intros Hat3.
  rewrite as_usize_u32 by (try exact Hc; exact Hcs).
  eapply ex_string; [|exact Hat3|exact Hd|]; [lia|]. intros _.
  apply media_class_result in Hm. now rewrite Hm.
Qed.

Lemma zip_loop_spec : forall n entries r pos d f, Forall wf_entry entries ->
  (n <= List.length entries)%nat -> at_ content pos (flat_map entry_bytes entries ++ r) ->
  zip_class content d (firstn n entries) f ->
  ex content max (zip_entries c n d) pos = Done (Ok f).
Proof.
  pose proof (isize_max_ge c Hc) as Hi.
  induction n as [|n IH]; intros entries r pos d f Hw Hn Hat Hcl.
  { cbn [firstn] in Hcl. inversion Hcl; subst. reflexivity. }
  destruct entries as [|e entries]; [cbn in Hn; lia|]. cbn [List.length] in Hn.
  inversion Hw as [|? ? He Hw']; subst. cbn [firstn] in Hcl.
  destruct He as (H20 & Hcs & Hus & H8 & Hof & Hnm & Hex & Hcm).
  change (2 ^ 16) with 65536 in *.
  cbn [flat_map] in Hat. rewrite <- app_assoc in Hat. unfold entry_bytes at 1 in Hat. rewrite <- !app_assoc in Hat.
  cbn [zip_entries].
  eapply ex_skip; [exact Hat|rewrite H20; reflexivity|exact Hlen|]. intros Hat1.
  eapply (ex_int _ _ le_val 4); [exact Hat1|apply lenN_le_bytes|apply le_val_le_bytes; exact Hcs|]. intros Hat2.
  eapply (ex_int _ _ le_val 4); [exact Hat2|apply lenN_le_bytes|apply le_val_le_bytes; exact Hus|]. intros Hat3.
  eapply (ex_int _ _ le_val 2); [exact Hat3|apply lenN_le_bytes|apply le_val_le_bytes; exact Hnm|]. intros Hat4.
  eapply (ex_int _ _ le_val 2); [exact Hat4|apply lenN_le_bytes|apply le_val_le_bytes; exact Hex|]. intros Hat5.
  eapply (ex_int _ _ le_val 2); [exact Hat5|apply lenN_le_bytes|apply le_val_le_bytes; exact Hcm|]. intros Hat6.
  eapply ex_skip; [exact Hat6|rewrite H8; reflexivity|exact Hlen|]. intros Hat7.
  eapply (ex_int _ _ le_val 4); [exact Hat7|apply lenN_le_bytes|apply le_val_le_bytes; exact Hof|]. intros Hat8.
  eapply ex_string; [|exact Hat8|reflexivity|]; [lia|]. intros Hat9.
  match type of Hat9 with at_ _ ?p _ => set (pos9 := p) in * end.
  assert (Hnext : forall d' f', zip_class content d' (firstn n entries) f' ->
    ex content max (let! _ := seek (FromCurrent (Z.of_N (lenN (e_extra e)) + Z.of_N (lenN (e_comment e)))) in
                    zip_entries c n d') pos9 = Done (Ok f')).
  { intros d' f' H. rewrite app_assoc in Hat9.
    eapply ex_skip; [exact Hat9|rewrite lenN_app; lia|exact Hlen|]. intros Hat10.
    eapply IH; [exact Hw'|lia|exact Hat10|exact H]. }
  cbv zeta. rewrite step_eq.
  inversion Hcl as [|? ? ? ? Hdec|? ? ? data ? Hst Hdata Hmed|? ? ? ? Hman Hrest|? ? ? ? Hnd Hns Hnm' Hrest]; subst.
  - apply first_pass_iff in Hdec. rewrite Hdec. reflexivity.
  - destruct Hst as [Hname Hsz]. rewrite Hname. change (first_pass (bs "mimetype") decisive_names) with (@None FileFormat).
    change (beqb (bs "mimetype") manifest_name) with false. change (beqb (bs "mimetype") mimetype_name) with true.
    rewrite <- Hsz, N.eqb_refl. cbn [andb]. now apply (mimetype_spec e data).
  - rewrite Hman. change (first_pass (bs "META-INF/MANIFEST.MF") decisive_names) with (@None FileFormat).
    change (beqb (bs "META-INF/MANIFEST.MF") manifest_name) with true. cbn match. now apply Hnext.
  - destruct (first_pass (e_name e) decisive_names) as [g|] eqn:Eg.
    { exfalso. apply (Hnd g). now apply first_pass_iff. }
    destruct (beqb (e_name e) manifest_name) eqn:Em; [apply beqb_eq in Em; contradiction|].
    destruct (beqb (e_name e) mimetype_name && (e_csize e =? e_usize e)) eqn:Es; [|now apply Hnext].
    exfalso. apply Hns. apply andb_prop in Es as [E1 E2]. split; [now apply beqb_eq|lia].
Qed.

(** The last signature. *)
Lemma eocd_last_gen x y : ~ occurs eocd_signature y ->
  rfind (x ++ eocd_signature ++ y) eocd_signature = Done (Some (List.length x)).
Proof.
  intros Hno. apply rfind_some. split; [exists x, y; split; reflexivity|].
  intros j Hj (pre & post & E & Hpre). 
  assert (Hx : exists z, pre = x ++ z /\ z <> []).
  { destruct (app_split_prefix x pre (eocd_signature ++ y) (eocd_signature ++ post) E) as [[z Ez]|[z Ez]].
    - rewrite Ez, app_length in Hj. lia.
    - exists z. split; [exact Ez|]. intros ->. rewrite app_nil_r in Ez. subst. lia. }
  destruct Hx as (z & -> & Hz). rewrite <- app_assoc in E. apply app_inv_head in E.
  unfold eocd_signature in E, Hno. cbn [app] in E.
  destruct z as [|z0 z]; [now elim Hz|]. injection E as <- E.
  destruct z as [|z1 z]; [discriminate E|]. injection E as <- E.
  destruct z as [|z2 z]; [discriminate E|]. injection E as <- E.
  destruct z as [|z3 z]; [discriminate E|]. injection E as <- E.
  apply Hno. exists z, post. exact E.
Qed.

Lemma find_eocd_spec {B} before fields comment (k : N -> io B) pos :
  content = before ++ eocd fields comment -> lenN fields = 18 -> lenN comment < 2 ^ 16 -> unambiguous fields comment ->
  ex content max (bindio (zip_find_eocd c (lenN content)) k) pos = ex content max (k (lenN before)) (lenN content).
Proof.
  intros E Hf Hcm Hun. change (2 ^ 16) with 65536 in Hcm. change (2 ^ 63) with 9223372036854775808 in Hlen2.
  pose proof (isize_max_ge c Hc) as Hi.
  assert (Hle : lenN (eocd fields comment) = 22 + lenN comment).
  { unfold eocd. rewrite !lenN_app. change (lenN eocd_signature) with 4. lia. }
  assert (Hlc : lenN content = lenN before + 22 + lenN comment) by (rewrite E, lenN_app; lia).
  assert (Hus : as_usize c (lenN content) = lenN content).
  { unfold as_usize. apply N.mod_small. destruct Hc as [Hb|Hb]; unfold isize_max in Hfit; rewrite Hb in *.
    - change (2 ^ (32 - 1) - 1) with 2147483647 in Hfit. change (2 ^ 32) with 4294967296. lia.
    - change (2 ^ 64) with 18446744073709551616. lia. }
  set (offset := sat_sub (lenN content) EOCD_MAX_SIZE).
  assert (Hoff : offset = lenN content - 65557) by reflexivity.
  assert (Hsize : N.min (N.max (as_usize c (lenN content)) EOCD_MIN_SIZE) EOCD_MAX_SIZE = lenN content - offset).
  { rewrite Hus. unfold EOCD_MIN_SIZE, EOCD_MAX_SIZE, EOCD_MIN_SIZE. lia. }
  assert (Hob : offset <= lenN before) by lia.
  assert (Hbuf : dropN offset content = dropN offset before ++ eocd_signature ++ fields ++ comment).
  { rewrite E, dropN_app. replace (offset - lenN before) with 0 by lia. now rewrite dropN_0. }
  unfold zip_find_eocd. apply ex_bind_assoc. fold offset. apply ex_goto; [lia|].
  rewrite Hsize. apply ex_bind_assoc.
  assert (Hat : at_ content offset (dropN offset content ++ [])).
  { rewrite app_nil_r. split; [reflexivity|]. rewrite lenN_dropN. lia. }
  eapply ex_bytes; [|exact Hat|apply lenN_dropN|]; [lia|]. intros _.
  change EOCD_SIGNATURE with eocd_signature.
  rewrite Hbuf, eocd_last_gen by exact Hun. apply ex_bindp_assoc.
  change (lift_exec (Done (Some (Datatypes.length (dropN offset before))))) with (Ret (A := option nat) (Some (Datatypes.length (dropN offset before)))).
  apply ex_bind_ret. apply ex_bindp_assoc.
  assert (Hsum : offset + N.of_nat (Datatypes.length (dropN offset before)) = lenN before).
  { change (N.of_nat (Datatypes.length (dropN offset before))) with (lenN (dropN offset before)). rewrite lenN_dropN. lia. }
  apply ex_u64_add; [change u64_max1 with 18446744073709551616; lia|]. rewrite Hsum.
  apply ex_bind_ok. f_equal. lia.
Qed.

Lemma locator_spec {B} before rest (k : bool -> io B) pos :
  content = before ++ rest -> no_locator before ->
  exists pos', ex content max (bindio (zip_is_zip64 c (lenN before)) k) pos = ex content max (k false) pos'.
Proof.
  intros E Hno. pose proof (isize_max_ge c Hc) as Hi. change (2 ^ 63) with 9223372036854775808 in Hlen2.
  assert (Hlb : lenN before <= lenN content) by (rewrite E, lenN_app; lia).
  assert (Hus : as_usize c (lenN before) = lenN before).
  { unfold as_usize. apply N.mod_small. destruct Hc as [Hb|Hb]; unfold isize_max in Hfit; rewrite Hb in *.
    - change (2 ^ (32 - 1) - 1) with 2147483647 in Hfit. change (2 ^ 32) with 4294967296. lia.
    - change (2 ^ 64) with 18446744073709551616. lia. }
  unfold zip_is_zip64. rewrite Hus. change EOCD64_LOCATOR_SIZE with 20.
  destruct (20 <=? lenN before) eqn:El; [|exists pos; apply ex_bind_ok; reflexivity].
  exists (lenN before - 20 + 4). apply ex_bindp_assoc. apply ex_u64_sub; [lia|].
  apply ex_bind_assoc. apply ex_goto; [lia|]. apply ex_bind_assoc. apply exs_bytes; [lia|lia|].
  apply ex_bind_ok. 
  replace (beqb (slice (lenN before - 20) 4 content) EOCD64_LOCATOR_SIGNATURE) with false; [reflexivity|].
  symmetry. apply beqb_neq. intros K. unfold slice in K.
  assert (Hd : dropN (lenN before - 20) content = dropN (lenN before - 20) before ++ rest).
  { rewrite E, dropN_app. replace (lenN before - 20 - lenN before) with 0 by lia. now rewrite dropN_0. }
  rewrite Hd, takeN_app_le in K by (rewrite lenN_dropN; lia).
  apply (Hno (takeN (lenN before - 20) before) (dropN 4 (dropN (lenN before - 20) before))).
  - rewrite <- (take_dropN (lenN before - 20) before) at 1. f_equal.
    rewrite <- (take_dropN 4 (dropN (lenN before - 20) before)) at 1. now rewrite K.
  - rewrite !lenN_dropN. lia.
Qed.
End Zip.

Lemma addressable_fits c l : supported c -> addressable c l -> lenN l <= isize_max c /\ lenN l < 2 ^ 63.
Proof.
  unfold supported, addressable, isize_max. intros [-> | ->].
  - change (2 ^ (32 - 1)) with 2147483648. change (2 ^ 63) with 9223372036854775808. lia.
  - change (2 ^ (64 - 1)) with 9223372036854775808. change (2 ^ 63) with 9223372036854775808. lia.
Qed.
Lemma firstn_1024 {A} (l : list A) : firstn (N.to_nat (N.min ENTRY_LIMIT (lenN l))) l = firstn 1024 l.
Proof. rewrite firstn_min. reflexivity. Qed.

Lemma zip_reader_spec c local entries gap disks size comment f max : wf_cfg c ->
  wf_zip local entries gap disks size comment ->
  let content := zip_archive local entries gap disks size comment in
  addressable c content -> lenN content <= max ->
  zip_class content Zip (firstn 1024 entries) f ->
  mreader c content max FZip = Done (Ok f).
Proof.
  intros Hc (Hlo & Hne & Hwe & Hdk & Hsz & Hcm & Hnl & Hun) content Had Hmax Hcl.
  destruct (addressable_fits c content Hc Had) as [Hfit Hlen2].
  set (fields := eocd_fields disks (lenN entries) size (lenN local) (lenN comment)) in *.
  set (before := local ++ directory entries ++ gap) in *.
  assert (E : content = before ++ eocd fields comment).
  { unfold content, zip_archive, before. now rewrite <- !app_assoc. }
  assert (Hfl : lenN fields = 18).
  { unfold fields, eocd_fields. rewrite !lenN_app, !lenN_le_bytes, Hdk, Hsz. reflexivity. }
  unfold mreader. cbn [reader_of].
  change (fst (mrun content max (from_zip_reader c) 0)) with (ex content max (from_zip_reader c) 0).
  unfold from_zip_reader. apply ex_end; [exact Hmax|].
  rewrite (find_eocd_spec c content max Hc Hmax Hfit Hlen2 before fields comment _ _ E Hfl Hcm Hun).
  match goal with |- ex _ _ (bindio _ ?k) _ = _ =>
    destruct (locator_spec c content max Hc Hmax Hfit Hlen2 before _ k (lenN content) E Hnl) as (pos' & ->) end.
  assert (Hat : at_ content (lenN before + 10) (le_bytes 2 (lenN entries) ++ size ++ le_bytes 4 (lenN local) ++ le_bytes 2 (lenN comment) ++ comment)).
  { replace (lenN before + 10) with (lenN (before ++ eocd_signature ++ disks)).
    - apply at_abs. rewrite E. unfold eocd, fields, eocd_fields. now rewrite <- !app_assoc.
    - rewrite !lenN_app, Hdk. change (lenN eocd_signature) with 4. lia. }
  pose proof (proj2 Hat) as Hp. rewrite !lenN_app, !lenN_le_bytes in Hp.
  change (2 ^ 63) with 9223372036854775808 in Hlen2.
  unfold zip_directory. apply ex_bindp_assoc. apply ex_u64_add; [change u64_max1 with 18446744073709551616; lia|].
  apply ex_bind_assoc. apply ex_goto; [lia|].
  apply ex_bind_assoc. eapply (ex_int _ _ le_val 2); [exact Hat|apply lenN_le_bytes|apply le_val_le_bytes; exact Hne|]. intros Hat1.
  apply ex_bind_assoc. eapply ex_skip; [exact Hat1|rewrite Hsz; reflexivity|exact Hmax|]. intros Hat2.
  apply ex_bind_assoc. eapply (ex_int _ _ le_val 4); [exact Hat2|apply lenN_le_bytes|apply le_val_le_bytes; exact Hlo|]. intros _.
  apply ex_bind_ok. assert (Hll : lenN local <= lenN content) by (unfold content, zip_archive; rewrite lenN_app; lia).
  apply ex_goto; [lia|].
  apply (zip_loop_spec c content max Hc Hmax Hfit Hlen2 _ entries (gap ++ eocd fields comment)).
  - exact Hwe.
  - unfold lenN. lia.
  - apply at_abs. reflexivity.
  - rewrite firstn_1024. exact Hcl.
Qed.

Lemma zip64_reader_spec c local entries gap head size ext disk disks fields comment f max : wf_cfg c ->
  wf_zip64 entries head size disk disks fields comment ->
  let content := zip64_archive local entries gap head size ext disk disks fields comment in
  addressable c content -> lenN content <= max ->
  zip_class content Zip (firstn 1024 entries) f ->
  mreader c content max FZip = Done (Ok f).
Proof.
  intros Hc (Hne & Hwe & Hhd & Hsz & Hdk & Hdks & Hfl & Hcm & Hun) content Had Hmax Hcl.
  destruct (addressable_fits c content Hc Had) as [Hfit Hlen2].
  pose proof (isize_max_ge c Hc) as Hi.
  set (start := local ++ directory entries ++ gap) in *.
  set (rec := eocd64 head (lenN entries) size (lenN local) ext) in *.
  set (loc := locator disk (lenN start) disks) in *.
  set (before := start ++ rec ++ loc).
  assert (E : content = before ++ eocd fields comment).
  { unfold content, zip64_archive, before, rec, loc, start. now rewrite <- !app_assoc. }
  assert (Hll : lenN loc = 20).
  { unfold loc, locator. rewrite !lenN_app, !lenN_le_bytes, Hdk, Hdks. reflexivity. }
  assert (Hlb : lenN before = lenN (start ++ rec) + 20) by (unfold before; rewrite !lenN_app, Hll; lia).
  assert (Hbc : lenN before <= lenN content) by (rewrite E, lenN_app; lia).
  change (2 ^ 63) with 9223372036854775808 in Hlen2.
  unfold mreader. cbn [reader_of].
  change (fst (mrun content max (from_zip_reader c) 0)) with (ex content max (from_zip_reader c) 0).
  unfold from_zip_reader. apply ex_end; [exact Hmax|].
  rewrite (find_eocd_spec c content max Hc Hmax Hfit Hlen2 before fields comment _ _ E Hfl Hcm Hun).
  assert (Hat : at_ content (lenN (start ++ rec)) (locator_signature ++ disk ++ le_bytes 8 (lenN start) ++ disks ++ eocd fields comment)).
  { apply at_abs. rewrite E. unfold before, loc, locator. now rewrite <- !app_assoc. }
  assert (Hus : as_usize c (lenN before) = lenN before).
  { unfold as_usize. apply N.mod_small. destruct Hc as [Hb|Hb]; unfold isize_max in Hfit; rewrite Hb in *.
    - change (2 ^ (32 - 1) - 1) with 2147483647 in Hfit. change (2 ^ 32) with 4294967296. lia.
    - change (2 ^ 64) with 18446744073709551616. lia. }
  unfold zip_is_zip64. rewrite Hus. change EOCD64_LOCATOR_SIZE with 20.
  replace (20 <=? lenN before) with true by lia.
  apply ex_bindp_assoc. apply ex_u64_sub; [lia|]. replace (lenN before - 20) with (lenN (start ++ rec)) by lia.
  apply ex_bind_assoc. apply ex_goto; [lia|]. apply ex_bind_assoc.
  eapply ex_bytes; [|exact Hat|reflexivity|]; [lia|]. intros Hat1. apply ex_bind_ok.
  change (beqb locator_signature EOCD64_LOCATOR_SIGNATURE) with true.
  unfold zip_directory. apply ex_bind_assoc.
  eapply ex_skip; [exact Hat1|rewrite Hdk; reflexivity|exact Hmax|]. intros Hat2.
  apply ex_bind_assoc. eapply (ex_int _ _ le_val 8); [exact Hat2|apply lenN_le_bytes|apply le_val_le_bytes|].
  { change (256 ^ N.of_nat 8) with 18446744073709551616. rewrite lenN_app in Hlb. lia. }
  intros _. apply ex_bindp_assoc. rewrite lenN_app in Hlb.
  apply ex_u64_add; [change u64_max1 with 18446744073709551616; lia|].
  assert (Hat3 : at_ content (lenN start + 32) (le_bytes 8 (lenN entries) ++ size ++ le_bytes 8 (lenN local) ++ ext ++ loc ++ eocd fields comment)).
  { rewrite <- Hhd, <- lenN_app. apply at_abs. rewrite E. unfold before, rec, eocd64. now rewrite <- !app_assoc. }
  pose proof (proj2 Hat3) as Hp3. rewrite !lenN_app, !lenN_le_bytes in Hp3.
  apply ex_bind_assoc. apply ex_goto; [lia|].
  apply ex_bind_assoc. eapply (ex_int _ _ le_val 8); [exact Hat3|apply lenN_le_bytes|apply le_val_le_bytes|].
  { change (256 ^ N.of_nat 8) with 18446744073709551616. change (2 ^ 32) with 4294967296 in Hne. lia. }
  intros Hat4. apply ex_bind_assoc.
  eapply ex_skip; [exact Hat4|rewrite Hsz; reflexivity|exact Hmax|]. intros Hat5.
  assert (Hls : lenN local <= lenN start) by (unfold start; rewrite lenN_app; lia).
  apply ex_bind_assoc. eapply (ex_int _ _ le_val 8); [exact Hat5|apply lenN_le_bytes|apply le_val_le_bytes|].
  { change (256 ^ N.of_nat 8) with 18446744073709551616. lia. }
  intros _. apply ex_bind_ok. rewrite as_usize_u32 by (try exact Hc; exact Hne).
  apply ex_goto; [lia|].
  apply (zip_loop_spec c content max Hc Hmax Hfit Hlen2 _ entries (gap ++ rec ++ loc ++ eocd fields comment)).
  - exact Hwe.
  - unfold lenN. lia.
  - apply at_abs. reflexivity.
  - rewrite firstn_1024. exact Hcl.
Qed.
