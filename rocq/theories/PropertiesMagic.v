(** C48, C49: well-known magic numbers, and the priority of signatures.  Statements use SpecMagic.v
    (standards, carries, elsewhere), SpecSig.v and SpecApi.v. *)
From Coq Require Import NArith ZArith Bool String List Lia ZifyBool ZifyNat ZifyN Sorted.
From Verif Require Import Base BaseProofs Formats FormatsProofs Signatures IO Lib Documented
  Spec SpecSig SpecText SpecApi SpecMagic LibProofs Ideal SigProofs CoreProofs Glue Conf PropertiesSig.
Import ListNotations.
Local Open Scope N_scope.

(** ** Which alternatives are compatible with a magic number *)
Fixpoint byte_at (parts : list (N * bytes)) (i : N) : option Byte.byte :=
  match parts with
  | [] => None
  | (o, v) :: r => if (o <=? i) && (i <? o + lenN v) then nth_error v (N.to_nat (i - o)) else byte_at r i
  end.
Fixpoint compare_part (unknown : bool) (parts : list (N * bytes)) (o : N) (v : bytes) : bool :=
  match v with
  | [] => true
  | b :: v' => match byte_at parts o with None => unknown | Some b' => Byte.eqb b b' end
               && compare_part unknown parts (o + 1) v'
  end.
Definition compatible (parts alt : list (N * bytes)) : bool :=
  forallb (fun p => compare_part true parts (fst p) (snd p)) alt.
Definition implied (parts alt : list (N * bytes)) : bool :=
  forallb (fun p => negb (lenN (snd p) =? 0) && compare_part false parts (fst p) (snd p)) alt.

Lemma present_nth l o v k : present l o v -> (k < List.length v)%nat ->
  nth_error l (N.to_nat o + k) = nth_error v k.
Proof.
  intros (pre & post & -> & <-) Hk. rewrite nth_error_app2 by (unfold lenN; lia).
  unfold lenN. rewrite Nat2N.id. replace (_ + k - _)%nat with k by lia. now rewrite nth_error_app1.
Qed.
Lemma nth_present l v : forall o, (forall k, (k < List.length v)%nat -> nth_error l (N.to_nat o + k) = nth_error v k) ->
  v <> [] -> present l o v.
Proof.
  induction v as [|b v IH]; [now intros o _ []|]. intros o H _.
  pose proof (H 0%nat ltac:(cbn; lia)) as H0. rewrite Nat.add_0_r in H0. cbn [nth_error] in H0.
  apply nth_error_split in H0 as (pre & post & E & Hpre).
  exists pre. destruct v as [|b' v].
  { exists post. split; [exact E|]. unfold lenN. lia. }
  destruct (IH (o + 1)) as (p & q & E' & Hp'); [|discriminate|].
  - intros k Hk. specialize (H (S k) ltac:(cbn in *; lia)). cbn [nth_error] in H.
    rewrite <- H. f_equal. lia.
  - exists q. split; [|unfold lenN; lia].
    assert (Ep : pre ++ [b] = p).
    { assert (E2 : (pre ++ [b]) ++ post = p ++ (b' :: v) ++ q) by (rewrite <- app_assoc; cbn [app]; rewrite <- E; exact E').
      assert (L : List.length (pre ++ [b]) = List.length p).
      { rewrite app_length. cbn. unfold lenN in Hp'. lia. }
      clear -E2 L. revert p E2 L. generalize (pre ++ [b]) as a. induction a as [|x a IH]; intros [|y p] E L; cbn in *; try lia; [reflexivity|].
      injection E as -> E. f_equal. apply IH; [exact E|lia]. }
    rewrite E'. rewrite <- Ep. now rewrite <- app_assoc.
Qed.

Lemma byte_at_sound l parts i b : alt_matches l parts -> byte_at parts i = Some b -> nth_error l (N.to_nat i) = Some b.
Proof.
  induction parts as [|[o v] r IH]; [discriminate|]. intros H E. cbn [byte_at] in E.
  destruct ((o <=? i) && (i <? o + lenN v)) eqn:C.
  - pose proof (present_nth l o v (N.to_nat (i - o)) (H o v (or_introl eq_refl))) as K.
    rewrite E in K. replace (N.to_nat o + N.to_nat (i - o))%nat with (N.to_nat i) in K by lia.
    apply K. unfold lenN in C. lia.
  - apply IH; [|exact E]. intros o' v' Hin. apply H. now right.
Qed.
Lemma compare_sound unknown l parts v : alt_matches l parts -> forall o,
  (unknown = true -> present l o v -> compare_part unknown parts o v = true) /\
  (unknown = false -> compare_part unknown parts o v = true -> v <> [] -> present l o v).
Proof.
  intros Hm o. split.
  - intros -> Hp.
    assert (K : forall w o, (forall k, (k < List.length w)%nat -> nth_error l (N.to_nat o + k) = nth_error w k) ->
                compare_part true parts o w = true).
    { induction w as [|b w IH]; intros o' H; [reflexivity|]. cbn [compare_part].
      apply andb_true_intro. split.
      - destruct (byte_at parts o') as [b'|] eqn:E; [|reflexivity].
        apply (byte_at_sound l) in E; [|exact Hm]. specialize (H 0%nat ltac:(cbn; lia)).
        rewrite Nat.add_0_r, E in H. cbn in H. injection H as ->. now apply Byte.byte_dec_lb.
      - apply IH. intros k Hk. specialize (H (S k) ltac:(cbn; lia)). cbn [nth_error] in H. rewrite <- H. f_equal. lia. }
    apply K. intros k Hk. now apply present_nth.
  - intros -> Hc. apply nth_present. revert o Hc.
    induction v as [|b v IH]; intros o Hc k Hk; [cbn in Hk; lia|].
    cbn [compare_part] in Hc. apply andb_prop in Hc as [H1 H2].
    destruct (byte_at parts o) as [b'|] eqn:E; [|discriminate]. apply Byte.byte_dec_bl in H1. subst b'.
    apply (byte_at_sound l) in E; [|exact Hm]. destruct k as [|k].
    + now rewrite Nat.add_0_r.
    + cbn [nth_error]. rewrite <- (IH _ H2 k) by (cbn in Hk; lia). f_equal. lia.
Qed.
Lemma compatible_sound l parts alt : alt_matches l parts -> alt_matches l alt -> compatible parts alt = true.
Proof.
  intros H1 H2. apply forallb_forall. intros [o v] Hin. apply (compare_sound true l parts v H1 o); auto.
Qed.
Lemma implied_sound l parts alt : alt_matches l parts -> implied parts alt = true -> alt_matches l alt.
Proof.
  intros H1 H2 o v Hin. unfold implied in H2. rewrite forallb_forall in H2. specialize (H2 _ Hin). cbn [fst snd] in H2.
  apply andb_prop in H2 as [Hn H2]. apply (compare_sound false l parts v H1 o); auto.
  intros ->. discriminate Hn.
Qed.

(** ** The table *)
Fixpoint check_row (parts : list (N * bytes)) (f : FileFormat) (allowed : list FileFormat) (table : list sig_entry) : bool :=
  match table with
  | [] => false
  | (g, alts) :: rest =>
      if feqb g f then existsb (implied parts) alts
      else (existsb (feqb g) allowed || negb (existsb (compatible parts) alts)) && check_row parts f allowed rest
  end.
Lemma check_row_sound parts f allowed : forall table l g, check_row parts f allowed table = true ->
  alt_matches l parts ->
  (first_match table l g -> g = f \/ In g allowed) /\ ~ no_match table l.
Proof.
  induction table as [|[h alts] rest IH]; intros l g H Hm; [discriminate|]. cbn [check_row] in H.
  destruct (feqb h f) eqn:Ef.
  - apply feqb_eq in Ef. subst h. apply existsb_exists in H as (alt & Hin & Hi).
    pose proof (implied_sound l parts alt Hm Hi) as Ha. split.
    + intros (before & galts & after & E & Hs & Hb). destruct before as [|e before].
      * injection E as -> _ _. now left.
      * exfalso. injection E as <- _. apply (Hb f alts); [now left|]. now exists alt.
    + intros Hn. apply (Hn f alts); [now left|]. now exists alt.
  - apply andb_prop in H as [H1 H2]. destruct (IH l g H2 Hm) as [K1 K2]. split.
    + intros (before & galts & after & E & Hs & Hb). destruct before as [|e before].
      * injection E as -> -> _. right. apply orb_prop in H1 as [H1|H1].
        -- apply existsb_exists in H1 as (g' & Hin & Eg). apply feqb_eq in Eg. now subst.
        -- exfalso. destruct Hs as (alt & Hin & Ha). apply negb_true_iff in H1.
           rewrite <- not_true_iff_false in H1. apply H1. apply existsb_exists. exists alt.
           split; [exact Hin|]. now apply (compatible_sound l).
      * injection E as <- ->. apply K1. exists before, galts, after. split; [reflexivity|]. split; [exact Hs|].
        intros k kalts Hin. apply (Hb k kalts). now right.
    + intros Hn. apply K2. intros k kalts Hin. apply (Hn k kalts). now right.
Qed.
Lemma standards_checked :
  forallb (fun s => check_row (magic s) (format_of s) (refined_by s ++ elsewhere) signatures) standards = true.
Proof. vm_compute. reflexivity. Qed.
Lemma standard_row s : In s standards ->
  check_row (magic s) (format_of s) (refined_by s ++ elsewhere) signatures = true.
Proof. intros H. pose proof standards_checked as K. rewrite forallb_forall in K. now apply K. Qed.
Lemma carries_first l s : In s standards -> carries l s ->
  exists f, first_match signatures l f /\ (f = format_of s \/ In f (refined_by s ++ elsewhere)).
Proof.
  intros Hs Hc. pose proof (standard_row s Hs) as H.
  destruct (from_signature l) as [f|] eqn:E.
  - apply from_signature_some in E. exists f. split; [exact E|]. now apply (check_row_sound _ _ _ _ l f H Hc).
  - apply from_signature_none in E. destruct (check_row_sound _ _ _ _ l ArbitraryBinaryData H Hc) as [_ K]. now destruct K.
Qed.
Lemma nonempty_match l f : first_match signatures l f -> l <> [].
Proof. apply first_match_nonempty. Qed.

(** ** C48 *)
(** Without reader features, a file with a magic number from the table is reported as that format, as
    a refinement of it, or as a format whose signature it carries as well further behind. *)
Theorem C48_magic_decides : forall (c : cfg) l s, supported c -> featureless c -> rust_slice l ->
  In s standards -> carries l s ->
  exists f, from_bytes c l = Done f /\
    (f = format_of s \/
     In f (refined_by s ++ elsewhere) /\ exists alts, In (f, alts) signatures /\ sig_matches l alts).
Proof.
  intros c l s Hc Hf Hl Hs Hm. destruct (carries_first l s Hs Hm) as (f & H1 & H2). exists f. split.
  - apply C04_first_match_wins; auto. now apply (nonempty_match l f).
  - destruct H2 as [H2|H2]; [now left|]. right. split; [exact H2|].
    destruct H1 as (before & alts & after & E & Ha & _). exists alts. split; [|exact Ha].
    rewrite E. apply in_elt.
Qed.
Print Assumptions C48_magic_decides.

(** With any feature set: unless one of those other signatures is present, or an enabled reader is
    responsible for the format, the format is reported. *)
Definition no_rival (l : bytes) (s : standard) : Prop :=
  forall g alts, In g (refined_by s ++ elsewhere) -> In (g, alts) signatures -> ~ sig_matches l alts.
Lemma no_rival_first l s : In s standards -> carries l s -> no_rival l s -> first_match signatures l (format_of s).
Proof.
  intros Hs Hm Hn. destruct (carries_first l s Hs Hm) as (f & H1 & [->|H2]); [exact H1|].
  exfalso. destruct H1 as (before & alts & after & E & Ha & _).
  apply (Hn f alts H2); [|exact Ha]. rewrite E. apply in_elt.
Qed.
Theorem C48_magic_without_rivals : forall (c : cfg) l s, supported c -> rust_slice l ->
  In s standards -> carries l s -> no_rival l s ->
  (forall x, feat c x = true -> x <> FTxt -> container x <> format_of s) ->
  from_bytes c l = Done (format_of s).
Proof. intros c l s Hc Hl Hs Hm Hn Hx. apply C04_signature_stands; auto. now apply no_rival_first. Qed.
Print Assumptions C48_magic_without_rivals.
(** ... and if a reader is responsible, it is asked (see C19-C37, C47). *)
Theorem C48_magic_of_containers : forall (c : cfg) l s x, In s standards -> carries l s -> no_rival l s ->
  x <> FTxt -> container x = format_of s -> feat c x = true -> signed c x l.
Proof.
  intros c l s x Hs Hm Hn Ht Hx Hf. split; [exact Hf|]. split; [exact Ht|]. rewrite Hx. now apply no_rival_first.
Qed.
Print Assumptions C48_magic_of_containers.

(** The media type and the extension that come with the format are the standard ones. *)
Definition option_is (o : option string) (s : string) : Prop := match o with Some t => s = t | None => True end.
Definition option_isb (o : option string) (s : string) : bool := match o with Some t => String.eqb s t | None => true end.
Lemma option_isb_ok o s : option_isb o s = true -> option_is o s.
Proof. destruct o; cbn; [apply String.eqb_eq|trivial]. Qed.
Theorem C48_standard_metadata : forall s, In s (standards ++ remote_standards) ->
  option_is (media s) (media_type (format_of s)) /\ option_is (ext s) (extension (format_of s)).
Proof.
  assert (K : forallb (fun s => option_isb (media s) (media_type (format_of s)) &&
                                option_isb (ext s) (extension (format_of s))) (standards ++ remote_standards) = true)
    by (vm_compute; reflexivity).
  intros s Hs. rewrite forallb_forall in K. specialize (K s Hs). apply andb_prop in K as [K1 K2].
  split; now apply option_isb_ok.
Qed.
Print Assumptions C48_standard_metadata.

(** ** C49 *)
(** The size of a signature: the number of bytes compared in its largest alternative. *)
Definition alt_size (alt : list (N * bytes)) : N := fold_right (fun p n => lenN (snd p) + n) 0 alt.
Definition sig_size (alts : list (list (N * bytes))) : N := fold_right (fun a n => N.max (alt_size a) n) 0 alts.
Lemma table_sorted : StronglySorted (fun a b : sig_entry => sig_size (snd b) <= sig_size (snd a)) signatures.
Proof.
  apply Sorted_StronglySorted.
  { intros a b e H1 H2. lia. }
  assert (K : forall t : list sig_entry,
    (fix chk (t : list sig_entry) : bool :=
       match t with
       | a :: ((b :: _) as r) => (sig_size (snd b) <=? sig_size (snd a)) && chk r
       | _ => true
       end) t = true -> Sorted (fun a b : sig_entry => sig_size (snd b) <= sig_size (snd a)) t).
  { induction t as [|a t IH]; [constructor|]. intros H. destruct t as [|b r]; [constructor; constructor|].
    apply andb_prop in H as [H1 H2]. constructor; [now apply IH|]. constructor. lia. }
  apply K. vm_compute. reflexivity.
Qed.
Lemma sorted_split {A} (R : A -> A -> Prop) before x after : StronglySorted R (before ++ x :: after) ->
  forall y, In y after -> R x y.
Proof.
  induction before as [|b before IH]; intros H y Hy; inversion H; subst.
  - rewrite Forall_forall in H3. now apply H3.
  - eapply IH; eauto.
Qed.
Lemma largest_first l f : first_match signatures l f ->
  forall g galts, In (g, galts) signatures -> sig_matches l galts ->
  exists falts, In (f, falts) signatures /\ sig_matches l falts /\ sig_size galts <= sig_size falts.
Proof.
  intros (before & alts & after & E & Hs & Hb) g galts Hg Hm. exists alts.
  split; [rewrite E; apply in_elt|]. split; [exact Hs|].
  rewrite E in Hg. apply in_app_or in Hg as [Hg|[Hg|Hg]].
  - exfalso. now apply (Hb g galts).
  - injection Hg as _ ->. lia.
  - pose proof table_sorted as K. rewrite E in K. exact (sorted_split _ _ _ _ K _ Hg).
Qed.
(** Of all signatures that are present a largest one decides. *)
Theorem C49_largest_signature_decides : forall (c : cfg) l f, supported c -> featureless c -> rust_slice l ->
  from_bytes c l = Done f -> forall g galts, In (g, galts) signatures -> sig_matches l galts ->
  exists falts, In (f, falts) signatures /\ sig_matches l falts /\ sig_size galts <= sig_size falts.
Proof.
  intros c l f Hc Hf Hl H g galts Hg Hm.
  assert (Hne : l <> []).
  { destruct (from_signature l) as [k|] eqn:E; [apply from_signature_some in E; now apply first_match_nonempty in E|].
    apply from_signature_none in E. exfalso. now apply (E g galts). }
  apply C04_first_match_wins in H as [H|[_ H]]; auto.
  - now apply (largest_first l f H g galts).
  - exfalso. now apply (H g galts).
Qed.
Print Assumptions C49_largest_signature_decides.
(** Magic numbers that are not at the start of the file: only a signature at least as large can win. *)
Lemma remote_checked :
  forallb (fun s => existsb (fun e : sig_entry => feqb (fst e) (format_of s) && existsb (implied (magic s)) (snd e))
                    signatures) remote_standards = true.
Proof. vm_compute. reflexivity. Qed.
Theorem C48_remote_magic : forall (c : cfg) l s, supported c -> featureless c -> rust_slice l ->
  In s remote_standards -> carries l s ->
  exists f falts galts, from_bytes c l = Done f /\ In (f, falts) signatures /\ sig_matches l falts /\
    In (format_of s, galts) signatures /\ sig_matches l galts /\ sig_size galts <= sig_size falts.
Proof.
  intros c l s Hc Hf Hl Hs Hm. pose proof remote_checked as K. rewrite forallb_forall in K.
  specialize (K s Hs). apply existsb_exists in K as ([g galts] & Hg & K). apply andb_prop in K as [K1 K2].
  cbn [fst snd] in *. apply feqb_eq in K1. subst g. apply existsb_exists in K2 as (alt & Hin & Hi).
  assert (Hsm : sig_matches l galts) by (exists alt; split; [exact Hin|]; now apply (implied_sound l (magic s))).
  destruct (from_signature l) as [f|] eqn:E.
  - apply from_signature_some in E. destruct (largest_first l f E _ _ Hg Hsm) as (falts & H1 & H2 & H3).
    exists f, falts, galts. split; [|auto]. apply C04_first_match_wins; auto. now apply (first_match_nonempty l f).
  - apply from_signature_none in E. exfalso. now apply (E _ _ Hg).
Qed.
Print Assumptions C48_remote_magic.

(** ** Examples *)
Definition png_standard : standard :=
  std PortableNetworkGraphics [(0, [x89; x50; x4e; x47; x0d; x0a; x1a; x0a])] (Some "image/png"%string) (Some "png"%string)
    [AnimatedPortableNetworkGraphics].
Definition png_file : bytes := [x89; x50; x4e; x47; x0d; x0a; x1a; x0a] ++ bs "whatever follows".
(** A file that is both a GIF image and a tape archive: the longer signature wins. *)
Definition gif_tar : bytes := bs "GIF89a" ++ repeat x00 251 ++ bs "ustar" ++ [x00] ++ bs "00".
Lemma no_rival_by_computation l s :
  forallb (fun e : sig_entry => negb (fmem (fst e) (refined_by s ++ elsewhere)) ||
                                negb (existsb (forallb (fast_part l)) (snd e))) signatures = true ->
  no_rival l s.
Proof.
  intros H g alts Hg Hin Hm. rewrite forallb_forall in H. specialize (H (g, alts) Hin). cbn [fst snd] in H.
  apply fmem_in in Hg. rewrite Hg in H. cbn [negb orb] in H. apply negb_true_iff in H.
  destruct Hm as (alt & Ha & Hm). rewrite <- not_true_iff_false in H. apply H. apply existsb_exists. exists alt.
  split; [exact Ha|]. apply forallb_forall. intros [o v] Hp. rewrite fast_part_ok.
  - apply part_matches_iff. now apply Hm.
  - right. intros ->. pose proof table_nonempty as K. rewrite forallb_forall in K. specialize (K _ Hin).
    unfold nonempty_values in K. cbn [snd] in K. rewrite forallb_forall in K. specialize (K _ Ha).
    rewrite forallb_forall in K. specialize (K _ Hp). discriminate K.
Qed.
Lemma carries_by_computation l s : forallb (fun p => part_matches l p) (magic s) = true -> carries l s.
Proof. intros H. now apply alt_matches_iff. Qed.
Example C48_witness :
  In png_standard standards /\ carries png_file png_standard /\ no_rival png_file png_standard /\
  from_bytes cfg_all png_file = Done PortableNetworkGraphics.
Proof.
  split; [left; reflexivity|].
  split; [apply carries_by_computation; vm_compute; reflexivity|].
  split; [apply no_rival_by_computation; vm_compute; reflexivity|]. vm_compute. reflexivity.
Qed.
Example C48_rival_witness :
  exists s, In s standards /\ format_of s = GraphicsInterchangeFormat /\ carries gif_tar s /\
    In TapeArchive elsewhere /\ from_bytes cfg_none gif_tar = Done TapeArchive.
Proof.
  exists (std GraphicsInterchangeFormat [(0, bs "GIF89a")] (Some "image/gif"%string) (Some "gif"%string) []).
  split; [cbn; tauto|]. split; [reflexivity|].
  split; [apply carries_by_computation; vm_compute; reflexivity|].
  split; [apply fmem_in; vm_compute; reflexivity|]. vm_compute. reflexivity.
Qed.
Example C48_remote_witness :
  exists s, In s remote_standards /\ carries gif_tar s /\ format_of s = TapeArchive.
Proof.
  exists (std TapeArchive [(257, bs "ustar" ++ [x00] ++ bs "00")] None (Some "tar"%string) []).
  split; [right; left; reflexivity|]. split; [apply carries_by_computation; vm_compute; reflexivity|reflexivity].
Qed.
Example C49_witness : exists galts, In (GraphicsInterchangeFormat, galts) signatures /\ sig_matches gif_tar galts /\
  sig_size galts = 6 /\ from_bytes cfg_none gif_tar = Done TapeArchive.
Proof.
  exists [[(0, bs "GIF87a")]; [(0, bs "GIF89a")]].
  split; [|split; [|split; [reflexivity|vm_compute; reflexivity]]].
  - pose proof (proj1 (find_some (fun e : sig_entry => feqb (fst e) GraphicsInterchangeFormat) signatures
      (x := (GraphicsInterchangeFormat, [[(0, bs "GIF87a")]; [(0, bs "GIF89a")]])) ltac:(vm_compute; reflexivity))). exact H.
  - exists [(0, bs "GIF89a")]. split; [right; now left|]. apply alt_matches_iff. vm_compute. reflexivity.
Qed.
