(** C65: header families.  C66: nothing but the known headers.  Statements use SpecFamily.v, SpecMagic.v
    (standards, carries, elsewhere), SpecSig.v and SpecApi.v. *)
From Coq Require Import NArith ZArith Bool String List Lia ZifyBool ZifyNat ZifyN.
From Verif Require Import Base BaseProofs Formats FormatsProofs Signatures IO Lib Documented
  Spec SpecSig SpecText SpecApi SpecMagic SpecBom SpecFamily IOProofs LibProofs Ideal SigProofs CoreProofs Glue Conf
  PropertiesSig PropertiesApi PropertiesMagic PropertiesMagic2.
Import ListNotations.
Ltac Zify.zify_post_hook ::= idtac.
Local Open Scope N_scope.

(** ** A header that is checked against the table *)
Definition checked (s : standard) : bool := check_row (magic s) (format_of s) (refined_by s ++ elsewhere) signatures.
Lemma checked_first s l : checked s = true -> carries l s ->
  exists f, first_match signatures l f /\ (f = format_of s \/ In f (refined_by s ++ elsewhere)).
Proof.
  intros H Hc. unfold checked in H. destruct (from_signature l) as [f|] eqn:E.
  - apply from_signature_some in E. exists f. split; [exact E|]. now apply (check_row_sound _ _ _ _ l f H Hc).
  - apply from_signature_none in E. destruct (check_row_sound _ _ _ _ l ArbitraryBinaryData H Hc) as [_ K]. now destruct K.
Qed.
Lemma checked_decides s (c : cfg) l : checked s = true -> supported c -> featureless c -> rust_slice l -> carries l s ->
  exists f, from_bytes c l = Done f /\
    (f = format_of s \/ In f (refined_by s ++ elsewhere) /\ exists alts, In (f, alts) signatures /\ sig_matches l alts).
Proof.
  intros H Hc Hf Hl Hm. destruct (checked_first s l H Hm) as (f & H1 & H2). exists f. split.
  - apply C04_first_match_wins; auto. now apply (nonempty_match l f).
  - destruct H2 as [H2|H2]; [now left|]. right. split; [exact H2|].
    destruct H1 as (before & alts & after & E & Ha & _). exists alts. split; [|exact Ha]. rewrite E. apply in_elt.
Qed.
Lemma checked_no_rival s l : checked s = true -> carries l s -> no_rival l s -> first_match signatures l (format_of s).
Proof.
  intros H Hm Hn. destruct (checked_first s l H Hm) as (f & H1 & [->|H2]); [exact H1|].
  exfalso. destruct H1 as (before & alts & after & E & Ha & _). apply (Hn f alts H2); [|exact Ha]. rewrite E. apply in_elt.
Qed.

(** ** C65 *)
Lemma families_checked : forallb checked families = true.
Proof. vm_compute. reflexivity. Qed.
Lemma family_checked s : In s families -> checked s = true.
Proof. intros H. pose proof families_checked as K. rewrite forallb_forall in K. now apply K. Qed.
Theorem C65_family_decides : forall (c : cfg) l s, supported c -> featureless c -> rust_slice l ->
  In s families -> carries l s ->
  exists f, from_bytes c l = Done f /\
    (f = format_of s \/
     In f (refined_by s ++ elsewhere) /\ exists alts, In (f, alts) signatures /\ sig_matches l alts).
Proof. intros c l s Hc Hf Hl Hs Hm. apply checked_decides; auto. now apply family_checked. Qed.
Print Assumptions C65_family_decides.
Theorem C65_family_without_rivals : forall (c : cfg) l s, supported c -> rust_slice l ->
  In s families -> carries l s -> no_rival l s ->
  (forall x, feat c x = true -> x <> FTxt -> container x <> format_of s) ->
  from_bytes c l = Done (format_of s).
Proof.
  intros c l s Hc Hl Hs Hm Hn Hx. apply C04_signature_stands; auto. apply checked_no_rival; auto. now apply family_checked.
Qed.
Print Assumptions C65_family_without_rivals.
(** Headers that are located further behind: a signature at least as large decides. *)
Lemma remote_families_checked :
  forallb (fun s => existsb (fun e : sig_entry => feqb (fst e) (format_of s) && existsb (implied (magic s)) (snd e))
                    signatures) remote_families = true.
Proof. vm_compute. reflexivity. Qed.
Theorem C65_remote_family : forall (c : cfg) l s, supported c -> featureless c -> rust_slice l ->
  In s remote_families -> carries l s ->
  exists f falts galts, from_bytes c l = Done f /\ In (f, falts) signatures /\ sig_matches l falts /\
    In (format_of s, galts) signatures /\ sig_matches l galts /\ sig_size galts <= sig_size falts.
Proof.
  intros c l s Hc Hf Hl Hs Hm. pose proof remote_families_checked as K. rewrite forallb_forall in K.
  specialize (K s Hs). apply existsb_exists in K as ([g galts] & Hg & K). apply andb_prop in K as [K1 K2].
  cbn [fst snd] in *. apply feqb_eq in K1. subst g. apply existsb_exists in K2 as (alt & Hin & Hi).
  assert (Hsm : sig_matches l galts) by (exists alt; split; [exact Hin|]; now apply (implied_sound l (magic s))).
  destruct (from_signature l) as [f|] eqn:E.
  - apply from_signature_some in E. destruct (largest_first l f E _ _ Hg Hsm) as (falts & H1 & H2 & H3).
    exists f, falts, galts. split; [|auto]. apply C04_first_match_wins; auto. now apply (first_match_nonempty l f).
  - apply from_signature_none in E. exfalso. now apply (E _ _ Hg).
Qed.
Print Assumptions C65_remote_family.
(** Members of the families that are not known: ADTS with a checksum, shells under /usr/bin, ... *)
Lemma missed_checked : forallb (fun s => never s && nonempty_magic s) missed_families = true.
Proof. vm_compute. reflexivity. Qed.
Theorem C65_missed_family_refuted : forall (c : cfg) l s, supported c -> rust_slice l ->
  In s missed_families -> carries l s -> from_bytes c l <> Done (format_of s).
Proof.
  intros c l s Hc Hl Hs Hm. pose proof missed_checked as K. rewrite forallb_forall in K. specialize (K s Hs).
  apply andb_prop in K as [K K3]. unfold never in K. apply andb_prop in K as [K1 K2].
  apply (never_reported c l (magic s)); auto.
  - now apply (carries_nonempty l s).
  - now apply (excluded_sound (magic s)).
Qed.
Print Assumptions C65_missed_family_refuted.

(** *** CAFEBABE: the eighth byte decides, whatever it is *)
Definition universal_count (n : byte) : bool := ((1 <=? bval n) && (bval n <=? 18)) || (bval n =? 255).
Definition cafebabe_with (n : byte) : standard :=
  std (if universal_count n then MachO else JavaClass) [(0, [xca; xfe; xba; xbe]); (7, [n])] None None [].
Definition all_bytes : list byte := map octet (numbers 0 255).
Lemma all_bytes_all n : In n all_bytes.
Proof.
  assert (K : existsb (Byte.eqb n) all_bytes = true) by (destruct n; vm_compute; reflexivity).
  apply existsb_exists in K as (m & Hm & E). apply Byte.byte_dec_bl in E. now subst.
Qed.
Lemma cafebabe_checked : forallb (fun n => checked (cafebabe_with n)) all_bytes = true.
Proof. vm_compute. reflexivity. Qed.
Theorem C65_cafebabe : forall (c : cfg) n1 n2 n3 n rest,
  let l := [xca; xfe; xba; xbe; n1; n2; n3; n] ++ rest in
  supported c -> rust_slice l ->
  (forall g alts, In g elsewhere -> In (g, alts) signatures -> ~ sig_matches l alts) ->
  from_bytes c l =
    Done (if ((1 <=? bval n) && (bval n <=? 18)) || (bval n =? 255) then MachO else JavaClass).
Proof.
  intros c n1 n2 n3 n rest l Hc Hl Hn. change (from_bytes c l = Done (format_of (cafebabe_with n))).
  assert (K : checked (cafebabe_with n) = true).
  { pose proof cafebabe_checked as K. rewrite forallb_forall in K. apply (K n), all_bytes_all. }
  assert (Hm : carries l (cafebabe_with n)).
  { intros o v Hin. cbn in Hin. destruct Hin as [E|[E|[]]]; injection E as <- <-.
    - exists [], ([n1; n2; n3; n] ++ rest). split; reflexivity.
    - exists [xca; xfe; xba; xbe; n1; n2; n3], rest. split; reflexivity. }
  apply C04_signature_stands; auto.
  - apply checked_no_rival; [exact K|exact Hm|]. intros g alts Hg. apply Hn. exact Hg.
  - intros x _ _. unfold cafebabe_with. cbn [format_of]. destruct x, (universal_count n); discriminate.
Qed.
Print Assumptions C65_cafebabe.

(** *** Examples *)
Definition shell_file : bytes := bs "#!/bin/sh" ++ [x0a] ++ bs "echo hello" ++ [x0a].
Definition python_file : bytes := bs "#!/usr/bin/env python3" ++ [x0a] ++ bs "print('hello')" ++ [x0a].
Definition usr_shell_file : bytes := bs "#!/usr/bin/sh" ++ [x0a] ++ bs "echo hello" ++ [x0a].
Definition class_file : bytes := [xca; xfe; xba; xbe; x00; x00; x00; x34] ++ bs "constants".
Lemma elsewhere_dec l : forallb (fun e : sig_entry => negb (fmem (fst e) elsewhere) || negb (existsb (forallb (fast_part l)) (snd e))) signatures = true ->
  forall g alts, In g elsewhere -> In (g, alts) signatures -> ~ sig_matches l alts.
Proof. intros H. exact (no_rival_by_computation l (std Empty [] None None []) H). Qed.
Example C65_witness :
  (exists s, In s families /\ carries shell_file s /\ no_rival shell_file s /\ format_of s = ShellScript) /\
  (exists s, In s families /\ carries python_file s /\ no_rival python_file s /\ format_of s = PythonScript) /\
  from_bytes cfg_all shell_file = Done ShellScript /\ from_bytes cfg_all python_file = Done PythonScript /\
  (forall g alts, In g elsewhere -> In (g, alts) signatures -> ~ sig_matches class_file alts) /\
  from_bytes cfg_all class_file = Done JavaClass.
Proof.
  split; [|split; [|split; [|split; [|split]]]].
  - exists (shebang ShellScript bin "sh"). split; [|split; [|split; [|reflexivity]]].
    + unfold families. do 4 (apply in_or_app; right). apply in_or_app; left. unfold shells. apply in_or_app; left. left. reflexivity.
    + apply carries_by_computation. vm_compute. reflexivity.
    + apply no_rival_by_computation. vm_compute. reflexivity.
  - exists (shebang PythonScript env "python3"). split; [|split; [|split; [|reflexivity]]].
    + unfold families. do 3 (apply in_or_app; right). apply in_or_app; left. unfold scripts. apply in_or_app; left.
      apply in_flat_map. exists (PythonScript, "python3"%string). split; [cbn; tauto|cbn; tauto].
    + apply carries_by_computation. vm_compute. reflexivity.
    + apply no_rival_by_computation. vm_compute. reflexivity.
  - vm_compute. reflexivity.
  - vm_compute. reflexivity.
  - apply elsewhere_dec. vm_compute. reflexivity.
  - vm_compute. reflexivity.
Qed.
Example C65_missed_witness :
  (exists s, In s missed_families /\ carries usr_shell_file s /\ format_of s = ShellScript) /\
  rust_slice usr_shell_file /\ from_bytes cfg_all usr_shell_file = Done PlainText.
Proof.
  split; [exists (shebang ShellScript usr "sh"); split; [|split; [apply carries_by_computation; vm_compute; reflexivity|reflexivity]]|].
  - unfold missed_families. apply in_or_app; right. apply in_or_app; left. unfold unknown_shebangs.
    apply in_or_app; right. apply in_or_app; left. left. reflexivity.
  - split; [unfold rust_slice; vm_compute; reflexivity|vm_compute; reflexivity].
Qed.
Definition sega_rom : bytes := repeat x00 (N.to_nat 32752) ++ bs "TMR SEGA" ++ repeat x00 7 ++ [x4c].
Example C65_remote_witness : exists s, In s remote_families /\ carries sega_rom s /\ format_of s = SegaMasterSystemRom.
Proof.
  exists (sega 4 12). split; [|split; [apply carries_by_computation; vm_compute; reflexivity|reflexivity]].
  unfold remote_families. apply in_or_app; left. unfold sega_roms. apply in_flat_map. exists 4. split; [cbn; tauto|].
  apply in_map. cbn. tauto.
Qed.

(** ** C66 *)
Definition backed (e : sig_entry) : bool :=
  fmem (fst e) misspelled ||
  forallb (fun alt => existsb (fun s => feqb (format_of s) (fst e) && implied alt (magic s)) headers) (snd e).
Lemma table_backed : forallb backed signatures = true.
Proof. vm_compute. reflexivity. Qed.
Lemma signature_backed l f : first_match signatures l f -> ~ In f misspelled ->
  exists s, In s headers /\ format_of s = f /\ carries l s.
Proof.
  intros (before & alts & after & E & (alt & Ha & Hm) & _) Hf. pose proof table_backed as K.
  rewrite forallb_forall in K. specialize (K (f, alts)). rewrite E in K. specialize (K (in_elt _ _ _)).
  unfold backed in K. cbn [fst snd] in K. apply orb_prop in K as [K|K]; [now apply fmem_in in K|].
  rewrite forallb_forall in K. specialize (K alt Ha). apply existsb_exists in K as (s & Hs & K).
  apply andb_prop in K as [K1 K2]. apply feqb_eq in K1. exists s. split; [exact Hs|]. split; [exact K1|].
  now apply (implied_sound l alt).
Qed.
(** Without reader features nothing is reported as a format unless it has a header of that format
    (or its essential part). *)
Theorem C66_no_header_no_format : forall (c : cfg) l f, supported c -> featureless c -> rust_slice l ->
  from_bytes c l = Done f -> f <> Empty -> f <> ArbitraryBinaryData -> ~ In f misspelled ->
  exists s, In s headers /\ format_of s = f /\ carries l s.
Proof.
  intros c l f Hc Hf Hl H He Ha Hs. assert (Hne : l <> []).
  { intros ->. apply He. assert (K : from_bytes c [] = Done Empty) by now apply C01_empty_iff. congruence. }
  apply C04_first_match_wins in H as [H|[H _]]; auto; [now apply signature_backed|now destruct Ha].
Qed.
Print Assumptions C66_no_header_no_format.
(** With any features: nothing is reported as a format that no reader looks for unless it has a header
    of that format. *)
Theorem C66_no_header_no_format_any_features : forall (c : cfg) l f, supported c -> rust_slice l ->
  from_bytes c l = Done f -> f <> Empty -> f <> ArbitraryBinaryData -> f <> PlainText ->
  (forall x, ~ In f (documented x)) -> ~ In f misspelled ->
  exists s, In s headers /\ format_of s = f /\ carries l s.
Proof.
  intros c l f Hc Hl H He Ha Hp Hd Hs. assert (Hne : l <> []).
  { intros ->. apply He. assert (K : from_bytes c [] = Done Empty) by now apply C01_empty_iff. congruence. }
  apply signature_backed; [|exact Hs].
  apply (C13_error_branch_unused c l Hc Hl) in H.
  assert (Hw : takeN 36870 l <> []) by (destruct l as [|b l]; [now destruct Hne|discriminate]).
  assert (Hlen : d_max (cursor l) < 2 ^ 64) by reflexivity.
  assert (Hr : fst (dev_read 36870 (cursor l)) = Ok (takeN 36870 l)) by now rewrite cursor_read.
  assert (Hall : forall g, first_match signatures (takeN 36870 l) g -> first_match signatures l g).
  { intros g Hg. apply (C05_window_suffices) with (l' := l) in Hg; [exact Hg|now rewrite takeN_takeN]. }
  destruct (C10_result_is_documented c (cursor l) _ _ Hc Hl Hlen Hr Hw H) as [(_ & [E|E])|(g & Hg & [E|(x & _ & _ & Ex & [E|[E|E]])])];
    try (now destruct Hp); try now destruct Ha.
  - subst g. now apply Hall.
  - exfalso. now apply (Hd x).
Qed.
Print Assumptions C66_no_header_no_format_any_features.
(** Whatever is reported, there is a header of that format, or of a container in which it is looked for. *)
Theorem C66_header_of_format_or_container : forall (c : cfg) l f, supported c -> rust_slice l ->
  from_bytes c l = Done f -> f <> Empty -> f <> ArbitraryBinaryData -> f <> PlainText -> ~ In f misspelled ->
  exists s, In s headers /\ (format_of s = f \/ exists y, format_of s = container y /\ In f (documented y)) /\ carries l s.
Proof.
  intros c l f Hc Hl H He Ha Hp Hs. assert (Hne : l <> []).
  { intros ->. apply He. assert (K : from_bytes c [] = Done Empty) by now apply C01_empty_iff. congruence. }
  apply (C13_error_branch_unused c l Hc Hl) in H.
  assert (Hw : takeN 36870 l <> []) by (destruct l as [|b l]; [now destruct Hne|discriminate]).
  assert (Hlen : d_max (cursor l) < 2 ^ 64) by reflexivity.
  assert (Hr : fst (dev_read 36870 (cursor l)) = Ok (takeN 36870 l)) by now rewrite cursor_read.
  assert (Hall : forall g, first_match signatures (takeN 36870 l) g -> first_match signatures l g).
  { intros g Hg. apply (C05_window_suffices) with (l' := l) in Hg; [exact Hg|now rewrite takeN_takeN]. }
  destruct (C10_result_is_documented c (cursor l) _ _ Hc Hl Hlen Hr Hw H) as [(_ & [E|E])|(g & Hg & [E|(x & _ & _ & Ex & [E|[E|E]])])];
    try (now destruct Hp); try now destruct Ha.
  - subst g. destruct (signature_backed l f (Hall _ Hg) Hs) as (s & H1 & H2 & H3). exists s. auto.
  - subst g. destruct (signature_backed l (container x) (Hall _ Hg)) as (s & H1 & H2 & H3).
    + destruct x; cbn; intros [K|[]]; discriminate.
    + exists s. split; [exact H1|]. split; [|exact H3]. right. exists x. auto.
Qed.
Print Assumptions C66_header_of_format_or_container.
(** How many headers, for how many formats. *)
Example C66_witness :
  from_bytes cfg_all shell_file = Done ShellScript /\ (forall x, ~ In ShellScript (documented x)) /\ ~ In ShellScript misspelled /\
  List.length headers = 1422%nat /\
  forallb (fun e : sig_entry => existsb (fun s => feqb (format_of s) (fst e)) headers || fmem (fst e) misspelled) signatures = true.
Proof.
  split; [vm_compute; reflexivity|]. split; [intros x H; apply fmem_in in H; destruct x; vm_compute in H; discriminate|].
  split; [cbn; intros [K|[]]; discriminate|]. split; vm_compute; reflexivity.
Qed.
