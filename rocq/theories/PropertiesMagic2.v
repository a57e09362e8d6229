(** C48, continued: magic numbers that are overlooked.  Statements use SpecMagic.v (overlooked,
    registered, carries) and SpecApi.v. *)
From Coq Require Import NArith ZArith Bool String List Lia ZifyBool ZifyNat ZifyN.
From Verif Require Import Base BaseProofs Formats FormatsProofs Signatures IO Lib Documented
  Spec SpecSig SpecText SpecApi SpecMagic IOProofs LibProofs Ideal SigProofs CoreProofs Glue Conf PropertiesSig PropertiesApi PropertiesMagic.
Import ListNotations.
Ltac Zify.zify_post_hook ::= idtac.
Local Open Scope N_scope.

Definition readers : list feature := [FAsf; FCfb; FEbml; FExe; FId3v2; FMp4; FPdf; FRm; FSqlite3; FTxt; FXml; FZip].
Lemma readers_all x : In x readers.
Proof. destruct x; cbn; tauto. Qed.
(** No alternative of the format is compatible with the magic number. *)
Definition excluded (parts : list (N * bytes)) (f : FileFormat) : bool :=
  forallb (fun e : sig_entry => negb (feqb (fst e) f) || negb (existsb (compatible parts) (snd e))) signatures.
Lemma excluded_sound parts f l : excluded parts f = true -> alt_matches l parts -> ~ first_match signatures l f.
Proof.
  intros K Hm (before & alts & after & Et & (alt & Ha & Hma) & _). unfold excluded in K. rewrite forallb_forall in K.
  specialize (K (f, alts)). rewrite Et in K. specialize (K (in_elt _ _ _)). cbn [fst snd] in K.
  rewrite (proj2 (feqb_eq _ _) eq_refl) in K. cbn [negb orb] in K. apply negb_true_iff in K.
  rewrite <- not_true_iff_false in K. apply K. apply existsb_exists. exists alt. split; [exact Ha|].
  now apply (compatible_sound l).
Qed.
Definition unreachable (parts : list (N * bytes)) (f : FileFormat) : bool :=
  forallb (fun x => negb (fmem f (documented x)) || excluded parts (container x)) readers &&
  negb (feqb f PlainText) && negb (feqb f ArbitraryBinaryData).
Definition never (s : standard) : bool :=
  excluded (magic s) (format_of s) && unreachable (magic s) (format_of s).
Fixpoint shadowed (parts : list (N * bytes)) (f : FileFormat) (table : list sig_entry) : bool :=
  match table with
  | [] => true
  | (g, alts) :: rest => negb (feqb g f) && (existsb (implied parts) alts || shadowed parts f rest)
  end.
Lemma shadowed_sound parts f : forall table l, shadowed parts f table = true -> alt_matches l parts -> ~ first_match table l f.
Proof.
  induction table as [|[g alts] rest IH]; intros l H Hm (before & falts & after & E & Hs & Hb).
  - now destruct before.
  - cbn [shadowed] in H. apply andb_prop in H as [H1 H2]. destruct before as [|e before].
    + injection E as -> _ _. now rewrite (proj2 (feqb_eq f f) eq_refl) in H1.
    + injection E as <- ->. apply orb_prop in H2 as [H2|H2].
      * apply (Hb g alts); [now left|]. apply existsb_exists in H2 as (alt & Hin & Hi). exists alt. split; [exact Hin|].
        now apply (implied_sound l parts).
      * apply (IH l H2 Hm). exists before, falts, after. split; [reflexivity|]. split; [exact Hs|].
        intros k kalts Hk. apply (Hb k kalts). now right.
Qed.
Lemma overlooked_checked : forallb never overlooked = true.
Proof. vm_compute. reflexivity. Qed.

Definition nonempty_magic (s : standard) : bool := existsb (fun p => negb (lenN (snd p) =? 0)) (magic s).
Lemma overlooked_nonempty : forallb nonempty_magic overlooked = true.
Proof. vm_compute. reflexivity. Qed.
Lemma carries_nonempty l s : nonempty_magic s = true -> carries l s -> l <> [].
Proof.
  intros H Hm ->. apply existsb_exists in H as ([o v] & Hin & Hv). cbn [snd] in Hv.
  destruct (Hm o v Hin) as (pre & post & E & _). destruct pre; [|discriminate]. destruct v; [discriminate|discriminate].
Qed.

Lemma never_reported (c : cfg) l parts f : supported c -> rust_slice l -> l <> [] -> unreachable parts f = true ->
  alt_matches l parts -> ~ first_match signatures l f -> from_bytes c l <> Done f.
Proof.
  intros Hc Hl Hne Hu Hm Hn H. unfold unreachable in Hu. repeat rewrite andb_true_iff in Hu. destruct Hu as ((K2 & K3) & K4).
  apply (C13_error_branch_unused c l Hc Hl) in H.
  assert (Hw : takeN 36870 l <> []) by (destruct l as [|b l]; [now destruct Hne|discriminate]).
  assert (Hlen : d_max (cursor l) < 2 ^ 64) by reflexivity.
  assert (Hr : fst (dev_read 36870 (cursor l)) = Ok (takeN 36870 l)) by now rewrite cursor_read.
  assert (Hp : f <> PlainText /\ f <> ArbitraryBinaryData) by (split; intros ->; discriminate).
  assert (Hall : forall g, first_match signatures (takeN 36870 l) g -> first_match signatures l g).
  { intros g Hg. apply (C05_window_suffices) with (l' := l) in Hg; [exact Hg|now rewrite takeN_takeN]. }
  destruct (C10_result_is_documented c (cursor l) _ _ Hc Hl Hlen Hr Hw H) as [(_ & [E|E])|(g & Hf & [E|(x & _ & _ & Ex & [E|[E|E]])])];
    try now destruct Hp.
  - subst g. now apply Hn, Hall.
  - rewrite forallb_forall in K2. specialize (K2 x (readers_all x)). apply fmem_in in E. rewrite E in K2. cbn [negb orb] in K2.
    apply (excluded_sound parts (container x) l K2 Hm). subst g. now apply Hall.
Qed.

(** Whatever follows, a file that begins like this is not reported as the format it belongs to. *)
Theorem C48_overlooked_refuted : forall (c : cfg) l s, supported c -> rust_slice l ->
  In s overlooked -> carries l s -> from_bytes c l <> Done (format_of s).
Proof.
  intros c l s Hc Hl Hs Hm. pose proof overlooked_checked as K. rewrite forallb_forall in K. specialize (K s Hs).
  unfold never in K. apply andb_prop in K as [K1 K2]. apply (never_reported c l (magic s)); auto.
  - apply (carries_nonempty l s); [|exact Hm]. pose proof overlooked_nonempty as E. rewrite forallb_forall in E. now apply E.
  - now apply (excluded_sound (magic s)).
Qed.
Print Assumptions C48_overlooked_refuted.

(** WordPerfect documents are never reported as WordPerfect documents. *)
Lemma misfiled_checked : forallb (fun s => shadowed (magic s) (format_of s) signatures && unreachable (magic s) (format_of s) && nonempty_magic s) misfiled = true.
Proof. vm_compute. reflexivity. Qed.
Theorem C48_misfiled_refuted : forall (c : cfg) l s, supported c -> rust_slice l ->
  In s misfiled -> carries l s -> from_bytes c l <> Done (format_of s).
Proof.
  intros c l s Hc Hl Hs Hm. pose proof misfiled_checked as K. rewrite forallb_forall in K. specialize (K s Hs).
  apply andb_prop in K as [K K3]. apply andb_prop in K as [K1 K2]. apply (never_reported c l (magic s)); auto.
  - now apply (carries_nonempty l s).
  - now apply (shadowed_sound (magic s)).
Qed.
Print Assumptions C48_misfiled_refuted.
(** The beginning of a WordPerfect 5.1 document. *)
Definition wp51 : bytes :=
  [xff; x57; x50; x43; x1e; x03; x00; x00; x01; x0a; x00; x01; x00; x00; x00; x00] ++ bs "the text".
Example C48_misfiled_witness : exists s, In s misfiled /\ carries wp51 s /\ rust_slice wp51 /\
  from_bytes cfg_all wp51 = Done WordperfectPresentations.
Proof.
  eexists. split; [left; reflexivity|]. split; [apply carries_by_computation; vm_compute; reflexivity|].
  split; vm_compute; reflexivity.
Qed.

(** The registered media type is not the reported one. *)
Theorem C48_registered_media_refuted : forall f t, In (f, t) registered -> media_type f <> t.
Proof.
  intros f t H. cbn [registered In] in H.
  repeat (destruct H as [H|H]; [injection H as <- <-; vm_compute; discriminate|]). destruct H.
Qed.
Print Assumptions C48_registered_media_refuted.

(** A dynamic virtual hard disk begins with a copy of its footer. *)
Definition dynamic_vhd : bytes := bs "conectix" ++ [x00; x00; x00; x02; x00; x01; x00; x00] ++ repeat x00 496.
Example C48_overlooked_witness :
  exists s, In s overlooked /\ format_of s = MicrosoftVirtualHardDisk /\ carries dynamic_vhd s /\
    rust_slice dynamic_vhd /\ from_bytes cfg_all dynamic_vhd = Done ArbitraryBinaryData /\
    from_bytes cfg_all (bs "connectix") = Done MicrosoftVirtualHardDisk.
Proof.
  exists (std MicrosoftVirtualHardDisk [(0, bs "conectix")] None None []).
  split; [left; reflexivity|]. split; [reflexivity|].
  split; [apply carries_by_computation; vm_compute; reflexivity|].
  split; [vm_compute; reflexivity|]. split; vm_compute; reflexivity.
Qed.
(** The table covers most formats that are recognised by a signature. *)
Example C48_coverage :
  List.length (filter (fun e : sig_entry => existsb (fun s => feqb (format_of s) (fst e)) (standards ++ remote_standards)) signatures)
  = 323%nat.
Proof. vm_compute. reflexivity. Qed.
