(** From reader theorems to theorems about the API. *)
From Coq Require Import NArith ZArith Bool String List Lia ZifyBool ZifyNat ZifyN.
From Verif Require Import Base BaseProofs Formats FormatsProofs Signatures IO Find Utf8
  Readers Lib Mem IOProofs Documented Static ReaderStatic Lawful LibProofs Ideal Spec SpecSig SpecText SpecApi
  SigProofs CoreProofs TextProofs ExeProofs.
Local Open Scope N_scope.

Lemma rust_u64 l : rust_slice l -> lenN l < u64_max1.
Proof. intros H. eapply N.lt_trans; [exact H|reflexivity]. Qed.

Lemma generic_result_of (c : cfg) l max f : ideal_generic c l max = Done f <-> generic_result c l f.
Proof.
  destruct (ideal_generic_spec c l max) as [(H1 & H2 & E)|(H & E)]; rewrite E; split.
  - intros [= <-]. now constructor.
  - intros [H3 H4|H3]; [reflexivity|]. exfalso. apply H3. now split.
  - intros [= <-]. constructor. intros [H1 H2]. destruct H as [H|H]; [congruence|contradiction].
  - intros [H3 H4|H3]; [|reflexivity]. destruct H as [H|H]; [congruence|contradiction].
Qed.

Lemma generic_result_total (c : cfg) l : exists f, generic_result c l f.
Proof.
  destruct (ideal_generic_spec c l 0) as [(H1 & H2 & E)|(H & E)].
  - exists PlainText. now constructor.
  - exists ArbitraryBinaryData. constructor. intros [H1 H2]. destruct H as [H|H]; [congruence|contradiction].
Qed.
Lemma generic_result_fun (c : cfg) l f g : generic_result c l f -> generic_result c l g -> f = g.
Proof. intros [H1 H2|H1] [H3 H4|H3]; try reflexivity; exfalso; auto. Qed.

Lemma feature_of_container x : x <> FTxt -> feature_of (container x) = Some x.
Proof. destruct x; try reflexivity. now intros []. Qed.

Lemma first_match_nonempty l f : first_match signatures l f -> l <> [].
Proof.
  intros (before & alts & after & E & (alt & Hin & Ha) & _) ->.
  pose proof table_nonempty as Ht.
  rewrite E, forallb_app in Ht. apply andb_prop in Ht as [_ Ht].
  cbn [forallb] in Ht. apply andb_prop in Ht as [Ht _]. unfold nonempty_values in Ht. cbn [snd] in Ht.
  rewrite forallb_forall in Ht. specialize (Ht alt Hin). rewrite forallb_forall in Ht.
  assert (Hne : alt <> []).
  { intros ->.
    assert (K : forallb (fun e : sig_entry => forallb (fun a : sig_alt => match a with [] => false | _ => true end) (snd e)) signatures = true)
      by (vm_compute; reflexivity).
    rewrite forallb_forall in K. specialize (K (f, alts)). rewrite E in K.
    specialize (K ltac:(apply in_elt)). cbn [snd] in K. rewrite forallb_forall in K.
    specialize (K [] Hin). discriminate K. }
  destruct alt as [|[off v] alt]; [now apply Hne|].
  specialize (Ht (off, v) ltac:(now left)). cbn [snd] in Ht.
  destruct (Ha off v ltac:(now left)) as (pre & post & E1 & _).
  destruct v; [discriminate Ht|]. destruct pre; discriminate E1.
Qed.

(** from_bytes on a signed input. *)
Lemma detect_gives (c : cfg) x l r : supported c -> rust_slice l -> signed c x l ->
  gives (mreader c l (u64_max1 - 1) x) r ->
  exists f, from_bytes c l = Done f /\ decided c l r f.
Proof.
  intros Hc Hl (Hf & Hx & Hs) Hg. pose proof (first_match_nonempty _ _ Hs) as Hne.
  apply from_signature_some in Hs.
  rewrite from_bytes_ideal by (auto using rust_u64). unfold ideal_detect.
  destruct (takeN window l) as [|b t] eqn:E; [exfalso; exact (Hne (proj1 (takeN_window_nil l) E))|].
  rewrite <- E, from_signature_window, Hs, feature_of_container, Hf by exact Hx.
  destruct r as [g|]; cbn [gives decided] in *.
  - rewrite Hg. eauto.
  - destruct Hg as [e ->]. destruct (generic_result_total c l) as [f Hf']. exists f.
    split; [|exact Hf']. now apply generic_result_of.
Qed.
Lemma detect_ok (c : cfg) x l g : supported c -> rust_slice l -> signed c x l ->
  mreader c l (u64_max1 - 1) x = Done (Ok g) -> from_bytes c l = Done g.
Proof.
  intros Hc Hl Hs Hg. destruct (detect_gives c x l (Some g) Hc Hl Hs Hg) as (f & E & D).
  cbn in D. now subst.
Qed.
(** from_bytes without a signature. *)
Lemma detect_unsigned (c : cfg) l f : supported c -> rust_slice l -> l <> [] -> no_match signatures l ->
  from_bytes c l = Done f <-> generic_result c l f.
Proof.
  intros Hc Hl Hne Hn. apply from_signature_none in Hn.
  rewrite from_bytes_ideal by (auto using rust_u64). unfold ideal_detect.
  destruct (takeN window l) as [|b t] eqn:E; [exfalso; exact (Hne (proj1 (takeN_window_nil l) E))|].
  rewrite <- E, from_signature_window, Hn. apply generic_result_of.
Qed.
