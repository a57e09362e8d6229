(** C04-C07: the signature table.  Statements use SpecSig.v (present, sig_matches, first_match,
    no_match), SpecApi.v (supported, rust_slice) and the table [signatures] transcribed from
    /repo/src/signatures.rs. *)
From Coq Require Import NArith ZArith Bool String List Lia ZifyBool ZifyNat ZifyN.
From Verif Require Import Base BaseProofs Formats FormatsProofs Signatures IO Lib Documented
  Spec SpecSig SpecText SpecApi LibProofs Ideal SigProofs CoreProofs Glue Conf SigSparse.
Local Open Scope N_scope.

(** ** C04 *)
Lemma c04_lemma (c : cfg) l : supported c -> featureless c -> rust_slice l -> l <> [] ->
  forall f, from_bytes c l = Done f <->
    (first_match signatures l f \/ (f = ArbitraryBinaryData /\ no_match signatures l)).
Proof.
  intros Hc Hf Hl Hne f. rewrite from_bytes_featureless by auto using rust_u64.
  rewrite <- from_signature_some, <- from_signature_none.
  destruct (from_signature l) as [g|]; split.
  - intros [= <-]. now left.
  - intros [[= <-]|[_ H]]; [reflexivity|discriminate].
  - intros [= <-]. now right.
  - intros [H|[-> _]]; [discriminate|reflexivity].
Qed.

(** Without reader features the result is the first format of the table (in priority order) that
    has a matching alternative, and ArbitraryBinaryData if there is none. *)
Theorem C04_first_match_wins : forall (c : cfg) l, supported c -> featureless c -> rust_slice l -> l <> [] ->
  forall f, from_bytes c l = Done f <->
    (first_match signatures l f \/ (f = ArbitraryBinaryData /\ no_match signatures l)).
Proof. exact c04_lemma. Qed.
Print Assumptions C04_first_match_wins.

(** With any feature set, the signature result stands unless it is the container of an enabled
    reader. *)
Lemma c04_stands (c : cfg) l f : supported c -> rust_slice l -> first_match signatures l f ->
  (forall x, feat c x = true -> x <> FTxt -> container x <> f) -> from_bytes c l = Done f.
Proof.
  intros Hc Hl Hs Hx. pose proof (first_match_nonempty _ _ Hs) as Hne. apply from_signature_some in Hs.
  rewrite from_bytes_ideal by auto using rust_u64. unfold ideal_detect.
  destruct (takeN window l) as [|b t] eqn:E; [exfalso; exact (Hne (proj1 (takeN_window_nil l) E))|].
  rewrite <- E, from_signature_window, Hs.
  destruct (feature_of f) as [x|] eqn:Ef; [|reflexivity].
  apply feature_of_some in Ef. destruct Ef as [-> Ht].
  destruct (feat c x) eqn:Efx; [|reflexivity]. exfalso. now apply (Hx x).
Qed.
Theorem C04_signature_stands : forall (c : cfg) l f, supported c -> rust_slice l ->
  first_match signatures l f -> (forall x, feat c x = true -> x <> FTxt -> container x <> f) ->
  from_bytes c l = Done f.
Proof. exact c04_stands. Qed.
Print Assumptions C04_signature_stands.

Example C04_witness : supported cfg_none /\ featureless cfg_none /\
  from_bytes cfg_none (bs "GIF89a....") = Done GraphicsInterchangeFormat /\
  from_bytes cfg_none (bs "no signature") = Done ArbitraryBinaryData.
Proof. split; [now right|]. split; [intros []; reflexivity|]. split; vm_compute; reflexivity. Qed.

(** ** C05 *)
Lemma extent_table f alts alt off v : In (f, alts) signatures -> In alt alts -> In (off, v) alt ->
  off + lenN v <= 36870.
Proof.
  intros H1 H2 H3. pose proof table_extent as Ht. rewrite forallb_forall in Ht. specialize (Ht _ H1).
  unfold extent_ok in Ht. cbn [snd] in Ht. rewrite forallb_forall in Ht. specialize (Ht _ H2).
  rewrite forallb_forall in Ht. specialize (Ht _ H3). cbn [fst snd] in Ht. lia.
Qed.
Lemma c05_window l l' f : takeN 36870 l = takeN 36870 l' ->
  (first_match signatures l f <-> first_match signatures l' f) /\
  (no_match signatures l <-> no_match signatures l').
Proof.
  intros E. rewrite <- !from_signature_some, <- !from_signature_none.
  rewrite <- (from_signature_window l), <- (from_signature_window l'). change window with 36870.
  rewrite E. split; reflexivity.
Qed.
(** No alternative looks behind byte 36870, so the rest of the stream cannot change the result of
    the scan ... *)
Theorem C05_window_suffices :
  (forall f alts alt off v, In (f, alts) signatures -> In alt alts -> In (off, v) alt ->
     off + lenN v <= 36870) /\
  (forall l l' f, takeN 36870 l = takeN 36870 l' ->
     (first_match signatures l f <-> first_match signatures l' f) /\
     (no_match signatures l <-> no_match signatures l')).
Proof. exact (conj extent_table c05_window). Qed.
Print Assumptions C05_window_suffices.

Lemma c05_api (c : cfg) l l' : supported c -> featureless c -> rust_slice l -> rust_slice l' ->
  takeN 36870 l = takeN 36870 l' -> from_bytes c l = from_bytes c l'.
Proof.
  intros Hc Hf Hl Hl' E.
  destruct l as [|b l].
  { assert (l' = []) as -> by (destruct l'; [reflexivity|discriminate E]). reflexivity. }
  destruct l' as [|b' l']; [discriminate E|].
  rewrite !from_bytes_featureless by (auto using rust_u64; discriminate).
  rewrite <- (from_signature_window (b :: l)), <- (from_signature_window (b' :: l')).
  change window with 36870. rewrite E. reflexivity.
Qed.
(** ... and without reader features cannot change the result at all. *)
Theorem C05_rest_is_irrelevant : forall (c : cfg) l l', supported c -> featureless c ->
  rust_slice l -> rust_slice l' -> takeN 36870 l = takeN 36870 l' -> from_bytes c l = from_bytes c l'.
Proof. exact c05_api. Qed.
Print Assumptions C05_rest_is_irrelevant.

(** 36870 is the least window with this property. *)
Definition iso_image : bytes := repeat x00 (N.to_nat 36865) ++ bs "CD001".
Lemma iso_sig : from_signature iso_image = Some Iso9660 /\ from_signature (takeN 36869 iso_image) = None.
Proof. rewrite <- !fast_sig_ok. split; vm_compute; reflexivity. Qed.
Lemma c05_least w : w < 36870 -> exists l l', takeN w l = takeN w l' /\
  first_match signatures l Iso9660 /\ no_match signatures l'.
Proof.
  intros Hw. exists iso_image, (takeN 36869 iso_image). split; [|split].
  - rewrite takeN_takeN. f_equal. lia.
  - apply from_signature_some, iso_sig.
  - apply from_signature_none, iso_sig.
Qed.
Theorem C05_window_is_least : forall w, w < 36870 -> exists l l', takeN w l = takeN w l' /\
  first_match signatures l Iso9660 /\ no_match signatures l'.
Proof. exact c05_least. Qed.
Print Assumptions C05_window_is_least.
Lemma c05_witness_gif n b : 36870 <= 6 + N.of_nat n -> 7 + N.of_nat n < 2 ^ 63 ->
  rust_slice ((bs "GIF89a" ++ repeat x00 n) ++ [b]) /\ from_bytes cfg_none ((bs "GIF89a" ++ repeat x00 n) ++ [b]) = Done GraphicsInterchangeFormat.
Proof.
  intros H Hn.
  assert (R : rust_slice ((bs "GIF89a" ++ repeat x00 n) ++ [b])).
  { unfold rust_slice. rewrite !lenN_app, lenN_repeat. change (lenN (bs "GIF89a")) with 6. change (lenN [b]) with 1. lia. }
  split; [exact R|]. rewrite from_bytes_featureless; [|right; reflexivity|intros x; reflexivity|now apply rust_u64|discriminate].
  rewrite <- app_assoc, sparse_ok by exact H. vm_compute. reflexivity.
Qed.
Example C05_witness :
  let l b := (bs "GIF89a" ++ repeat x00 (N.to_nat 36864)) ++ [b] in
  featureless cfg_none /\ rust_slice (l x00) /\ rust_slice (l xff) /\ takeN 36870 (l x00) = takeN 36870 (l xff) /\
  l x00 <> l xff /\ from_bytes cfg_none (l xff) = Done GraphicsInterchangeFormat.
Proof.
  cbv zeta. split; [intros x; reflexivity|].
  split; [apply c05_witness_gif; lia|]. split; [apply c05_witness_gif; lia|].
  split; [now rewrite !takeN_app_len by (rewrite lenN_app, lenN_repeat; change (lenN (bs "GIF89a")) with 6; lia)|].
  split; [|apply c05_witness_gif; lia].
  intros H. apply app_inv_head in H. discriminate H.
Qed.

(** ** C06 *)
Lemma c06_lemma l r f : first_match signatures l f ->
  exists g, first_match signatures (l ++ r) g /\
    (g = f \/ exists before alts after galts, signatures = before ++ (f, alts) :: after /\ In (g, galts) before).
Proof.
  intros H. apply from_signature_some in H.
  destruct (from_signature_app signatures l r f H) as (before & alts & after & g & E & Hg & Hor).
  exists g. split; [now apply from_signature_some|].
  destruct Hor as [->|[galts Hin]]; [now left|right]. exists before, alts, after, galts. auto.
Qed.
(** Appending data keeps a signature, or replaces it by one of higher priority. *)
Theorem C06_extension_keeps_signature : forall l r f, first_match signatures l f ->
  exists g, first_match signatures (l ++ r) g /\
    (g = f \/ exists before alts after galts, signatures = before ++ (f, alts) :: after /\ In (g, galts) before).
Proof. exact c06_lemma. Qed.
Print Assumptions C06_extension_keeps_signature.

(** The same for from_bytes without readers: an input that is recognised stays recognised. *)
Lemma c06_api (c : cfg) l r f : supported c -> featureless c -> rust_slice (l ++ r) -> l <> [] ->
  from_bytes c l = Done f -> f <> ArbitraryBinaryData ->
  exists g, from_bytes c (l ++ r) = Done g /\ g <> ArbitraryBinaryData /\
    (g = f \/ exists before alts after galts, signatures = before ++ (f, alts) :: after /\ In (g, galts) before).
Proof.
  intros Hc Hf Hl Hne E Hb.
  assert (Hl' : rust_slice l) by (unfold rust_slice in *; rewrite lenN_app in Hl; lia).
  assert (Hne' : l ++ r <> []) by (destruct l; [now destruct Hne|discriminate]).
  apply (c04_lemma c l Hc Hf Hl' Hne) in E. destruct E as [E|[-> _]]; [|now destruct Hb].
  destruct (c06_lemma l r f E) as (g & Hg & Hor). exists g. split; [|split; [|exact Hor]].
  - apply (c04_lemma c (l ++ r) Hc Hf Hl Hne'). now left.
  - intros ->. apply from_signature_some in Hg. apply from_signature_never in Hg. apply Hg.
    right. now left.
Qed.
Theorem C06_recognised_stays_recognised : forall (c : cfg) l r f, supported c -> featureless c ->
  rust_slice (l ++ r) -> l <> [] -> from_bytes c l = Done f -> f <> ArbitraryBinaryData ->
  exists g, from_bytes c (l ++ r) = Done g /\ g <> ArbitraryBinaryData /\
    (g = f \/ exists before alts after galts, signatures = before ++ (f, alts) :: after /\ In (g, galts) before).
Proof. exact c06_api. Qed.
Print Assumptions C06_recognised_stays_recognised.
(** A PNG that turns into an animated PNG, and a GIF that stays one. *)
Example C06_witness :
  let png := [x89] ++ bs "PNG" ++ [x0d; x0a; x1a; x0a] ++ repeat x00 29 in
  first_match signatures png PortableNetworkGraphics /\
  from_bytes cfg_none png = Done PortableNetworkGraphics /\
  from_bytes cfg_none (png ++ bs "acTL") = Done AnimatedPortableNetworkGraphics /\
  from_bytes cfg_none (png ++ bs "IDAT") = Done PortableNetworkGraphics.
Proof.
  cbv zeta. split; [apply from_signature_some; vm_compute; reflexivity|]. split; [vm_compute; reflexivity|].
  split; vm_compute; reflexivity.
Qed.

(** ** C07 *)
Lemma c07_witness f alts alt : In (f, alts) signatures -> In alt alts ->
  alt_matches (witness alt) alt /\ first_match signatures (witness alt) f.
Proof.
  intros H1 H2. pose proof witnesses_ok as H. rewrite forallb_forall in H. specialize (H _ H1).
  cbn [fst snd] in H. rewrite forallb_forall in H. specialize (H _ H2). unfold witness_ok in H.
  apply andb_prop in H as [Ha Hb]. rewrite fast_sig_ok in Hb.
  destruct (from_signature (witness alt)) as [g|] eqn:E; [|discriminate Hb].
  apply feqb_eq in Hb. subst g. split; [|now apply from_signature_some].
  apply alt_matches_iff. rewrite <- Ha. apply forallb_ext'. intros [off v] Hin. symmetry.
  apply fast_part_ok. right. pose proof table_nonempty as Ht. rewrite forallb_forall in Ht.
  specialize (Ht _ H1). unfold nonempty_values in Ht. cbn [snd] in Ht. rewrite forallb_forall in Ht.
  specialize (Ht _ H2). rewrite forallb_forall in Ht. specialize (Ht _ Hin). cbn [snd] in Ht.
  now destruct v.
Qed.
Lemma witness_len_ok :
  forallb (fun e : sig_entry => forallb (fun alt => lenN (witness alt) <? 40000) (snd e)) signatures = true.
Proof. vm_compute. reflexivity. Qed.
Lemma witness_slice f alts alt : In (f, alts) signatures -> In alt alts -> rust_slice (witness alt).
Proof.
  intros H1 H2. pose proof witness_len_ok as H. rewrite forallb_forall in H. specialize (H _ H1).
  cbn [snd] in H. rewrite forallb_forall in H. specialize (H _ H2). apply N.ltb_lt in H.
  unfold rust_slice. eapply N.lt_trans; [exact H|reflexivity].
Qed.
Lemma c07_lemma f alts alt : In (f, alts) signatures -> In alt alts ->
  exists l, rust_slice l /\ alt_matches l alt /\
    forall c : cfg, supported c -> featureless c -> from_bytes c l = Done f.
Proof.
  intros H1 H2. destruct (c07_witness f alts alt H1 H2) as [Ha Hb]. exists (witness alt).
  pose proof (witness_slice _ _ _ H1 H2) as Hs.
  split; [exact Hs|]. split; [exact Ha|]. intros c Hc Hf.
  apply c04_stands; auto. intros x Hx. rewrite Hf in Hx. discriminate.
Qed.
(** No alternative of the table is dead: for each there is an input that it matches and that is
    reported as its format. *)
Theorem C07_no_dead_alternative : forall f alts alt, In (f, alts) signatures -> In alt alts ->
  exists l, rust_slice l /\ alt_matches l alt /\
    forall c : cfg, supported c -> featureless c -> from_bytes c l = Done f.
Proof. exact c07_lemma. Qed.
Print Assumptions C07_no_dead_alternative.
(** It is about this many formats and alternatives. *)
Example C07_witness : List.length signatures = 343%nat /\
  List.length (flat_map snd signatures) = 726%nat /\ Forall (fun e => snd e <> []) signatures.
Proof.
  split; [vm_compute; reflexivity|]. split; [vm_compute; reflexivity|].
  apply Forall_forall. intros e He. assert (K : forallb (fun e => negb (Nat.eqb (List.length (snd e)) 0)) signatures = true) by (vm_compute; reflexivity).
  rewrite forallb_forall in K. specialize (K e He). destruct (snd e); [discriminate K|discriminate].
Qed.
