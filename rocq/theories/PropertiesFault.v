(** C68: failing I/O calls never make a file look like another format. *)
From Coq Require Import NArith ZArith Bool String List Lia ZifyBool ZifyNat ZifyN.
From Verif Require Import Base BaseProofs Formats FormatsProofs Signatures IO Readers Lib Mem IOProofs Static ReaderStatic
  Lawful LibProofs Ideal SigProofs CoreProofs Documented Spec SpecSig SpecText SpecApi Glue Conf FaultProofs
  PropertiesApi PropertiesApi2.
Local Open Scope N_scope.
Ltac Zify.zify_post_hook ::= idtac.

Lemma fault_lemma (c : cfg) content p max d :
  supported c -> rust_slice content -> max < 2 ^ 64 -> lenN content <= max -> p <= max ->
  d_content d = content -> d_pos d = p -> d_max d = max ->
  fst (dev_read 36870 d) = Ok (takeN 36870 (dropN p content)) ->
  (forall x, In x [FPdf; FSqlite3; FXml] -> feat c x = true -> first_match signatures (dropN p content) (container x) ->
     Forall (fun e => match e with RShort _ => False | _ => True end) (tl (d_reads d))) ->
  fst (from_reader c d) = fst (from_reader c (mkdev content p [] [] max)) \/
  fst (from_reader c d) = Done (Ok ArbitraryBinaryData) \/
  exists g, generic_result c content g /\ fst (from_reader c d) = Done (Ok g).
Proof.
  intros Hc Hs Hmax Hl Hp Hdc Hdp Hdm E Hx. rewrite calm_ideal by assumption.
  destruct (dev_read window d) as [r d1] eqn:E1. change (dev_read 36870 d) with (dev_read window d) in E.
  rewrite E1 in E. cbn [fst] in E. subst r.
  assert (HJ : Jdev content max d1).
  { replace d1 with (snd (dev_read window d)) by now rewrite E1. apply dev_read_keeps. repeat split; auto. now rewrite Hdp. }
  assert (Ht : d_reads d1 = tl (d_reads d)).
  { unfold dev_read in E1. destruct (d_reads d) as [|[k| |e] rs]; try discriminate E1; injection E1 as _ <-; reflexivity. }
  destruct (from_reader_faulty c content max d _ d1 Hc Hmax Hs HJ Hdc E1) as [H|[H|H]].
  - intros x (f & Hsig & Hf & Hfx) Hu. rewrite Ht.
    change 36870 with window in Hsig. rewrite from_signature_window in Hsig.
    apply feature_of_some in Hf. destruct Hf as [-> _]. apply from_signature_some in Hsig.
    apply (Hx x); [|exact Hfx|exact Hsig]. destruct x; cbn in *; tauto.
  - left. exact H.
  - right. left. exact H.
  - right. right. destruct (ideal_generic c content max) as [g| |] eqn:Eg.
    + exists g. split; [|exact H]. now apply (generic_result_of c content max g).
    + exfalso. destruct (generic_result_total c content) as [g Hg]. apply (generic_result_of c content max g) in Hg. congruence.
    + exfalso. destruct (generic_result_total c content) as [g Hg]. apply (generic_result_of c content max g) in Hg. congruence.
Qed.

(** Whatever calls fail after the first one: the answer is the one of the same reader without
    failures, or the one for data of no known format.  (XML, SQLite and PDF files need full reads.) *)
Theorem C68_failures_only_lose : forall (c : cfg) content p max d,
  supported c -> rust_slice content -> max < 2 ^ 64 -> lenN content <= max -> p <= max ->
  d_content d = content -> d_pos d = p -> d_max d = max ->
  fst (dev_read 36870 d) = Ok (takeN 36870 (dropN p content)) ->
  (forall x, In x [FPdf; FSqlite3; FXml] -> feat c x = true -> first_match signatures (dropN p content) (container x) ->
     Forall (fun e => match e with RShort _ => False | _ => True end) (tl (d_reads d))) ->
  fst (from_reader c d) = fst (from_reader c (mkdev content p [] [] max)) \/
  fst (from_reader c d) = Done (Ok ArbitraryBinaryData) \/
  exists g, generic_result c content g /\ fst (from_reader c d) = Done (Ok g).
Proof. exact fault_lemma. Qed.
Print Assumptions C68_failures_only_lose.

(** So a reported format is always one that the file has. *)
Theorem C68_no_false_format : forall (c : cfg) content p max d g,
  supported c -> rust_slice content -> max < 2 ^ 64 -> lenN content <= max -> p <= max ->
  d_content d = content -> d_pos d = p -> d_max d = max ->
  fst (dev_read 36870 d) = Ok (takeN 36870 (dropN p content)) ->
  (forall x, In x [FPdf; FSqlite3; FXml] -> feat c x = true -> first_match signatures (dropN p content) (container x) ->
     Forall (fun e => match e with RShort _ => False | _ => True end) (tl (d_reads d))) ->
  fst (from_reader c d) = Done (Ok g) -> g <> PlainText -> g <> ArbitraryBinaryData ->
  fst (from_reader c (mkdev content p [] [] max)) = Done (Ok g).
Proof.
  intros c content p max d g Hc Hs Hmax Hl Hp H1 H2 H3 H4 Hx E Ht Ha.
  destruct (fault_lemma c content p max d Hc Hs Hmax Hl Hp H1 H2 H3 H4 Hx) as [H|[H|(g' & Hg & H)]].
  - congruence.
  - congruence.
  - assert (g' = g) by congruence. subst g'. exfalso. destruct Hg; congruence.
Qed.
Print Assumptions C68_no_false_format.

(** Whatever a stream does - short, interrupted and failing calls, the first one included - text is
    only reported for text. *)
Lemma table_has_no_text f : from_signature f <> Some PlainText.
Proof.
  intros H. apply from_signature_some in H. destruct H as (before & alts & after & E & _).
  assert (Hin : In (PlainText, alts) signatures) by (rewrite E; apply in_or_app; right; left; reflexivity).
  assert (K : forallb (fun e => negb (fmt_index (fst e) =? fmt_index PlainText)) signatures = true) by (vm_compute; reflexivity).
  rewrite forallb_forall in K. apply K in Hin. cbn [fst] in Hin. rewrite N.eqb_refl in Hin. discriminate Hin.
Qed.
Lemma family_text x : x <> FTxt -> ~ family x PlainText.
Proof. intros Hx [H|H]; [destruct x; try discriminate H; now apply Hx|]. destruct x; cbn in H; repeat (destruct H as [H|H]; [discriminate H|]); try contradiction. Qed.

Theorem C68_no_false_text : forall (c : cfg) d,
  supported c -> rust_slice (d_content d) -> d_max d < 2 ^ 64 -> lenN (d_content d) <= d_max d -> d_pos d <= d_max d ->
  fst (from_reader c d) = Done (Ok PlainText) ->
  feat c FTxt = true /\ clean_text (text_head (d_content d)).
Proof.
  intros c d Hc Hs Hmax Hl Hp E. set (content := d_content d) in *. set (max := d_max d) in *.
  assert (HJ0 : Jdev content max d) by (repeat split; auto).
  assert (Hg : forall d2, Jdev content max d2 -> fst (from_generic_reader c d2) = Done PlainText ->
     feat c FTxt = true /\ clean_text (text_head content)).
  { intros d2 HJ H. destruct (generic_faulty c content max d2 Hc Hmax Hs HJ) as [H'|H']; [congruence|].
    rewrite H in H'. symmetry in H'. apply (generic_result_of c content max PlainText) in H'. inversion H'. now split. }
  assert (Hgen : forall d2, Jdev content max d2 ->
     fst (match from_generic_reader c d2 with
      | (Done f, d3) => (Done (Ok f), d3)
      | (Panicked, d3) => (Panicked, d3)
      | (OutOfFuel, d3) => (OutOfFuel, d3)
      end) = Done (Ok PlainText) -> feat c FTxt = true /\ clean_text (text_head content)).
  { intros d2 HJ H. apply (Hg d2 HJ). destruct (from_generic_reader c d2) as [[f| |] d3]; cbn [fst] in *; congruence. }
  unfold from_reader in E. fold content in E.
  pose proof (dev_read_keeps content max window d HJ0) as HJ1.
  destruct (dev_read window d) as [[buf|e] d1]; [|discriminate E]. cbn [snd] in HJ1.
  destruct buf as [|b buf']; [discriminate E|]. remember (b :: buf') as buf eqn:Eb. clear Eb.
  destruct (from_signature buf) as [f|] eqn:Esig; [|now apply (Hgen d1)].
  rewrite from_fmt_reader_eq in E.
  assert (Hf : Done (Ok f) <> Done (Ok PlainText)).
  { intros [= ->]. now apply (table_has_no_text buf). }
  destruct (feature_of f) as [x|] eqn:Ef; [|cbn [fst] in E; contradiction].
  destruct (feat c x) eqn:Efx; [|cbn [fst] in E; contradiction].
  assert (HI : Idev content d1) by (destruct HJ1 as (H1 & H2 & _); split; [exact H1|now rewrite H2]).
  pose proof (proj2 (run_reader_any c content x d1 Hc Hs HI)) as Hr.
  pose proof (run_reader_keeps c (S (List.length content)) x content max d1 HJ1) as HJ2.
  unfold run_reader in Hr, HJ2.
  destruct (if buffered x then run_buf (reader_of c (S (List.length content)) x) d1
            else run_raw (reader_of c (S (List.length content)) x) d1) as [r d2]. cbn [fst snd] in *.
  destruct r as [[g|e]| |]; try discriminate E.
  - cbn [fst] in E. injection E as ->. exfalso. apply (family_text x); [|exact Hr].
    apply feature_of_some in Ef. apply Ef.
  - now apply (Hgen d2).
Qed.
Print Assumptions C68_no_false_text.

(** A Windows program; the call that fails decides what is lost, and nobody is told. *)
Definition program : bytes := bs "MZ" ++ repeat x00 58 ++ [x40; x00; x00; x00] ++ bs "PE" ++ repeat x00 40.
Definition script : bytes := bs "MZ, a text that happens to begin with the two letters of a program.".

Example C68_witness :
  rust_slice program /\
  (* no failure, or one that is never reached *)
  fst (from_reader cfg_all (mkdev program 0 [] [] (2 ^ 63 - 1))) = Done (Ok PortableExecutable) /\
  fst (from_reader cfg_all (mkdev program 0 (repeat (RShort 36870) 9 ++ [RFault 5]) (repeat true 9 ++ [false]) (2 ^ 63 - 1)))
    = Done (Ok PortableExecutable) /\
  (* a failing seek; a failing read in the middle of the header *)
  fst (from_reader cfg_all (mkdev program 0 [] [true; false] (2 ^ 63 - 1))) = Done (Ok ArbitraryBinaryData) /\
  fst (from_reader cfg_all (mkdev program 0 [RShort 36870; RShort 2; RFault 5] [] (2 ^ 63 - 1))) = Done (Ok ArbitraryBinaryData) /\
  fst (dev_read 36870 (mkdev program 0 [RShort 36870; RShort 2; RFault 5] [] (2 ^ 63 - 1))) = Ok (takeN 36870 (dropN 0 program)) /\
  (* a text that is taken for a program unless the reader fails *)
  fst (from_reader cfg_all (mkdev script 0 [] [] (2 ^ 63 - 1))) = Done (Ok MsDosExecutable) /\
  fst (from_reader cfg_all (mkdev script 0 [] [false] (2 ^ 63 - 1))) = Done (Ok PlainText).
Proof. split; [reflexivity|]. repeat (split; [vm_compute; reflexivity|]). vm_compute; reflexivity. Qed.

(** That a failure is reported as an error is false. *)
Theorem C68_failure_is_reported_refuted : exists content d,
  d_content d = content /\ d_pos d = 0 /\ d_max d = 2 ^ 63 - 1 /\ d_reads d = [] /\ d_seeks d = [false] /\
  fst (from_reader cfg_all (mkdev content 0 [] [] (2 ^ 63 - 1))) = Done (Ok PortableExecutable) /\
  fst (from_reader cfg_all d) = Done (Ok ArbitraryBinaryData).
Proof.
  exists program, (mkdev program 0 [] [false] (2 ^ 63 - 1)).
  repeat (split; [reflexivity|]). split; vm_compute; reflexivity.
Qed.
Print Assumptions C68_failure_is_reported_refuted.
