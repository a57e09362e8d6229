(** C38, C39: how often the reader is called and how much memory is asked for.  Specifications:
    SpecIo.v (calls), Alloc.v (the instrumented interpreter). *)
From Coq Require Import NArith ZArith Bool String List Lia ZifyBool ZifyNat ZifyN.
From Verif Require Import Base BaseProofs Formats FormatsProofs Signatures IO Find Utf8 Readers Lib Mem IOProofs
  Documented Static ReaderStatic Lawful LibProofs Ideal Spec SpecSig SpecText SpecApi SpecIo SigProofs CoreProofs Cost ReaderCost
  CallProofs Alloc AllocProofs Conf PropertiesApi2.
Local Open Scope N_scope.

(** ** C38 *)
(** When the first read shows a container whose reader is enabled: the limits of that reader, and
    those of the text reader for the case that it gives up. *)
Theorem C38_container_calls : forall (c : cfg) d x buf, supported c -> d_max d < 2 ^ 64 ->
  fst (dev_read 36870 d) = Ok buf -> first_match signatures buf (container x) -> x <> FTxt -> feat c x = true ->
  exists reads seeks, calls_made d (snd (from_reader c d)) reads seeks /\
    let '(s, f, g) := limits x (lenN (d_content d)) in
    lenN seeks <= s + 2 /\ answered reads <= g + 1048577 /\ (prompt d -> lenN reads <= f + 161).
Proof.
  intros c d x buf Hc Hm Hr Hs Hx Hf. pose proof (from_reader_spent c d Hc Hm) as H.
  unfold chosen in H. change window with 36870 in H. rewrite Hr in H. apply from_signature_some in Hs. rewrite Hs in H.
  assert (E : feature_of (container x) = Some x) by (apply feature_of_some; auto). rewrite E, Hf in H.
  unfold budget in H. destruct (limits x (lenN (d_content d))) as [[s f] g]. cbn [limits] in H.
  destruct H as (u & v & H1 & H2 & H3 & H4). exists u, v. split; [exact H1|]. split; [lia|]. split; [lia|].
  intros Hp. specialize (H4 Hp). lia.
Qed.
Print Assumptions C38_container_calls.
(** All other inputs: the first read and the text reader. *)
Theorem C38_other_calls : forall (c : cfg) d, supported c -> d_max d < 2 ^ 64 ->
  (forall x buf, fst (dev_read 36870 d) = Ok buf -> first_match signatures buf (container x) -> x <> FTxt -> feat c x = false) ->
  exists reads seeks, calls_made d (snd (from_reader c d)) reads seeks /\
    lenN seeks <= 2 /\ answered reads <= 1048577 /\ (prompt d -> lenN reads <= 161).
Proof.
  intros c d Hc Hm Hn. pose proof (from_reader_spent c d Hc Hm) as H.
  assert (E : chosen c d = None).
  { unfold chosen. change window with 36870. destruct (fst (dev_read 36870 d)) as [buf|e] eqn:Eb; [|reflexivity].
    destruct (from_signature buf) as [f|] eqn:Es; [|reflexivity].
    destruct (feature_of f) as [x|] eqn:Ef; [|reflexivity]. apply feature_of_some in Ef as [-> Hx].
    rewrite (Hn x buf); auto. now apply from_signature_some. }
  rewrite E in H. cbn [budget limits] in H.
  destruct H as (u & v & H1 & H2 & H3 & H4). exists u, v. split; [exact H1|]. split; [lia|]. split; [lia|].
  intros Hp. specialize (H4 Hp). lia.
Qed.
Print Assumptions C38_other_calls.
(** One bound for everything: linear in the length of the stream. *)
Theorem C38_calls_are_linear : forall (c : cfg) d, supported c -> d_max d < 2 ^ 64 ->
  exists reads seeks, calls_made d (snd (from_reader c d)) reads seeks /\
    lenN seeks <= lenN (d_content d) + 33798 /\
    answered reads <= 14 * lenN (d_content d) + 4363207733 /\
    (prompt d -> lenN reads <= 4 * lenN (d_content d) + 50851).
Proof.
  intros c d Hc Hm. pose proof (from_reader_spent c d Hc Hm) as H.
  destruct (chosen c d) as [x|]; [destruct x|]; cbn [budget limits] in H;
    destruct H as (u & v & H1 & H2 & H3 & H4); exists u, v; (split; [exact H1|]); (split; [lia|]); (split; [lia|]);
    intros Hp; specialize (H4 Hp); lia.
Qed.
Print Assumptions C38_calls_are_linear.
(** Without the ID3v2 reader the number of calls does not depend on the stream at all. *)
Theorem C38_calls_are_constant : forall (c : cfg) d, supported c -> d_max d < 2 ^ 64 -> feat c FId3v2 = false ->
  exists reads seeks, calls_made d (snd (from_reader c d)) reads seeks /\
    lenN seeks <= 33798 /\ answered reads <= 4363207733 /\ (prompt d -> lenN reads <= 50851).
Proof.
  intros c d Hc Hm Hid. pose proof (from_reader_spent c d Hc Hm) as H.
  assert (E : chosen c d <> Some FId3v2).
  { unfold chosen. destruct (fst (dev_read window d)) as [buf|]; [|discriminate].
    destruct (from_signature buf) as [f|]; [|discriminate]. destruct (feature_of f) as [x|]; [|discriminate].
    destruct (feat c x) eqn:Ex; [|discriminate]. intros [= ->]. congruence. }
  destruct (chosen c d) as [x|]; [destruct x|]; try congruence; cbn [budget limits] in H;
    destruct H as (u & v & H1 & H2 & H3 & H4); exists u, v; (split; [exact H1|]); (split; [lia|]); (split; [lia|]);
    intros Hp; specialize (H4 Hp); lia.
Qed.
Print Assumptions C38_calls_are_constant.

(** The statements count: a prompt reader with more scheduled answers than are used. *)
Definition counted (l : bytes) : dev := mkdev l 0 (repeat (RShort 100000) 100) (repeat true 100) (2 ^ 63 - 1).
Definition left_over (l : bytes) : N * N :=
  let d := snd (from_reader cfg_all (counted l)) in (lenN (d_reads d), lenN (d_seeks d)).
Example C38_text : left_over (bs "hello") = (96, 99).   (* 4 reads, 1 seek *)
Proof. vm_compute. reflexivity. Qed.
Example C38_zip : left_over zip_mime_huge = (88, 89).   (* 12 reads, 11 seeks, the last read fails *)
Proof. vm_compute. reflexivity. Qed.
Example C38_prompt : prompt (counted zip_mime_huge).
Proof. apply Forall_forall. intros e H. apply repeat_spec in H. subst e. vm_compute. discriminate. Qed.

(** ** C39 *)
(** The largest buffer a reader asks for. *)
Definition largest (x : feature) : N :=
  match x with
  | FAsf | FCfb | FEbml => 64
  | FExe | FMp4 => 4
  | FId3v2 => 10
  | FRm => 255
  | FZip => 4294967295
  | FPdf | FSqlite3 | FTxt | FXml => 0
  end.
Theorem C39_requests_bounded : forall (c : cfg) d, supported c -> d_max d < 2 ^ 64 ->
  from_reader_requests c d = [] \/
  exists x buf, fst (dev_read 36870 d) = Ok buf /\ first_match signatures buf (container x) /\ feat c x = true /\
    Forall (fun n => n <= largest x) (from_reader_requests c d).
Proof.
  intros c d Hc Hm. destruct (from_reader_requests_bound c d Hc Hm) as [H|(x & buf & H1 & H2 & H3 & H4 & H5 & _)]; [now left|].
  right. exists x, buf. split; [exact H1|]. apply from_signature_some in H2.
  split; [exact H2|]. split; [exact H3|]. destruct x; exact H5.
Qed.
Print Assumptions C39_requests_bounded.
(** Whatever the input, at most one buffer exceeds 65557 bytes. *)
Theorem C39_one_large_request : forall (c : cfg) d, supported c -> d_max d < 2 ^ 64 ->
  Forall (fun n => n < 2 ^ 32) (from_reader_requests c d) /\
  (List.length (filter (fun n => 65557 <? n)%N (from_reader_requests c d)) <= 1)%nat.
Proof.
  intros c d Hc Hm. destruct (from_reader_requests_bound c d Hc Hm) as [H|(x & buf & H1 & H2 & H3 & H4 & H5 & H6)].
  - rewrite H. split; [constructor|cbn; lia].
  - split; [|unfold above, lenN in H6; lia]. eapply Forall_impl; [|exact H5]. cbn beta. intros n Hn.
    assert (max_alloc x <= 4294967295) by (destruct x; cbn; lia). change (2 ^ 32) with 4294967296. lia.
Qed.
Print Assumptions C39_one_large_request.
(** Without the ZIP reader no buffer exceeds 255 bytes. *)
Theorem C39_small_without_zip : forall (c : cfg) d, supported c -> d_max d < 2 ^ 64 -> feat c FZip = false ->
  Forall (fun n => n <= 255) (from_reader_requests c d).
Proof.
  intros c d Hc Hm Hz. destruct (from_reader_requests_bound c d Hc Hm) as [H|(x & buf & H1 & H2 & H3 & H4 & H5 & H6)].
  - rewrite H. constructor.
  - eapply Forall_impl; [|exact H5]. cbn beta. intros n Hn. destruct x; cbn in *; try lia; try congruence.
Qed.
Print Assumptions C39_small_without_zip.
(** The size of the large buffer is not limited by the size of the file: a file of 106 bytes makes
    the crate ask for 4 GiB. *)
Theorem C39_proportional_refuted : exists l, lenN l = 106 /\
  In 4294967295 (from_reader_requests cfg_all (cursor l)).
Proof. exists zip_mime_huge. split; [vm_compute; reflexivity|]. vm_compute. tauto. Qed.
Print Assumptions C39_proportional_refuted.
Example C39_zip_requests : from_reader_requests cfg_all (cursor zip_mime_huge) = [106; 4; 8; 4294967295].
Proof. vm_compute. reflexivity. Qed.
Example C39_text_requests : from_reader_requests cfg_all (cursor (bs "hello")) = [].
Proof. vm_compute. reflexivity. Qed.
