(** C58: from_reader returns on every stream that ends, even one that others change meanwhile. *)
From Coq Require Import NArith ZArith Bool String List Lia ZifyBool ZifyNat ZifyN.
From Verif Require Import Base BaseProofs Formats FormatsProofs Signatures IO Readers Lib Mem Documented Static
  ReaderStatic Spec SpecSig SpecText SpecApi LibProofs Conf AnyReader SpecAny AnyProofs AnyReturn PropertiesApi PropertiesAny.
Ltac Zify.zify_post_hook ::= idtac.
Import ListNotations.
Local Open Scope N_scope.

(** Any implementation of [Read + Seek] with a cursor of its own, no bytes behind an offset below 2^63 and
    finitely many interruptions: there is a number of loop rounds after which from_reader has returned; the
    result is the same for every larger number. *)
Theorem C58_finite_streams_return : forall S rd sk position patience size (c : cfg) (s : S),
  read_contract rd -> seek_contract sk -> own_cursor rd sk position ->
  finite_stream rd sk position patience size -> size s < 2 ^ 63 -> supported c ->
  exists r s', r <> OutOfFuel /\
    forall fuel, (N.to_nat (size s) + patience s + 1 <= fuel)%nat -> a_from_reader S rd sk fuel c s = (r, s').
Proof.
  intros S rd sk position patience size c s H1 H2 H3 H4 H5 Hc.
  set (n := (N.to_nat (size s) + patience s + 1)%nat).
  assert (Hn : fst (a_from_reader S rd sk n c s) <> OutOfFuel).
  { apply (from_reader_returns rd sk position patience size (size s) (patience s)); auto. split; [lia|lia]. }
  exists (fst (a_from_reader S rd sk n c s)), (snd (a_from_reader S rd sk n c s)). split; [exact Hn|].
  intros fuel Hf. rewrite <- surjective_pairing. now apply C53_results_are_final.
Qed.
Print Assumptions C58_finite_streams_return.
(** In builds without overflow checks (64 bits, or without the ZIP reader) it returns normally: the error of
    the first read or a format. *)
Theorem C58_finite_streams_are_detected : forall S rd sk position patience size (c : cfg) (s : S),
  read_contract rd -> seek_contract sk -> own_cursor rd sk position ->
  finite_stream rd sk position patience size -> size s < 2 ^ 63 -> supported c ->
  ovf c = false -> usize_bits c = 64 \/ feat c FZip = false ->
  exists r, (forall e, r = Err e -> fst (rd 36870 s) = Err e) /\
    forall fuel, (N.to_nat (size s) + patience s + 1 <= fuel)%nat -> fst (a_from_reader S rd sk fuel c s) = Done r.
Proof.
  intros S rd sk position patience size c s H1 H2 H3 H4 H5 Hc Ho Hb.
  destruct (C58_finite_streams_return S rd sk position patience size c s H1 H2 H3 H4 H5 Hc) as (r & s' & Hr & H).
  set (n := (N.to_nat (size s) + patience s + 1)%nat) in *. specialize (H n (le_n _)) as Hn.
  pose proof (C53_own_cursor_never_panics S rd sk position n c s H1 H2 H3 Hc Ho Hb) as Hp. rewrite Hn in Hp. cbn [fst] in Hp.
  destruct r as [r| |]; [|now contradiction Hp|now contradiction Hr]. exists r. split.
  - intros e ->. apply (C53_errors_only_from_first_read S rd sk n c s e H1 H2 Hc). now rewrite Hn.
  - intros fuel Hf. now rewrite (H fuel Hf).
Qed.
Print Assumptions C58_finite_streams_are_detected.

(** ** A file that other processes change *)
(** Before each call somebody may replace the content of the file (write, truncate, append), and each read may
    be interrupted or return fewer bytes than there are. *)
Inductive event : Set :=
| Edited (content : bytes)      (* the file now holds these bytes *)
| Short (k : N)                 (* the next read returns at most max 1 k bytes *)
| Signal.                       (* the next read is interrupted *)
Record racing : Set := mkracing { r_content : bytes; r_pos : N; r_history : list event }.
Definition cut (n : N) (r : racing) : result bytes * racing :=
  let l := takeN n (dropN (r_pos r) (r_content r)) in
  (Ok l, mkracing (r_content r) (r_pos r + lenN l) (r_history r)).
Definition r_read (n : N) (r : racing) : result bytes * racing :=
  match r_history r with
  | [] => cut n r
  | Edited l :: t => cut n (mkracing l (r_pos r) t)
  | Short k :: t => cut (N.min n (N.max 1 k)) (mkracing (r_content r) (r_pos r) t)
  | Signal :: t => (Err EInterrupted, mkracing (r_content r) (r_pos r) t)
  end.
Definition r_seek (w : whence) (r0 : racing) : result N * racing :=
  let r := match r_history r0 with Edited l :: t => mkracing l (r_pos r0) t | _ => r0 end in
  let t := seek_target (lenN (r_content r)) (r_pos r) w in
  if (t <? 0)%Z || (i64_max <? t)%Z then (Err EInvalidInput, r)
  else (Ok (Z.to_N t), mkracing (r_content r) (Z.to_N t) (r_history r)).
(** Every version of the file is at most this long. *)
Definition longest (r : racing) : N :=
  fold_right (fun e m => match e with Edited l => N.max (lenN l) m | _ => m end) (lenN (r_content r)) (r_history r).

(** Nothing else moves the position. *)
Lemma longest_content l p t : lenN l <= longest (mkracing l p t).
Proof.
  unfold longest. cbn [r_content r_history]. induction t as [|e t IH]; cbn [fold_right]; [lia|]. destruct e; lia.
Qed.
Lemma longest_edit l l' p p' t : longest (mkracing l' p' t) <= longest (mkracing l p (Edited l' :: t)).
Proof.
  unfold longest. cbn [r_content r_history fold_right]. induction t as [|e t IH]; cbn [fold_right]; [lia|]. destruct e; lia.
Qed.
Lemma cut_spec n r l r' : cut n r = (Ok l, r') ->
  lenN l <= n /\ r_pos r' = r_pos r + lenN l /\ (l = [] \/ r_pos r + lenN l <= lenN (r_content r)) /\
  r_content r' = r_content r /\ r_history r' = r_history r.
Proof.
  unfold cut. intros [= <- <-]. cbn [r_pos r_content r_history]. rewrite lenN_takeN, lenN_dropN. repeat split; try lia.
  destruct (N.le_gt_cases (lenN (r_content r)) (r_pos r)) as [H|H]; [left|right; lia].
  rewrite dropN_all by exact H. now destruct n.
Qed.
Lemma cut_ok n r : exists l r', cut n r = (Ok l, r').
Proof. unfold cut. eauto. Qed.
Lemma r_read_spec n r x r' : r_read n r = (x, r') ->
  match x with
  | Ok l => lenN l <= n /\ r_pos r' = r_pos r + lenN l /\ (l = [] \/ r_pos r + lenN l <= longest r) /\
      (List.length (r_history r') <= List.length (r_history r))%nat
  | Err e => r_pos r' = r_pos r /\ (List.length (r_history r') < List.length (r_history r))%nat
  end /\ longest r' <= longest r.
Proof.
  destruct r as [content pos h]. unfold r_read. cbn [r_history r_pos r_content]. intros E.
  assert (Hl : forall t, r_content r' = content -> r_history r' = t -> longest r' = longest (mkracing content pos t)).
  { intros t H1 H2. unfold longest. now rewrite H1, H2. }
  destruct h as [|[l|k| ] t].
  - destruct x as [x|e]; [|discriminate E]. apply cut_spec in E. cbn [r_pos r_content r_history] in E.
    destruct E as (H1 & H2 & H3 & H4 & H5). rewrite (Hl [] H4 H5), H5. cbn [List.length].
    assert (x = [] \/ pos + lenN x <= longest (mkracing content pos [])).
    { destruct H3; [now left|right]. pose proof (longest_content content pos []). lia. }
    split; [|lia]. split; [exact H1|]. split; [exact H2|]. split; [assumption|lia].
  - destruct x as [x|e]; [|discriminate E]. apply cut_spec in E. cbn [r_pos r_content r_history] in E.
    destruct E as (H1 & H2 & H3 & H4 & H5).
    assert (HL : longest r' <= longest (mkracing content pos (Edited l :: t))).
    { destruct r' as [c' p' h']. cbn [r_content r_history] in H4, H5. subst c' h'. apply longest_edit. }
    rewrite H5. cbn [List.length].
    assert (x = [] \/ pos + lenN x <= longest (mkracing content pos (Edited l :: t))).
    { destruct H3; [now left|right]. pose proof (longest_edit content l pos pos t). pose proof (longest_content l pos t). lia. }
    split; [|exact HL]. split; [exact H1|]. split; [exact H2|]. split; [assumption|lia].
  - destruct x as [x|e]; [|discriminate E]. apply cut_spec in E. cbn [r_pos r_content r_history] in E.
    destruct E as (H1 & H2 & H3 & H4 & H5). rewrite (Hl t H4 H5), H5. cbn [List.length].
    assert (x = [] \/ pos + lenN x <= longest (mkracing content pos (Short k :: t))).
    { destruct H3; [now left|right]. pose proof (longest_content content pos (Short k :: t)). lia. }
    split; [|unfold longest; cbn [r_content r_history fold_right]; lia].
    split; [lia|]. split; [exact H2|]. split; [assumption|lia].
  - injection E as <- <-. cbn [r_pos r_history List.length]. split; [split; [reflexivity|lia]|].
    unfold longest. cbn [r_content r_history fold_right]. lia.
Qed.
Lemma r_seek_spec w r x r' : r_seek w r = (x, r') ->
  (List.length (r_history r') <= List.length (r_history r))%nat /\ longest r' <= longest r /\
  match x with
  | Ok p => r_pos r' = p /\ p < 2 ^ 64 /\ (w = FromCurrent 0 -> p = r_pos r) /\ (forall n, w = FromStart n -> p = n)
  | Err _ => r_pos r' = r_pos r
  end.
Proof.
  destruct r as [content pos h]. unfold r_seek. cbn [r_history r_pos r_content].
  set (r := match h with Edited l :: t => mkracing l pos t | _ => mkracing content pos h end).
  assert (Hr : r_pos r = pos /\ (List.length (r_history r) <= List.length h)%nat /\ longest r <= longest (mkracing content pos h)).
  { subst r. destruct h as [|[l|k| ] t]; cbn [r_pos r_history List.length]; repeat split; try lia. apply longest_edit. }
  clearbody r. destruct Hr as (H1 & H2 & H3). destruct (_ || _) eqn:E; intros [= <- <-].
  - repeat split; auto.
  - cbn [r_pos r_history]. split; [exact H2|]. split; [exact H3|]. split; [reflexivity|].
    unfold i64_max in E. change (2 ^ 63)%Z with 9223372036854775808%Z in E. change (2 ^ 64) with 18446744073709551616.
    split; [lia|]. split; [intros ->; cbn [seek_target]; lia|]. intros n ->. cbn [seek_target]. lia.
Qed.
(** So it is a stream of the kind above. *)
Lemma racing_reads : read_contract r_read.
Proof. intros n s l s' E. apply r_read_spec in E. apply E. Qed.
Lemma racing_seeks : seek_contract r_seek.
Proof. intros w s p s' E. apply r_seek_spec in E. apply E. Qed.
Lemma racing_cursor : own_cursor r_read r_seek r_pos.
Proof.
  split.
  - intros n s l s' E. apply r_read_spec in E. apply E.
  - intros n s e s' E. apply r_read_spec in E. apply E.
  - intros w s p s' E. apply r_seek_spec in E. apply E.
  - intros w s e s' E. apply r_seek_spec in E. apply E.
  - intros s p s' E. apply r_seek_spec in E. destruct E as (_ & _ & _ & _ & E & _). now apply E.
Qed.
Lemma racing_finite : finite_stream r_read r_seek r_pos (fun r => List.length (r_history r)) longest.
Proof.
  split.
  - intros n s l s' E. apply r_read_spec in E. apply E.
  - intros n s [l|e] s' E; apply r_read_spec in E; (split; [|apply E]); [apply E|]. destruct E as [[_ E] _]. lia.
  - intros n s s' E. apply r_read_spec in E. apply E.
  - intros w s r s' E. apply r_seek_spec in E. split; apply E.
  - intros n s p s' E. apply r_seek_spec in E. destruct E as (_ & _ & _ & _ & _ & E). now apply E.
Qed.
(** Whatever others do to the file while it is examined, from_reader returns; in builds without overflow checks
    (64 bits, or without the ZIP reader) with a format, or with the interruption of the first read. *)
Theorem C58_racing_file : forall (c : cfg) r, longest r < 2 ^ 63 -> supported c -> ovf c = false ->
  usize_bits c = 64 \/ feat c FZip = false ->
  exists x, (forall e, x = Err e -> fst (r_read 36870 r) = Err e) /\
    forall fuel, (N.to_nat (longest r) + List.length (r_history r) + 1 <= fuel)%nat ->
    fst (a_from_reader racing r_read r_seek fuel c r) = Done x.
Proof.
  intros c r H Hc Ho Hb.
  exact (C58_finite_streams_are_detected racing r_read r_seek r_pos (fun r => List.length (r_history r)) longest c r
    racing_reads racing_seeks racing_cursor racing_finite H Hc Ho Hb).
Qed.
Print Assumptions C58_racing_file.
(** Without edits and signals this is detection from memory. *)
Example C58_witness :
  let v1 := bs "MZ" ++ repeat x00 58 ++ [x40; x00; x00; x00] in
  let r := mkracing v1 0 [Short 1000; Edited (v1 ++ bs "PE" ++ repeat x00 10); Signal; Short 1; Signal; Edited (v1 ++ bs "LE  ")] in
  longest r = 76 /\ fst (a_from_reader racing r_read r_seek 100 cfg_all r) = Done (Ok LinearExecutable) /\
  from_bytes cfg_all v1 = Done MsDosExecutable.
Proof. cbv zeta. split; [vm_compute; reflexivity|]. split; vm_compute; reflexivity. Qed.
